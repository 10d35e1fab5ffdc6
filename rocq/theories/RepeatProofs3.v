(** Frames of a later run are those of the first one. *)
From Verif Require Import Base Types Tlv Msg Protos Wire Lldp Cdp Edp Fdp Ndp Util Child Netif Send SpecSend SpecFlow SpecRepeat SpecNetif.
From Verif Require Import Lemmas ChildProofs7 NetifProofs1 NetifProofs2 FlowProofs1 FlowProofs2 RepeatProofs1 RepeatProofs2.

(** ** EDP frames with different sequence numbers *)
Definition near (f g : list Z) : Prop := length f = length g /\ forall k, (k < 26 \/ 30 <= k)%nat -> nth_error f k = nth_error g k.
Lemma near_refl f : near f f. Proof. now split. Qed.
Lemma nth_skip {A} (l : list A) : forall n k, nth_error (skipn n l) k = nth_error l (n + k).
Proof. induction l as [|x l IH]; intros [|n] k; cbn; try reflexivity; [now destruct k|apply IH]. Qed.
Lemma near_mid a x y z : length a = 26%nat -> length x = 4%nat -> length y = 4%nat -> near (a ++ x ++ z) (a ++ y ++ z).
Proof.
  intros Ha Hx Hy. split; [rewrite !app_length; lia|]. intros k [K|K].
  - now rewrite !nth_error_app1 by lia.
  - rewrite !nth_error_app2 by lia. f_equal. lia.
Qed.
Lemma near_head b f g : near f g -> near (patch 0 b f) (patch 0 b g).
Proof.
  intros [L H]. change (near (b ++ skipn (length b) f) (b ++ skipn (length b) g)). split; [rewrite !app_length, !skipn_length; lia|].
  intros k K. destruct (Nat.lt_ge_cases k (length b)) as [Q|Q]; [now rewrite !nth_error_app1 by lia|].
  rewrite !nth_error_app2, !nth_skip by lia. replace (length b + (k - length b))%nat with k by lia. now apply H.
Qed.
Lemma near_firstn n : forall f g : list Z, (forall k, (k < n)%nat -> nth_error f k = nth_error g k) -> firstn n f = firstn n g.
Proof.
  induction n as [|n IH]; intros f g H; [reflexivity|]. pose proof (H 0%nat ltac:(lia)) as H0. destruct f as [|x f], g as [|y g]; try discriminate H0; [reflexivity|].
  cbn in H0. injection H0 as ->. cbn [firstn]. f_equal. apply IH. intros k K. exact (H (S k) ltac:(lia)).
Qed.
Lemma near_blank f g : near f g -> near (blank_src f) (blank_src g).
Proof.
  intros [L H]. unfold blank_src. assert (E : firstn 6 f = firstn 6 g) by (apply near_firstn; intros k K; apply H; lia). rewrite E.
  split; [rewrite !app_length, !skipn_length; lia|]. intros k K. rewrite !app_assoc. set (p := firstn 6 g ++ repeat 0 6).
  destruct (Nat.lt_ge_cases k (length p)) as [Q|Q]; [now rewrite !nth_error_app1 by lia|]. rewrite !nth_error_app2, !nth_skip by lia.
  destruct (Nat.lt_ge_cases (length g) 12) as [W|W].
  - rewrite !(proj2 (nth_error_None _ _)) by lia. reflexivity.
  - assert (LP : length p = 12%nat) by (unfold p; rewrite app_length, firstn_length, repeat_length; lia).
    replace (12 + (k - length p))%nat with k by lia. now apply H.
Qed.
Definition grows (f : enc -> option enc) : Prop := forall e e', f e = Some e' -> (length (out e) <= length (out e'))%nat.
Lemma grows_push b : grows (push b).
Proof. intros e e'. unfold push. destruct (_ <=? _); [|discriminate]. intros H. injection H as <-. cbn [out]. rewrite app_length. lia. Qed.
Lemma grows_no : grows nopush. Proof. intros e e' H. injection H as <-. lia. Qed.
Lemma grows_and f g : grows f -> grows g -> grows (f &&& g).
Proof.
  intros Hf Hg e e'. unfold andthen. destruct (f e) as [e1|] eqn:E; [|discriminate]. cbn [obind]. intros H. specialize (Hf _ _ E). specialize (Hg _ _ H). lia.
Qed.
Lemma grows_tlv t f : grows f -> grows (edp_tlv t f).
Proof.
  intros Hf e e'. unfold edp_tlv. cbv zeta. assert (K : grows (push8 153 &&& push8 t &&& push16 0 &&& f)) by (repeat apply grows_and; try apply grows_push; exact Hf).
  destruct ((push8 153 &&& push8 t &&& push16 0 &&& f) e) as [e1|] eqn:E; [|discriminate]. cbn [obind]. intros H. injection H as <-. specialize (K _ _ E).
  cbn [patch_enc out]. unfold patch. rewrite !app_length, firstn_length, skipn_length. lia.
Qed.
Lemma grows_vlans n : forall vs, grows (edp_vlans n vs).
Proof.
  induction vs as [|v vs IH]; [exact grows_no|]. change (edp_vlans n (v :: vs)) with (edp_vlan_tlv n v &&& edp_vlans n vs).
  apply grows_and; [|exact IH]. apply grows_tlv. repeat apply grows_and; apply grows_push.
Qed.
Definition onear (x y : option (list Z)) : Prop := match x, y with Some f, Some g => near f g | None, None => True | _, _ => False end.
Lemma edp_near opts c c' n par nfs si : onear (edp_packet opts c n par nfs si) (edp_packet opts c' n par nfs si).
Proof.
  unfold edp_packet. cbv zeta. set (parent := match par with Some p => p | None => n end).
  set (hw := if has opts OPT_CHASSIS_IF then nf_hwaddr n else si_hwaddr si).
  match goal with |- context [obind (?f ?x) _] => set (F := f); set (e0 := x) end.
  assert (G : grows F).
  { unfold F. repeat apply grows_and; try (apply grows_tlv; repeat apply grows_and; first [apply grows_push|apply grows_no]).
    - destruct (addr_set _); [|exact grows_no]. apply grows_tlv. repeat apply grows_and; apply grows_push.
    - apply grows_vlans. }
  destruct (F e0) as [e|] eqn:E; [|exact Logic.I]. cbn [obind onear]. apply near_head. specialize (G _ _ E).
  assert (L : (38 <= length (out e))%nat) by (change (length (out e0)) with 38%nat in G; exact G). clear - L.
  set (o := out e) in *. set (el := zlen o - 22).
  assert (P : forall k1 k2 q, length k1 = 2%nat -> length k2 = 2%nat -> patch 22 (edp_header el k2 q hw) (patch 22 (edp_header el k1 q hw) o)
    = (firstn 22 o ++ [1; 0] ++ be16 el) ++ (k2 ++ be16 q) ++ ([0; 0] ++ hw ++ skipn (32 + length hw) o)).
  { intros k1 k2 q H1 H2.
    assert (LH : forall k, length k = 2%nat -> length (edp_header el k q hw) = (10 + length hw)%nat) by (intros k K; unfold edp_header; rewrite !app_length, K; cbn; lia).
    unfold patch. change (Z.to_nat 22) with 22%nat. rewrite !LH by assumption.
    rewrite (firstn_app 22 (firstn 22 o)), firstn_firstn, firstn_length, Nat.min_l by lia. replace (22 - Nat.min 22 (length o))%nat with 0%nat by lia. cbn [firstn]. rewrite app_nil_r.
    rewrite (app_assoc (firstn 22 o) (edp_header el k1 q hw)), skipn_app.
    rewrite (skipn_all2 (firstn 22 o ++ edp_header el k1 q hw)) by (rewrite app_length, LH, firstn_length by assumption; lia).
    rewrite app_length, LH, firstn_length by assumption. replace (22 + (10 + length hw) - (Nat.min 22 (length o) + (10 + length hw)))%nat with 0%nat by lia.
    cbn [skipn app]. unfold edp_header. rewrite <- !app_assoc. reflexivity. }
  rewrite !P by reflexivity. apply near_mid; [|reflexivity|reflexivity]. rewrite app_length, firstn_length. change (length ([1; 0] ++ be16 el)) with 4%nat. lia.
Qed.
Definition like_frame (p : Z) (f g : list Z) : Prop := if p =? PROTO_EDP then near f g else f = g.
Definition like_build (p : Z) (x y : option (list Z)) : Prop := match x, y with Some f, Some g => like_frame p f g | None, None => True | _, _ => False end.
Lemma builds_near p opts c c' n par mgmt nfs si : like_build p (proto_build p opts c n par mgmt nfs si) (proto_build p opts c' n par mgmt nfs si).
Proof.
  destruct (Z.eqb_spec p PROTO_EDP) as [->|NE].
  - unfold like_build, like_frame. cbn [Z.eqb PROTO_EDP]. exact (edp_near opts c c' n par nfs si).
  - rewrite (build_seq p opts c c') by (intros K; congruence). unfold like_build, like_frame. destruct (proto_build p opts c' n par mgmt nfs si); [|exact Logic.I].
    apply Z.eqb_neq in NE. now rewrite NE.
Qed.
