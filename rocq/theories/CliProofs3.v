(** Decoding into a structure with attributes left over: a frame that is
    accepted without them is accepted with the same TTL or refused. *)
From Verif Require Import Base Vis Tlv Types Checks Msg Cdp Edp Fdp Ndp Lldp Protos Spec Lemmas CliProofs2.

(** Nothing is printed: the output stays [o]. *)
Section Out.
Variable o : list (list Z).
Definition ahead (s1 s2 : dst) : Prop :=
  s_ttl s1 = s_ttl s2 /\ (s_out s1 = o /\ s_out s2 = o) /\ length (s_peer s1) = length (s_peer s2)
  /\ forall i, pget (s_peer s1) i <> None -> pget (s_peer s2) i <> None.
Definition follows (x y : dres dst) : Prop :=
  forall s1, x = DOk s1 -> y = DFail \/ exists s2, y = DOk s2 /\ ahead s1 s2.
Definition follows2 (x y : dres (Z * dst)) : Prop :=
  forall n s1, x = DOk (n, s1) -> y = DFail \/ exists s2, y = DOk (n, s2) /\ ahead s1 s2.

Lemma upd_len A (l : list A) i x : length (upd l i x) = length l.
Proof. revert i. induction l as [|y l IH]; intros [|i]; cbn [upd length]; auto. Qed.
Lemma nth_upd_same A (l : list A) i x d : (i < length l)%nat -> nth i (upd l i x) d = x.
Proof. revert i. induction l as [|y l IH]; intros [|i] H; cbn in *; auto; try lia. apply IH. lia. Qed.
Lemma pget_len (p : peers) i : pget p i <> None -> (Z.to_nat i < length p)%nat.
Proof. unfold pget. intros H. destruct (Nat.ltb_spec (Z.to_nat i) (length p)); [assumption|]. now rewrite nth_overflow in H. Qed.
Lemma upd_ahead (p1 p2 : peers) i v w : length p1 = length p2 ->
  (forall j, pget p1 j <> None -> pget p2 j <> None) ->
  forall j, pget (upd p1 i (Some v)) j <> None -> pget (upd p2 i (Some w)) j <> None.
Proof.
  intros Hl H j Hj. pose proof (pget_len _ _ Hj) as L. rewrite upd_len in L. unfold pget in *.
  destruct (nth_upd _ p1 i (Z.to_nat j) (Some v) None) as [K|[-> K]].
  - rewrite K in Hj. destruct (nth_upd _ p2 i (Z.to_nat j) (Some w) None) as [K'|[_ K']]; rewrite K'; [now apply H|easy].
  - rewrite nth_upd_same by lia. easy.
Qed.
Lemma upd_left (p1 p2 : peers) i v : pget p2 i <> None -> 0 <= i ->
  (forall j, pget p1 j <> None -> pget p2 j <> None) ->
  forall j, pget (upd p1 (Z.to_nat i) (Some v)) j <> None -> pget p2 j <> None.
Proof.
  intros Hi Hp H j Hj. unfold pget in *.
  destruct (nth_upd _ p1 (Z.to_nat i) (Z.to_nat j) (Some v) None) as [K|[E K]].
  - rewrite K in Hj. now apply H.
  - now rewrite <- E.
Qed.
Lemma PEER_STR_ahead p1 p2 i v : 0 <= i -> length p1 = length p2 ->
  (forall j, pget p1 j <> None -> pget p2 j <> None) ->
  length (PEER_STR p1 i v) = length (PEER_STR p2 i v)
  /\ forall j, pget (PEER_STR p1 i v) j <> None -> pget (PEER_STR p2 i v) j <> None.
Proof.
  intros Hi Hl H. unfold PEER_STR. destruct (pget p1 i) eqn:E1, (pget p2 i) eqn:E2; rewrite ?upd_len; split; auto;
    try (exfalso; apply (H i); congruence).
  - apply upd_left; [congruence|assumption|assumption].
  - now apply upd_ahead.
Qed.

Section Stale.
Context (c : dctx) (Hm : d_mode c = 1).
Lemma show_ahead s1 s2 l i v : 0 <= i -> ahead s1 s2 -> ahead (show_or_store c s1 l i v) (show_or_store c s2 l i v).
Proof.
  intros Hi (Ht & Ho & Hl & Ha). unfold show_or_store. rewrite Hm. cbn [Z.eqb DECODE_PRINT Pos.eqb].
  destruct (PEER_STR_ahead (s_peer s1) (s_peer s2) i v Hi Hl Ha). now repeat split.
Qed.
Lemma follows_show s1 s2 l i v : 0 <= i -> ahead s1 s2 ->
  follows (DOk (show_or_store c s1 l i v)) (DOk (show_or_store c s2 l i v)).
Proof. intros Hi Ha s H. injection H as <-. right. eexists. split; [reflexivity|]. now apply show_ahead. Qed.
Lemma follows_ok s1 s2 : ahead s1 s2 -> follows (DOk s1) (DOk s2).
Proof. intros Ha s H. injection H as <-. right. eexists. now split. Qed.
Lemma follows_bind A (x : dres A) f g : (forall a, x = DOk a -> follows (f a) (g a)) -> follows (dbind x f) (dbind x g).
Proof.
  intros H s K. destruct x; cbn [dbind] in *; try discriminate. now apply (H a).
Qed.
Lemma follows_bind2 x y f g : follows x y -> (forall a b, ahead a b -> follows (f a) (g b)) ->
  follows (dbind x f) (dbind y g).
Proof.
  intros H K s E. apply dbind_ok in E as (a & -> & E). destruct (H a eq_refl) as [->|(b & -> & Hb)]; [now left|].
  exact (K a b Hb s E).
Qed.
Lemma follows2_bind A (x : dres A) f g : (forall a, x = DOk a -> follows2 (f a) (g a)) -> follows2 (dbind x f) (dbind x g).
Proof. intros H n s K. destruct x; cbn [dbind] in *; try discriminate. now apply (H a). Qed.
Lemma follows2_bind2 x y f g : follows x y -> (forall a b, ahead a b -> follows2 (f a) (g b)) ->
  follows2 (dbind x f) (dbind y g).
Proof.
  intros H K n s E. apply dbind_ok in E as (a & -> & E). destruct (H a eq_refl) as [->|(b & -> & Hb)]; [now left|].
  exact (K a b Hb n s E).
Qed.
Lemma follows_fail y : follows DFail y. Proof. easy. Qed.
Ltac fo := repeat first
  [ assumption
  | apply follows_fail
  | apply follows_ok; assumption
  | apply follows_show; [unfold PEER_HOSTNAME, PEER_PORTNAME, PEER_PORTDESCR, PEER_CAP, PEER_VLAN_ID; lia|assumption]
  | apply follows_bind; intros
  | match goal with
    | |- follows (let '(_, _) := ?x in _) _ => destruct x
    | |- context [d_mode c] => rewrite Hm; cbn [Z.eqb Pos.eqb DECODE_PRINT DECODE_STR andb negb]
    | |- follows (if ?b then _ else _) (if ?b then _ else _) => destruct b
    end ].

Lemma addr_follows fuel : forall count k s1 s2, ahead s1 s2 ->
  follows (cdp_addr_loop fuel c count k s1) (cdp_addr_loop fuel c count k s2).
Proof.
  induction fuel as [|f IH]; intros count k s1 s2 Ha; cbn [cdp_addr_loop]; [easy|].
  apply follows_bind. intros [pt k1] _. apply follows_bind. intros [pl k2] _. destruct (_ <? _); [easy|].
  apply follows_bind. intros af Haf.
  assert (0 <= af).
  { clear - Haf. repeat match type of Haf with (if ?b then _ else _) = _ => destruct b end;
      try (apply dbind_ok in Haf as (b & _ & Haf)); injection Haf as <-; try destruct (beq _ _);
      unfold PEER_ADDR_INET4, PEER_ADDR_INET6; lia. }
  apply follows_bind. intros k3 _. apply follows_bind. intros [al k4] _. destruct (_ <? _); [easy|].
  apply follows_bind2.
  - destruct (af =? 0); [fo|]. apply follows_bind. intros [v|] _; [|easy]. now apply follows_show.
  - intros a b Hab. fo. now apply IH.
Qed.
Lemma cdp_tlv_follows t p l s1 s2 : ahead s1 s2 -> follows (cdp_tlv_dispatch c t p l s1) (cdp_tlv_dispatch c t p l s2).
Proof.
  intros Ha. unfold cdp_tlv_dispatch, cdp_system_name, cdp_port_id, cdp_system_cap, cdp_addr, cdp_descr_print,
    cdp_vtp_print, cdp_vlan, cdp_duplex_print.
  destruct (_ || _); [fo|]. destruct (t =? CDP_TYPE_PORT_ID); [fo|]. destruct (t =? CDP_TYPE_CAPABILITIES); [fo|].
  destruct ((t =? CDP_TYPE_ADDRESS) || (t =? CDP_TYPE_MGMT_ADDRESS)); [|fo].
  rewrite Hm. cbn [Z.eqb Pos.eqb DECODE_PRINT]. apply follows_bind. intros [n k] _. now apply addr_follows.
Qed.
Lemma cdp_loop_follows fuel : forall k s1 s2, ahead s1 s2 -> follows2 (cdp_loop fuel c k s1) (cdp_loop fuel c k s2).
Proof.
  induction fuel as [|f IH]; intros k s1 s2 Ha; cbn [cdp_loop]; [easy|].
  destruct (len k =? 0). { intros n s H. injection H as <- <-. right. eexists. now split. }
  apply follows2_bind. intros [[t l] k1] _. destruct (_ <? _); [easy|].
  apply follows2_bind2; [now apply cdp_tlv_follows|]. intros a b Hab. apply follows2_bind. intros. now apply IH.
Qed.
Lemma value_str_follows p1 p2 i l ps p1' : 0 <= i -> length p1 = length p2 ->
  (forall j, pget p1 j <> None -> pget p2 j <> None) -> tlv_value_str p1 i l (d_buf c) ps = DOk p1' ->
  exists p2', tlv_value_str p2 i l (d_buf c) ps = DOk p2' /\ length p1' = length p2'
  /\ forall j, pget p1' j <> None -> pget p2' j <> None.
Proof.
  intros Hi Hl Ha H. unfold tlv_value_str in *. destruct (pget p1 i) eqn:E1, (pget p2 i) eqn:E2.
  - injection H as <-. now exists p2.
  - exfalso. apply (Ha i); congruence.
  - apply dbind_ok in H as (v & _ & H). injection H as <-. exists p2. rewrite upd_len. repeat split; auto.
    apply upd_left; [congruence|assumption|assumption].
  - apply dbind_ok in H as (v & -> & H). injection H as <-. cbn [dbind]. eexists. split; [reflexivity|].
    rewrite !upd_len. split; [assumption|]. now apply upd_ahead.
Qed.
Lemma string_follows p1 p2 i l k p1' k' : 0 <= i -> length p1 = length p2 ->
  (forall j, pget p1 j <> None -> pget p2 j <> None) -> DECODE_STRING p1 i l (d_buf c) k = DOk (p1', k') ->
  exists p2', DECODE_STRING p2 i l (d_buf c) k = DOk (p2', k') /\ length p1' = length p2'
  /\ forall j, pget p1' j <> None -> pget p2' j <> None.
Proof.
  intros Hi Hl Ha H. unfold DECODE_STRING in *. destruct (_ <=? _); [|discriminate].
  apply dbind_ok in H as (p' & E & H). injection H as <- <-.
  destruct (value_str_follows p1 p2 i l (pos k) p' Hi Hl Ha E) as (p2' & -> & K). cbn [dbind]. eexists. split; [reflexivity|exact K].
Qed.
Lemma edp_loop_follows fuel : forall k s1 s2, ahead s1 s2 -> follows2 (edp_loop fuel c k s1) (edp_loop fuel c k s2).
Proof.
  induction fuel as [|f IH]; intros k s1 s2 Ha; cbn [edp_loop]; [easy|].
  destruct (len k =? 0). { intros n s H. injection H as <- <-. right. eexists. now split. }
  apply follows2_bind. intros [[t l] k1] _. destruct (_ =? _).
  - intros n s H. apply dbind_ok in H as ([p' k2] & E & H). destruct Ha as (Ht & Ho & Hl & Ha).
    destruct (string_follows _ (s_peer s2) PEER_HOSTNAME _ _ _ _ ltac:(unfold PEER_HOSTNAME; lia) Hl Ha E) as (p2' & -> & Hl' & Ha').
    cbn [dbind]. refine (IH k2 _ _ _ n s H). now repeat split.
  - apply follows2_bind. intros. now apply IH.
Qed.
Lemma fdp_loop_follows fuel : forall cap k s1 s2, ahead s1 s2 -> follows2 (fdp_loop fuel c cap k s1) (fdp_loop fuel c cap k s2).
Proof.
  induction fuel as [|f IH]; intros cap k s1 s2 Ha; cbn [fdp_loop]; [easy|].
  destruct (len k =? 0). { intros n s H. injection H as <- <-. right. eexists. now split. }
  apply follows2_bind. intros [[t l] k1] _. destruct (t =? FDP_TYPE_DEVICE_ID); [|destruct (t =? FDP_TYPE_PORT_ID);
    [|destruct (t =? FDP_TYPE_CAPABILITIES)]].
  1,2: intros n s H; apply dbind_ok in H as ([p' k2] & E & H); destruct Ha as (Ht & Ho & Hl & Ha);
    destruct (fun K => string_follows _ (s_peer s2) _ _ _ _ _ K Hl Ha E) as (p2' & -> & Hl' & Ha');
    [unfold PEER_HOSTNAME, PEER_PORTNAME; lia|];
    cbn [dbind]; refine (IH cap k2 _ _ _ n s H); now repeat split.
  - apply follows2_bind. intros [b k2] _. apply IH. destruct Ha as (Ht & Ho & Hl & Ha).
    destruct (PEER_STR_ahead (s_peer s1) (s_peer s2) PEER_CAP (tlv_str_cap (Z.lor cap (fdp_cap_decode (cstr b))))
      ltac:(unfold PEER_CAP; lia) Hl Ha) as [K1 K2]. now repeat split.
  - apply follows2_bind. intros. now apply IH.
Qed.
Lemma lldp_tlv_follows t p l s1 s2 : ahead s1 s2 -> follows (lldp_tlv_dispatch c t p l s1) (lldp_tlv_dispatch c t p l s2).
Proof.
  intros Ha. unfold lldp_tlv_dispatch.
  destruct (t =? LLDP_TYPE_SYSTEM_NAME).
  { unfold lldp_system_name. destruct (_ <? _); [easy|]. destruct (pget (s_peer s1) _); [easy|].
    destruct (pget (s_peer s2) _).
    - intros s _. now left.
    - rewrite Hm. cbn [Z.eqb Pos.eqb DECODE_PRINT]. apply follows_bind. intros v _.
      pose proof (follows_show s1 s2 [] PEER_HOSTNAME v ltac:(unfold PEER_HOSTNAME; lia) Ha) as K.
      unfold show_or_store in K. rewrite Hm in K. exact K. }
  destruct (t =? LLDP_TYPE_PORT_DESCR).
  { rewrite Hm. cbn [Z.eqb Pos.eqb DECODE_PRINT DECODE_STR]. apply follows_bind2.
    - apply follows_bind. intros v _.
      pose proof (follows_show s1 s2 [] PEER_PORTDESCR v ltac:(unfold PEER_PORTDESCR; lia) Ha) as K.
      unfold show_or_store in K. rewrite Hm in K. exact K.
    - intros a b. apply follows_ok. }
  destruct (t =? LLDP_TYPE_SYSTEM_DESCR). { fo. }
  destruct (t =? LLDP_TYPE_SYSTEM_CAP). { unfold lldp_system_cap. fo. }
  destruct (t =? LLDP_TYPE_MGMT_ADDR).
  { unfold lldp_mgmt_addr. apply follows_bind. intros [x k1] _. apply follows_bind. intros [y k2] _.
    set (af := if y =? LLDP_AFNUM_INET then PEER_ADDR_INET4 else _).
    assert (0 <= af) by (unfold af, PEER_ADDR_INET4, PEER_ADDR_INET6, PEER_ADDR_802; repeat destruct (_ =? _); lia).
    destruct (af =? 0); [easy|]. destruct (negb _); [easy|]. rewrite Hm. cbn [Z.eqb Pos.eqb DECODE_STR andb].
    pose proof (proj2 (proj2 (proj2 Ha)) af) as Ha2.
    destruct (pget (s_peer s1) af) eqn:E1, (pget (s_peer s2) af) eqn:E2.
    - now apply follows_ok.
    - now destruct Ha2.
    - intros s Hs. right. eexists. split; [reflexivity|].
      apply dbind_ok in Hs as (r & _ & Hs). destruct r as [v|]; [|discriminate]. injection Hs as <-.
      pose proof (show_ahead s1 s2 (bs "") af v ltac:(lia) Ha) as K. unfold show_or_store in *. rewrite Hm in *.
      cbn [Z.eqb Pos.eqb DECODE_PRINT] in *. unfold peer_str in K |- *. unfold PEER_STR in K at 2. now rewrite E2 in K.
    - apply follows_bind. intros [v|] _; [|easy]. now apply follows_show. }
  destruct (t =? LLDP_TYPE_PRIVATE). { unfold lldp_private, lldp_private_8021. fo. }
  fo.
Qed.
Lemma lldp_loop_follows fuel : forall last k s1 s2, ahead s1 s2 -> follows2 (lldp_loop fuel c last k s1) (lldp_loop fuel c last k s2).
Proof.
  induction fuel as [|f IH]; intros last k s1 s2 Ha; cbn [lldp_loop]; [easy|].
  assert (R : forall x, follows2 (DOk (x, s1)) (DOk (x, s2))).
  { intros x n s H. injection H as <- <-. right. eexists. now split. }
  destruct (len k =? 0). { destruct (last =? 0); [apply R|easy]. }
  apply follows2_bind. intros [[t l] k1] _. destruct (_ <? _); [easy|].
  destruct (_ =? _). { destruct (l =? 0); [apply R|easy]. }
  apply follows2_bind2; [now apply lldp_tlv_follows|]. intros a b Hab. apply follows2_bind. intros. now apply IH.
Qed.
Lemma port_follows p l s1 s2 : ahead s1 s2 -> follows (lldp_port_id c p l s1) (lldp_port_id c p l s2).
Proof. intros Ha. unfold lldp_port_id. fo. Qed.
Lemma chassis_follows p l s1 s2 : ahead s1 s2 -> follows (lldp_chassis_id c p l s1) (lldp_chassis_id c p l s2).
Proof. intros Ha. unfold lldp_chassis_id. fo. Qed.
Lemma ttl_ahead s1 s2 t : ahead s1 s2 -> ahead (set_ttl s1 t) (set_ttl s2 t).
Proof. intros (H1 & H2 & H3). now repeat split. Qed.
Lemma proto_ahead s1 s2 t : ahead s1 s2 -> ahead (set_proto s1 t) (set_proto s2 t).
Proof. intros (H1 & H2 & H3). now repeat split. Qed.

Lemma decode_follows p s1 s2 : ahead s1 s2 -> follows2 (proto_decode p c s1) (proto_decode p c s2).
Proof.
  intros Ha. unfold proto_decode.
  assert (Cdp : follows2 (cdp_decode c s1) (cdp_decode c s2)).
  { unfold cdp_decode. apply follows2_bind. intros [q|] _; [|easy].
    apply follows2_bind2; [|intros; now apply cdp_loop_follows].
    unfold cdp_header_check. destruct (_ <? _); [easy|]. apply follows_bind. intros h _. destruct (_ || _); [easy|].
    rewrite Hm. cbn [Z.eqb Pos.eqb DECODE_PRINT]. apply follows_ok. now apply ttl_ahead, proto_ahead. }
  destruct (p =? PROTO_LLDP).
  { unfold lldp_decode. apply follows2_bind. intros [q|] _; [|easy].
    apply follows2_bind. intros [[t l] k] _. destruct (negb _); [easy|]. destruct (_ <? _); [easy|].
    apply follows2_bind2; [now apply chassis_follows|]. intros a1 b1 H1.
    apply follows2_bind. intros k2 _. apply follows2_bind. intros [[t' l'] k'] _. destruct (negb _); [easy|].
    destruct (_ <? _); [easy|].
    apply follows2_bind2; [now apply port_follows|]. intros a2 b2 H2.
    apply follows2_bind. intros k3 _. apply follows2_bind. intros [[t'' l''] k''] _.
    destruct (negb (t'' =? _)); [easy|]. destruct (negb _); [easy|]. apply follows2_bind. intros [ttl k4] _.
    rewrite Hm. cbn [Z.eqb Pos.eqb DECODE_PRINT]. apply lldp_loop_follows. now apply ttl_ahead. }
  destruct (p =? PROTO_CDP); [exact Cdp|].
  destruct (p =? PROTO_EDP).
  { unfold edp_decode. apply follows2_bind. intros [q|] _; [|easy]. destruct (_ <? _); [easy|].
    apply follows2_bind. intros h _. destruct (negb _); [easy|]. apply edp_loop_follows. now apply ttl_ahead. }
  destruct (p =? PROTO_FDP).
  { unfold fdp_decode. apply follows2_bind. intros [q|] _; [|easy]. destruct (_ <? _); [easy|].
    apply follows2_bind. intros h _. destruct (negb _); [easy|]. apply fdp_loop_follows. now apply ttl_ahead. }
  destruct (p =? PROTO_NDP).
  { unfold ndp_decode. apply follows2_bind. intros [q|] _; [|easy]. destruct (_ <? _); [easy|].
    intros n s H. injection H as <- <-. right. eexists. split; [reflexivity|]. now apply ttl_ahead. }
  destruct (p =? PROTO_CDP1); [exact Cdp|easy].
Qed.
End Stale.

Lemma ahead_refl s : s_out s = o -> ahead s s.
Proof. now repeat split. Qed.
End Out.
(** With DECODE_STR nothing is printed. *)
Lemma decode_silent c p s n s' : d_mode c = 1 -> proto_decode p c s = DOk (n, s') -> s_out s' = s_out s.
Proof.
  intros Hm E. destruct (decode_follows (s_out s) c Hm p s s (ahead_refl _ s eq_refl) n s' E) as [K|(s2 & K & _ & [H _] & _)].
  - now rewrite E in K.
  - exact H.
Qed.
