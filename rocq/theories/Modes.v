(** Detailed printing is at least as strict as listing. *)
From Verif Require Import Base Vis Tlv Types Checks Msg Cdp Edp Fdp Ndp Lldp Protos Spec SpecRound Lemmas
  VisProofs EncProofs DecProofs DecCheck DecCdp DecCdp2 DecEdp DecLldp DecLldp2 DecSafe.

Section Modes.
Context (c c' : dctx) (H2 : d_mode c = 2) (H1 : d_mode c' = 1).

Definition yes {A} (x : option A) : Prop := match x with Some _ => True | None => False end.
Definition good {A} (x : dres A) : Prop := match x with DOk _ => True | _ => False end.

Lemma addr_loop_any fuel : forall count r s s', yes (p_addr_loop fuel c count r s) ->
  yes (p_addr_loop fuel c' count r s').
Proof.
  induction fuel as [|fuel IH]; intros count r s s'; [easy|]. cbn [p_addr_loop].
  destruct r as [|pt [|pl r]]; try easy. destruct (_ <? _); [easy|].
  destruct (after pl r) as [|l1 [|l2 r2]]; try easy. cbv zeta. destruct (_ <? _); [easy|].
  destruct (p_af _ _ =? 0); cbn [obind].
  - destruct (_ && _); [apply IH|easy].
  - destruct (addr_text _ _); [|easy]. cbn [obind]. destruct (_ && _); [apply IH|easy].
Qed.
Lemma cdp_tlv_any t v s s' : yes (p_cdp_tlv c t v s) -> yes (p_cdp_tlv c' t v s').
Proof.
  unfold p_cdp_tlv. rewrite H1, H2.
  destruct (_ || _); [easy|]. destruct (t =? 3); [easy|].
  destruct (t =? 4). { now destruct v as [|? [|? [|? [|? [|? ?]]]]]. }
  destruct (_ || _). { destruct v as [|? [|? [|? [|? ?]]]]; [now intros []..|]. apply addr_loop_any. }
  destruct (_ || _); [easy|]. destruct (t =? 9); [easy|]. destruct (t =? 10).
  { now destruct v as [|? [|? [|? ?]]]. }
  destruct (t =? 11); easy.
Qed.
Lemma cdp_loop_any fuel : forall r s s', yes (p_cdp_loop fuel c r s) -> yes (p_cdp_loop fuel c' r s').
Proof.
  induction fuel as [|fuel IH]; intros r s s'; [easy|]. cbn [p_cdp_loop].
  destruct r as [|? [|? [|? [|? r]]]]; try easy. cbv zeta. destruct (_ <? _); [easy|].
  match goal with |- yes (obind (p_cdp_tlv _ ?t ?v _) _) -> _ => pose proof (cdp_tlv_any t v s s') as K end.
  destruct (p_cdp_tlv c _ _ _); [|easy]. specialize (K I).
  destruct (p_cdp_tlv c' _ _ _); [|easy]. cbn [obind]. apply IH.
Qed.
Lemma cdp_any payload s s' : yes (p_cdp c payload s) -> yes (p_cdp c' payload s').
Proof.
  unfold p_cdp. destruct payload as [|? [|? [|? [|? r]]]]; try easy. destruct (_ || _); [easy|].
  apply cdp_loop_any.
Qed.

(** Both runs know the same host name. *)
Definition same_host (s s' : dst) : Prop :=
  exists h t t', s_peer s = h :: t /\ s_peer s' = h :: t'.
Lemma peer_str_host p i v h t : 0 < i -> p = h :: t -> exists t', PEER_STR p i v = h :: t'.
Proof.
  intros Hi ->. unfold PEER_STR. destruct (pget _ _); [now exists t|].
  destruct (Z.to_nat i) as [|k] eqn:E; [lia|]. cbn [upd]. eauto.
Qed.
Lemma show_host s s' l i v : same_host s s' -> 0 < i ->
  same_host (show_or_store c s l i v) (show_or_store c' s' l i v).
Proof.
  intros (h & t & t' & E & E') Hi. unfold show_or_store. rewrite H1, H2.
  change (2 =? DECODE_PRINT) with true. change (1 =? DECODE_PRINT) with false. cbv iota.
  destruct (peer_str_host (s_peer s') i v h t' Hi E') as [t2 E2].
  exists h, t, t2. now split.
Qed.
Lemma name_host s s' l v : same_host s s' -> pget (s_peer s) 0 = None ->
  same_host (peer_str (print s l) 0 v) (peer_str s' 0 v).
Proof.
  intros (h & t & t' & E & E') Hn. unfold peer_str, set_peer, PEER_STR, print. cbn [s_peer].
  rewrite E in *. rewrite E'. change (pget (h :: t) 0) with h in *. change (pget (h :: t') 0) with h.
  rewrite Hn. now exists (Some v), t, t'.
Qed.
Lemma descr_host s s' p v : same_host s s' -> same_host (descr_print s p v) s'.
Proof.
  intros (h & t & t' & E & E'). exists h, t, t'. split; [|exact E'].
  unfold descr_print. destruct (existsb _ _); [|exact E].
  generalize (strsep_nl v []). intros l. set (s0 := print s _).
  assert (E0 : s_peer s0 = h :: t) by exact E. clearbody s0. clear E. revert s0 E0.
  induction l as [|x l IH]; intros s0 E0; [exact E0|]. cbn [fold_left]. now apply IH.
Qed.

Lemma lldp_tlv_any t v s s' s1 : same_host s s' -> p_lldp_tlv c t v s = DOk s1 ->
  exists s1', p_lldp_tlv c' t v s' = DOk s1' /\ same_host s1 s1'.
Proof.
  intros Hh. assert (Hg : pget (s_peer s) 0 = pget (s_peer s') 0).
  { destruct Hh as (h & t1 & t2 & -> & ->). reflexivity. }
  unfold p_lldp_tlv, p_lldp_cap, p_mgmt, p_private. rewrite H1, H2.
  change (2 =? DECODE_PRINT) with true. change (1 =? DECODE_PRINT) with false.
  change (2 =? DECODE_STR) with false. change (1 =? DECODE_STR) with true. cbv iota.
  destruct (t =? 5).
  { destruct (255 <? zlen v); [easy|]. rewrite <- Hg. destruct (pget (s_peer s) 0) eqn:E; [easy|].
    cbv zeta. intros [= <-]. eexists. split; [reflexivity|]. now apply name_host. }
  destruct (t =? 4).
  { cbv zeta. intros [= <-]. eexists. split; [reflexivity|]. apply descr_host.
    destruct Hh as (h & t1 & t2 & E & E'). destruct (peer_str_host (s_peer s') 2 (shown show_safe v) h t2 ltac:(lia) E') as [t3 E3].
    now exists h, t1, t3. }
  destruct (t =? 6). { intros [= <-]. exists s'. split; [reflexivity|]. now apply descr_host. }
  destruct (t =? 7).
  { destruct v as [|a [|b [|d [|e [|? ?]]]]]; try easy. cbv zeta. destruct (negb _); [easy|].
    destruct (_ && _); [easy|]. intros [= <-]. eexists. split; [reflexivity|]. apply show_host; [easy|lia]. }
  destruct (t =? 8).
  { destruct v as [|a [|b v]]; try easy. cbv zeta.
    set (af := if b =? 1 then 4 else if b =? 2 then 5 else if b =? 6 then 6 else 0).
    assert (0 <= af) by (unfold af; destruct (b =? 1), (b =? 2), (b =? 6); lia).
    destruct (af =? 0) eqn:Ea; [easy|].
    destruct (negb _); [easy|]. cbn [andb].
    destruct (addr_text _ _); [|easy]. intros [= <-].
    destruct (pget (s_peer s') af).
    - exists s'. split; [reflexivity|]. unfold show_or_store. rewrite H2.
      change (2 =? DECODE_PRINT) with true. exact Hh.
    - eexists. split; [reflexivity|]. apply show_host; [easy|lia]. }
  destruct (t =? 127).
  { destruct v as [|a [|b [|d v]]]; try easy. destruct (beq _ _).
    2:{ intros [= <-]. eauto. }
    destruct v as [|e v]; [easy|]. destruct (e =? 1). 2:{ intros [= <-]. eauto. }
    destruct v as [|? [|? [|? ?]]]; try easy.
    intros [= <-]. eexists. split; [reflexivity|]. apply show_host; [easy|lia]. }
  destruct (_ && _); [easy|]. intros [= <-]. eauto.
Qed.
Lemma lldp_loop_any fuel : forall n r s s', same_host s s' -> good (p_lldp_loop fuel n c r s) ->
  good (p_lldp_loop fuel n c' r s').
Proof.
  induction fuel as [|fuel IH]; intros n r s s' Hh; [easy|]. cbn [p_lldp_loop].
  destruct r as [|? [|? r]]; [now intros []|unfold p_short; now destruct (_ <=? _)|].
  cbv zeta. destruct (_ <? _); [easy|].
  destruct (_ =? 0). { now destruct (_ =? 0). }
  match goal with |- good (dbind (p_lldp_tlv _ ?t ?v _) _) -> _ =>
    pose proof (fun s1 => lldp_tlv_any t v s s' s1 Hh) as K end.
  destruct (p_lldp_tlv c _ _ s) as [s1| | | |]; cbn [dbind]; [|now intros []..].
  destruct (K s1 eq_refl) as (s1' & -> & Hh'). cbn [dbind]. now apply IH.
Qed.
Lemma head_any A B n ty r (k : list Z -> list Z -> dres A) (k' : list Z -> list Z -> dres B) :
  (forall v r', good (k v r') -> good (k' v r')) -> good (p_head n ty r k) -> good (p_head n ty r k').
Proof.
  intros H. unfold p_head. destruct r as [|? [|? r]]; try (unfold p_short; now destruct (_ <=? _)). cbv zeta.
  destruct (negb _); [easy|]. destruct (_ <? _); [easy|]. apply H.
Qed.
Lemma lldp_any n payload s s' : same_host s s' -> good (p_lldp n c payload s) ->
  good (p_lldp n c' payload s').
Proof.
  intros Hh. unfold p_lldp. apply head_any. intros v r.
  assert (E : good (p_chassis c v s) -> p_chassis c' v s' = DOk s').
  { unfold p_chassis. rewrite H1. change (negb (1 =? DECODE_PRINT)) with true. now destruct (_ || _). }
  assert (Es : forall s1, p_chassis c v s = DOk s1 -> same_host s1 s').
  { intros s1. unfold p_chassis. destruct (_ || _); [easy|]. destruct (negb _); [now intros [= <-]|].
    destruct v as [|sub v]; [easy|].
    destruct (_ || _ || _ || _ || _); cbn [dbind]; [now intros [= <-]|].
    destruct (sub =? 4); cbn [dbind]. { intros [= <-]. now destruct (addr_text _ _). }
    destruct (sub =? 5); cbn [dbind]; [|now intros [= <-]].
    destruct v as [|af v]; [easy|]. intros [= <-]. now destruct (addr_text _ _). }
  destruct (p_chassis c v s) as [s1| | | |]; cbn [dbind]; [|now intros []..]. rewrite (E I). cbn [dbind].
  specialize (Es s1 eq_refl). clear E.
  apply head_any. intros v2 r2.
  assert (E2 : forall s2, p_port c v2 s1 = DOk s2 -> exists s2', p_port c' v2 s' = DOk s2' /\ same_host s2 s2').
  { intros s2. unfold p_port. destruct (_ || _); [easy|]. destruct v2 as [|sub v2]; [easy|].
    rewrite H1, H2. change (2 =? DECODE_PRINT) with true. change (1 =? DECODE_PRINT) with false.
    destruct (_ || _ || _ || _ || _).
    { intros [= <-]. eexists. split; [reflexivity|]. apply show_host; [easy|lia]. }
    rewrite andb_true_r, andb_false_r. destruct (sub =? 3).
    - destruct (addr_text _ _); [|easy]. intros [= <-]. now exists s'.
    - intros [= <-]. now exists s'. }
  destruct (p_port c v2 s1) as [s2| | | |]; cbn [dbind]; [|now intros []..].
  destruct (E2 s2 eq_refl) as (s2' & -> & Hh2). cbn [dbind].
  apply head_any. intros v3 r3. destruct v3 as [|x [|y [|? ?]]]; [now intros []..| |now intros []].
  cbv zeta. rewrite H1, H2. change (2 =? DECODE_PRINT) with true. change (1 =? DECODE_PRINT) with false.
  cbv iota. apply lldp_loop_any. exact Hh2.
Qed.
End Modes.

Lemma print_implies_list p c c' f payload s :
  0 <= p < 6 -> in_buffer c f -> in_buffer c' f -> proto_frame p f payload ->
  d_mode c = 2 -> d_mode c' = 1 -> s_peer s = no_peers ->
  (exists n s', proto_decode p c s = DOk (n, s')) -> exists n s', proto_decode p c' s = DOk (n, s').
Proof.
  intros Hp Hin Hin' Hf H2 H1 Hs.
  assert (Hok : forall x : dres (Z * dst), (exists n s', x = DOk (n, s')) <-> good x).
  { intros x. split; [now intros (n & s' & ->)|]. destruct x as [[n s']| | | |]; try easy. now exists n, s'. }
  rewrite !Hok. clear Hok.
  assert (HC : cdp_frame f payload -> good (cdp_decode c s) -> good (cdp_decode c' s)).
  { intros K. rewrite (cdp_decode_pure c f payload s Hin K), (cdp_decode_pure c' f payload s Hin' K).
    pose proof (cdp_any c c' H2 H1 payload s s) as Y.
    destruct (p_cdp c payload s); [|easy]. specialize (Y I). now destruct (p_cdp c' payload s). }
  assert (p = 0 \/ p = 1 \/ p = 2 \/ p = 3 \/ p = 4 \/ p = 5) as Hc by lia.
  destruct Hc as [->|[->|[->|[->|[->| ->]]]]]; cbn [proto_frame] in Hf.
  - change (proto_decode 0 ?c s) with (lldp_decode c s).
    rewrite (lldp_decode_pure c f payload s Hin Hf), (lldp_decode_pure c' f payload s Hin' Hf).
    apply (lldp_any c c' H2 H1). unfold same_host. rewrite Hs. now exists None, (repeat None 7), (repeat None 7).
  - exact (HC Hf).
  - change (proto_decode 2 ?c s) with (edp_decode c s).
    now rewrite (edp_decode_pure c f payload s Hin Hf Hs), (edp_decode_pure c' f payload s Hin' Hf Hs).
  - change (proto_decode 3 ?c s) with (fdp_decode c s).
    now rewrite (fdp_decode_pure c f payload s Hin Hf Hs), (fdp_decode_pure c' f payload s Hin' Hf Hs).
  - change (proto_decode 4 ?c s) with (ndp_decode c s).
    now rewrite (ndp_decode_pure c f payload s Hin Hf), (ndp_decode_pure c' f payload s Hin' Hf).
  - exact (HC Hf).
Qed.
