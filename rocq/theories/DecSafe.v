(** Safety of decoding, and its independence of the memory behind the frame. *)
From Verif Require Import Base Vis Tlv Types Checks Msg Cdp Edp Fdp Ndp Lldp Protos Spec SpecRound Lemmas
  VisProofs EncProofs DecProofs DecCheck DecCdp DecCdp2 DecEdp DecLldp DecLldp2.

(** ** LLDP *)
Lemma lldp_tlv_outcome c t v s : quiet (p_lldp_tlv c t v s).
Proof.
  unfold p_lldp_tlv, p_lldp_cap, p_mgmt, p_private.
  destruct (t =? 5). { destruct (255 <? zlen v); [easy|]. now destruct (pget _ _). }
  destruct (t =? 4); [easy|]. destruct (t =? 6); [easy|].
  destruct (t =? 7).
  { destruct v as [|a [|b [|d [|e [|? ?]]]]]; try easy. cbv zeta. destruct (negb _); [easy|].
    now destruct (_ && _). }
  destruct (t =? 8).
  { destruct v as [|a [|b v]]; try easy. cbv zeta. destruct (_ =? 0); [easy|].
    destruct (negb _); [easy|]. destruct (_ && _); [easy|]. now destruct (addr_text _ _). }
  destruct (t =? 127).
  { destruct v as [|a [|b [|d v]]]; try easy. destruct (beq _ _); [|easy].
    destruct v as [|e v]; [easy|]. destruct (e =? 1); [|easy].
    now destruct v as [|? [|? [|? ?]]]. }
  now destruct (_ && _).
Qed.

(** Result of a decoding step on a frame of [n] bytes: refused, accepted with at
    most [n] bytes used, or a stray read under condition [P]. *)
Definition tame {A} (n : Z) (P : Prop) (x : dres (Z * A)) : Prop :=
  match x with
  | DOk (m, _) => m <= n
  | DFail => True
  | DUB => P
  | _ => False
  end.
Lemma short_tame A n (P : Prop) r : (zlen r <= 1) -> n <= 1518 -> (n = 1518 \/ n = 1517 -> P) ->
  @tame A n P (p_short n r).
Proof.
  intros Hr Hn HP. unfold p_short. destruct (_ <=? _) eqn:E; [easy|]. cbn [tame]. apply HP.
  pose proof (zlen_nonneg _ r). lia.
Qed.
Lemma lldp_loop_tame fuel : forall n c r s, n <= 1518 -> bytes r -> (length r < fuel)%nat ->
  tame n (n = 1518) (p_lldp_loop fuel n c r s).
Proof.
  induction fuel as [|fuel IH]; intros n c r s Hn Hb Hf; [lia|]. cbn [p_lldp_loop].
  destruct r as [|a [|b r]]; [easy| |].
  { unfold p_short. change (zlen [a]) with 1. destruct (_ <=? _) eqn:E; [easy|]. cbn [tame]. lia. }
  cbv zeta. destruct (zlen r <? Z.land (a * 256 + b) 511) eqn:E1; [easy|].
  destruct (lldp_shape a b r Hb E1) as (_ & _ & _ & _ & Ls & La & Hbs & Hba).
  destruct (_ =? 0). { destruct (_ =? 0); [|easy]. cbn [tame]. pose proof (zlen_nonneg _ r). lia. }
  pose proof (lldp_tlv_outcome c (Z.shiftr (a * 256 + b) 9) (sized (Z.land (a * 256 + b) 511) r) s) as Hq.
  destruct (p_lldp_tlv _ _ _ _); try easy. cbn [dbind]. apply IH; try easy.
  cbn [length] in Hf. pose proof (zlen_nonneg _ (sized (Z.land (a * 256 + b) 511) r)). unfold zlen in *. lia.
Qed.
Lemma head_tame A n (P : Prop) ty r (k : list Z -> list Z -> dres (Z * A)) : bytes r -> n <= 1518 ->
  (n = 1518 \/ n = 1517 -> 2 <= zlen r) ->
  (forall v r', r = lldp_bytes (ty, v) ++ r' -> bytes v -> bytes r' -> zlen v < 512 ->
     zlen r' = zlen r - 2 - zlen v -> tame n P (k v r')) ->
  tame n P (p_head n ty r k).
Proof.
  intros Hb Hn Hr Hk. unfold p_head. destruct r as [|a [|b r]].
  - apply short_tame; [rewrite zlen_nil in *; lia|lia|]. intros H. apply Hr in H. now rewrite zlen_nil in H.
  - apply short_tame; [change (zlen [a]) with 1; lia|lia|]. intros H. apply Hr in H.
    change (zlen [a]) with 1 in H. lia.
  - destruct (negb (Z.shiftr (a * 256 + b) 9 =? ty)) eqn:Et; [easy|].
    destruct (zlen r <? Z.land (a * 256 + b) 511) eqn:E1; [easy|].
    destruct (lldp_shape a b r Hb E1) as (Er & Hfit & _ & _ & Ls & La & Hbs & Hba).
    replace (Z.shiftr (a * 256 + b) 9) with ty in * by lia.
    apply Hk; try easy; [destruct Hfit; easy|zlia].
Qed.
Lemma chassis_outcome c v s : quiet (p_chassis c v s).
Proof.
  unfold p_chassis. destruct (_ || _); [easy|]. destruct (negb _); [easy|].
  destruct v as [|sub v]; [easy|]. destruct (_ || _ || _ || _ || _); [easy|].
  destruct (sub =? 4); [easy|]. destruct (sub =? 5); [|easy]. now destruct v.
Qed.
Lemma addr_text_mac v : zlen v = 6 -> addr_text 6 v <> None.
Proof. intros H. unfold addr_text. now rewrite H. Qed.
Lemma port_outcome c v s :
  quiet (p_port c v s)
  \/ (p_port c v s = DUB /\ d_mode c = 2 /\ exists mac, v = 3 :: mac /\ zlen mac <> 6).
Proof.
  unfold p_port. destruct (_ || _); [now left|].
  destruct v as [|sub v]; [now left|]. destruct (_ || _ || _ || _ || _); [now left|].
  destruct ((sub =? 3) && _) eqn:E; [|now left].
  destruct (addr_text 6 v) eqn:Ea; [now left|]. right. split; [easy|].
  change DECODE_PRINT with 2 in E. split; [lia|].
  exists v. split; [f_equal; lia|]. intros H. now apply addr_text_mac in H.
Qed.

Lemma lldp_safe c f payload s :
  in_buffer c f -> lldp_frame f payload ->
  tame (zlen f) (zlen f = 1518 \/ (d_mode c = 2 /\ odd_port_mac payload)) (lldp_decode c s).
Proof.
  intros Hin Hf. rewrite (lldp_decode_pure c f payload s Hin Hf).
  destruct (lldp_frame_payload _ _ _ Hin Hf) as [Hb Hl].
  destruct Hin as (tail & _ & _ & _ & Hle & _). clear Hf tail. unfold p_lldp.
  apply head_tame; [easy|lia|lia|]. intros ch r1 -> B1 Hb1 Lc L1.
  pose proof (chassis_outcome c ch s) as Hq. destruct (p_chassis c ch s) as [s1| | | |]; try easy.
  cbn [dbind]. clear Hq. rewrite zlen_app in *.
  apply head_tame; [easy|lia|lia|]. intros po r2 -> B2 Hb2 Lp L2.
  destruct (port_outcome c po s1) as [Hq | (-> & Hm & mac & -> & Hmac)].
  2:{ cbn [dbind tame]. right. split; [easy|]. exists ch, mac, r2. now split. }
  destruct (p_port c po s1) as [s2| | | |]; try easy. cbn [dbind]. rewrite zlen_app in *.
  apply head_tame; [easy|lia| |].
  { unfold lldp_bytes in *. rewrite ?zlen_app in *. cbn [fst snd] in *. lia. }
  intros tv r3 -> B3 Hb3 Lt L3. destruct tv as [|x [|y [|? ?]]]; try easy. cbv zeta.
  set (s3 := if d_mode c =? _ then _ else _). clearbody s3. rewrite zlen_app in *.
  assert (tame (zlen f) (zlen f = 1518) (p_lldp_loop (S (Z.to_nat (zlen f))) (zlen f) c r3 s3)) as H.
  { apply lldp_loop_tame; [lia|easy|].
    pose proof (zlen_nonneg _ (lldp_bytes (1, ch))). pose proof (zlen_nonneg _ (lldp_bytes (2, po))).
    pose proof (zlen_nonneg _ (lldp_bytes (3, [x; y]))). unfold zlen in *. lia. }
  destruct (p_lldp_loop _ _ _ _ _) as [[m ?]| | | |]; try easy. cbn [tame] in *. now left.
Qed.

(** ** The other protocols *)
Lemma lift_tame A n (x : option A) : tame n False (lift (let? a := x in Some (n, a))).
Proof. destruct x; cbn; [lia|easy]. Qed.
Lemma snap_payload_le dst org pid f payload : snap_frame dst org pid f payload ->
  zlen dst = 6 -> zlen org = 3 -> 22 <= zlen f - zlen payload.
Proof. intros [] ? ?; zlia. Qed.
Lemma other_safe p c f payload s :
  In p [1; 2; 3; 4; 5] -> in_buffer c f -> proto_frame p f payload -> s_peer s = no_peers ->
  proto_decode p c s = DFail \/ exists n s', proto_decode p c s = DOk (n, s') /\ n <= zlen f.
Proof.
  intros Hp Hin Hf Hs.
  assert (H : tame (zlen f) False (proto_decode p c s)).
  { cbn in Hp. destruct Hp as [<-|[<-|[<-|[<-|[<-|[]]]]]];
      cbn [proto_frame] in Hf; unfold proto_decode; cbn [Z.eqb Pos.eqb PROTO_LLDP PROTO_CDP PROTO_EDP
        PROTO_FDP PROTO_NDP PROTO_CDP1].
    - rewrite (cdp_decode_pure c f payload s Hin Hf). apply lift_tame.
    - rewrite (edp_decode_pure c f payload s Hin Hf Hs).
      destruct (p_edp payload); cbn; [lia|easy].
    - rewrite (fdp_decode_pure c f payload s Hin Hf Hs).
      destruct (p_fdp payload) as [[t a]|]; cbn; [lia|easy].
    - rewrite (ndp_decode_pure c f payload s Hin Hf). destruct (_ <? 11) eqn:E; [easy|].
      cbn [tame]. lia.
    - rewrite (cdp_decode_pure c f payload s Hin Hf). apply lift_tame. }
  destruct (proto_decode p c s) as [[m s']| | | |]; try easy; [right|now left].
  now exists m, s'.
Qed.

(** ** Independence of the memory behind the frame *)
Lemma llc_check_same dst org pid c c' f : zlen dst = 6 -> zlen org = 3 ->
  in_buffer c f -> in_buffer c' f ->
  llc_check dst org pid (d_buf c) (d_len c) = llc_check dst org pid (d_buf c') (d_len c')
  /\ (llc_check dst org pid (d_buf c) (d_len c) = DOk None
      \/ exists payload, snap_frame dst org pid f payload).
Proof.
  intros Ld Lo H H'.
  assert (K : forall payload, snap_frame dst org pid f payload ->
    llc_check dst org pid (d_buf c) (d_len c) = llc_check dst org pid (d_buf c') (d_len c')).
  { intros payload Hf. destruct (llc_check_some dst org pid c f payload H Ld Lo Hf) as (p & -> & _ & _ & Hl).
    destruct (llc_check_some dst org pid c' f payload H' Ld Lo Hf) as (p' & -> & _ & _ & Hl').
    do 2 f_equal. lia. }
  split; [|now apply llc_check_cases].
  destruct (llc_check_cases dst org pid c f H Ld Lo) as [E|[pl E]]; [|now apply (K pl)].
  destruct (llc_check_cases dst org pid c' f H' Ld Lo) as [E'|[pl E']]; [|now apply (K pl)].
  congruence.
Qed.
Lemma lldp_check_same c c' f :
  in_buffer c f -> in_buffer c' f ->
  lldp_check (d_buf c) (d_len c) = lldp_check (d_buf c') (d_len c')
  /\ (lldp_check (d_buf c) (d_len c) = DOk None \/ exists payload, lldp_frame f payload).
Proof.
  intros H H'.
  assert (K : forall payload, lldp_frame f payload ->
    lldp_check (d_buf c) (d_len c) = lldp_check (d_buf c') (d_len c')).
  { intros payload Hf. destruct (lldp_check_some c f payload H Hf) as (p & -> & _ & _ & Hl).
    destruct (lldp_check_some c' f payload H' Hf) as (p' & -> & _ & _ & Hl').
    do 2 f_equal. lia. }
  split; [|now apply lldp_check_cases].
  destruct (lldp_check_cases c f H) as [E|[pl E]]; [|now apply (K pl)].
  destruct (lldp_check_cases c' f H') as [E'|[pl E']]; [|now apply (K pl)].
  congruence.
Qed.

Section Alike.
Context (c c' : dctx) (Hc : alike c c').

Lemma show_alike s l i v : show_or_store c s l i v = show_or_store c' s l i v.
Proof. unfold show_or_store. now destruct Hc as (-> & _). Qed.
Lemma holdtime_alike s : holdtime c s = holdtime c' s.
Proof. unfold holdtime. now destruct Hc as (_ & _ & -> & ->). Qed.

Lemma addr_loop_alike fuel : forall count r s,
  p_addr_loop fuel c count r s = p_addr_loop fuel c' count r s.
Proof.
  induction fuel as [|fuel IH]; intros count r s; [easy|]. cbn [p_addr_loop].
  destruct r as [|pt [|pl r]]; try easy. destruct (_ <? _); [easy|].
  destruct (after pl r) as [|l1 [|l2 r2]]; try easy. cbv zeta. destruct (_ <? _); [easy|].
  destruct (p_af _ _ =? 0).
  - destruct (_ && _); [apply IH|easy].
  - destruct (addr_text _ _); [|easy]. cbn [obind]. rewrite show_alike. destruct (_ && _); [apply IH|easy].
Qed.
Lemma cdp_tlv_alike t v s : p_cdp_tlv c t v s = p_cdp_tlv c' t v s.
Proof.
  destruct Hc as (Hm & Hn & _). unfold p_cdp_tlv. rewrite Hm, Hn.
  destruct (_ || _); [now rewrite show_alike|]. destruct (t =? 3); [now rewrite show_alike|].
  destruct (t =? 4).
  { destruct v as [|? [|? [|? [|? [|? ?]]]]]; try easy. cbv zeta. now rewrite show_alike. }
  destruct (_ || _).
  { destruct v as [|? [|? [|? [|? ?]]]]; [reflexivity..|]. apply addr_loop_alike. }
  destruct (_ || _); [easy|]. destruct (t =? 9); [easy|]. destruct (t =? 10); [|easy].
  destruct v as [|? [|? [|? ?]]]; try easy. now rewrite show_alike.
Qed.
Lemma cdp_loop_alike fuel : forall r s, p_cdp_loop fuel c r s = p_cdp_loop fuel c' r s.
Proof.
  induction fuel as [|fuel IH]; intros r s; [easy|]. cbn [p_cdp_loop].
  destruct r as [|? [|? [|? [|? r]]]]; try easy. cbv zeta. destruct (_ <? _); [easy|].
  rewrite cdp_tlv_alike. destruct (p_cdp_tlv _ _ _ _); [apply IH|easy].
Qed.
Lemma cdp_alike payload s : p_cdp c payload s = p_cdp c' payload s.
Proof.
  unfold p_cdp. destruct payload as [|? [|? [|? [|? r]]]]; try easy. destruct (_ || _); [easy|].
  rewrite cdp_loop_alike. unfold p_cdp_header. rewrite holdtime_alike.
  now destruct Hc as (-> & _).
Qed.

Lemma lldp_tlv_alike t v s : p_lldp_tlv c t v s = p_lldp_tlv c' t v s.
Proof.
  destruct Hc as (Hm & Hn & _). unfold p_lldp_tlv, p_lldp_cap, p_mgmt, p_private. rewrite Hm.
  destruct (t =? 5); [easy|]. destruct (t =? 4); [easy|]. destruct (t =? 6); [easy|].
  destruct (t =? 7).
  { destruct v as [|a [|b [|d [|e [|? ?]]]]]; try easy. cbv zeta. now rewrite show_alike. }
  destruct (t =? 8).
  { destruct v as [|a [|b v]]; try easy. cbv zeta. destruct (_ =? 0); [easy|].
    destruct (negb _); [easy|]. destruct (_ && _); [easy|]. destruct (addr_text _ _); [|easy].
    now rewrite show_alike. }
  destruct (t =? 127); [|easy].
  destruct v as [|a [|b [|d v]]]; try easy. destruct (beq _ _); [|easy].
  destruct v as [|e v]; [easy|]. destruct (e =? 1); [|easy].
  destruct v as [|? [|? [|? ?]]]; try easy. now rewrite show_alike.
Qed.
Lemma lldp_loop_alike fuel : forall n r s, p_lldp_loop fuel n c r s = p_lldp_loop fuel n c' r s.
Proof.
  induction fuel as [|fuel IH]; intros n r s; [easy|]. cbn [p_lldp_loop].
  destruct r as [|? [|? r]]; try easy. cbv zeta. destruct (_ <? _); [easy|].
  destruct (_ =? 0); [easy|].
  rewrite lldp_tlv_alike. destruct (p_lldp_tlv _ _ _ _); cbn [dbind]; [apply IH|reflexivity..].
Qed.
Lemma head_ext A n ty r (k k' : list Z -> list Z -> dres A) :
  (forall v r', k v r' = k' v r') -> p_head n ty r k = p_head n ty r k'.
Proof.
  intros H. unfold p_head. destruct r as [|? [|? r]]; try easy. cbv zeta.
  destruct (negb _); [easy|]. destruct (_ <? _); [easy|]. apply H.
Qed.
Lemma lldp_alike n payload s : p_lldp n c payload s = p_lldp n c' payload s.
Proof.
  unfold p_lldp. apply head_ext. intros v r.
  assert (E : p_chassis c v s = p_chassis c' v s).
  { unfold p_chassis. now destruct Hc as (-> & _). }
  rewrite E. destruct (p_chassis c' v s) as [s1| | | |]; cbn [dbind]; [|reflexivity..].
  apply head_ext. intros v2 r2.
  assert (E2 : p_port c v2 s1 = p_port c' v2 s1).
  { unfold p_port. destruct (_ || _); [easy|]. destruct v2 as [|sub v2]; [easy|].
    rewrite show_alike. now destruct Hc as (-> & _). }
  rewrite E2. destruct (p_port c' v2 s1) as [s2| | | |]; cbn [dbind]; [|reflexivity..].
  apply head_ext. intros v3 r3. destruct v3 as [|x [|y [|? ?]]]; [reflexivity| |  |reflexivity]; [reflexivity|].
  cbv zeta. rewrite holdtime_alike, lldp_loop_alike. destruct Hc as (-> & _). reflexivity.
Qed.
End Alike.

Lemma decode_alike p c c' f s :
  0 <= p < 6 -> in_buffer c f -> in_buffer c' f -> alike c c' -> s_peer s = no_peers ->
  proto_decode p c s = proto_decode p c' s.
Proof.
  intros Hp H H' Ha Hs.
  assert (HC : cdp_decode c s = cdp_decode c' s).
  { destruct (llc_check_same [1; 0; 12; 204; 204; 204] [0; 0; 12] 8192 c c' f eq_refl eq_refl H H')
      as [E [N | [pl Hf]]].
    - unfold cdp_decode, cdp_check, CDP_MULTICAST_ADDR, LLC_ORG_CISCO, LLC_PID_CDP. rewrite <- E, N. cbn [dbind]. reflexivity.
    - rewrite (cdp_decode_pure c f pl s H Hf), (cdp_decode_pure c' f pl s H' Hf).
      now rewrite (cdp_alike c c' Ha). }
  unfold proto_decode, PROTO_LLDP, PROTO_CDP, PROTO_EDP, PROTO_FDP, PROTO_NDP, PROTO_CDP1.
  destruct (p =? 0).
  { destruct (lldp_check_same c c' f H H') as [E [N | [pl Hf]]].
    - unfold lldp_decode. rewrite <- E, N. cbn [dbind]. reflexivity.
    - rewrite (lldp_decode_pure c f pl s H Hf), (lldp_decode_pure c' f pl s H' Hf).
      apply (lldp_alike c c' Ha). }
  destruct (p =? 1); [easy|]. destruct (p =? 2).
  { destruct (llc_check_same [0; 224; 43; 0; 0; 0] [0; 224; 43] 187 c c' f eq_refl eq_refl H H')
      as [E [N | [pl Hf]]].
    - unfold edp_decode, edp_check, EDP_MULTICAST_ADDR, LLC_ORG_EXTREME, LLC_PID_EDP. rewrite <- E, N. cbn [dbind]. reflexivity.
    - now rewrite (edp_decode_pure c f pl s H Hf Hs), (edp_decode_pure c' f pl s H' Hf Hs). }
  destruct (p =? 3).
  { destruct (llc_check_same [1; 224; 82; 204; 204; 204] [0; 224; 82] 8192 c c' f eq_refl eq_refl H H')
      as [E [N | [pl Hf]]].
    - unfold fdp_decode, fdp_check, FDP_MULTICAST_ADDR, LLC_ORG_FOUNDRY, LLC_PID_FDP. rewrite <- E, N. cbn [dbind]. reflexivity.
    - now rewrite (fdp_decode_pure c f pl s H Hf Hs), (fdp_decode_pure c' f pl s H' Hf Hs). }
  destruct (p =? 4).
  { destruct (llc_check_same [1; 0; 129; 0; 1; 0] [0; 0; 129] 418 c c' f eq_refl eq_refl H H')
      as [E [N | [pl Hf]]].
    - unfold ndp_decode, ndp_check, NDP_MULTICAST_ADDR, LLC_ORG_NORTEL, LLC_PID_NDP_HELLO. rewrite <- E, N. cbn [dbind]. reflexivity.
    - now rewrite (ndp_decode_pure c f pl s H Hf), (ndp_decode_pure c' f pl s H' Hf). }
  now destruct (p =? 5).
Qed.
