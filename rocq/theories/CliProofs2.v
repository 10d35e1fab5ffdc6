(** What the decoders write: addresses, capabilities and VLAN numbers never
    contain a quote, and the TTL comes from the frame alone. *)
From Verif Require Import Base Vis Tlv Types Checks Msg Cdp Edp Fdp Ndp Lldp Protos Spec Lemmas VisProofs VisProps.

Definition high (l : list Z) : Prop := Forall (fun b => 45 <= b <= 126) l.
Lemma high_app a b : high a -> high b -> high (a ++ b).
Proof. intros. now apply Forall_app. Qed.
Lemma high_quote l : high l -> ~ In 39 l.
Proof. intros H K. unfold high in H. rewrite Forall_forall in H. apply H in K. lia. Qed.
Lemma digits_high base fuel : 0 < base <= 16 -> forall n acc, high acc -> high (digits base fuel n acc).
Proof.
  intros Hb. induction fuel as [|f IH]; intros n acc Ha; [exact Ha|].
  cbn [digits]. pose proof (Z.mod_pos_bound n base (proj1 Hb)).
  assert (high ((if n mod base <? 10 then 48 + n mod base else 87 + n mod base) :: acc)).
  { constructor; [destruct (_ <? _); lia|exact Ha]. }
  destruct (_ =? 0); [assumption|]. now apply IH.
Qed.
Lemma dec_high n : high (dec n).
Proof. apply digits_high; [lia|constructor]. Qed.
Lemma hex_high n : high (hex n).
Proof. apply digits_high; [lia|constructor]. Qed.
Lemma hex2_high n : high (hex2 n).
Proof.
  unfold hex2. pose proof (Z.mod_pos_bound (n / 16) 16 ltac:(lia)). pose proof (Z.mod_pos_bound n 16 ltac:(lia)).
  repeat constructor; destruct (_ <? _); lia.
Qed.
Ltac hi := repeat first
  [ apply high_app | apply dec_high | apply hex_high | apply hex2_high
  | match goal with |- high (match ?x with _ => _ end) => destruct x end
  | assumption | (repeat constructor; lia) ].
Lemma ntop4_high a : high (inet_ntop4 a).
Proof. unfold inet_ntop4. hi. Qed.
Lemma ntop6_go_high b l w5 last4 : forall ws i, high (ntop6_go b l w5 last4 i ws).
Proof.
  induction ws as [|w ws IH]; intros i; cbn [ntop6_go]; [constructor|].
  destruct (_ && _); [apply high_app; [hi|apply IH]|].
  apply high_app; [hi|]. destruct (_ && _); [apply ntop4_high|]. apply high_app; [hi|apply IH].
Qed.
Lemma ntop6_high a : high (inet_ntop6 a).
Proof.
  unfold inet_ntop6. destruct (best_run _ _ _) as [b l]. destruct (l <? 2);
    (apply high_app; [apply ntop6_go_high|hi]).
Qed.
Lemma mac_high a : high (mac_str a).
Proof. unfold mac_str. hi. Qed.
Lemma cap_letters_high cap ls : high ls -> forall bit, high (cap_letters cap bit ls).
Proof.
  intros H. induction H as [|c r Hc H IH]; intros bit; cbn [cap_letters]; [constructor|].
  apply high_app; [|apply IH]. destruct (has _ _); repeat constructor; lia.
Qed.
Lemma cap_high cap : high (tlv_str_cap cap).
Proof. apply cap_letters_high. vm_compute. repeat constructor; discriminate. Qed.
Lemma addr_high type buf p l v : tlv_str_addr type buf p l = DOk (Some v) -> high v.
Proof.
  unfold tlv_str_addr. intros H.
  repeat match type of H with (if ?b then _ else _) = _ => destruct b end; try discriminate;
    apply dbind_ok in H as (x & _ & H); injection H as <-; [apply ntop4_high|apply ntop6_high|apply mac_high].
Qed.

(** ** Received strings *)
Definition texty (l : list Z) : Prop := Forall (fun x => 32 <= x <= 126 \/ In x [7; 8; 9; 10; 13]) l.
Lemma high_text l : high l -> texty l.
Proof. unfold high, texty. apply Forall_impl. intros. left. lia. Qed.
Lemma rdn_bytes buf p n b : bytes buf -> rdn buf p n = DOk b -> bytes b.
Proof. intros H. unfold rdn. destruct (_ && _); [|discriminate]. intros [= <-]. unfold slice. apply bytes_firstn, bytes_skipn, H. Qed.
Lemma rdn_len buf p n b : rdn buf p n = DOk b -> zlen b = n.
Proof.
  unfold rdn. destruct (_ && _) eqn:E; [|discriminate]. intros [= <-]. unfold slice, zlen in *. rewrite firstn_length, skipn_length. lia.
Qed.
Lemma shown_text show v : (forall b, byte b -> b <> 0 -> Forall (fun x => 32 <= x <= 126 \/ In x [7; 8; 9; 10; 13]) (show b)) ->
  bytes v -> texty (flat_map show (before_nul v)).
Proof.
  intros Hs Hb. pose proof (before_nul_nonzero v) as Hn. apply before_nul_bytes in Hb. unfold texty. apply Forall_flat_map.
  apply Forall_forall. intros x Hx. apply Hs; [|congruence]. unfold bytes in Hb. rewrite Forall_forall in Hb. now apply Hb.
Qed.
Lemma copy_text buf p l v : bytes buf -> tlv_str_copy buf p l = DOk v -> texty v.
Proof.
  intros Hb H. unfold tlv_str_copy in H. apply dbind_ok in H as (b & E & H). pose proof (rdn_bytes _ _ _ _ Hb E) as Hbb.
  apply rdn_len in E.
  rewrite (strnvis_shown show_safe) in H; [|easy|apply esc1_safe|apply show_safe_len|exact Hbb|lia].
  injection H as <-. apply shown_text; [apply show_safe_ok|exact Hbb].
Qed.
Lemma value_text buf p l v : bytes buf -> tlv_value_vis buf p l = DOk v -> texty v.
Proof.
  intros Hb H. unfold tlv_value_vis in H. apply dbind_ok in H as (b & E & H). pose proof (rdn_bytes _ _ _ _ Hb E) as Hbb.
  apply rdn_len in E.
  rewrite (strnvis_shown show_strict) in H; [|easy|apply esc1_strict|apply show_strict_len|exact Hbb|lia].
  injection H as <-. apply shown_text; [|exact Hbb]. intros b' H1 H2. eapply Forall_impl; [|apply (show_strict_ok b' H1 H2)].
  cbv beta. intros. left. lia.
Qed.

(** ** Attributes *)
Definition clean (p : peers) : Prop := forall i v, nth i p None = Some v -> texty v /\ ((3 <= i)%nat -> high v).
Lemma nth_upd A (l : list A) i j x d : nth j (upd l i x) d = nth j l d \/ (i = j /\ nth j (upd l i x) d = x).
Proof.
  revert i j. induction l as [|y l IH]; intros i j; [now left|].
  destruct i, j; cbn [upd nth]; auto. destruct (IH i j) as [->|[-> H]]; auto.
Qed.
Lemma upd_clean p i v : (i < 3)%nat /\ texty v \/ high v -> clean p -> clean (upd p i (Some v)).
Proof.
  intros Hv Hc j w H. destruct (nth_upd _ p i j (Some v) None) as [K|[-> K]]; rewrite K in H.
  - now apply (Hc j).
  - injection H as <-. destruct Hv as [[Hv T]|Hv]; [split; [exact T|lia]|]. split; [now apply high_text|auto].
Qed.
Lemma PEER_STR_clean p i v : 0 <= i < 3 /\ texty v \/ high v -> clean p -> clean (PEER_STR p i v).
Proof.
  intros Hv Hc. unfold PEER_STR. destruct (pget p i); [exact Hc|]. apply upd_clean; [|exact Hc].
  destruct Hv as [[Hv T]|Hv]; [left; split; [lia|exact T]|now right].
Qed.

(** A handler keeps the TTL and adds only such values. *)
Definition keeps (s s' : dst) : Prop := (s_ttl s' = s_ttl s /\ s_proto s' = s_proto s) /\ (clean (s_peer s) -> clean (s_peer s')).
Lemma keeps_refl s : keeps s s. Proof. now split. Qed.
Lemma keeps_trans a b c : keeps a b -> keeps b c -> keeps a c.
Proof. unfold keeps. intuition congruence. Qed.
Lemma keeps_print s l : keeps s (print s l). Proof. now split. Qed.
Lemma keeps_set s p : (clean (s_peer s) -> clean p) -> keeps s (set_peer s p).
Proof. now split. Qed.
Lemma keeps_show c s l i v : 0 <= i < 3 /\ texty v \/ high v -> keeps s (show_or_store c s l i v).
Proof.
  intros H. unfold show_or_store. destruct (_ =? _); [apply keeps_print|]. apply keeps_set. now apply PEER_STR_clean.
Qed.
Lemma keeps_descr s l v : keeps s (descr_print s l v).
Proof.
  unfold descr_print. destruct (existsb _ _); [|apply keeps_print].
  enough (H : forall ts a, keeps a (fold_left (fun s t => print s (bs "  " ++ t ++ [10])) ts a)).
  { eapply keeps_trans; [apply keeps_print|]. apply H. }
  induction ts as [|t ts IH]; intros a; cbn [fold_left]; [apply keeps_refl|].
  eapply keeps_trans; [apply keeps_print|]. apply IH.
Qed.

(** Case analysis on a successful handler. *)
Ltac inv H :=
  repeat match type of H with
  | DOk _ = DOk _ => injection H as H
  | DFail = _ => discriminate H
  | DUB = _ => discriminate H
  | DAbort = _ => discriminate H
  | DLoop = _ => discriminate H
  | dbind _ _ = DOk _ =>
      let x := fresh "x" in let E := fresh "E" in apply dbind_ok in H as (x & E & H)
  | (let '(_, _) := ?x in _) = DOk _ => destruct x
  | (if ?b then _ else _) = DOk _ => let E := fresh "B" in destruct b eqn:E
  | match ?x with Some _ => _ | None => _ end = DOk _ => let E := fresh "O" in destruct x eqn:E
  end.
Ltac kp := first [ apply keeps_refl | apply keeps_print | apply keeps_descr
  | apply keeps_show; first [ left; split; [unfold PEER_HOSTNAME, PEER_PORTNAME, PEER_PORTDESCR; lia|eapply copy_text; eassumption]
                            | right; first [ apply dec_high | apply cap_high | eapply addr_high; eassumption ] ] ].

Lemma cdp_addr_keeps fuel : forall c count k s s', bytes (d_buf c) -> cdp_addr_loop fuel c count k s = DOk s' -> keeps s s'.
Proof.
  induction fuel as [|f IH]; intros c count k s s' Hb H; cbn [cdp_addr_loop] in H; [discriminate|].
  inv H; try (apply IH in H; [|assumption]); subst.
  all: match goal with
       | E : (if _ then DOk ?s else _) = DOk ?x |- _ =>
           assert (keeps s x) by (inv E; subst; kp)
       end.
  - eapply keeps_trans; eassumption.
  - assumption.
Qed.
Lemma cdp_tlv_keeps c t p l s s' : bytes (d_buf c) -> cdp_tlv_dispatch c t p l s = DOk s' -> keeps s s'.
Proof.
  unfold cdp_tlv_dispatch, cdp_system_name, cdp_port_id, cdp_system_cap, cdp_addr, cdp_descr_print,
    cdp_vtp_print, cdp_vlan, cdp_duplex_print. intros Hb H. inv H; subst; try kp.
  - apply cdp_addr_keeps in H; [|assumption]. eapply keeps_trans; [|exact H]. destruct (d_mode c =? _); kp.
Qed.
Lemma cdp_loop_keeps fuel : forall c k s n s', bytes (d_buf c) -> cdp_loop fuel c k s = DOk (n, s') -> keeps s s'.
Proof.
  induction fuel as [|f IH]; intros c k s n s' Hb H; cbn [cdp_loop] in H; [discriminate|].
  inv H; subst; [kp|]. apply IH in H; [|assumption]. apply cdp_tlv_keeps in E0; [|assumption]. eapply keeps_trans; eassumption.
Qed.
Lemma string_keeps p i l buf k p' k' : bytes buf -> 0 <= i < 3 -> DECODE_STRING p i l buf k = DOk (p', k') -> clean p -> clean p'.
Proof.
  intros Hb Hi H. unfold DECODE_STRING, tlv_value_str in H. destruct (_ <=? _); [|discriminate].
  apply dbind_ok in H as (x & E & H). injection H as <- <-. destruct (pget p i).
  - injection E as <-. auto.
  - apply dbind_ok in E as (v & V & E). injection E as <-. apply upd_clean. left. split; [lia|]. eapply value_text; eassumption.
Qed.
Lemma edp_loop_keeps fuel : forall c k s n s', bytes (d_buf c) -> edp_loop fuel c k s = DOk (n, s') -> keeps s s'.
Proof.
  induction fuel as [|f IH]; intros c k s n s' Hb H; cbn [edp_loop] in H; [discriminate|].
  inv H; subst; [kp| |eauto]. apply IH in H; [|assumption]. eapply keeps_trans; [|exact H]. apply keeps_set.
  eapply string_keeps; [eassumption| |eassumption]. unfold PEER_HOSTNAME. lia.
Qed.
Lemma cap_keeps p cap : clean p -> clean (tlv_value_cap p cap).
Proof.
  intros H. unfold tlv_value_cap. destruct (pget _ _); [exact H|]. apply upd_clean; [right; apply cap_high|exact H].
Qed.
Lemma fdp_loop_keeps fuel : forall c cap k s n s', bytes (d_buf c) -> fdp_loop fuel c cap k s = DOk (n, s') -> keeps s s'.
Proof.
  induction fuel as [|f IH]; intros c cap k s n s' Hb H; cbn [fdp_loop] in H; [discriminate|].
  inv H; subst; [kp| | | |eauto]; (apply IH in H; [|assumption]); (eapply keeps_trans; [|exact H]); apply keeps_set.
  - eapply string_keeps; [eassumption| |eassumption]. unfold PEER_HOSTNAME. lia.
  - eapply string_keeps; [eassumption| |eassumption]. unfold PEER_PORTNAME. lia.
  - apply cap_keeps.
Qed.
Lemma lldp_tlv_keeps c t p l s s' : bytes (d_buf c) -> lldp_tlv_dispatch c t p l s = DOk s' -> keeps s s'.
Proof.
  unfold lldp_tlv_dispatch, lldp_system_name, lldp_descr_print, lldp_system_cap, lldp_mgmt_addr, lldp_private,
    lldp_private_8021. intros Hb H. inv H; subst; try kp.
  - eapply keeps_trans; [|apply keeps_set; apply PEER_STR_clean; left; split; [unfold PEER_HOSTNAME; lia|eapply copy_text; eassumption]].
    destruct (d_mode c =? DECODE_PRINT); kp.
  - eapply keeps_trans; [|apply keeps_descr]. inv E; subst; [|kp].
    apply keeps_set. apply PEER_STR_clean. left. split; [unfold PEER_PORTDESCR; lia|eapply copy_text; eassumption].
  - inv E; subst; [|kp]. apply keeps_set. apply PEER_STR_clean. left. split; [unfold PEER_PORTDESCR; lia|eapply copy_text; eassumption].
  - eapply keeps_trans; [|apply keeps_show; right; apply cap_high]. destruct (d_mode c =? DECODE_PRINT); kp.
Qed.
Lemma lldp_loop_keeps fuel : forall c last k s n s', bytes (d_buf c) -> lldp_loop fuel c last k s = DOk (n, s') -> keeps s s'.
Proof.
  induction fuel as [|f IH]; intros c last k s n s' Hb H; cbn [lldp_loop] in H; [discriminate|].
  inv H; subst; try kp. apply IH in H; [|assumption]. apply lldp_tlv_keeps in E0; [|assumption]. eapply keeps_trans; eassumption.
Qed.
Lemma chassis_keeps c p l s s' : bytes (d_buf c) -> lldp_chassis_id c p l s = DOk s' -> keeps s s'.
Proof. unfold lldp_chassis_id. intros Hb H. inv H; subst; try kp. destruct x; kp. Qed.
Lemma port_keeps c p l s s' : bytes (d_buf c) -> lldp_port_id c p l s = DOk s' -> keeps s s'.
Proof. unfold lldp_port_id. intros Hb H. inv H; subst; try kp. Qed.

Lemma decode_clean p c s n s' : bytes (d_buf c) -> proto_decode p c s = DOk (n, s') -> clean (s_peer s) -> clean (s_peer s').
Proof.
  intros Hb. unfold proto_decode.
  assert (Cdp : cdp_decode c s = DOk (n, s') -> clean (s_peer s) -> clean (s_peer s')).
  { unfold cdp_decode, cdp_header_check. intros H Hc. inv H. inv E0; subst;
      (apply cdp_loop_keeps in H; [|assumption]); apply (proj2 H);
      repeat match goal with |- context [if ?b then _ else _] => destruct b end; exact Hc. }
  destruct (p =? PROTO_LLDP).
  { unfold lldp_decode. intros H Hc. inv H. apply lldp_loop_keeps in H; [|assumption]. apply (proj2 H).
    apply chassis_keeps in E1; [|assumption]. apply port_keeps in E4; [|assumption].
    assert (clean (s_peer x2)) by (apply (proj2 E4), (proj2 E1), Hc).
    destruct (d_mode c =? _); assumption. }
  destruct (p =? PROTO_CDP); [exact Cdp|].
  destruct (p =? PROTO_EDP).
  { unfold edp_decode. intros H Hc. inv H. apply edp_loop_keeps in H; [|assumption]. now apply (proj2 H). }
  destruct (p =? PROTO_FDP).
  { unfold fdp_decode. intros H Hc. inv H. apply fdp_loop_keeps in H; [|assumption]. now apply (proj2 H). }
  destruct (p =? PROTO_NDP).
  { unfold ndp_decode. intros H Hc. apply dbind_ok in H as (x & _ & H). destruct x; [|discriminate].
    destruct (_ <? _); [discriminate|]. injection H as <- <-. exact Hc. }
  destruct (p =? PROTO_CDP1); [exact Cdp|discriminate].
Qed.
