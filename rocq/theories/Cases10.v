(** Texts of frames and entries for the examples of the full output. *)
From Verif Require Import Base Tlv Types Msg Cdp Lldp Protos Util Child Cli Spec SpecAdv SpecRound SpecNet SpecChild SpecCli SpecAddr SpecPrint Lemmas.
From Verif Require Import DecProofs Cases2 Cases3 Cases4 Cases7 PrintProofs PrintProofs2.

(** The text a decoder prints, with its result. *)
Definition k_text (r : dres (Z * dst)) : option (Z * list Z) :=
  match r with DOk (n, s) => Some (n, concat (s_out s)) | _ => None end.
Lemma k_text_ok r n text : k_text r = Some (n, text) -> exists s', r = DOk (n, s') /\ concat (s_out s') = concat (s_out t_start) ++ text.
Proof. destruct r as [[m s]| | | |]; try discriminate. intros [= -> <-]. now exists s. Qed.
(** A chassis id that is no network address: subtype [sub]. *)
Lemma k_no_net sub v r : sub <> 5 -> zlen v <= 255 ->
  forall af, ~ network_chassis af (lldp_bytes (1, sub :: v) ++ r).
Proof.
  intros H5 Hl af (a & r' & H & Ha).
  apply (f_equal (fun x => DecLldp.p_head 0 1 x (fun v _ => DOk v))) in H.
  rewrite !DecLldp2.head_tlv in H by (try lia; split; cbn [fst snd]; rewrite ?zlen_cons; try lia; zlia).
  change (1 =? 1) with true in H. cbv iota in H. congruence.
Qed.
Lemma k_cdp_says name received now f payload text :
  in_buffer (mkCtx (f ++ repeat 0 (Z.to_nat (1518 - zlen f))) (zlen f) 2 name received now) f -> cdp_frame f payload ->
  k_text (cdp_decode (mkCtx (f ++ repeat 0 (Z.to_nat (1518 - zlen f))) (zlen f) 2 name received now) t_start) = Some (zlen f, text) ->
  cdp_packet_says name (now - received) payload text.
Proof. intros Hin Hf H. apply k_text_ok in H. exact (proj1 (cdp_full _ f payload t_start text Hin Hf eq_refl) H). Qed.
Lemma k_lldp_says name received now f payload n text :
  in_buffer (mkCtx (f ++ repeat 0 (Z.to_nat (1518 - zlen f))) (zlen f) 2 name received now) f -> lldp_frame f payload ->
  (forall af, In af [1; 2; 4; 5] -> ~ network_chassis af payload) ->
  k_text (lldp_decode (mkCtx (f ++ repeat 0 (Z.to_nat (1518 - zlen f))) (zlen f) 2 name received now) t_start) = Some (n, text) ->
  exists used, lldp_packet_says (now - received) payload used text.
Proof.
  intros Hin Hf Hn H. apply k_text_ok in H.
  destruct (proj1 (lldp_full _ f payload t_start n text Hin Hf eq_refl eq_refl Hn) H) as (used & _ & Hs). now exists used.
Qed.
Lemma k_in name received now f :
  forallb (fun b => (0 <=? b) && (b <? 256)) f && (60 <=? zlen f) && (zlen f <=? 1518) = true ->
  in_buffer (mkCtx (f ++ repeat 0 (Z.to_nat (1518 - zlen f))) (zlen f) 2 name received now) f.
Proof.
  intros [[H1 H2]%andb_prop H3]%andb_prop. exists (repeat 0 (Z.to_nat (1518 - zlen f))).
  cbn [d_buf d_len]. split; [easy|]. split.
  { rewrite zlen_app. unfold zlen at 2. rewrite repeat_length. lia. }
  split; [easy|]. split; [lia|]. rewrite forallb_forall in H1. apply Forall_forall.
  intros b Hb%H1. unfold byte. lia.
Qed.
Lemma k_entry_cdp now e f text :
  (q_proto e =? 1) || (q_proto e =? 5) = true -> beq (q_msg e) (f ++ repeat 0 (Z.to_nat (1518 - zlen f))) = true -> q_len e =? zlen f = true ->
  forallb (fun b => (0 <=? b) && (b <? 256)) f && (60 <=? zlen f) && (zlen f <=? 1518) = true -> cdp_frame f (skipn 22 f) ->
  k_text (cdp_decode (mkCtx (f ++ repeat 0 (Z.to_nat (1518 - zlen f))) (zlen f) 2 (q_name e) (q_received e) now) t_start) = Some (zlen f, text) ->
  entry_says now e text.
Proof.
  intros Hp Hm Hl Hb Hf H. apply (entry_says_cdp now e text f (skipn 22 f)); [cbn; lia|now apply beq_true|lia|exact Hf|].
  apply (k_cdp_says _ _ _ f); [now apply k_in|exact Hf|exact H].
Qed.
Lemma k_entry_lldp now e f sub v r text :
  q_proto e =? 0 = true -> beq (q_msg e) (f ++ repeat 0 (Z.to_nat (1518 - zlen f))) = true -> q_len e =? zlen f = true ->
  forallb (fun b => (0 <=? b) && (b <? 256)) f && (60 <=? zlen f) && (zlen f <=? 1518) = true -> lldp_frame f (skipn 14 f) ->
  skipn 14 f = lldp_bytes (1, sub :: v) ++ r -> sub <> 5 -> zlen v <= 255 ->
  option_map snd (k_text (lldp_decode (mkCtx (f ++ repeat 0 (Z.to_nat (1518 - zlen f))) (zlen f) 2 (q_name e) (q_received e) now) t_start)) = Some text ->
  entry_says now e text.
Proof.
  intros Hp Hm Hl Hb Hf E H5 Hv H. destruct (k_text _) as [[n text']|] eqn:Ht in H; [|discriminate]. injection H as ->.
  assert (Hn : forall af, In af [1; 2; 4; 5] -> ~ network_chassis af (skipn 14 f)) by (intros af _; rewrite E; now apply k_no_net).
  destruct (k_lldp_says (q_name e) (q_received e) now f (skipn 14 f) n text) as (used & Hs); [now apply k_in|exact Hf|exact Hn|exact Ht|].
  apply (entry_says_lldp now e text f (skipn 14 f) used); [lia|now apply beq_true|lia|exact Hf|exact Hn|exact Hs].
Qed.

(** An LLDP frame whose chassis is a network address of family [af]. *)
Definition k_net (af : Z) (a : list Z) : list Z :=
  [1; 128; 194; 0; 0; 14] ++ u_src 6 ++ U16 35020
  ++ flat_map lldp_bytes [(1, 5 :: af :: a); (2, 7 :: bs "5"); (3, U16 120); (5, bs "phone.example.org"); (0, [])]
  ++ repeat 0 20.
Lemma k_net_frame : lldp_frame (k_net 1 [192; 0; 2; 1]) (skipn 14 (k_net 1 [192; 0; 2; 1])).
Proof. apply t_lldp; vm_compute; reflexivity. Qed.
Lemma k_net_in mode : in_buffer (t_ctx 255 mode (k_net 1 [192; 0; 2; 1])) (k_net 1 [192; 0; 2; 1]).
Proof. apply t_in_buffer. vm_compute. reflexivity. Qed.
Definition k_net_text : list Z :=
  line (bs "Chassis id") (bs "192.0.2.1") ++ line (bs "Port id") (bs "5") ++ line (bs "Time remaining") (bs "110 seconds")
  ++ line (bs "System Name") (bs "phone.example.org").
Lemma k_net_says : lldp_packet_says 10 (skipn 14 (k_net 1 [192; 0; 2; 1])) 37 k_net_text.
Proof.
  assert (H := lldp_packet_says_intro 10 [5; 1; 192; 0; 2; 1] (7 :: bs "5") 120 [(5, bs "phone.example.org")]
    (line (bs "Chassis id") (inet_ntop4 [192; 0; 2; 1])) (line (bs "Port id") (shown show_safe (bs "5")))
    (line (bs "System Name") (shown show_safe (bs "phone.example.org")) ++ []) (repeat 0 20)).
  cbv zeta in H.
  replace (skipn 14 (k_net 1 [192; 0; 2; 1])) with (flat_map lldp_bytes ([(1, [5; 1; 192; 0; 2; 1]); (2, 7 :: bs "5"); (3, U16 120)] ++ [(5, bs "phone.example.org")] ++ [(0, [])]) ++ repeat 0 20) by (vm_compute; reflexivity).
  replace 37 with (zlen (flat_map lldp_bytes ([(1, [5; 1; 192; 0; 2; 1]); (2, 7 :: bs "5"); (3, U16 120)] ++ [(5, bs "phone.example.org")] ++ [(0, [])]))) by (vm_compute; reflexivity).
  replace k_net_text with (line (bs "Chassis id") (inet_ntop4 [192; 0; 2; 1]) ++ line (bs "Port id") (shown show_safe (bs "5")) ++
       line (bs "Time remaining") (left 120 10 ++ bs " seconds") ++
       line (bs "System Name") (shown show_safe (bs "phone.example.org")) ++ []) by (vm_compute; reflexivity).
  apply H; [vm_compute; split; discriminate|vm_compute; split; discriminate|lia| | | |].
  - repeat constructor; cbn; lia.
  - apply (chassis_says_net 1 IPv4 4 inet_ntop4); [constructor|reflexivity].
  - apply port_says_text. cbn. lia.
  - apply (lldp_lines_cons false (5, bs "phone.example.org") []); [|constructor]. apply lldp_says_name; [vm_compute; discriminate|reflexivity].
Qed.
