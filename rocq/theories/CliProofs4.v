(** What the client makes of the entries of the daemon's table. *)
From Verif Require Import Base Vis Tlv Types Checks Msg Protos Wire Util Child Cli Spec SpecAdv SpecRound SpecNet SpecChild SpecCli
  Lemmas WireProofs VisProofs DecProofs ChildProofs2 CliProofs2 CliProofs3.

(** ** Options *)
Lemma cli_opts_app c h a b : cli_opts c h (a ++ b) <> None -> cli_opts c h a <> None.
Proof.
  revert c h. induction a as [|x a IH]; intros c h; cbn [app cli_opts]; [easy|].
  destruct (cli_opt c h x) as [[c' h']|]; cbn [obind]; [apply IH|easy].
Qed.

(** ** The bytes of an entry *)
Lemma zlen_firstn_name name : zlen (firstn 16 (name ++ zeros 16)) = 16.
Proof. apply w_nmlen. Qed.
Lemma cstr_padded name n : ~ In 0 name -> cstr (name ++ repeat 0 (S n)) = name.
Proof.
  induction name as [|b l IH]; intros H; cbn [app cstr repeat]; [reflexivity|].
  destruct (b =? 0) eqn:E; [exfalso; apply H; left; lia|]. f_equal. apply IH. intros K. apply H. now right.
Qed.
Lemma pad_name name : cstring 16 name -> cstr (firstn 16 (name ++ zeros 16)) = name.
Proof.
  intros (_ & H0 & Hl). unfold zlen in Hl. rewrite firstn_app. rewrite firstn_all2 by lia. unfold zeros. change (Z.to_nat 16) with 16%nat.
  replace (16 - length name)%nat with (S (15 - length name)) by lia.
  replace (repeat 0 16) with (repeat 0 (S (15 - length name)) ++ repeat 0 (length name)).
  - rewrite firstn_app, repeat_length, Nat.sub_diag, firstn_O, app_nil_r, firstn_all2 by (rewrite repeat_length; lia).
    now apply cstr_padded.
  - rewrite <- repeat_app. f_equal. lia.
Qed.

Section entry.
Variables (e : entry) (f : list Z).
Hypotheses (Hb : bytes f) (Hl : 60 <= zlen f <= 1518)
  (Hm : q_msg e = f ++ repeat 0 (Z.to_nat (1518 - zlen f))) (Hq : q_len e = zlen f)
  (Hi : 0 <= q_index e < 4294967296) (Hp : 0 <= q_proto e < 6) (Hn : cstring 16 (q_name e))
  (Hr : 0 <= q_received e < 9223372036854775808).
Let d := msg_bytes (q_index e) (q_name e) (q_proto e) (q_received e) (zlen f) f.
Lemma entry_mem : entry_bytes e = msg_mem d.
Proof.
  unfold d. rewrite w_mem by lia. rewrite w_deq. unfold entry_bytes. rewrite Hm, Hq. unfold zeros. now rewrite <- !app_assoc.
Qed.
Lemma entry_len : zlen (entry_bytes e) = 1558.
Proof. rewrite entry_mem. apply zlen_msg_mem. Qed.
Lemma entry_index : pm_index (entry_bytes e) = q_index e.
Proof. rewrite entry_mem. apply w_index; lia. Qed.
Lemma entry_proto : pm_proto (entry_bytes e) = q_proto e.
Proof. rewrite entry_mem. apply w_proto; lia. Qed.
Lemma entry_received : pm_received (entry_bytes e) = q_received e.
Proof. rewrite entry_mem. apply w_received; lia. Qed.
Lemma entry_dlen : pm_len (entry_bytes e) = zlen f.
Proof. rewrite entry_mem. apply w_len; lia. Qed.
Lemma entry_msg : pm_msg (entry_bytes e) = f ++ repeat 0 (Z.to_nat (1518 - zlen f)).
Proof. rewrite entry_mem. unfold d. rewrite w_msg by lia. reflexivity. Qed.
Lemma entry_name : pm_name (entry_bytes e) = q_name e.
Proof.
  unfold pm_name, entry_bytes. rewrite (slice_mid (le 4 (q_index e)) (firstn 16 _)).
  - now apply pad_name.
  - now rewrite zlen_le.
  - apply zlen_firstn_name.
Qed.
End entry.

Lemma snap_bytes dst org pid f payload : snap_frame dst org pid f payload -> bytes f -> bytes payload.
Proof. intros Hs Hb; destruct Hs; unfold bytes in *; rewrite !Forall_app in Hb; tauto. Qed.
Lemma second_byte a t r : bytes (a :: t :: r) -> 0 <= t < 256.
Proof. intros H. inversion H as [|x l _ K]; subst. inversion K; subst. assumption. Qed.
Lemma advert_ttl p f proto ttl attrs : 0 <= p < 6 -> bytes f -> SpecChild.advert p f proto ttl attrs -> 0 <= ttl < 65536.
Proof.
  intros Hp Hb (payload & Hf & H).
  assert (Cdp : forall version, cdp_frame f payload -> cdp_packet_means payload version ttl attrs -> 0 <= ttl < 65536).
  { intros v Hc Hk. apply snap_bytes in Hc; [|exact Hb]. destruct Hk. apply second_byte in Hc. lia. }
  assert (C : p = 0 \/ p = 1 \/ p = 2 \/ p = 3 \/ p = 4 \/ p = 5) by lia.
  destruct C as [->|[->|[->|[->|[->| ->]]]]]; cbn [proto_frame] in Hf;
    try (destruct H as (v & H & _); now apply (Cdp v)).
  - destruct H as (u & [] & _). assumption.
  - destruct H as (_ & -> & _). lia.
  - destruct H as (H & _). apply snap_bytes in Hf; [|exact Hb]. destruct H. apply second_byte in Hf. lia.
  - destruct H as (_ & -> & _). lia.
Qed.

(** ** One message *)
Definition wants (c : cconf) (idx : list Z) (e : entry) : bool :=
  has (cl_proto c) (Z.shiftl 1 (q_proto e)) && ((zlen idx =? 0) || existsb (fun i => i =? q_index e) idx).
Section step.
Variables (c : cconf) (idx : list Z) (now : Z).
Hypotheses (Hmode : cl_mode c <> 1) (Hnow : 0 <= now < 9223372036854775808).
Lemma step_unwanted e p : genuine e -> wants c idx e = false -> cli_step c idx now p (entry_bytes e) = DOk (p, false, []).
Proof.
  intros (f & attrs & Hb & Hl & Hm & Hq & Hi & Hp & Hn & Hr & _) Hw. unfold cli_step.
  rewrite (entry_proto e f), (entry_dlen e f), (entry_index e f) by assumption. unfold ETHER_MAX_LEN.
  replace (6 <=? _) with false by lia. replace ((_ <? _) || _) with false by lia.
  unfold wants in Hw. apply andb_false_iff in Hw as [Hw|Hw].
  - rewrite Hw. cbn [negb]. now destruct (_ && _).
  - apply orb_false_iff in Hw as [-> ->]. reflexivity.
Qed.
(** The same for a wanted one, up to the decoder. *)
Definition outcome (e : entry) (p : peers) (r : dres (Z * dst)) : dres (peers * bool * list cout) :=
  match r with
  | DFail => DOk (peer_free p, false, [])
  | DAbort => DAbort
  | DUB => DUB
  | DLoop => DLoop
  | DOk (n, s) =>
      let text := map OText (s_out s) in
      if n =? 0 then DOk (peer_free p, false, text)
      else if s_ttl s <? now - q_received e then DOk (s_peer s, false, text)
      else DOk (peer_free (s_peer s), true,
             text ++ [OShow (mkItem (q_index e) (q_name e) (s_proto s) (s_ttl s) (s_peer s)
                              ((s_ttl s - (now - q_received e)) mod 65536))])
  end.
Definition ctx_of (e : entry) : dctx := mkCtx (q_msg e) (q_len e) 1 (q_name e) (q_received e) now.
Lemma step_wanted e p : genuine e -> wants c idx e = true ->
  cli_step c idx now p (entry_bytes e) = outcome e p (proto_decode (q_proto e) (ctx_of e) (mkDst p 0 (q_proto e) [])).
Proof.
  intros (f & attrs & Hb & Hl & Hm & Hq & Hi & Hp & Hn & Hr & _) Hw. unfold cli_step.
  rewrite (entry_proto e f), (entry_dlen e f), (entry_index e f), (entry_msg e f), (entry_received e f), (entry_name e) by assumption.
  unfold ETHER_MAX_LEN. replace (6 <=? _) with false by lia. replace ((_ <? 60) || _) with false by lia.
  unfold wants in Hw. apply andb_true_iff in Hw as [-> Hw]. cbn [negb].
  replace (negb (zlen idx =? 0) && _) with false by (destruct (zlen idx =? 0); [easy|cbn in Hw; now rewrite Hw]).
  replace (cl_mode c =? MODE_PRINT) with false by (unfold MODE_PRINT; lia). cbn [andb].
  unfold ctx_of. rewrite Hm, Hq. unfold outcome, DECODE_STR.
  destruct (proto_decode _ _ _) as [[n s]| | | |]; try reflexivity.
  destruct (n =? 0); [reflexivity|].
  replace ((_ <? -9223372036854775808) || _) with false by lia. reflexivity.
Qed.
Lemma genuine_decode e : genuine e -> exists n, 0 < n
  /\ proto_decode (q_proto e) (ctx_of e) (mkDst no_peers 0 (q_proto e) []) = DOk (n, mkDst (q_peer e) (q_ttl e) (q_proto e) []).
Proof.
  intros (f & attrs & Hb & Hl & Hm & Hq & Hi & Hp & Hn & Hr & Ha & Hpe). rewrite Hpe.
  apply (advert_decode (q_proto e) (ctx_of e) f (mkDst no_peers 0 (q_proto e) []) (q_proto e) (q_ttl e) attrs); try assumption; try reflexivity.
  exists (repeat 0 (Z.to_nat (1518 - zlen f))). unfold ctx_of. cbn [d_buf d_len]. rewrite Hm, Hq.
  split; [reflexivity|]. split; [zl; lia|]. split; [reflexivity|]. split; assumption.
Qed.
Lemma report_len attrs : length (report attrs) = 8%nat. Proof. reflexivity. Qed.
Lemma peer_free_8 p : length p = 8%nat -> peer_free p = no_peers.
Proof. intros H. unfold peer_free. do 9 (destruct p as [|? p]; try discriminate). reflexivity. Qed.
Lemma step_fresh e : genuine e -> wants c idx e = true -> fresh now e = true -> q_received e <= now ->
  cli_step c idx now no_peers (entry_bytes e) = DOk (no_peers, true, [OShow (display now e)]).
Proof.
  intros Hg Hw Hf Hr. rewrite step_wanted by assumption. destruct (genuine_decode e Hg) as (n & Hn & ->).
  cbn [outcome s_ttl s_peer s_proto s_out map app]. replace (n =? 0) with false by lia. unfold fresh in Hf.
  replace (_ <? _) with false by lia.
  destruct Hg as (f & attrs & Hb & Hl & Hm & Hq & Hi & Hp & Hn' & Hr' & Ha & Hpe).
  pose proof (advert_ttl _ _ _ _ _ Hp Hb Ha). rewrite peer_free_8 by (now rewrite Hpe).
  unfold display. now rewrite Z.mod_small by lia.
Qed.
Lemma step_stale e p : genuine e -> wants c idx e = true -> fresh now e = false -> length p = 8%nat ->
  exists p', length p' = 8%nat /\ cli_step c idx now p (entry_bytes e) = DOk (p', false, []).
Proof.
  intros Hg Hw Hf Hp. rewrite step_wanted by assumption. destruct (genuine_decode e Hg) as (n & Hn & E).
  assert (Ha : ahead [] (mkDst no_peers 0 (q_proto e) []) (mkDst p 0 (q_proto e) [])).
  { split; [reflexivity|]. split; [now split|]. cbn [s_peer]. split; [now rewrite Hp|]. intros i H. exfalso. apply H.
    unfold pget, no_peers. apply nth_repeat. }
  destruct (decode_follows [] (ctx_of e) eq_refl (q_proto e) _ _ Ha n _ E) as [->|(s2 & E2 & Ht & [_ Ho] & Hlen & _)].
  - exists (peer_free p). split; [unfold peer_free; now rewrite map_length|reflexivity].
  - rewrite E2. cbn [outcome]. replace (n =? 0) with false by lia. cbn [s_ttl] in Ht. unfold fresh in Hf.
    replace (s_ttl s2 <? _) with true by lia. exists (s_peer s2). split.
    + rewrite <- Hlen. cbn [s_peer]. destruct Hg as (f & attrs & _ & _ & _ & _ & _ & _ & _ & _ & _ & ->). reflexivity.
    + now rewrite Ho.
Qed.
End step.
