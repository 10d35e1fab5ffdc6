(** Proofs for C128. *)
From Verif Require Import Base Types Tlv Util Child Netif Imsg Send Bsd Link LinkFd Lemmas LinkProofs.

Lemma nonblock_bit f : has (Z.lor f O_NONBLOCK) O_NONBLOCK = true.
Proof.
  unfold has. rewrite Z.land_comm. change O_NONBLOCK with (2 ^ 11). apply negb_true_iff, Z.eqb_neq. intros H.
  apply (f_equal (fun z => Z.testbit z 11)) in H. rewrite Z.land_spec, Z.lor_spec, Z.bits_0, Z.pow2_bits_true, orb_true_r in H by lia. discriminate H.
Qed.
Lemma nonblock_keeps f n : 0 <= n -> n <> 11 -> Z.testbit (Z.lor f O_NONBLOCK) n = Z.testbit f n.
Proof. intros H K. rewrite Z.lor_spec. change O_NONBLOCK with (2 ^ 11). rewrite Z.pow2_bits_false by lia. apply orb_false_r. Qed.
Theorem link_socket os : (forall f, lk_open os = Some f -> 0 <= f) ->
  let r := child_link_fd os in
  (link_watched r = None -> snd r = None)
  /\ (forall fd, link_watched r = Some fd -> exists k, snd r = Some k /\ ks_fd k = fd /\ ks_links k = true)
  /\ (link_watched r <> None <-> lk_open os <> None /\ lk_bind os = true).
Proof.
  intros P. unfold link_watched, child_link_fd. destruct (lk_open os) as [f|] eqn:E; [|cbn; repeat split; try easy; intros []; easy].
  specialize (P f eq_refl). destruct (lk_bind os); cbn [negb].
  - assert (X : exists fl, snd (my_nonblock os (mkKsock f true (lk_flags os))) = mkKsock f true fl).
    { unfold my_nonblock. destruct (lk_getfl os), (lk_setfl os); cbn; eexists; reflexivity. }
    destruct X as [fl ->]. cbn [fst snd ks_fd]. replace (f =? -1) with false by (symmetry; apply Z.eqb_neq; lia). cbn [negb].
    repeat split; try easy. intros fd H. injection H as <-. now exists (mkKsock f true fl).
  - cbn. repeat split; easy.
Qed.
Theorem bsd_socket pf os : (forall f, lk_open os = Some f -> 0 <= f) ->
  let r := bsd_link_fd pf os in
  (link_watched r = None -> snd r = None)
  /\ (forall fd, link_watched r = Some fd -> exists k, snd r = Some k /\ ks_fd k = fd /\ ks_links k = true).
Proof.
  intros P. unfold link_watched, bsd_link_fd. destruct (lk_open os) as [f|] eqn:E; [|cbn; now repeat split]. specialize (P f eq_refl).
  assert (N : (f =? -1) = false) by (apply Z.eqb_neq; lia).
  destruct pf; [|destruct (lk_bind os)]; cbn [fst snd]; rewrite ?N; cbn; (split; [easy|]); intros fd H; try discriminate; injection H as <-; eexists; now repeat split.
Qed.
Lemma works os s : lk_getfl os = true -> lk_setfl os = true -> snd (my_nonblock os s) = mkKsock (ks_fd s) (ks_links s) (Z.lor (ks_flags s) O_NONBLOCK).
Proof. unfold my_nonblock. intros -> ->. reflexivity. Qed.
Lemma wait_loop s : waits s = false -> forall ds buf,
  nl_wait s buf ds = let* (ms, rest) := nl_loop buf ds in DOk (ms, Some rest).
Proof.
  intros W. induction ds as [|d ds IH]; intros buf; cbn [nl_wait nl_loop]; [now rewrite W|].
  destruct (nl_recv buf d) as [[buf' n]|]; [|reflexivity]. destruct (nl_run (S (length d)) buf' 0 n) as [[ms ret]| | | |]; cbn [dbind]; try reflexivity.
  destruct (ret <=? 0); [reflexivity|]. rewrite IH. destruct (nl_loop buf' ds) as [[ms' rest]| | | |]; reflexivity.
Qed.
Theorem link_returns os fd k buf ds : child_link_fd os = (fd, Some k) -> lk_getfl os = true -> lk_setfl os = true ->
  nl_wait k buf ds = let* (ms, rest) := nl_loop buf ds in DOk (ms, Some rest).
Proof.
  intros H G F. apply wait_loop. unfold child_link_fd in H. destruct (lk_open os) as [f|]; [|discriminate]. destruct (negb _); [discriminate|].
  cbv zeta in H. rewrite (works os _ G F) in H. injection H as _ <-. unfold waits. cbn [ks_flags]. now rewrite nonblock_bit.
Qed.
Lemma cli_runs s : waits s = false -> forall msgs room, exists rest, cli_loop s room msgs = (firstn room msgs, Some rest) /\ msgs = firstn room msgs ++ rest.
Proof.
  intros W. induction msgs as [|m msgs IH]; intros [|room]; cbn [cli_loop firstn].
  - now exists [].
  - now exists [].
  - rewrite W. now exists (m :: msgs).
  - destruct (IH room) as (rest & -> & E). exists rest. split; [reflexivity|]. cbn [app]. now rewrite <- E.
Qed.
Theorem client_returns os k room msgs : cli_socket os = Some k -> lk_getfl os = true -> lk_setfl os = true ->
  exists rest, cli_loop k room msgs = (firstn room msgs, Some rest) /\ msgs = firstn room msgs ++ rest.
Proof.
  unfold cli_socket. destruct (lk_open os) as [f|]; [|discriminate]. intros H G F. rewrite (works os _ G F) in H. injection H as <-. apply cli_runs. unfold waits. cbn [ks_flags]. now rewrite nonblock_bit.
Qed.
Theorem flags_kept os s n : lk_getfl os = true -> lk_setfl os = true -> 0 <= n -> n <> 11 -> Z.testbit (ks_flags (snd (my_nonblock os s))) n = Z.testbit (ks_flags s) n.
Proof. intros G F H K. rewrite (works os s G F). cbn [ks_flags]. now apply nonblock_keeps. Qed.
Theorem client_waits os k room msgs : cli_socket os = Some k -> lk_setfl os = false -> has (lk_flags os) O_NONBLOCK = false -> (room < length msgs)%nat ->
  cli_loop k room msgs = (firstn room msgs, None).
Proof.
  unfold cli_socket. destruct (lk_open os) as [f|]; [|discriminate]. intros H F N L. assert (W : waits k = true).
  { unfold my_nonblock in H. rewrite F in H. destruct (negb _); cbn in H; injection H as <-; unfold waits; cbn; now rewrite N. }
  clear H. revert room L. induction msgs as [|m msgs IH]; intros [|room] L; cbn [cli_loop firstn length] in *; try lia.
  - now rewrite W.
  - rewrite IH by lia. reflexivity.
Qed.
