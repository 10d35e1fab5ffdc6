(** Proofs of C143: the chassis. *)
From Verif Require Import Base Types Tlv Msg Protos Wire Util Child Netif Sysinfo Send Opts Getopt Config Spec SpecChild SpecAdv SpecNetif SpecSend SpecSys SpecOpts SpecGetopt SpecCmd.
From Verif Require Import Lemmas VisProofs TypesProofs EncProofs TlvInj SendProofs1 SendProofs2 SendProofs4 SendProofs5 SysProofs1 SysProofs3 E2EProofs OptsProofs GetoptProofs CmdProofs.

Lemma media_ids os n : nf_hwaddr (netif_media os n) = nf_hwaddr n /\ nf_name (netif_media os n) = nf_name n.
Proof. unfold netif_media. cbv zeta. destruct (negb _); [now split|]. destruct (no_ecmd os (nf_index n)); [|now split]. now destruct (has _ _). Qed.
Lemma cmd_chassis n perm words s names o st e st' eff i f tlvs :
  main_argv n perm words = Some (s, names) -> says perm daemon_letters words o names ->
  running (conf_of s names) st -> event_ok e ->
  send_step (conf_of s names) st e = DOk (st', eff) -> In (SFrame i 0 f) eff ->
  Forall lldp_fits tlvs -> skipn 14 f = flat_map lldp_bytes tlvs ->
  exists port rest, In port (table st') /\ nf_index port = i
    /\ tlvs = [(1, 4 :: (if given (bs "q") o then nf_hwaddr port else si_hwaddr (st_si st'))); (2, 5 :: nf_name port)] ++ rest.
Proof.
  intros A Y R Oe H K F E. apply daemon_iff in A as (o' & Y' & M). destruct (says_unique _ _ _ _ _ _ _ (or_introl eq_refl) Y Y') as [<- _]. clear Y'.
  destruct (sent_from _ _ _ _ _ _ _ _ R Oe H K) as (nos' & nfs & si & seq & top & sub & port & W & S & _ & _ & _ & Esi & Hs & Ei & _ & Q & Ef & Lf & Ip & P1 & P2 & P3).
  pose proof (well_in _ _ W Hs) as Ok. unfold frame_due in Ef.
  assert (Hat : forall o q, at_index nfs o = Some q -> netif_ok q).
  { intros [x|] q X; [|discriminate]. apply find_some in X as [X _]. now apply (well_in nfs). }
  destruct (media_ids nos' sub) as [M1 M2].
  set (m := netif_media nos' sub) in *. set (par := at_index nfs (nf_parent sub)). set (mgmt := at_index nfs (si_mnetif si)).
  assert (Hin : inputs_ok seq m par mgmt nfs si).
  { split; [now apply ok_probed|]. split; [apply Hat|]. split; [apply Hat|]. split; [intros v; now apply well_in|]. now split. }
  assert (Hn : netif_ok m) by now apply ok_probed. clearbody m.
  fold par mgmt in Ef. set (g := advert 0 (nc_opts (sc_net (conf_of s names))) seq m par mgmt nfs si) in *.
  change (advert 0 (nc_opts (sc_net (conf_of s names))) seq m par mgmt nfs si) with g in Ef.
  assert (G : skipn 14 f = skipn 14 g).
  { rewrite Ef. destruct (_ && _); [|reflexivity]. unfold blanked.
    assert (LG : 14 <= zlen g) by (apply advert_len; exact Hn).
    change 14%nat with (6 + (6 + 2))%nat. replace 6%nat with (length (firstn 6 g)) at 1 by (rewrite firstn_length; unfold zlen in LG; lia).
    rewrite skipn_app, skipn_all2 by lia. replace (length (firstn 6 g) + (6 + 2) - length (firstn 6 g))%nat with (6 + 2)%nat by lia.
    cbn [skipn app Nat.add]. clear. do 12 (destruct g as [|? g]; [reflexivity|]). reflexivity. }
  rewrite G in E. pose proof (lldp_frame_tlvs _ _ _ _ _ _ _ g tlvs Hin eq_refl F E) as T.
  change (Z.testbit (nc_opts (sc_net (conf_of s names))) 13) with (opt (conf_of s names) 13) in T.
  rewrite (opt_on n o names s M OPT_CHASSIS_IF 13 (bs "q")) in T by (cbn; auto 20 || reflexivity || lia).
  rewrite M1, M2, <- P2, <- P3, Esi in T. exists port. eexists. split; [assumption|]. split; [congruence|]. exact T.
Qed.
