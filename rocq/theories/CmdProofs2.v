(** Proofs of C142: the location. *)
From Verif Require Import Base Types Tlv Msg Protos Wire Util Child Netif Sysinfo Send Opts Getopt Config Spec SpecChild SpecAdv SpecNetif SpecSend SpecSys SpecOpts SpecGetopt SpecCmd.
From Verif Require Import Lemmas VisProofs TypesProofs EncProofs TlvInj SendProofs1 SendProofs2 SendProofs4 SendProofs5 SysProofs1 SysProofs3 OptsProofs GetoptProofs.

Lemma content_tia3 opts n p m nfs si body a z : In (tia 3 body) ([(1, fst (fst a)); (2, snd (fst a)); (3, snd a)] ++ lldp_content opts n p m nfs si ++ [(0, z)]) ->
  zlen (si_country si) = 2 /\ 0 < zlen (si_location si) /\ body = civic (si_country si) (si_location si).
Proof.
  intros H. unfold lldp_content in H. cbv zeta in H. rewrite !in_app_iff in H. cbn [In] in H. unfold org_tlv, mgmt_tlv, tia in H.
  repeat match goal with
  | H : _ \/ _ |- _ => destruct H as [H|H]
  | H : In _ (when _ _) |- _ => apply in_when in H as [? H]; cbn [In] in H
  | H : (_, _) = (_, _) |- _ => discriminate H || (injection H as; try discriminate)
  | H : False |- _ => contradiction
  | H : In _ (map _ _) |- _ => apply in_map_iff in H as (? & H & _)
  end; subst.
  match goal with H : _ && _ = true |- _ => apply andb_true_iff in H as [X Y] end. split; [lia|]. split; [lia|reflexivity].
Qed.
Lemma content_civic opts n p m nfs si : zlen (si_country si) = 2 -> 0 < zlen (si_location si) -> In (tia 3 (civic (si_country si) (si_location si))) (lldp_content opts n p m nfs si).
Proof.
  intros A B. unfold lldp_content. cbv zeta. rewrite !in_app_iff. do 10 right. left.
  replace (zlen (si_country si) =? 2) with true by lia. replace (0 <? zlen (si_location si)) with true by lia. cbn [andb when]. left. reflexivity.
Qed.
Lemma place_frame cfg os country location st e st' eff i f tlvs body :
  running_on cfg os country location st -> event_ok e ->
  send_step cfg st e = DOk (st', eff) -> In (SFrame i 0 f) eff -> Forall lldp_fits tlvs -> skipn 14 f = flat_map lldp_bytes tlvs ->
  In (tia 3 body) tlvs <-> zlen country = 2 /\ 0 < zlen location /\ body = civic country location.
Proof.
  intros R Oe H K F E. pose proof (on_running _ _ _ _ _ R) as R1. destruct (on_keeps _ _ _ _ _ R) as (S0 & C0 & L0 & K0 & _).
  destruct (sent_frame _ _ _ _ _ _ _ _ R1 Oe H K) as (nos' & nfs & si & seq & top & sub & W & S & K1 & _ & _ & Hs & _ & _ & Q & Ef & Lf).
  pose proof (keeps_trans _ _ _ K0 K1) as KE. clear K0 K1 R R1.
  pose proof (well_in _ _ W Hs) as Ok. unfold frame_due in Ef.
  assert (Hat : forall o q, at_index nfs o = Some q -> netif_ok q).
  { intros [x|] q X; [|discriminate]. apply find_some in X as [X _]. now apply (well_in nfs). }
  set (n := netif_media nos' sub) in *. set (par := at_index nfs (nf_parent sub)). set (mgmt := at_index nfs (si_mnetif si)).
  assert (Hin : inputs_ok seq n par mgmt nfs si).
  { split; [now apply ok_probed|]. split; [apply Hat|]. split; [apply Hat|]. split; [intros v; now apply well_in|]. now split. }
  assert (Hn : netif_ok n) by now apply ok_probed. clearbody n.
  fold par mgmt in Ef. set (g := advert 0 (nc_opts (sc_net cfg)) seq n par mgmt nfs si) in *.
  change (advert 0 (nc_opts (sc_net cfg)) seq n par mgmt nfs si) with g in Ef.
  assert (G : skipn 14 f = skipn 14 g).
  { rewrite Ef. destruct (_ && _); [|reflexivity]. unfold blanked.
    assert (LG : 14 <= zlen g) by (apply advert_len; exact Hn).
    change 14%nat with (6 + (6 + 2))%nat. replace 6%nat with (length (firstn 6 g)) at 1 by (rewrite firstn_length; unfold zlen in LG; lia).
    rewrite skipn_app, skipn_all2 by lia. replace (length (firstn 6 g) + (6 + 2) - length (firstn 6 g))%nat with (6 + 2)%nat by lia.
    cbn [skipn app Nat.add]. clear. do 12 (destruct g as [|? g]; [reflexivity|]). reflexivity. }
  rewrite G in E. pose proof (lldp_frame_tlvs _ _ _ _ _ _ _ g tlvs Hin eq_refl F E) as T.
  set (q := up n par) in *. set (mg := up q mgmt) in *. clearbody q mg.
  match type of T with _ = [(1, ?x); (2, ?y); (3, ?z)] ++ _ => set (a := (x, y, z)) in *; change [(1, x); (2, y); (3, z)] with [(1, fst (fst a)); (2, snd (fst a)); (3, snd a)] in T end.
  clearbody a.
  assert (CL : si_country si = country /\ si_location si = location).
  { destruct KE as [_ _ _ _ E1 E2 _ _ _]. rewrite E1, E2. clear. unfold sysinfo_fetch. cbv zeta. now destruct (sysinfo_forwarding os CAP_HOST CAP_HOST). }
  destruct CL as [<- <-]. rewrite T. split; [exact (content_tia3 _ _ _ _ _ _ _ _ _)|].
  intros (A & B & ->). apply in_or_app. right. apply in_or_app. left. now apply content_civic.
Qed.

Lemma given_args x o : given [x] o = true <-> args_of x o <> [].
Proof.
  unfold given, args_of. induction o as [|[y a] l IH]; [now split|]. cbn [existsb filter]. rewrite Bool.orb_false_r.
  destruct (y =? x); [now split|exact IH].
Qed.
Lemma last_in {A} (l : list A) d : l <> [] -> In (last l d) l.
Proof. induction l as [|x [|y l] IH]; [congruence|now left|]. intros _. right. apply IH. discriminate. Qed.
Lemma cmd_place n perm words s names o sos st e st' eff i f tlvs body :
  main_argv n perm words = Some (s, names) -> says perm daemon_letters words o names ->
  running_on (conf_of s names) sos (u_country s) (u_location s) st -> event_ok e ->
  send_step (conf_of s names) st e = DOk (st', eff) -> In (SFrame i 0 f) eff ->
  Forall lldp_fits tlvs -> skipn 14 f = flat_map lldp_bytes tlvs ->
  (In (tia 3 body) tlvs <->
   given (bs "c") o = true /\ given (bs "l") o = true
   /\ exists cc, Forall2 capital (last (args_of 99 o) []) cc /\ body = civic cc (firstn 255 (last (args_of 108 o) []))).
Proof.
  intros A Y R O H K F E. apply daemon_iff in A as (o' & Y' & M). destruct (says_unique _ _ _ _ _ _ _ (or_introl eq_refl) Y Y') as [<- _]. clear Y'.
  rewrite (place_frame _ _ _ _ _ _ _ _ _ _ _ body R O H K F E). clear R H K F E.
  destruct (opts_values n o names s M) as (_ & L & _ & C1 & C2 & _). rewrite L.
  change (bs "c") with [99]. change (bs "l") with [108]. rewrite !given_args.
  assert (X : args_of 108 o <> [] -> last (args_of 108 o) [] <> []).
  { intros N Z. pose proof (last_in (args_of 108 o) [] N) as I1. rewrite Z in I1. unfold args_of in I1. apply in_map_iff in I1 as ([y a] & Ea & I1). cbn [snd] in Ea. subst a.
    apply filter_In in I1 as [I1 I2]. apply Z.eqb_eq in I2. subst y.
    assert (M' : main_opts n o names = None); [|congruence]. apply opts_refused. left. exists 108, []. split; [assumption|]. unfold bad_option. right. right. right. right. now split. }
  split.
  - intros (A & B & ->). split; [|split; [|exists (u_country s); now split]].
    + intros N. rewrite N in C1. cbn in C1. inversion C1 as [Q1 Q2|]. rewrite <- Q2 in A. discriminate A.
    + intros N. rewrite N in B. cbn in B. unfold zlen in B. cbn in B. lia.
  - intros (A & B & cc & D & ->). split; [auto|]. split.
    + specialize (X B). destruct (last (args_of 108 o) []) as [|b r]; [congruence|]. cbn. unfold zlen. cbn [length]. lia.
    + f_equal. clear -C1 D. revert cc D. induction C1 as [|x y l l' P C1 IH]; intros cc D; inversion D as [|a b c d P' D']; subst; [reflexivity|]. f_equal; [|now apply IH].
      unfold capital in P, P'. lia.
Qed.
