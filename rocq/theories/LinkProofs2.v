(** Runs caused by link messages, and the routing socket. *)
From Verif Require Import Base Types Tlv Protos Wire Util Child Netif Imsg Sysinfo Send Bsd Link Spec SpecSend SpecLink.
From Verif Require Import Lemmas TypesProofs ChildProofs4 ChildProofs7 NetifProofs1 SendProofs1 SendProofs6 LinkProofs.

(** ** Frames on the interface only *)
Definition on_index (index : Z) (eff : list seff) : Prop := forall i p f, In (SFrame i p f) eff -> i = index.
Lemma on_app index a b : on_index index a -> on_index index b -> on_index index (a ++ b).
Proof. intros A B i p f H. apply in_app_or in H as [H|H]; eauto. Qed.
Lemma protos_on cfg nfs si top sub index : nf_index sub = index -> forall ps st, on_index index (snd st) ->
  on_index index (snd (fold_left (send_proto cfg nfs si top sub) ps st)).
Proof.
  intros E. induction ps as [|p ps IH]; intros [edp eff] H; [exact H|]. cbn [fold_left]. apply IH. unfold send_proto.
  destruct (negb _ && negb _); [exact H|]. destruct (proto_build _ _ _ _ _ _ _ _); [|exact H]. cbn [snd] in *.
  apply on_app; [exact H|]. intros i q f [X|[]]. injection X as <- _ _. exact E.
Qed.
Lemma sub_on cfg os si index top i st : index <> NETIF_INDEX_MAX -> on_index index (snd st) -> on_index index (snd (send_sub cfg os si index top st i)).
Proof.
  intros N H. destruct st as [[nfs edp] eff]. unfold send_sub. replace (negb (index =? NETIF_INDEX_MAX)) with true by (symmetry; apply negb_true_iff; lia).
  cbn [andb]. destruct (index =? i) eqn:E; [|exact H]. cbn [negb]. destruct (netif_byindex nfs i) as [sub0|]; [|exact H]. cbv zeta.
  assert (NIL : on_index index []) by (intros ? ? ? []).
  assert (OP : forall b : bool, on_index index (if b then [SOpen i] else [])) by (intros []; [intros ? ? ? [X|[]]; discriminate X|exact NIL]).
  destruct (send_skip cfg sub0); [exact H|]. destruct (negb (has (sc_opts cfg) OPT_SEND)); [apply on_app; [exact H|apply OP]|].
  match goal with |- context [netif_byindex ?n i] => destruct (netif_byindex n i) as [sub|] eqn:S1; [destruct (netif_byindex n top) as [t|]|];
    try (apply on_app; [exact H|apply OP]) end.
  destruct (fold_left (send_proto _ _ _ _ _) _ _) as [edp' eff2] eqn:FE. cbn [snd]. apply on_app; [exact H|]. apply on_app; [apply OP|].
  apply byindex_some in S1 as [_ S1]. 
  match type of FE with fold_left (send_proto ?c ?n ?s ?t ?u) ?l ?z = _ =>
    pose proof (protos_on c n s t u index ltac:(lia) l z NIL) as P end.
  rewrite FE in P. exact P.
Qed.
Lemma loop_on cfg os index nfs si edp : index <> NETIF_INDEX_MAX -> on_index index (snd (send_loop cfg os index nfs si edp)).
Proof.
  intros N. unfold send_loop.
  assert (S : forall top l st, on_index index (snd st) -> on_index index (snd (fold_left (send_sub cfg os si index top) l st))).
  { intros top. induction l as [|i l IH]; intros st H; [exact H|]. cbn [fold_left]. apply IH. now apply sub_on. }
  assert (T : forall l st, on_index index (snd st) -> on_index index (snd (fold_left (send_top cfg os si index nfs) l st))).
  { induction l as [|n l IH]; intros st H; [exact H|]. cbn [fold_left]. apply IH. unfold send_top. destruct (send_skip cfg n); [exact H|]. now apply S. }
  apply T. intros ? ? ? [].
Qed.
Lemma closes_on index gone : on_index index (map SClose gone).
Proof. intros i p f H. apply in_map_iff in H as (x & X & _). discriminate X. Qed.
Lemma send_on cfg os index now st : index <> NETIF_INDEX_MAX -> on_index index (snd (child_send cfg os index false now st)).
Proof.
  intros N. unfold child_send. cbv zeta. cbn [andb].
  match goal with |- context [if ?b then (st, []) else _] => destruct b end; [intros ? ? ? []|].
  destruct (netif_fetch _ _ _ _) as [[[count nfs] si] gone]. destruct (count =? 0); [apply closes_on|].
  match goal with |- context [if ?b then (mkSt _ _ _, map SClose gone) else _] => destruct b end; [apply closes_on|].
  destruct (send_loop cfg os index nfs si (st_edp st)) as [[nfs' edp] eff] eqn:E. cbn [snd]. apply on_app; [apply closes_on|].
  pose proof (loop_on cfg os index nfs si (st_edp st) N) as P. now rewrite E in P.
Qed.

Lemma flags_bits flags : Z.land flags LINK_FLAGS =? LINK_FLAGS = Z.testbit flags 6 && Z.testbit flags 16.
Proof.
  destruct (Z.testbit flags 6) eqn:B6; destruct (Z.testbit flags 16) eqn:B16; cbn [andb].
  - apply Z.eqb_eq. apply Z.bits_inj'. intros k Hk. rewrite Z.land_spec.
    change LINK_FLAGS with (Z.lor (Z.shiftl 1 6) (Z.shiftl 1 16)). rewrite Z.lor_spec, !Z.shiftl_spec by lia.
    assert (T : forall j, Z.testbit 1 (k - j) = (k =? j)).
    { intros j. destruct (k =? j) eqn:X; [replace (k - j) with 0 by lia; reflexivity|]. destruct (Z_lt_ge_dec k j); [now rewrite Z.testbit_neg_r by lia|].
      change 1 with (2 ^ 0). rewrite Z.pow2_bits_false by lia. reflexivity. }
    rewrite !T. destruct (k =? 6) eqn:E6; [replace k with 6 by lia; now rewrite B6|]. destruct (k =? 16) eqn:E16; [replace k with 16 by lia; now rewrite B16|].
    apply andb_false_r.
  - apply Z.eqb_neq. intros H. apply (f_equal (fun x => Z.testbit x 16)) in H. rewrite Z.land_spec, B16 in H. discriminate H.
  - apply Z.eqb_neq. intros H. apply (f_equal (fun x => Z.testbit x 6)) in H. rewrite Z.land_spec, B6 in H. discriminate H.
  - apply Z.eqb_neq. intros H. apply (f_equal (fun x => Z.testbit x 6)) in H. rewrite Z.land_spec, B6 in H. discriminate H.
Qed.
Lemma link_answered cfg os now m st : link_ok m -> answered m (snd (child_link cfg os (lm_type m) (lm_flags m) (lm_index m) now st)).
Proof.
  intros (_ & _ & _ & _ & _ & I & _). unfold answered, link_up, child_link. rewrite flags_bits. change ARPHRD_ETHER with 1.
  destruct (lm_type m =? 1); [|split; [reflexivity|intros ? ? ? []]]. cbn [negb andb].
  destruct (Z.testbit (lm_flags m) 6 && Z.testbit (lm_flags m) 16); [|split; [reflexivity|intros ? ? ? []]]. cbn [negb].
  split; [discriminate|]. rewrite Z.mod_small by lia. apply send_on. unfold NETIF_INDEX_MAX. lia.
Qed.
Lemma cbs_answered cfg world : forall ms k st, Forall link_ok ms -> Forall2 answered ms (snd (link_cbs cfg world k (map seen ms) st)).
Proof.
  induction ms as [|m ms IH]; intros k st F; [constructor|]. inversion F as [|? ? F1 F2]; subst. cbn [map link_cbs seen].
  pose proof (link_answered cfg (fst (world k)) (snd (world k)) m st F1) as A.
  destruct (child_link cfg _ _ _ _ _ st) as [st1 eff]. specialize (IH (S k) st1 F2).
  destruct (link_cbs cfg world (S k) (map seen ms) st1) as [st2 effs]. constructor; [exact A|exact IH].
Qed.
Lemma link_messages cfg world buf dss st :
  Forall (fun ms => ms <> [] /\ Forall link_ok ms /\ zlen (datagram ms) <= zlen buf) dss ->
  exists st' effs, link_event cfg world buf (map datagram dss) st = DOk (st', effs, [])
    /\ send_run cfg st (link_events world 0 (concat dss)) = DOk (st', effs) /\ Forall2 answered (concat dss) effs.
Proof.
  intros F. unfold link_event. rewrite (loop_all dss buf F). cbn [dbind].
  assert (OK : Forall link_ok (concat dss)).
  { apply Forall_concat. apply Forall_forall. intros ms H. rewrite Forall_forall in F. now destruct (F ms H) as (_ & O & _). }
  pose proof (cbs_answered cfg world (concat dss) 0 st OK) as A. rewrite cbs_run.
  destruct (link_cbs cfg world 0 (map seen (concat dss)) st) as [st' effs]. exists st', effs. split; [reflexivity|split; [reflexivity|exact A]].
Qed.

(** ** BSD *)
Lemma rd_num buf pad d off n m : firstn m (d ++ pad) = buf -> 0 <= off -> 0 <= n -> off + n <= zlen d -> off + n <= zlen buf ->
  rdn buf off n = DOk (slice d off n).
Proof.
  intros E H1 H2 H3 H4. rewrite rdn_ok by lia. f_equal. unfold slice. subst buf. rewrite skipn_firstn_comm.
  rewrite firstn_firstn, skipn_app. unfold zlen in *. rewrite firstn_length, app_length in H4.
  rewrite Nat.min_l by lia. rewrite firstn_app, skipn_length.
  replace (Z.to_nat n - (length d - Z.to_nat off))%nat with 0%nat by lia. cbn. apply app_nil_r.
Qed.
Lemma num1 d off : 0 <= off -> off + 1 <= zlen d -> nth 0 (slice d off 1) 0 = number 1 d off.
Proof.
  intros H1 H2. unfold slice, number. change (Z.to_nat 1) with 1%nat.
  destruct (skipn (Z.to_nat off) d) as [|b l] eqn:E; [|cbn [firstn nth unLE]; lia]. apply (f_equal (@length _)) in E. rewrite skipn_length in E. unfold zlen in *. cbn in E. lia.
Qed.
Lemma num2 d off : 0 <= off -> off + 2 <= zlen d -> dle16 (slice d off 2) = number 2 d off.
Proof.
  intros H1 H2. unfold slice, number. change (Z.to_nat 2) with 2%nat. assert (L : (2 <= length (skipn (Z.to_nat off) d))%nat).
  { rewrite skipn_length. unfold zlen in *. lia. }
  destruct (skipn (Z.to_nat off) d) as [|a [|b l]]; cbn in L; [lia|lia|]. unfold dle16. cbn [firstn unLE]. lia.
Qed.
Lemma num4 d off : 0 <= off -> off + 4 <= zlen d -> dle32 (slice d off 4) = number 4 d off.
Proof.
  intros H1 H2. unfold slice, number. change (Z.to_nat 4) with 4%nat. assert (L : (4 <= length (skipn (Z.to_nat off) d))%nat).
  { rewrite skipn_length. unfold zlen in *. lia. }
  destruct (skipn (Z.to_nat off) d) as [|a [|b [|c [|e l]]]]; cbn in L; try lia. unfold dle32. cbn [firstn unLE]. lia.
Qed.
Lemma land65 f : Z.land f 65 =? 65 = Z.testbit f 0 && Z.testbit f 6.
Proof.
  destruct (Z.testbit f 0) eqn:B0; destruct (Z.testbit f 6) eqn:B6; cbn [andb].
  - apply Z.eqb_eq. apply Z.bits_inj'. intros k Hk. rewrite Z.land_spec.
    change 65 with (Z.lor (Z.shiftl 1 0) (Z.shiftl 1 6)). rewrite Z.lor_spec, !Z.shiftl_spec by lia.
    assert (T : forall j, Z.testbit 1 (k - j) = (k =? j)).
    { intros j. destruct (k =? j) eqn:X; [replace (k - j) with 0 by lia; reflexivity|]. destruct (Z_lt_ge_dec k j); [now rewrite Z.testbit_neg_r by lia|].
      change 1 with (2 ^ 0). rewrite Z.pow2_bits_false by lia. reflexivity. }
    rewrite !T. destruct (k =? 0) eqn:E0; [replace k with 0 by lia; now rewrite B0|]. destruct (k =? 6) eqn:E6; [replace k with 6 by lia; now rewrite B6|].
    apply andb_false_r.
  - apply Z.eqb_neq. intros H. apply (f_equal (fun x => Z.testbit x 6)) in H. rewrite Z.land_spec, B6 in H. discriminate H.
  - apply Z.eqb_neq. intros H. apply (f_equal (fun x => Z.testbit x 0)) in H. rewrite Z.land_spec, B0 in H. discriminate H.
  - apply Z.eqb_neq. intros H. apply (f_equal (fun x => Z.testbit x 0)) in H. rewrite Z.land_spec, B0 in H. discriminate H.
Qed.
Lemma bsd_link_eq pf lay d : layout_ok lay -> rl_rt lay <= zlen d -> rl_if lay <= zlen d -> zlen d <= 2048 ->
  bsd_link pf lay (Some d) = DOk (if route_up pf lay d then Some (number 2 d (rl_index lay)) else None).
Proof.
  intros (L1 & L2 & L3 & L4 & L5 & L6 & L7 & L8) R I M. unfold bsd_link. cbv zeta.
  assert (FD : firstn 2048 d = d). { apply firstn_all2. unfold zlen in M. lia. } rewrite FD.
  replace (zlen d <? rl_rt lay) with false by lia. set (pad := repeat 0 (2048 - length d)).
  assert (LM : zlen (d ++ pad) = 2048). { rewrite zlen_app. unfold pad, zlen in *. rewrite repeat_length. lia. }
  assert (FA : firstn (length (d ++ pad)) (d ++ pad) = d ++ pad) by apply firstn_all.
  rewrite (rd_num _ pad d (rl_version lay) 1 _ FA) by lia. cbn [dbind]. rewrite (rd_num _ pad d (rl_type lay) 1 _ FA) by lia. cbn [dbind].
  rewrite !num1 by lia. unfold route_up. cbv zeta. change RTM_VERSION with 5. change RTM_IFINFO with 14.
  destruct (number 1 d (rl_version lay) =? 5); [|reflexivity]. destruct (number 1 d (rl_type lay) =? 14); [|reflexivity]. cbn [negb orb andb].
  rewrite rdn_ok by lia. cbn [dbind]. set (ifm := slice (d ++ pad) 0 (rl_if lay)).
  assert (IF : firstn (Z.to_nat (rl_if lay)) (d ++ pad) = ifm) by reflexivity.
  assert (LI : zlen ifm = rl_if lay). { rewrite <- IF. rewrite zlen_firstn; lia. }
  rewrite (rd_num _ pad d (rl_iftype lay) 1 _ IF) by lia. cbn [dbind]. rewrite num1 by lia. change IFT_ETHER with 6.
  destruct (number 1 d (rl_iftype lay) =? 6); [|reflexivity]. cbn [negb andb].
  rewrite (rd_num _ pad d (rl_flags lay) 4 _ IF) by lia. cbn [dbind]. rewrite num4, land65 by lia.
  destruct (Z.testbit _ 0); [|reflexivity]. destruct (Z.testbit _ 6); [|reflexivity]. cbn [negb andb].
  rewrite (rd_num _ pad d (rl_state lay) 1 _ IF) by lia. cbn [dbind]. rewrite num1 by lia.
  unfold link_state_is_up, link_state_up. rewrite orb_comm. destruct (_ || _); [|reflexivity]. cbn [negb].
  rewrite (rd_num _ pad d (rl_index lay) 2 _ IF) by lia. cbn [dbind]. now rewrite num2 by lia.
Qed.
Lemma bsd_link_ok pf lay got : layout_ok lay -> exists r, bsd_link pf lay got = DOk r.
Proof.
  intros (L1 & L2 & L3 & L4 & L5 & L6 & L7 & L8). unfold bsd_link. cbv zeta.
  match goal with |- context [?d ++ repeat 0 (2048 - length ?d)] => set (msg := d ++ repeat 0 (2048 - length d)); assert (LM : zlen msg = 2048) end.
  { unfold msg. rewrite zlen_app. unfold zlen. rewrite repeat_length. destruct got as [d|]; [|reflexivity]. pose proof (firstn_le_length 2048 d). lia. }
  match goal with |- context [if ?b then DOk None else _] => destruct b end; [eauto|].
  rewrite !rdn_ok by lia. cbn [dbind]. match goal with |- context [if ?b then DOk None else _] => destruct b end; [eauto|].
  set (ifm := slice msg 0 (rl_if lay)). assert (LI : zlen ifm = rl_if lay). { unfold ifm, slice. change (skipn (Z.to_nat 0) msg) with msg. rewrite zlen_firstn; lia. }
  rewrite rdn_ok by lia. cbn [dbind]. match goal with |- context [if ?b then DOk None else _] => destruct b end; [eauto|].
  rewrite rdn_ok by lia. cbn [dbind]. match goal with |- context [if ?b then DOk None else _] => destruct b end; [eauto|].
  rewrite rdn_ok by lia. cbn [dbind]. match goal with |- context [if ?b then DOk None else _] => destruct b end; [eauto|].
  rewrite rdn_ok by lia. cbn [dbind]. eauto.
Qed.
Lemma bsd_link_none pf lay : layout_ok lay -> bsd_link pf lay None = DOk None.
Proof.
  intros (L1 & L2 & L3 & L4 & _). unfold bsd_link. cbv zeta. match goal with |- context [if ?b then DOk None else _] => destruct b end; [reflexivity|].
  rewrite !rdn_ok by (cbn [app length]; unfold zlen; rewrite ?repeat_length; lia). cbn [dbind].
  assert (N : forall k n, nth 0 (slice (repeat 0 n) k 1) 0 = 0).
  { intros k n. unfold slice. change (Z.to_nat 1) with 1%nat. generalize (Z.to_nat k). induction n as [|n IH]; intros [|j]; try reflexivity. apply IH. }
  cbn [app length]. rewrite !N. reflexivity.
Qed.
