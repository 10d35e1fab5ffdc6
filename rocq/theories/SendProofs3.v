(** The states of the running child. *)
From Verif Require Import Base Types Tlv Msg Protos Wire Util Child Netif Sysinfo Send Spec SpecChild SpecAdv SpecNetif SpecSend.
From Verif Require Import Lemmas VisProofs TypesProofs ChildProofs4 NetifProofs1 NetifProofs2 NetifProofs5 SendProofs1 SendProofs2.

(** ** Events of Child.v leave the configuration of the interfaces alone *)
Lemma fixed_assign f i nfs : (forall n, fixed (f n) = fixed n) -> map fixed (nf_assign f i nfs) = map fixed nfs.
Proof. intros H. induction nfs as [|n l IH]; cbn [nf_assign]; [reflexivity|]. destruct (_ =? _); cbn [map]; [now rewrite H|now rewrite IH]. Qed.
Lemma fixed_protos v n : fixed (set_protos v n) = fixed n. Proof. reflexivity. Qed.
Lemma fixed_update v n : fixed (set_update v n) = fixed n. Proof. reflexivity. Qed.
Lemma expire_loop_fixed now : forall q nfs, map fixed (snd (expire_loop now q nfs)) = map fixed nfs.
Proof.
  induction q as [|e q IH]; intros nfs; cbn [expire_loop]; [reflexivity|]. destruct (keeps now e).
  - specialize (IH nfs). destruct (expire_loop now q nfs). exact IH.
  - rewrite IH. now apply fixed_assign.
Qed.
Lemma update_one_fixed opts q st i : map fixed (fst (update_one opts q st i)) = map fixed (fst st).
Proof.
  destruct st as [nfs eff]. unfold update_one. destruct (netif_byindex nfs i) as [sub|]; [|reflexivity]. destruct (_ =? _); [reflexivity|].
  cbn [fst]. rewrite fixed_assign by (intros; apply fixed_update). destruct (has opts OPT_AUTO); [|reflexivity]. now apply fixed_assign.
Qed.
Lemma update_loop_fixed opts q nfs : map fixed (fst (update_loop opts q nfs)) = map fixed nfs.
Proof.
  unfold update_loop. change (map fixed nfs) with (map fixed (fst (nfs, @nil ceff))) at 1. generalize (map nf_index nfs) at 1. intros l.
  generalize (nfs, @nil ceff). induction l as [|i l IH]; intros st; cbn [fold_left]; [reflexivity|]. rewrite IH. apply update_one_fixed.
Qed.
Lemma expire_fixed opts now c : map fixed (c_nfs (fst (child_expire opts now c))) = map fixed (c_nfs c).
Proof.
  unfold child_expire. destruct (_ =? _); [reflexivity|]. pose proof (expire_loop_fixed now (c_queue c) (c_nfs c)) as E.
  destruct (expire_loop now (c_queue c) (c_nfs c)) as [q nfs]. pose proof (update_loop_fixed opts q nfs) as U.
  destruct (update_loop opts q nfs) as [nfs' eff]. cbn in *. congruence.
Qed.
Lemma queue_fixed opts c d now now2 c' eff : child_queue opts c d now now2 = DOk (c', eff) -> map fixed (c_nfs c') = map fixed (c_nfs c).
Proof.
  unfold child_queue. cbv zeta. destruct (negb (msg_size_ok _ _)); [congruence|]. destruct (_ =? -1); [congruence|].
  destruct (negb (_ <? PROTO_MAX)); [discriminate|]. destruct (negb (_ <=? ETHER_MAX_LEN)); [discriminate|].
  destruct (netif_byindex _ _) as [sub|]; [|congruence]. destruct (netif_byaddr _ _); [congruence|].
  destruct (proto_decode _ _ _) as [[n s]| | | |]; try discriminate; [|congruence]. destruct (n =? 0); [congruence|].
  destruct (queue_put _ _ _) as [q fresh]. destruct (s_ttl s =? 0).
  - intros H. injection H as H. pose proof (expire_fixed opts now2 (mkChild (c_nfs c) q (c_sess c) fresh)) as K. rewrite H in K. exact K.
  - destruct (_ || _); [intros H; injection H as <- <-; reflexivity|]. destruct (_ && _ && _); intros H; injection H as <- <-; [reflexivity|].
    cbn [c_nfs set_nfs]. now apply fixed_assign.
Qed.
Lemma write_fixed c sid t ws c' eff : child_cli_write c sid t ws = DOk (c', eff) -> c_nfs c' = c_nfs c.
Proof.
  unfold child_cli_write. destruct (find _ _) as [s|]; [|congruence]. destruct t; [intros H; injection H as <- <-; reflexivity|].
  cbv zeta. destruct (ss_msg s) as [i|]; [destruct (queue_from _ _) as [l|]|]; cbn [dbind]; try discriminate.
  all: destruct (write_loop _ _ _) as [e [r|]]; intros H; injection H as <- <-; reflexivity.
Qed.
Lemma child_fixed opts c e c' eff : child_step opts c e = DOk (c', eff) -> (forall nfs, e <> CFetch nfs) -> map fixed (c_nfs c') = map fixed (c_nfs c).
Proof.
  intros H N. destruct e; cbn [child_step] in H.
  - eapply queue_fixed; eassumption.
  - injection H as H. rewrite <- (expire_fixed opts now c), H. reflexivity.
  - now destruct (N nfs).
  - destruct (existsb _ _); injection H as <- <-; reflexivity.
  - apply write_fixed in H. now rewrite H.
  - apply write_fixed in H. now rewrite H.
Qed.

Lemma fixed_index nfs nfs' : map fixed nfs = map fixed nfs' -> indices nfs = indices nfs'.
Proof. apply map_factor. intros x y E. exact (f_equal nf_index E). Qed.
Lemma fixed_ok n m : fixed n = fixed m -> netif_ok n -> netif_ok m.
Proof.
  intros E H. pose proof (ok_protos 0 _ (ok_update 0 _ H)) as K. fold (fixed n) in K. rewrite E in K. exact K.
Qed.
Lemma cons_inj {A} (x y : A) l m : x :: l = y :: m -> x = y /\ l = m. Proof. intros H. now injection H. Qed.
Lemma fixed_well nfs : forall nfs', map fixed nfs = map fixed nfs' -> well nfs -> well nfs'.
Proof.
  induction nfs as [|n nfs IH]; intros [|m l] E H; try discriminate; [constructor|]. cbn [map] in E. apply cons_inj in E as [E1 E2]. inversion H; subst.
  constructor; [|now apply IH]. now apply (fixed_ok n).
Qed.

(** ** The invariant *)
Record inv (st : sstate) : Prop := mkInv {
  inv_well : well (table st);
  inv_nodup : NoDup (indices (table st));
  inv_mgmt : mgmt_in (st_si st) (table st);
  inv_si : sysinfo_ok (st_si st);
  inv_uts : 7 <= zlen (si_uts_str (st_si st));
  inv_plat : 4 <= zlen (si_platform (st_si st));
  inv_edp : 0 <= st_edp st < 65536 }.
Lemma inv_fixed st c : map fixed (c_nfs c) = map fixed (table st) -> inv st -> inv (mkSt c (st_si st) (st_edp st)).
Proof.
  intros E [I1 I2 I3 I4 I5 I6 I7]. pose proof (fixed_index _ _ E) as X. unfold table in *. constructor; unfold table; cbn [st_child st_si st_edp]; try assumption.
  - apply (fixed_well (c_nfs (st_child st))); [now symmetry|assumption].
  - now rewrite X.
  - intros m Hm. rewrite X. now apply I3.
Qed.

(** ** One run *)
Definition flapping (index : Z) (st : sstate) : bool :=
  negb (index =? NETIF_INDEX_MAX)
  && match netif_byindex (table st) index with Some n => 3 <? nf_link_event n | None => false end.
Definition all_due (cfg : scfg) (index : Z) (nfs : list netif) : list (netif * netif * Z) :=
  flat_map (whole cfg nfs index) (filter (visible (sc_opts cfg)) nfs).
(** The run proper, before child_expire. *)
Inductive core (cfg : scfg) (os : nos) (index : Z) (st : sstate) : sstate -> list seff -> Prop :=
| core_flap : flapping index st = true -> core cfg os index st st []
| core_none ret nfs si gone eff :
    flapping index st = false -> netif_fetch (sc_net cfg) os (table st) (st_si st) = (ret, nfs, si, gone) ->
    ret = 0 \/ (index <> NETIF_INDEX_MAX /\ ~ In index (indices nfs)) -> frames eff = [] ->
    core cfg os index st (mkSt (set_nfs (st_child st) nfs) si (st_edp st)) eff
| core_loop ret nfs si gone T eff :
    flapping index st = false -> netif_fetch (sc_net cfg) os (table st) (st_si st) = (ret, nfs, si, gone) -> ret <> 0 ->
    (index = NETIF_INDEX_MAX \/ In index (indices nfs)) ->
    well nfs -> NoDup (indices nfs) -> sysinfo_ok si -> touches os nfs T ->
    fst (fst (send_loop cfg os index nfs si (st_edp st))) = T ->
    frames eff = frames_due cfg os nfs si (st_edp st) (all_due cfg index nfs) ->
    core cfg os index st (mkSt (set_nfs (st_child st) T) si (after (st_edp st) (all_due cfg index nfs))) eff.

Lemma fetch_none cfg os nfs si : no_ifaddrs os = None -> netif_fetch cfg os nfs si = (0, nfs, si, []).
Proof. intros H. unfold netif_fetch. now rewrite H. Qed.
Lemma fetch_inv cfg os st ret nfs si gone : os_ok os -> inv st -> netif_fetch (sc_net cfg) os (table st) (st_si st) = (ret, nfs, si, gone) ->
  inv (mkSt (set_nfs (st_child st) nfs) si (st_edp st)).
Proof.
  intros O [I1 I2 I3 I4 I5 I6 I7] F. destruct (fetch_well _ _ _ _ _ _ _ _ O I1 I4 F) as (W & S & K).
  assert (X : NoDup (indices nfs) /\ mgmt_in si nfs).
  { destruct (no_ifaddrs os) as [ias|] eqn:A.
    - destruct (fetch_exact _ _ _ _ _ _ _ _ _ A I2 F) as ((N & _) & _). split; [assumption|]. exact (fetch_mgmt _ _ _ _ _ _ _ _ _ A I2 F I3).
    - rewrite (fetch_none _ _ _ _ A) in F. injection F as _ <- <- _. now split. }
  destruct X as [X1 X2]. destruct K. constructor; unfold table; cbn [st_child st_si st_edp c_nfs set_nfs]; try assumption; congruence.
Qed.
Lemma frames_closes l : frames (map SClose l) = [].
Proof. induction l; [reflexivity|assumption]. Qed.
Lemma frames_child l : frames (map SChild l) = [].
Proof. induction l; [reflexivity|assumption]. Qed.
Lemma byindex_iff nfs i : match netif_byindex nfs i with Some _ => false | None => true end = true <-> ~ In i (indices nfs).
Proof. rewrite <- byindex_none. now destruct (netif_byindex nfs i). Qed.
Lemma send_core cfg os index timeout now st st' eff : os_ok os -> inv st -> child_send cfg os index timeout now st = (st', eff) ->
  exists st1 eff1, core cfg os index st st1 eff1 /\ frames eff = frames eff1
    /\ st_si st' = st_si st1 /\ st_edp st' = st_edp st1
    /\ (if timeout && has (sc_opts cfg) OPT_RECV then st_child st' = fst (child_expire (sc_opts cfg) now (st_child st1))
        else st_child st' = st_child st1).
Proof.
  intros O I. unfold child_send. cbv zeta. fold (table st). fold (flapping index st).
  match goal with |- (let '(_, _) := ?b in _) = _ -> _ => set (body := b) end.
  assert (B : core cfg os index st (fst body) (snd body)).
  { subst body. destruct (flapping index st) eqn:FL; [now apply core_flap|].
    destruct (netif_fetch (sc_net cfg) os (table st) (st_si st)) as [[[ret nfs] si] gone] eqn:F.
    pose proof (fetch_inv _ _ _ _ _ _ _ O I F) as J.
    destruct (ret =? 0) eqn:R0.
    { cbn [fst snd]. eapply core_none; [assumption|eassumption|left; lia|apply frames_closes]. }
    destruct (negb (index =? NETIF_INDEX_MAX) && match netif_byindex nfs index with Some _ => false | None => true end) eqn:G.
    { cbn [fst snd]. apply andb_true_iff in G as [G1 G2]. apply byindex_iff in G2. eapply core_none; [assumption|eassumption| |apply frames_closes].
      right. split; [|assumption]. apply negb_true_iff in G1. lia. }
    destruct J as [J1 J2 J3 J4 J5 J6 J7]. unfold table in J1, J2, J3. cbn [st_child st_si st_edp c_nfs set_nfs] in *.
    destruct (loop_run cfg os nfs si index J1 J4 J2 (st_edp st) J7) as (T & e & E & HT & FR). rewrite E. cbn [fst snd].
    eapply core_loop; try eassumption; [lia| |now rewrite E|rewrite frames_app, frames_closes; exact FR].
    destruct (Z.eq_dec index NETIF_INDEX_MAX) as [->|Q]; [now left|]. right.
    destruct (in_dec Z.eq_dec index (indices nfs)) as [|Q2]; [assumption|]. apply byindex_iff in Q2. rewrite Q2, andb_true_r in G.
    apply negb_false_iff in G. lia. }
  destruct body as [st1 eff1]. cbn [fst snd] in B. destruct (timeout && has (sc_opts cfg) OPT_RECV).
  - destruct (child_expire (sc_opts cfg) now (st_child st1)) as [c' eff2] eqn:X. intros H. injection H as <- <-.
    exists st1, eff1. cbn [st_si st_edp st_child]. rewrite X. repeat split; [assumption|]. now rewrite frames_app, frames_child, app_nil_r.
  - intros H. injection H as <- <-. exists st1, eff1. now repeat split.
Qed.
Lemma core_inv cfg os index st st1 eff1 : os_ok os -> inv st -> core cfg os index st st1 eff1 -> inv st1.
Proof.
  intros O I C. destruct C as [F|ret nfs si gone eff FL F Z E|ret nfs si gone T eff FL F Z G W N S HT HL E]; [assumption|now apply (fetch_inv cfg os st ret nfs si gone)|].
  pose proof (fetch_inv _ _ _ _ _ _ _ O I F) as [J1 J2 J3 J4 J5 J6 J7]. unfold table in J1, J2, J3. cbn [st_child st_si st_edp c_nfs set_nfs] in *.
  pose proof (touches_index _ _ _ HT) as X.
  constructor; unfold table; cbn [st_child st_si st_edp c_nfs set_nfs]; try assumption.
  - now apply (touches_well os nfs).
  - now rewrite X.
  - intros m Hm. rewrite X. now apply J3.
  - now apply after_range.
Qed.
Lemma send_inv cfg os index timeout now st st' eff : os_ok os -> inv st -> child_send cfg os index timeout now st = (st', eff) -> inv st'.
Proof.
  intros O I H. destruct (send_core _ _ _ _ _ _ _ _ O I H) as (st1 & eff1 & C & _ & E1 & E2 & E3).
  pose proof (core_inv _ _ _ _ _ _ O I C) as I1. destruct st' as [c' si' edp']. cbn [st_si st_edp st_child] in *. subst si' edp'.
  apply inv_fixed; [|assumption]. destruct (_ && _); rewrite E3; [apply expire_fixed|reflexivity].
Qed.
