(** Proofs about Psock.v. *)
From Verif Require Import Base Types Tlv Checks Wire Bpf Spec SpecNet Lemmas BpfProofs Parent ParentProofs ParentProofs2 Psock SpecPsock.

(** ** Handles *)
Lemma handles_app i a b : handles i (a ++ b) = handles i a + handles i b.
Proof. induction a as [|[j []|j n []|m|m| | |q| | |j] a IH]; cbn [handles app]; lia. Qed.
Lemma sockets_app i a b : sockets i (a ++ b) = sockets i a + sockets i b.
Proof. unfold sockets. now rewrite filter_app, zlen_app. Qed.
Lemma sockets_remove i fds r : In r fds -> sockets i (rfd_remove fds (rf_index r)) = sockets i fds - (if i =? rf_index r then 1 else 0).
Proof.
  unfold sockets. induction fds as [|s fds IH]; [easy|]. intros H. cbn [rfd_remove filter].
  destruct (rf_index s =? rf_index r) eqn:E.
  - destruct (rf_index s =? i) eqn:Ei; destruct (i =? rf_index r) eqn:Er; rewrite ?zlen_cons; lia.
  - destruct H as [->|H]; [lia|]. cbn [filter]. destruct (rf_index s =? i); rewrite ?zlen_cons, (IH H); lia.
Qed.
Lemma calls_app cfg a b : close_calls cfg (a ++ b) = close_calls cfg a ++ close_calls cfg b.
Proof. unfold close_calls. apply flat_map_app. Qed.
Lemma loop_calls cfg index en : forall q op, close_calls cfg (multi_loop cfg index q en op) = [].
Proof.
  induction en as [|e en IH]; intros q op; cbn [multi_loop]; [reflexivity|].
  destruct (negb e && _); [apply IH|]. unfold close_calls. cbn [flat_map app]. apply IH.
Qed.
Lemma multi_calls cfg index op : close_calls cfg (parent_multi cfg index op) = [].
Proof. unfold parent_multi. destruct (has _ _); [reflexivity|apply loop_calls]. Qed.
Lemma closed_calls cfg fds r : has (pc_opts cfg) OPT_DEBUG = false ->
  close_calls cfg (snd (parent_close cfg fds r)) = [KClose (rf_index r)].
Proof.
  intros D. unfold parent_close. cbn [snd]. rewrite calls_app.
  replace (close_calls cfg (if _ : bool then _ else _)) with (@nil pcall).
  - unfold close_calls. cbn. now rewrite D.
  - destruct (_ && _); [now rewrite multi_calls|reflexivity].
Qed.

Lemma recv_bit opts : has opts OPT_RECV = Z.testbit opts 2.
Proof.
  unfold has, OPT_RECV. replace 4 with (2 ^ 2) by reflexivity. rewrite <- (Z.mul_1_l (2 ^ 2)), <- Z.shiftl_mul_pow2 by lia.
  destruct (Z.testbit opts 2) eqn:E.
  - apply negb_true_iff, Z.eqb_neq. intros K. apply (f_equal (fun z => Z.testbit z 2)) in K.
    rewrite Z.land_spec, E, Z.shiftl_spec, Z.bits_0 in K by lia. discriminate.
  - apply negb_false_iff, Z.eqb_eq. apply Z.bits_inj'. intros i Hi.
    rewrite Z.land_spec, Z.bits_0, Z.shiftl_spec by lia.
    destruct (Z.eq_dec i 2) as [->|Hn]; [now rewrite E|]. apply andb_false_iff. right.
    destruct (Z.ltb_spec i 2) as [Hl|Hg]; [now rewrite Z.testbit_neg_r by lia|].
    apply (Z.bits_above_log2 1); cbn; lia.
Qed.
Lemma filter_passes opts f : bytes f ->
  bpf_run (if has opts OPT_RECV then proto_filter else reject_filter) 0 f 0 0 <> 0
  <-> Z.testbit opts 2 = true /\ named_frame f.
Proof.
  intros Hb. transitivity (socket_filter opts f = true).
  - unfold socket_filter. split; intros H; [apply negb_true_iff; lia|apply negb_true_iff in H; lia].
  - destruct (Z.testbit opts 2) eqn:E.
    + rewrite (filter_iff opts f E Hb). split; [now split|now intros []].
    + rewrite (reject_all opts f E). split; [discriminate|now intros []].
Qed.

(** The outcomes of parent_socket. *)
Lemma socket_cases opts index name p : has opts OPT_DEBUG = false ->
  let '(s, cs) := parent_socket opts index name p in
  (s = SockFatal)
  \/ (s = SockFail /\ (forall i, handles i cs = 0) /\ exists cs', cs = KCreate index name true :: cs' ++ [KClose index])
  \/ (s = SockFd (pp_fd p) /\ (forall i, handles i cs = if i =? index then 1 else 0)
      /\ all_well p /\ set_up index name (fun f => Z.testbit opts 2 = true /\ named_frame f) cs).
Proof.
  intros D. unfold parent_socket. rewrite D. cbv zeta.
  assert (F : forall a, handles a [KClose index] = if a =? index then -1 else 0) by (intros a; cbn; lia).
  destruct (pp_create p) eqn:E1; cbn [negb]; [|now left].
  destruct (pp_timeout p) eqn:E2; cbn [negb]; [|now left].
  destruct (pp_snaplen p) eqn:E3; cbn [negb]; [|now left].
  destruct (pp_immediate p) eqn:E4; cbn [negb]; [|now left].
  destruct (pp_activate p) eqn:E5; cbn [negb].
  2:{ right. left. split; [reflexivity|]. split; [intros i; cbn; destruct (i =? index); lia|].
      eexists [_; _; _; _]. reflexivity. }
  destruct (pp_filter p) eqn:E6; cbn [negb].
  2:{ right. left. split; [reflexivity|]. split; [intros i; cbn; destruct (i =? index); lia|].
      eexists [_; _; _; _; _]. reflexivity. }
  destruct (pp_nonblock p) eqn:E7; cbn [negb].
  2:{ right. left. split; [reflexivity|]. split; [intros i; cbn; destruct (i =? index); lia|].
      eexists [_; _; _; _; _; _]. reflexivity. }
  destruct (pp_direction p) eqn:E8; cbn [negb].
  2:{ right. left. split; [reflexivity|]. split; [intros i; cbn; destruct (i =? index); lia|].
      eexists [_; _; _; _; _; _; _]. reflexivity. }
  right. right. split; [reflexivity|]. split; [intros i; cbn; destruct (i =? index); lia|].
  split; [unfold all_well; tauto|].
  set (prog := if has opts OPT_RECV then proto_filter else reject_filter).
  exists [KTimeout 0; KSnaplen ETHER_MAX_LEN; KImmediate], [KFilter prog; KNonblock; KIncoming], prog.
  split; [reflexivity|]. split; [now right; left|]. split; [now right; right; left|]. split; [now left|].
  split.
  { intros q H. cbn in H. repeat (destruct H as [H|H]; [try discriminate|]); [|easy]. congruence. }
  split; [intros f Hb; now apply filter_passes|]. split; [now right; left|]. split; [now right; right; left|].
  intros i H. cbn in H. repeat (destruct H as [H|H]; [discriminate|]). easy.
Qed.
Lemma socket_outcome opts i j n m p : fst (parent_socket opts i n p) = fst (parent_socket opts j m p).
Proof.
  unfold parent_socket. cbv zeta.
  repeat match goal with |- context [if ?c then _ else _] => destruct c; [|] end; reflexivity.
Qed.

(** parent_open with its calls. *)
Lemma open_calls cfg fds index name os p : has (pc_opts cfg) OPT_DEBUG = false ->
  let cs := snd (parent_socket (pc_opts cfg) index (firstn 15 name) p) in
  match parent_open cfg fds index name (with_sock (fst (parent_socket (pc_opts cfg) 0 [] p)) os) with
  | None => True
  | Some (fds', eff, ok) =>
      close_calls cfg eff = []
      /\ (ok = false -> fds' = fds /\ (0 <= pp_fd p -> forall i, handles i cs = 0))
      /\ (ok = true -> exists s, fds' = fds ++ [s] /\ rf_index s = index /\ rf_name s = firstn 15 name
           /\ rf_fd s = pp_fd p /\ 0 <= pp_fd p
           /\ (forall i, handles i cs = if i =? index then 1 else 0)
           /\ all_well p /\ set_up index (firstn 15 name) (fun f => Z.testbit (pc_opts cfg) 2 = true /\ named_frame f) cs)
  end.
Proof.
  intros D. cbv zeta. rewrite (socket_outcome _ 0 index [] (firstn 15 name)).
  pose proof (socket_cases (pc_opts cfg) index (firstn 15 name) p D) as C.
  destruct (parent_socket (pc_opts cfg) index (firstn 15 name) p) as [s cs]. cbn [fst snd].
  unfold parent_open. cbn [with_sock os_sock].
  destruct C as [->|[(-> & H & _)|(-> & H & W & S)]]; [exact I| |].
  - split; [reflexivity|]. split; [now intros _|discriminate].
  - destruct (pp_fd p <? 0) eqn:E.
    + split; [reflexivity|]. split; [|discriminate]. intros _. split; [reflexivity|lia].
    + split; [|split; [discriminate|]].
      * unfold close_calls. cbn [flat_map app].
        match goal with |- flat_map ?f ?l = _ => change (close_calls cfg l = []) end.
        destruct (_ || _); [reflexivity|apply multi_calls].
      * intros _. eexists. split; [reflexivity|]. cbn. split; [reflexivity|]. split; [reflexivity|].
        split; [reflexivity|]. split; [lia|]. now split.
Qed.

(** What one event does. *)
Definition balanced (cfg : pcfg) (fds : list rawfd) (x : pres * list pcall) : Prop :=
  r_alive (fst x) = true -> forall i, handles i (snd x) = sockets i (r_fds (fst x)) - sockets i fds.
Lemma sockets_snoc i fds s : sockets i (fds ++ [s]) = sockets i fds + (if i =? rf_index s then 1 else 0).
Proof.
  rewrite sockets_app. unfold sockets. cbn [filter]. rewrite (Z.eqb_sym (rf_index s)).
  destruct (i =? rf_index s); reflexivity.
Qed.
Lemma answer_calls cfg op name buf os : close_calls cfg (snd (req_answer cfg op name buf os)) = [].
Proof.
  unfold req_answer. cbv zeta.
  repeat match goal with
  | |- context [if ?c then _ else _] => destruct c
  | |- context [match ?c with Some _ => _ | None => _ end] => destruct c
  end; reflexivity.
Qed.
Lemma step_balanced cfg fds e p : has (pc_opts cfg) OPT_DEBUG = false -> 0 <= pp_fd p ->
  balanced cfg fds (sock_step cfg fds e p).
Proof.
  intros D Hp. unfold balanced, sock_step. cbn [fst snd].
  destruct e as [d os|d os]; unfold with_pcap; cbn [parent_step opens].
  - unfold parent_req. cbv zeta. cbn [with_sock os_name os_reply].
    destruct (negb (req_size_ok _ _)); [discriminate|].
    destruct (os_name os) as [name|]; [|cbn; intros _ i; lia].
    destruct (parent_check _ _ _) as [[]|]; try discriminate.
    destruct (_ =? PARENT_OPEN).
    + destruct (rfd_byindex fds _) eqn:E; [cbn; intros _ i; lia|].
      pose proof (open_calls cfg fds (pr_index (req_mem d)) name os p D) as O. cbv zeta in O.
      destruct (parent_open _ _ _ _ _) as [[[fds1 eff] ok]|]; [|discriminate].
      destruct O as (O1 & O2 & O3). cbn [r_alive r_fds r_eff]. intros _ i.
      rewrite calls_app, O1. cbn [app]. change (close_calls cfg [EReply _ _ _ _]) with (@nil pcall). rewrite app_nil_r.
      destruct ok.
      * destruct (O3 eq_refl) as (s & -> & Hi & _ & _ & _ & Hh & _). rewrite Hh, sockets_snoc, Hi. lia.
      * destruct (O2 eq_refl) as (-> & Hh). rewrite Hh by assumption. lia.
    + destruct (_ =? PARENT_CLOSE).
      * destruct (rfd_byindex fds _) as [r|] eqn:E; [|cbn; intros _ i; lia].
        apply byindex_index in E as [_ E]. pose proof (closed_calls cfg fds r D) as C.
        unfold parent_close in *. cbn [snd] in C. cbn [r_alive r_fds r_eff app]. intros _ i.
        rewrite calls_app, C. cbn [app handles]. rewrite (sockets_remove i fds r E).
        change (close_calls cfg [EReply _ _ _ _]) with (@nil pcall). cbn [handles]. destruct (i =? rf_index r); lia.
      * pose proof (answer_calls cfg (pr_op (req_mem d)) name (pr_buf (req_mem d))
                     (with_sock (fst (parent_socket (pc_opts cfg) 0 [] p)) os)) as A.
        destruct (req_answer _ _ _ _ _) as [[n buf] eff]. cbn [snd] in A. cbn [r_alive r_fds r_eff app]. intros _ i.
        rewrite calls_app, A. cbn. lia.
  - unfold parent_send. cbv zeta. cbn [with_sock os_name os_rawlen os_gone].
    destruct (negb (msg_size_ok _ _)); [cbn; intros _ i; lia|].
    destruct (os_name os) as [name|]; [|cbn; intros _ i; lia].
    destruct (negb (60 <=? _)); [discriminate|]. destruct (negb (_ <? PROTO_MAX)); [discriminate|].
    destruct (proto_check _ _ _) as [[o|]| | | |]; try discriminate. rewrite D.
    set (data := firstn _ _). set (index := pm_index (msg_mem d)).
    destruct (rfd_byindex fds index) as [r|] eqn:E.
    + rewrite E. destruct (_ && _); [|cbn; intros _ i; lia].
      apply byindex_index in E as [_ E]. pose proof (closed_calls cfg fds r D) as C.
      unfold parent_close in *. cbn [snd] in C. cbn [r_alive r_fds r_eff app]. intros _ i.
      change (EFrame ?a ?b ?c :: ?l) with ([EFrame a b c] ++ l). rewrite calls_app, C.
      change (close_calls cfg [EFrame _ _ _]) with (@nil pcall). cbn [app handles].
      rewrite (sockets_remove i fds r E). destruct (i =? rf_index r); lia.
    + pose proof (open_calls cfg fds index name os p D) as O. cbv zeta in O.
      destruct (parent_open _ _ _ _ _) as [[[fds1 eff] ok]|]; [|discriminate].
      destruct O as (O1 & O2 & O3). destruct ok.
      * destruct (O3 eq_refl) as (s & -> & Hi & _ & _ & _ & Hh & _).
        destruct (rfd_byindex (fds ++ [s]) index) as [r|] eqn:E2; [|discriminate].
        assert (R : In r (fds ++ [s])) by now apply byindex_index in E2.
        destruct (_ && _).
        -- pose proof (closed_calls cfg (fds ++ [s]) r D) as C.
           unfold parent_close in *. cbn [snd] in C. cbn [r_alive r_fds r_eff]. intros _ i.
           rewrite calls_app, C, calls_app, O1. change (close_calls cfg [EFrame _ _ _]) with (@nil pcall). cbn [app].
           rewrite handles_app, Hh, (sockets_remove i _ r R), sockets_snoc, Hi. cbn [handles]. destruct (i =? rf_index r); lia.
        -- cbn [r_alive r_fds r_eff]. intros _ i. rewrite calls_app, O1.
           change (close_calls cfg [EFrame _ _ _]) with (@nil pcall). cbn [app]. rewrite app_nil_r, Hh, sockets_snoc, Hi. lia.
      * destruct (O2 eq_refl) as (-> & Hh). cbn [r_alive r_fds r_eff]. intros _ i. rewrite O1, app_nil_r, Hh by assumption. lia.
Qed.
Lemma run_balanced cfg es : has (pc_opts cfg) OPT_DEBUG = false -> selectable es -> forall fds r cs,
  sock_run cfg fds es = (r, cs) -> r_alive r = true -> forall i, handles i cs = sockets i (r_fds r) - sockets i fds.
Proof.
  intros D S. induction S as [|[e p] es Hp S IH]; intros fds r cs; cbn [sock_run].
  - intros [= <- <-] _ i. cbn. lia.
  - pose proof (step_balanced cfg fds e p D Hp) as B. unfold balanced in B.
    destruct (sock_step cfg fds e p) as [r1 cs1]. cbn [fst snd] in B.
    destruct (r_alive r1) eqn:A.
    + specialize (IH (r_fds r1)). destruct (sock_run cfg (r_fds r1) es) as [r2 cs2].
      intros [= <- <-]. cbn [r_alive r_fds]. intros A2 i. rewrite handles_app, (B eq_refl), (IH _ _ eq_refl A2). lia.
    + intros [= <- <-]. congruence.
Qed.
(** The socket histories are those of Parent.v. *)
Lemma run_parent cfg es : forall fds,
  fst (sock_run cfg fds es) = parent_run cfg fds (map (fun x => with_pcap cfg (snd x) (fst x)) es).
Proof.
  induction es as [|[e p] es IH]; intros fds; cbn [sock_run parent_run map]; [reflexivity|].
  unfold sock_step at 1. cbn [fst snd]. destruct (r_alive _); [|reflexivity]. rewrite <- IH.
  destruct (sock_run _ _ _); reflexivity.
Qed.
Lemma sockets_one i fds : one_each fds -> sockets i fds = if in_dec Z.eq_dec i (map rf_index fds) then 1 else 0.
Proof.
  unfold one_each, sockets. induction fds as [|s fds IH]; [reflexivity|]. intros H.
  cbn [map] in *. apply NoDup_cons_iff in H as [Hn Hd]. specialize (IH Hd). cbn [filter].
  destruct (in_dec _ i (rf_index s :: map rf_index fds)) as [K|K]; destruct (rf_index s =? i) eqn:E.
  - rewrite zlen_cons, IH. destruct (in_dec _ _ _) as [K2|]; [|lia].
    contradiction Hn. now replace (rf_index s) with i by lia.
  - rewrite IH. destruct (in_dec _ _ _) as [|K2]; [reflexivity|]. destruct K as [K|K]; [lia|contradiction].
  - contradiction K. left. lia.
  - rewrite IH. destruct (in_dec _ _ _) as [K2|]; [|reflexivity]. contradiction K. now right.
Qed.
Lemma handles_sockets cfg es r cs : has (pc_opts cfg) OPT_DEBUG = false -> selectable es ->
  sock_run cfg [] es = (r, cs) -> r_alive r = true ->
  forall i, handles i cs = if in_dec Z.eq_dec i (map rf_index (r_fds r)) then 1 else 0.
Proof.
  intros D S H A i. rewrite (run_balanced cfg es D S [] r cs H A i), Z.sub_0_r. apply sockets_one.
  pose proof (run_parent cfg es []) as P. rewrite H in P. cbn [fst] in P. rewrite P. apply run_one_each. constructor.
Qed.

(** A socket that was not there before the event. *)
Lemma step_set_up cfg fds e p s : has (pc_opts cfg) OPT_DEBUG = false ->
  let '(r, cs) := sock_step cfg fds e p in
  In s (r_fds r) -> ~ In s fds ->
  all_well p /\ rf_fd s = pp_fd p
  /\ exists name, os_name (match e with PReq _ os => os | PSend _ os => os end) = Some name /\ rf_name s = firstn 15 name
     /\ exists cs1 cs2, cs = cs1 ++ cs2
     /\ set_up (rf_index s) (rf_name s) (fun f => Z.testbit (pc_opts cfg) 2 = true /\ named_frame f) cs1.
Proof.
  intros D. unfold sock_step.
  assert (G : forall name os index fds1 eff tl, os_name os = Some name ->
     parent_open cfg fds index name (with_sock (fst (parent_socket (pc_opts cfg) 0 [] p)) os) = Some (fds1, eff, true) ->
     In s fds1 -> ~ In s fds ->
     all_well p /\ rf_fd s = pp_fd p
     /\ exists nm, os_name os = Some nm /\ rf_name s = firstn 15 nm
     /\ exists cs1 cs2, snd (parent_socket (pc_opts cfg) index (firstn 15 name) p) ++ tl = cs1 ++ cs2
     /\ set_up (rf_index s) (rf_name s) (fun f => Z.testbit (pc_opts cfg) 2 = true /\ named_frame f) cs1).
  { intros name os index fds1 eff tl Hn Ho Hs Hns.
    pose proof (open_calls cfg fds index name os p D) as O. cbv zeta in O. rewrite Ho in O.
    destruct O as (_ & _ & O3). destruct (O3 eq_refl) as (s' & -> & Hi & Hm & Hf & _ & _ & W & S).
    apply in_app_or in Hs as [Hs|[<-|[]]]; [contradiction|]. split; [exact W|]. split; [exact Hf|].
    exists name. split; [exact Hn|]. split; [exact Hm|]. exists (snd (parent_socket (pc_opts cfg) index (firstn 15 name) p)), tl.
    split; [reflexivity|]. now rewrite Hm, Hi. }
  assert (F : forall name os index fds1 eff,
     parent_open cfg fds index name (with_sock (fst (parent_socket (pc_opts cfg) 0 [] p)) os) = Some (fds1, eff, false) -> fds1 = fds).
  { intros name os index fds1 eff Ho. pose proof (open_calls cfg fds index name os p D) as O. cbv zeta in O. rewrite Ho in O.
    now destruct O as (_ & [] & _). }
  destruct e as [d os|d os]; unfold with_pcap; cbn [parent_step opens].
  - unfold parent_req. cbv zeta. cbn [with_sock os_name os_reply].
    destruct (negb (req_size_ok _ _)); [easy|].
    destruct (os_name os) as [name|] eqn:En; [|easy].
    destruct (parent_check _ _ _) as [[]|]; try easy.
    destruct (_ =? PARENT_OPEN).
    + destruct (rfd_byindex fds _) eqn:E; [easy|].
      destruct (parent_open _ _ _ _ _) as [[[fds1 eff] ok]|] eqn:Eo; [|easy]. cbn [r_fds].
      destruct ok; [|apply F in Eo as ->; easy]. rewrite <- En. now apply G with (fds1 := fds1) (eff := eff).
    + destruct (_ =? PARENT_CLOSE).
      * destruct (rfd_byindex fds _) as [r|] eqn:E; [|easy]. unfold parent_close. cbn [r_fds]. intros H K.
        contradiction K. revert H. clear. induction fds as [|x l IH]; cbn; [easy|].
        destruct (_ =? _); [now right|]. intros [H|H]; [now left|right; now apply IH].
      * destruct (req_answer _ _ _ _ _) as [[n buf] eff]. easy.
  - unfold parent_send. cbv zeta. cbn [with_sock os_name os_rawlen os_gone].
    destruct (negb (msg_size_ok _ _)); [easy|].
    destruct (os_name os) as [name|] eqn:En; [|easy].
    destruct (negb (60 <=? _)); [easy|]. destruct (negb (_ <? PROTO_MAX)); [easy|].
    destruct (proto_check _ _ _) as [[o|]| | | |]; try easy. rewrite D.
    set (data := firstn _ _). set (index := pm_index (msg_mem d)).
    assert (R : forall l r, In s (rfd_remove l r) -> In s l).
    { clear. intros l r. induction l as [|x l IH]; cbn; [easy|].
      destruct (_ =? _); [now right|]. intros [H|H]; [now left|right; now apply IH]. }
    destruct (rfd_byindex fds index) as [r|] eqn:E.
    + rewrite E. destruct (_ && _); [|easy]. unfold parent_close. cbn [r_fds]. intros H K. contradiction K. now apply R in H.
    + destruct (parent_open _ _ _ _ _) as [[[fds1 eff] ok]|] eqn:Eo; [|easy].
      destruct ok; [|apply F in Eo as ->; easy].
      destruct (rfd_byindex fds1 index) as [r|] eqn:E2.
      * destruct (_ && _); [unfold parent_close; cbn [r_fds]; intros H; apply R in H; revert H|cbn [r_fds]];
          intros H; rewrite <- En; now apply G with (fds1 := fds1) (eff := eff).
      * cbn [r_fds]. intros H; rewrite <- En; now apply G with (fds1 := fds1) (eff := eff).
Qed.

(** ** Devices *)
Lemma upto_nl_app l rest : ~ In 10 l -> (rest = [] \/ exists r, rest = 10 :: r) -> upto_nl (l ++ rest) = l.
Proof.
  intros H R. induction l as [|b l IH]; cbn.
  - destruct R as [->|(r & ->)]; reflexivity.
  - destruct (b =? 10) eqn:E; [contradiction H; left; lia|]. f_equal. apply IH. intros K. apply H. now right.
Qed.
Lemma upto_nl_cut n : forall l, ~ In 10 l -> upto_nl (firstn n l) = firstn n l.
Proof.
  induction n as [|n IH]; intros [|b l] H; cbn; try reflexivity.
  destruct (b =? 10) eqn:E; [contradiction H; left; lia|]. f_equal. apply IH. intros K. apply H. now right.
Qed.
Lemma cstr_id l : ~ In 0 l -> cstr l = l.
Proof.
  induction l as [|b l IH]; intros H; cbn; [reflexivity|].
  destruct (b =? 0) eqn:E; [contradiction H; left; lia|]. f_equal. apply IH. intros K. apply H. now right.
Qed.
Lemma not_in_firstn (x : Z) n : forall l, ~ In x l -> ~ In x (firstn n l).
Proof. intros l H K. apply H. rewrite <- (firstn_skipn n l). apply in_or_app. now left. Qed.
Lemma line_read l rest n : 1 < n -> ~ In 10 l -> ~ In 0 l -> (rest = [] \/ exists r, rest = 10 :: r) ->
  read_line (l ++ rest) n = firstn (Z.to_nat (n - 1)) l.
Proof.
  intros Hn H N R. unfold read_line. set (k := Z.to_nat (n - 1)). rewrite firstn_app.
  destruct (Nat.le_gt_cases k (length l)) as [K|K].
  - replace (k - length l)%nat with 0%nat by lia. cbn [firstn]. rewrite app_nil_r, upto_nl_cut by assumption.
    apply cstr_id. now apply not_in_firstn.
  - rewrite (firstn_all2 l) by lia. rewrite upto_nl_app.
    + now apply cstr_id.
    + exact H.
    + destruct R as [->|(r & ->)]; [left; apply firstn_nil|right].
      destruct (k - length l)%nat as [|j] eqn:E; [lia|]. now exists (firstn j r).
Qed.
Lemma dev_reads dv path l n : 1 < n -> reads dv path l -> dev_line dv path n = Some (firstn (Z.to_nat (n - 1)) l).
Proof.
  intros Hn (rest & Hf & R & Hne & N1 & N0). unfold dev_line. rewrite Hf, line_read by assumption.
  destruct l as [|b l]; [easy|]. destruct (Z.to_nat (n - 1)) as [|k] eqn:E; [lia|].
  cbn [firstn]. rewrite zlen_cons. replace (_ =? 0) with false; [reflexivity|].
  pose proof (zlen_nonneg _ (firstn k l)). symmetry. apply Z.eqb_neq. lia.
Qed.
Lemma white_space b : isspace b = true <-> white b.
Proof. unfold isspace, white. lia. Qed.
Lemma chop_trimmed l t : trimmed l t -> chop l = t.
Proof.
  intros (sp & -> & Hw & Ht). unfold chop. rewrite rev_app_distr.
  assert (K : forall w x, Forall white w -> drop_spaces (w ++ x) = drop_spaces x).
  { induction w as [|b w IH]; intros x H; [reflexivity|]. apply Forall_cons_iff in H as [H1 H2]. cbn.
    apply white_space in H1. rewrite H1. now apply IH. }
  rewrite K.
  - destruct (rev t) as [|b r] eqn:E.
    + apply (f_equal (@rev Z)) in E. rewrite rev_involutive in E. now rewrite E.
    + apply (f_equal (@rev Z)) in E. rewrite rev_involutive in E. cbn [rev] in E.
      cbn [drop_spaces]. destruct (isspace b) eqn:Eb.
      * apply white_space in Eb. now apply Ht in E.
      * now rewrite E.
  - apply Forall_rev. exact Hw.
Qed.
Lemma slash_none l : ~ In 47 l -> from_slash l = None.
Proof.
  induction l as [|b l IH]; intros H; cbn; [reflexivity|]. rewrite IH by (intros K; apply H; now right).
  destruct (b =? 47) eqn:E; [contradiction H; left; lia|reflexivity].
Qed.
Lemma slash_last pre bus : ~ In 47 bus -> from_slash (pre ++ 47 :: bus) = Some (47 :: bus).
Proof.
  intros H. induction pre as [|b pre IH]; cbn [app from_slash].
  - now rewrite slash_none.
  - now rewrite IH.
Qed.
Lemma bus_base dv bus : on_bus dv bus -> exists link, dv_link dv = Some link /\ from_slash (firstn 255 link) = Some (47 :: bus).
Proof.
  intros (pre & Hl & Hn & Hs). exists (pre ++ 47 :: bus). split; [exact Hl|].
  rewrite firstn_all2 by (unfold zlen in Hn; lia). now apply slash_last.
Qed.
Lemma hexdigit_val d : 0 <= d < 16 -> hexval (hexdigit d) = Some d.
Proof.
  intros H. unfold hexval, hexdigit. destruct (d <? 10) eqn:E.
  - replace (_ && _) with true by lia. f_equal. lia.
  - replace (_ && _) with false by lia. replace (_ && _) with false by lia. replace (_ && _) with true by lia. f_equal. lia.
Qed.
Lemma kernel_hex_val n : 0 <= n < 65536 -> hex16 (kernel_hex n) = n.
Proof.
  intros H. unfold kernel_hex, hex16.
  assert (A : 0 <= n / 4096 < 16) by (split; [apply Z.div_pos; lia|apply Z.div_lt_upper_bound; lia]).
  pose proof (Z.mod_pos_bound (n / 256) 16). pose proof (Z.mod_pos_bound (n / 16) 16). pose proof (Z.mod_pos_bound n 16).
  cbn [drop_spaces]. change (isspace 48) with false. cbv iota beta.
  rewrite (hexdigit_val _ A). cbn [andb orb Z.eqb Pos.eqb].
  cbn [hexnum]. rewrite (hexdigit_val _ A), !hexdigit_val by lia. cbn [hexnum].
  rewrite Z.mod_small; lia.
Qed.
Lemma kernel_hex_short n : firstn (Z.to_nat (16 - 1)) (kernel_hex n) = kernel_hex n.
Proof. reflexivity. Qed.

Lemma put_str_first s buf : firstn (Z.to_nat (zlen s)) (put_str s buf) = s.
Proof.
  unfold put_str, zlen. rewrite Nat2Z.id. rewrite firstn_app, firstn_all, Nat.sub_diag. cbn [firstn]. apply app_nil_r.
Qed.
Lemma request_ok d : bytes d -> request_size d -> req_size_ok (Z.min (zlen d) PARENT_REQ_MAX) (req_mem d) = true.
Proof. intros Hb H. now apply req_size_iff. Qed.
Lemma device_reply cfg fds d os dv name t : bytes d -> request_size d -> os_name os = Some name ->
  pr_op (req_mem d) = 5 -> pc_pci cfg = true -> parent_device_id dv = t -> ~ In 0 t -> zlen t <= 511 ->
  r_eff (parent_req cfg fds d (with_device dv os)) = [EReply 5 (pr_index (req_mem d)) (zlen t) t].
Proof.
  intros Hb Hs Hn Ho Hp Ht H0 Hl. unfold parent_req. cbv zeta. rewrite (request_ok d Hb Hs). cbn [negb].
  cbn [with_device os_name]. rewrite Hn, Ho.
  replace (parent_check cfg 5 (pr_len (req_mem d))) with (Some true).
  2:{ unfold parent_check. replace (pr_len (req_mem d) <=? ETHER_MAX_LEN) with true.
      - cbn. now rewrite Hp.
      - symmetry. apply Z.leb_le. destruct Hs as [_ Hs]. unfold ETHER_MAX_LEN. lia. }
  change (5 =? PARENT_OPEN) with false. change (5 =? PARENT_CLOSE) with false. cbv iota beta.
  unfold req_answer. cbv zeta. cbn [with_device os_device_id]. rewrite Ht, (cstr_id t H0).
  rewrite firstn_all2 by (unfold zlen in Hl; lia).
  change ((5 =? PARENT_DESCR) || (5 =? PARENT_ALIAS)) with false.
  change ((5 =? PARENT_ETHTOOL_GSET) || (5 =? PARENT_ETHTOOL_GDRV)) with false.
  change (5 =? PARENT_DEVICE) with false. change (5 =? PARENT_DEVICE_ID) with true. cbv iota beta.
  cbn [r_eff app]. now rewrite put_str_first.
Qed.

Lemma no_zero_trim l t : trimmed l t -> ~ In 0 l -> ~ In 0 t.
Proof. intros (sp & -> & _) H K. apply H. apply in_or_app. now left. Qed.
Lemma trim_len l t : trimmed l t -> zlen t <= zlen l.
Proof. intros (sp & -> & _). rewrite zlen_app. pose proof (zlen_nonneg _ sp). lia. Qed.
Lemma usb_name dv vl v pl p :
  dv_pci dv = true -> dv_alloc dv = true -> on_bus dv (bs "usb") ->
  reads dv (bs "device/../manufacturer") vl -> reads dv (bs "device/../product") pl ->
  trimmed (firstn 31 vl) v -> trimmed (firstn 31 pl) p ->
  parent_device_id dv = p ++ bs " (" ++ v ++ bs ")"
  /\ ~ In 0 (p ++ bs " (" ++ v ++ bs ")") /\ zlen (p ++ bs " (" ++ v ++ bs ")") <= 511.
Proof.
  intros H1 H2 H3 Rv Rp Tv Tp. split; [|split].
  - unfold parent_device_id. rewrite H1, H2. cbn [negb]. apply bus_base in H3 as (link & -> & ->).
    change (beq (47 :: bs "usb") (bs "/usb")) with true. cbv iota.
    unfold SYSFS_USB_VENDOR, SYSFS_USB_DEVICE.
    rewrite (dev_reads dv _ vl 32 eq_refl Rv), (dev_reads dv _ pl 32 eq_refl Rp).
    change (Z.to_nat (32 - 1)) with 31%nat. now rewrite (chop_trimmed _ _ Tv), (chop_trimmed _ _ Tp).
  - destruct Rv as (? & _ & _ & _ & _ & Nv). destruct Rp as (? & _ & _ & _ & _ & Np).
    apply (not_in_firstn 0 31) in Nv. apply (not_in_firstn 0 31) in Np.
    apply (no_zero_trim _ _ Tv) in Nv. apply (no_zero_trim _ _ Tp) in Np.
    intros K. apply in_app_or in K as [K|K]; [contradiction|]. apply in_app_or in K as [K|K].
    { cbn in K. repeat (destruct K as [K|K]; [discriminate|]). easy. }
    apply in_app_or in K as [K|K]; [contradiction|]. cbn in K. repeat (destruct K as [K|K]; [discriminate|]). easy.
  - apply trim_len in Tv, Tp. pose proof (zlen_firstn_le Z 31 vl). pose proof (zlen_firstn_le Z 31 pl).
    rewrite !zlen_app. change (zlen (bs " (")) with 2. change (zlen (bs ")")) with 1. lia.
Qed.
Lemma usb_reply cfg fds d os dv name vl v pl p : bytes d -> request_size d -> os_name os = Some name ->
  pr_op (req_mem d) = 5 -> pc_pci cfg = true ->
  dv_pci dv = true -> dv_alloc dv = true -> on_bus dv (bs "usb") ->
  reads dv (bs "device/../manufacturer") vl -> reads dv (bs "device/../product") pl ->
  trimmed (firstn 31 vl) v -> trimmed (firstn 31 pl) p ->
  let t := p ++ bs " (" ++ v ++ bs ")" in
  r_eff (parent_req cfg fds d (with_device dv os)) = [EReply 5 (pr_index (req_mem d)) (zlen t) t].
Proof.
  intros Hb Hs Hn Ho Hp H1 H2 H3 Rv Rp Tv Tp. destruct (usb_name dv vl v pl p H1 H2 H3 Rv Rp Tv Tp) as (A & B & C).
  now apply device_reply with (name := name).
Qed.
Lemma pci_reply cfg fds d os dv name bus v n : bytes d -> request_size d -> os_name os = Some name ->
  pr_op (req_mem d) = 5 -> pc_pci cfg = true ->
  dv_pci dv = true -> dv_alloc dv = true -> on_bus dv bus -> bus <> bs "usb" ->
  0 <= v < 65536 -> 0 <= n < 65536 ->
  reads dv (bs "device/vendor") (kernel_hex v) -> reads dv (bs "device/device") (kernel_hex n) ->
  ~ In 0 (dv_lookup dv v n) -> zlen (dv_lookup dv v n) <= 511 ->
  let t := dv_lookup dv v n in
  r_eff (parent_req cfg fds d (with_device dv os)) = [EReply 5 (pr_index (req_mem d)) (zlen t) t].
Proof.
  intros Hb Hs Hn Ho Hp H1 H2 H3 Hu Bv Bn Rv Rn N0 NL. cbv zeta.
  apply device_reply with (name := name); try assumption.
  unfold parent_device_id. rewrite H1, H2. cbn [negb]. apply bus_base in H3 as (link & -> & ->).
  destruct (beq (47 :: bus) (bs "/usb")) eqn:E.
  { apply beq_true in E. contradiction Hu. change (bs "/usb") with (47 :: bs "usb") in E. congruence. }
  unfold SYSFS_PCI_VENDOR, SYSFS_PCI_DEVICE.
  rewrite (dev_reads dv _ _ 16 eq_refl Rv), (dev_reads dv _ _ 16 eq_refl Rn), !kernel_hex_short.
  rewrite !kernel_hex_val by assumption. rewrite (cstr_id _ N0). apply firstn_all2. unfold zlen in NL. lia.
Qed.
Lemma none_reply cfg fds d os dv name : bytes d -> request_size d -> os_name os = Some name ->
  pr_op (req_mem d) = 5 -> pc_pci cfg = true -> dv_link dv = None ->
  r_eff (parent_req cfg fds d (with_device dv os)) = [EReply 5 (pr_index (req_mem d)) 0 []].
Proof.
  intros Hb Hs Hn Ho Hp Hl. change 0 with (zlen (@nil Z)). apply device_reply with (name := name); try assumption.
  - unfold parent_device_id. rewrite Hl. destruct (negb _); [reflexivity|]. now destruct (negb _).
  - easy.
  - rewrite zlen_nil. lia.
Qed.

(** ** Leaks *)
Lemma run_app cfg es1 : forall fds es2 r1 cs1, sock_run cfg fds es1 = (r1, cs1) -> r_alive r1 = true ->
  sock_run cfg fds (es1 ++ es2) =
  (let '(r2, cs2) := sock_run cfg (r_fds r1) es2 in
   (mkRes (r_fds r2) (r_eff r1 ++ r_eff r2) (r_alive r2), cs1 ++ cs2)).
Proof.
  induction es1 as [|[e p] es1 IH]; intros fds es2 r1 cs1; cbn [sock_run app].
  - intros [= <- <-] _. cbn [r_fds r_eff app]. destruct (sock_run _ _ _) as [[f ef al] cs]. reflexivity.
  - destruct (sock_step cfg fds e p) as [r cs]. destruct (r_alive r) eqn:A.
    + destruct (sock_run cfg (r_fds r) es1) as [r' cs'] eqn:E. intros [= <- <-] A'. cbn [r_alive r_fds r_eff] in *.
      rewrite (IH _ es2 _ _ E A'). destruct (sock_run cfg (r_fds r') es2) as [r2 cs2]. cbn [r_fds r_eff r_alive].
      now rewrite !app_assoc.
    + intros [= <- <-]. congruence.
Qed.
Lemma leak cfg es count i (f : list pcall -> Z) : (forall a b, f (a ++ b) = f a + f b) -> f [] = 0 ->
  (let '(r, cs) := sock_run cfg [] es in r_alive r = true /\ r_fds r = [] /\ f cs = i) ->
  exists es' r cs, length es' = (count * length es)%nat /\ sock_run cfg [] es' = (r, cs)
    /\ r_alive r = true /\ r_fds r = [] /\ f cs = Z.of_nat count * i.
Proof.
  intros Ha H0. destruct (sock_run cfg [] es) as [r cs] eqn:E. intros (A & B & C).
  induction count as [|k (es' & r' & cs' & L & E' & A' & B' & C')].
  - exists [], (mkRes [] [] true), []. now repeat split.
  - exists (es ++ es'). rewrite (run_app cfg es [] es' r cs E A), B, E'. do 2 eexists. split; [rewrite app_length, L; lia|].
    split; [reflexivity|]. cbn [r_alive r_fds]. split; [exact A'|]. split; [exact B'|]. rewrite Ha. lia.
Qed.
Lemma duplicates_app i a b : duplicates i (a ++ b) = duplicates i a + duplicates i b.
Proof. induction a as [|[j []|j n []|m|m| | |q| | |j] a IH]; cbn [duplicates app]; lia. Qed.
