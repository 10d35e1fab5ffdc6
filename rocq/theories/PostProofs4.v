(** Captures of the client and of the daemon. *)
From Verif Require Import Base Tlv Types Checks Msg Protos Wire Util Parent Child Cli Post Spec SpecAdv SpecRound SpecNet SpecChild SpecCli SpecPost
  Lemmas DecProofs NetProofs WireProofs ChildProofs2 ParentProofs CliProofs1 CliProofs2 CliProofs3 CliProofs4 CliProofs5 CliProofs7 PostProofs1 PostProofs3.

(** ** The client *)
Section loop.
Variables (c : cconf) (idx : list Z) (now : Z).
Hypotheses (Hmode : cl_mode c <> 1) (Hnow : 0 <= now < 9223372036854775808).
Lemma written_stale es : Forall genuine es -> (forall e, In e es -> wants c idx e = true -> fresh now e = false) ->
  forall p, length p = 8%nat -> cli_written c idx now p (map entry_bytes es) = DOk [].
Proof.
  induction 1 as [|e es Hg Hgs IH]; intros Hs p Hp; cbn [map cli_written]; [reflexivity|].
  rewrite genuine_len by assumption. change (negb (1558 =? PARENT_MSG_MAX)) with false. cbv iota.
  assert (IH' := IH (fun e' H => Hs e' (or_intror H))).
  destruct (wants c idx e) eqn:W.
  - destruct (step_stale c idx now Hmode Hnow e p Hg W (Hs e (or_introl eq_refl) W) Hp) as (p' & Hp' & ->).
    cbn [dbind andb app]. now rewrite IH'.
  - rewrite step_unwanted by assumption. cbn [dbind andb app]. now rewrite IH'.
Qed.
Lemma written_all es : Forall genuine es -> (forall e, In e es -> q_received e <= now) ->
  undisturbed (wants c idx) (fresh now) es ->
  cli_written c idx now no_peers (map entry_bytes es)
  = DOk (map entry_bytes (pick (cl_once c) (filter (fun e => wants c idx e && fresh now e) es))).
Proof.
  induction 1 as [|e es Hg Hgs IH]; intros Hr Hu; cbn [map cli_written filter].
  - now destruct (cl_once c).
  - rewrite genuine_len by assumption. change (negb (1558 =? PARENT_MSG_MAX)) with false. cbv iota.
    destruct (wants c idx e) eqn:W; cbn [andb].
    + destruct (fresh now e) eqn:F.
      * rewrite step_fresh by (try assumption; apply Hr; now left). cbn [dbind andb].
        destruct (cl_once c) eqn:O; [reflexivity|]. rewrite IH; [reflexivity| |now apply undisturbed_tail in Hu].
        intros e' He. apply Hr. now right.
      * destruct (step_stale c idx now Hmode Hnow e no_peers Hg W F eq_refl) as (p' & Hp' & ->).
        assert (St : forall b, In b es -> wants c idx b = true -> fresh now b = false)
          by now apply undisturbed_head with (1 := Hu).
        cbn [dbind andb app]. rewrite written_stale by assumption. cbn [dbind].
        replace (filter _ es) with (@nil entry); [now destruct (cl_once c)|].
        clear - St. induction es as [|b es IH]; [reflexivity|]. cbn [filter].
        destruct (wants c idx b) eqn:Wb; [rewrite (St b (or_introl eq_refl) Wb)|]; cbn [andb];
          apply IH; intros b' Hb'; apply St; now right.
    + rewrite step_unwanted by assumption. cbn [dbind andb app]. rewrite IH; [reflexivity| |now apply undisturbed_tail in Hu].
      intros e' He. apply Hr. now right.
Qed.
End loop.
Definition frame (e : entry) : list Z := firstn (Z.to_nat (q_len e)) (q_msg e).
Lemma pick_in A b (l : list A) x : In x (pick b l) -> In x l.
Proof. destruct b; [|easy]. destruct l as [|y l]; [easy|]. intros [->|[]]. now left. Qed.
Theorem client_capture ol names env es :
  usable (letters ol) names (ce_ifindex env) -> way (letters ol) 100 -> ce_tty env = false ->
  0 <= ce_now env < 9223372036854775808 -> clock_ok (ce_clock env) ->
  Forall genuine es -> (forall e, In e es -> q_received e <= ce_now env) ->
  (forall e, In e es -> q_proto e = 5 -> ~ In 67 (letters ol)) ->
  undisturbed (fun e => asked (letters ol) (q_proto e) && asked_if names (ce_ifindex env) (q_index e)) (fresh (ce_now env)) es ->
  let all := filter (fun e => asked (letters ol) (q_proto e) && asked_if names (ce_ifindex env) (q_index e)
                              && fresh (ce_now env) e) es in
  exists out ks, cli_run ol names env (map entry_bytes es) = DOk (mkRun out [] 0)
  /\ capture_read out = Some ks
  /\ capture_of (ce_clock env) (map (fun e => firstn (Z.to_nat (q_len e)) (q_msg e))
       (if existsb (Z.eqb 111) (letters ol) then firstn 1 all else all)) ks.
Proof.
  intros Hu Hw Htty Hnow Hclock Hg Hr Hc Hd all. set (ls := letters ol) in *.
  assert (W : forall e, In e es -> wants (conf_of ls) (map (ce_ifindex env) names) e
    = asked ls (q_proto e) && asked_if names (ce_ifindex env) (q_index e)).
  { intros e He. rewrite conf_wants by (rewrite Forall_forall in Hg; now apply genuine_proto, Hg).
    unfold selects. replace (negb _) with true; [now rewrite andb_true_r|].
    destruct (inl 67 ls) eqn:E; [|reflexivity]. apply inl_in in E. destruct (Z.eqb_spec (q_proto e) 5) as [K|K]; [|reflexivity].
    now destruct (Hc e He K). }
  assert (Fl : filter (fun e => wants (conf_of ls) (map (ce_ifindex env) names) e && fresh (ce_now env) e) es = all).
  { unfold all. apply filter_ext_in'. intros e He. now rewrite W. }
  unfold cli_run. destruct (args_some ol names env Hu) as (c0 & t & -> & ->). fold ls.
  rewrite (indexes_some (ce_ifindex env) names (proj2 (proj2 Hu))), (way_mode _ _ Hw), Htty.
  change (mode_of 100 =? MODE_DEBUG) with true. cbv iota.
  rewrite written_all; try assumption.
  - rewrite Fl. cbn [dbind]. set (sel := pick (cl_once (conf_of ls)) all).
    assert (Hsel : Forall genuine sel).
    { apply Forall_forall. intros e He. rewrite Forall_forall in Hg. apply Hg. apply pick_in in He. unfold all in He.
      now apply filter_In in He as [He _]. }
    rewrite map_map.
    assert (Em : map (fun e => (pm_msg (entry_bytes e), pm_len (entry_bytes e))) sel = map (fun e => (q_msg e, q_len e)) sel).
    { apply map_ext_in. intros e He. rewrite Forall_forall in Hsel. apply Hsel in He.
      destruct He as (f & attrs & Hb & Hl & Hm & Hq & Hi & Hp & Hn & Hrr & _).
      now rewrite (entry_msg e f), (entry_dlen e f), Hm, Hq by assumption. }
    rewrite Em.
    destruct (capture_good (ce_big env) (ce_clock env) Hclock (map (fun e => (q_msg e, q_len e)) sel)) as (ks & E & K).
    { apply Forall_forall. intros x Hx. apply in_map_iff in Hx as (e & <- & He). rewrite Forall_forall in Hsel. apply Hsel in He.
      destruct He as (f & attrs & Hb & Hl & Hm & Hq & _). rewrite Hm, Hq. rewrite zlen_app.
      pose proof (zlen_nonneg _ (repeat 0 (Z.to_nat (1518 - zlen f)))). lia. }
    eexists _, ks. split; [reflexivity|]. split; [exact E|]. rewrite map_map in K. exact K.
  - rewrite (way_mode _ _ Hw). discriminate.
  - eapply undisturbed_ext; [|exact Hd]. intros e He. cbv beta. symmetry. now apply W.
Qed.
Lemma capture_tty ol names env reads : way (letters ol) 100 -> ce_tty env = true ->
  cli_run ol names env reads = DOk (mkRun [] [] 1).
Proof.
  intros Hw Ht. unfold cli_run. destruct (cli_args _ _ ol) as [[c0 t]|] eqn:E; [|reflexivity].
  destruct (cli_indexes _ names) eqn:Ei; [|reflexivity].
  assert (Hu : usable (letters ol) names (ce_ifindex env)).
  { assert (N1 : cli_opts (mkCli 0 MODE_CLI false) (is_some (@None (list Z * list Z))) (letters ol) <> None) by (rewrite args_opts, E; easy).
    apply opts_inv in N1 as (A & _ & B). split; [exact A|]. split; [exact B|]. apply indexes_inv. now rewrite Ei. }
  destruct (args_some ol names env Hu) as (c1 & t1 & E1 & E2). rewrite E in E1. injection E1 as <- <-.
  rewrite E2, (way_mode _ _ Hw), Ht. reflexivity.
Qed.

(** ** The daemon *)
Definition silent (e : peff) : bool := match e with EFrame _ _ _ | EMulti _ _ _ => false | _ => true end.
Definition dumps (eff : list peff) : list (list Z) := flat_map (fun e => match e with EDump _ f => [f] | _ => [] end) eff.
Section debug.
Variables (cfg : pcfg) (Hdbg : has (pc_opts cfg) OPT_DEBUG = true).
Lemma open_silent fds index name os fds' eff ok : parent_open cfg fds index name os = Some (fds', eff, ok) ->
  forallb silent eff = true /\ dumps eff = [].
Proof.
  unfold parent_open. rewrite Hdbg, orb_true_r. destruct (os_sock os); [|intros [= <- <- <-]; now split|discriminate].
  destruct (_ <? 0); intros [= <- <- <-]; now split.
Qed.
Lemma close_silent fds r : forallb silent (snd (parent_close cfg fds r)) = true /\ dumps (snd (parent_close cfg fds r)) = [].
Proof. unfold parent_close. rewrite Hdbg, andb_false_r. now split. Qed.
Lemma send_silent fds d os : forallb silent (r_eff (parent_send cfg fds d os)) = true.
Proof.
  unfold parent_send. cbv zeta. destruct (negb _); [reflexivity|]. destruct (os_name os); [|reflexivity].
  destruct (negb _); [reflexivity|]. destruct (negb _); [reflexivity|]. destruct (proto_check _ _ _) as [[?|]| | | |]; try reflexivity.
  now rewrite Hdbg.
Qed.
Lemma silent_app a b : forallb silent a = true -> forallb silent b = true -> forallb silent (a ++ b) = true.
Proof. intros. now rewrite forallb_app, H, H0. Qed.
Lemma dumps_app a b : dumps (a ++ b) = dumps a ++ dumps b.
Proof. apply flat_map_app. Qed.
Lemma req_silent fds d os : forallb silent (r_eff (parent_req cfg fds d os)) = true /\ dumps (r_eff (parent_req cfg fds d os)) = [].
Proof.
  assert (G : forall fds0 eff op index len buf, forallb silent eff = true /\ dumps eff = [] ->
    let r := mkRes fds0 (eff ++ [EReply op index len (firstn (Z.to_nat len) buf)]) (os_reply os) in
    forallb silent (r_eff r) = true /\ dumps (r_eff r) = []).
  { intros fds0 eff op index len buf [H1 H2]. cbn [r_eff]. rewrite dumps_app, H2. split; [now apply silent_app|reflexivity]. }
  unfold parent_req. cbv zeta. destruct (negb _); [now split|].
  destruct (os_name os) as [name|]; [|now apply (G fds [])].
  destruct (parent_check _ _ _) as [[]|]; [|now split|now split].
  destruct (_ =? PARENT_OPEN).
  { destruct (rfd_byindex _ _); [now apply (G fds [])|].
    destruct (parent_open _ _ _ _ _) as [[[fds1 eff] ok]|] eqn:E; [|now split]. apply G. now apply open_silent in E. }
  destruct (_ =? PARENT_CLOSE).
  { destruct (rfd_byindex _ _) as [r|]; [|now apply (G fds [])].
    pose proof (close_silent fds r) as K. destruct (parent_close cfg fds r) as [fds1 eff]. now apply G. }
  destruct (req_answer _ _ _ _ _) as [[n buf] eff] eqn:E. apply G. unfold req_answer in E. cbv zeta in E.
  repeat match type of E with
  | (if ?b then _ else _) = _ => destruct b
  | match ?o with Some _ => _ | None => _ end = _ => destruct o
  end; injection E as <- <- <-; now split.
Qed.
Theorem debug_silent es : forall fds, forallb silent (r_eff (parent_run cfg fds es)) = true.
Proof.
  induction es as [|e es IH]; intros fds; cbn [parent_run]; [reflexivity|]. cbv zeta.
  assert (S1 : forallb silent (r_eff (parent_step cfg fds e)) = true) by (destruct e; [apply req_silent|apply send_silent]).
  destruct (r_alive _); [|assumption]. cbn [r_eff]. now apply silent_app.
Qed.
Lemma send_dump fds d os index p received f payload name :
  bytes f -> carries d index p received f -> bytes d -> 0 <= p < 6 -> 60 <= zlen f <= 1518 ->
  proto_frame p f payload -> os_name os = Some name ->
  parent_send cfg fds d os = mkRes fds [EDump index f] true.
Proof.
  intros Hf (L & Ei & Ep & Er & El & Em) Hb Hp Hl Hpf Hn.
  unfold parent_send. cbv zeta. rewrite Hn, Ei, Ep, El, Em.
  assert (Es : msg_size_ok (Z.min (zlen d) PARENT_MSG_MAX) (msg_mem d) = true).
  { unfold msg_size_ok, PARENT_MSG_MIN, PARENT_MSG_MAX. rewrite El, L, Z.mod_small by lia. lia. }
  rewrite Es. cbn [negb]. replace (60 <=? zlen f) with true by lia.
  replace (p <? PROTO_MAX) with true by (unfold PROTO_MAX; lia). cbn [negb].
  assert (Hin : in_buffer (mkCtx (f ++ repeat 0 (Z.to_nat (1518 - zlen f))) (zlen f) 1 [] 0 0) f).
  { exists (repeat 0 (Z.to_nat (1518 - zlen f))). cbn [d_buf Msg.d_len]. split; [reflexivity|].
    split; [zl; lia|]. split; [reflexivity|]. split; assumption. }
  destruct (proj2 (check_frame p _ _ Hp Hin) (ex_intro _ _ Hpf)) as [o Eo]. cbn [d_buf Msg.d_len] in Eo.
  now rewrite Eo, firstn_zlen_app, Hdbg.
Qed.
Lemma debug_dumps es fs : handed es fs -> forall fds, r_alive (parent_run cfg fds es) = true ->
  dumps (r_eff (parent_run cfg fds es)) = fs.
Proof.
  induction 1 as [|d os es fs H IH|d os es fs Hn H IH|d os es fs index p received f payload Hf Hb Hc Hp Hl Hpf Hn H IH];
    intros fds; cbn [parent_run parent_step]; cbv zeta; [reflexivity| | |].
  - destruct (r_alive (parent_req _ _ _ _)) eqn:E; [|now rewrite E]. cbn [r_alive r_eff]. intros A.
    now rewrite dumps_app, (proj2 (req_silent fds d os)), IH.
  - destruct (send_unknown cfg fds d os Hn) as (E1 & E2 & ->). cbn [r_alive r_eff]. intros A. rewrite E1. cbn [app]. now apply IH.
  - destruct (os_name os) as [name|] eqn:En; [|now destruct Hn].
    rewrite (send_dump fds d os index p received f payload name) by assumption. cbn [r_alive r_eff r_fds]. intros A.
    rewrite dumps_app, IH by assumption. reflexivity.
Qed.
Lemma debug_sends es fs : handed es fs -> (forall e, In e es -> exists d os, e = PSend d os) -> forall fds,
  r_alive (parent_run cfg fds es) = true.
Proof.
  induction 1 as [|d os es fs H IH|d os es fs Hn H IH|d os es fs index p received f payload Hf Hb Hc Hp Hl Hpf Hn H IH];
    intros He fds; cbn [parent_run parent_step]; cbv zeta; [reflexivity| | |].
  - destruct (He _ (or_introl eq_refl)) as (? & ? & K). discriminate K.
  - destruct (send_unknown cfg fds d os Hn) as (E1 & E2 & ->). cbn [r_alive]. apply IH. intros e K. apply He. now right.
  - destruct (os_name os) as [name|] eqn:En; [|now destruct Hn].
    rewrite (send_dump fds d os index p received f payload name) by assumption. cbn [r_alive]. apply IH. intros e K. apply He. now right.
Qed.
Lemma dumps_map eff : flat_map (fun e => match e with EDump _ f => [(f, zlen f)] | _ => [] end) eff = map (fun f => (f, zlen f)) (dumps eff).
Proof. induction eff as [|[] eff IH]; cbn; [reflexivity|..]; try exact IH. now rewrite IH. Qed.
Theorem debug_capture es fs big clock : clock_ok clock -> handed es fs -> r_alive (parent_run cfg [] es) = true ->
  exists ks, capture_read (daemon_capture big clock (r_eff (parent_run cfg [] es))) = Some ks /\ capture_of clock fs ks.
Proof.
  intros Hc H A. unfold daemon_capture. rewrite dumps_map, (debug_dumps es fs H [] A).
  destruct (capture_good big clock Hc (map (fun f => (f, zlen f)) fs)) as (ks & E & K).
  - clear - H. induction H; cbn [map]; try assumption; [constructor|]. constructor; [lia|assumption].
  - exists ks. split; [exact E|]. rewrite map_map in K.
    replace (map _ fs) with fs in K; [exact K|]. clear. induction fs as [|f fs IH]; [reflexivity|].
    cbn [map]. rewrite <- IH. f_equal. unfold zlen. now rewrite Nat2Z.id, firstn_all.
Qed.
End debug.
