(** Proofs of C152. *)
From Verif Require Import Base Types Tlv Bpf Wire Parent Util Child Netif Sysinfo Send Cli Post Opts Getopt Config ClientMain
  Spec SpecAdv SpecRound SpecNet SpecChild SpecNetif SpecNetif2 SpecSend SpecSys SpecCli SpecE2E SpecPost SpecOpts SpecGetopt SpecCmd SpecClient.
From Verif Require Import Lemmas ChildProofs ChildProofs2 CliProofs5 CliProofs6 SendProofs1 SendProofs6 SysProofs1 E2EProofs OptsProofs GetoptProofs CmdProofs CmdProofs2 ClientProofs.

Lemma forall2_in {A B} (R : A -> B -> Prop) l rs : Forall2 R l rs -> forall x, In x l -> exists r, In r rs /\ R x r.
Proof. induction 1 as [|x r l rs H _ IH]; [easy|]. intros y [<-|K]; [eauto with datatypes|]. destruct (IH y K) as (r' & ? & ?). eauto with datatypes. Qed.

Lemma receives n perm words s names o : main_argv n perm words = Some (s, names) -> says perm daemon_letters words o names ->
  given (bs "aryz") o = true -> Z.testbit (u_opts s) 2 = true.
Proof.
  intros A Y G. apply daemon_iff in A as (o' & Y' & M). destruct (says_unique _ _ _ _ _ _ _ (or_introl eq_refl) Y Y') as [<- _].
  pose proof (opt_on n o names s M OPT_RECV 2 (bs "aryz") ltac:(cbn; auto || reflexivity || lia) ltac:(cbn; auto || reflexivity || lia)) as H.
  rewrite G in H. exact (H eq_refl).
Qed.

Lemma sender_shown cfg sos country location st e st' eff i p f  opts es c eff0 index sub now now2 c' perm words o names env :
  running_on cfg sos country location st -> event_ok e -> send_step cfg st e = DOk (st', eff) -> In (SFrame i p f) eff -> p <> 2 ->
  Z.testbit opts 2 = true -> reached opts es c eff0 -> Forall daemon_event es -> 0 <= index < 4294967296 ->
  netif_byindex (c_nfs c) index = Some sub -> netif_byaddr (c_nfs c) (firstn 6 (skipn 6 f)) = None ->
  hears opts c index f now now2 c' ->
  says perm client_letters words o names -> usable (map fst o) names (ce_ifindex env) -> without (bs "bdfpo") o ->
  SpecCli.asked (map fst o) p = true -> asked_if names (ce_ifindex env) index = true -> (p = 5 -> says_letter 67 o = false) ->
  0 <= now <= ce_now env -> ce_now env < 9223372036854775808 ->
  (forall en, In en (c_queue c') -> q_received en <= ce_now env) ->
  (forall en, In en (c_queue c') -> wanted o names (ce_ifindex env) en = true -> fresh (ce_now env) en = true) ->
  exists hw pw heading rs r x port,
  ladvdc perm words env (map entry_bytes (c_queue c')) = DOk (mkRun (legend ++ heading ++ concat rs) [] 0)
  /\ In r rs /\ row_of hw pw x r /\ In port (table st') /\ nf_index port = i
  /\ sh_name x = nf_name sub /\ sh_proto x = p /\ sh_hold x = 180 - (ce_now env - now)
  /\ nth 0 (sh_peer x) None = told p (si_hostname (st_si st')) /\ nth 1 (sh_peer x) None = told p (nf_name port).
Proof.
  intros R O H K N2 Hr Hre De Hx Hi Ha He Y U X A1 A2 A3 Hnow Ht2 Hrec Hf.
  destruct (neighbour_listed cfg sos country location st e st' eff i p f opts es c eff0 index sub now now2 R O H K N2 Hr Hre Hx Hi Ha ltac:(lia))
    as (c'' & Hh & (d & pl & Pd & B & L & Ap & Cd & Fr) & (port & en & I1 & I2 & _ & I3 & I4 & I5 & I6 & I7 & I8 & _ & I9 & I10) & _).
  assert (c'' = c').
  { destruct He as (_ & d1 & e1 & X1 & X2). destruct Hh as (_ & d2 & e2 & Y1 & Y2). rewrite X1 in Y1. injection Y1 as <-. rewrite X2 in Y2. now injection Y2. }
  subst c''. destruct He as (_ & d1 & e1 & X1 & X2). rewrite Pd in X1. injection X1 as <-.
  assert (Re : reached opts (es ++ [CRecv d now now2]) c' (eff0 ++ e1)) by (eapply run_snoc; [exact Hre|exact X2]).
  assert (G : Forall genuine (c_queue c')).
  { eapply table_genuine; [|exact Re]. apply Forall_app. split; [assumption|]. constructor; [|constructor].
    cbn [daemon_event]. split; [lia|]. exists index, (arrives p), f, pl. repeat (split; [assumption|]). assumption. }
  destruct (client_table perm words o names env (c_queue c') Y U) as (hw & pw & heading & rs & T & _ & _ & _ & F2); [| |assumption|assumption|assumption|].
  - intros y Q. apply X. cbn in Q |- *. tauto.
  - lia.
  - assert (In en (to_show o names (ce_ifindex env) (c_queue c'))).
    { unfold to_show. rewrite (X 111) by (cbn; auto 10). apply filter_In. split; [assumption|]. unfold wanted. rewrite I6, I4, A1, A2. cbn [andb].
      destruct (Z.eqb_spec p 5) as [Q|Q]; [now rewrite (A3 Q)|now rewrite andb_false_r]. }
    destruct (forall2_in _ _ _ F2 (display (ce_now env) en) ltac:(now apply in_map)) as (r & Ir & Rr).
    exists hw, pw, heading, rs, r, (display (ce_now env) en), port. split; [exact T|]. split; [exact Ir|]. split; [exact Rr|].
    cbn [display sh_name sh_proto sh_hold sh_peer]. rewrite I7, I8. repeat (split; [assumption|]). split; [reflexivity|]. now split.
Qed.

Lemma words_shown nA permA wordsA sA namesA oA sos os when st st' eff nfs si ias top port p
  nB permB wordsB sB namesB oB es c eff0 index sub now now2 permC wordsC oC namesC env :
  main_argv nA permA wordsA = Some (sA, namesA) -> says permA daemon_letters wordsA oA namesA ->
  running_on (Config.conf_of sA namesA) sos (u_country sA) (u_location sA) st ->
  send_step (Config.conf_of sA namesA) st (EvRun os when) = DOk (st', eff) ->
  os_ok os -> no_ifaddrs os = Some ias -> names_apart ias -> refresh (Config.conf_of sA namesA) os st nfs si -> consistent os nfs ->
  given (bs "s") oA = false -> In top nfs -> chosen namesA top -> allowed oA top ->
  In port (stands_for os nfs top) -> allowed oA port -> In p [0; 1; 3; 4; 5] -> SpecCmd.asked oA top p ->
  zlen (frame_due (Config.conf_of sA namesA) os nfs si 0 (top, port, p)) <= 1518 ->
  main_argv nB permB wordsB = Some (sB, namesB) -> says permB daemon_letters wordsB oB namesB -> given (bs "aryz") oB = true ->
  reached (u_opts sB) es c eff0 -> Forall daemon_event es -> 0 <= index < 4294967296 -> netif_byindex (c_nfs c) index = Some sub ->
  says permC client_letters wordsC oC namesC -> usable (map fst oC) namesC (ce_ifindex env) -> without (bs "bdfpo") oC ->
  SpecCli.asked (map fst oC) p = true -> asked_if namesC (ce_ifindex env) index = true -> (p = 5 -> says_letter 67 oC = false) ->
  0 <= now <= ce_now env -> ce_now env < 9223372036854775808 ->
  exists f, In (SFrame (nf_index port) p f) eff
  /\ (netif_byaddr (c_nfs c) (firstn 6 (skipn 6 f)) = None ->
      exists c', hears (u_opts sB) c index f now now2 c'
      /\ ((forall en, In en (c_queue c') -> q_received en <= ce_now env) ->
          (forall en, In en (c_queue c') -> wanted oC namesC (ce_ifindex env) en = true -> fresh (ce_now env) en = true) ->
          exists hw pw heading rs r x out,
          ladvdc permC wordsC env (map entry_bytes (c_queue c')) = DOk (mkRun (legend ++ heading ++ concat rs) [] 0)
          /\ In r rs /\ row_of hw pw x r /\ In out (table st') /\ nf_index out = nf_index port
          /\ sh_name x = nf_name sub /\ sh_proto x = p /\ sh_hold x = 180 - (ce_now env - now)
          /\ nth 0 (sh_peer x) None = told p (si_hostname (st_si st')) /\ nth 1 (sh_peer x) None = told p (nf_name out))).
Proof.
  intros A1 A2 A3 A4 A5 A6 A7 A8 A9 A10 A11 A12 A13 A14 A15 A16 A17 A18 B1 B2 B3 B4 B5 B6 B7 C1 C2 C3 C4 C5 C6 T1 T2.
  destruct (cmd_frames nA permA wordsA sA namesA oA os when st nfs si (nf_index port) p ias A1 A2 (on_running _ _ _ _ _ A3) A5 A6 A7 A8 A9) as [_ F].
  destruct F as (f & Hf). { split; [exact A10|]. exists top, port. repeat (split; [assumption|]). split; [reflexivity|]. split; [cbn in A16 |- *; tauto|]. now split. }
  assert (Q : eff = snd (child_send (Config.conf_of sA namesA) os NETIF_INDEX_MAX true when st)) by (cbn [send_step] in A4; injection A4 as E; rewrite E; reflexivity).
  rewrite <- Q in Hf. exists f. split; [exact Hf|]. intros N.
  pose proof (receives _ _ _ _ _ _ B1 B2 B3) as Hr. assert (P2 : p <> 2) by (cbn in A16; lia).
  destruct (neighbour_listed _ _ _ _ st (EvRun os when) st' eff _ p f (u_opts sB) es c eff0 index sub now now2 A3 A5 A4 Hf P2 Hr B4 B6 B7 N ltac:(lia)) as (c' & Hh & _).
  exists c'. split; [exact Hh|]. intros Z1 Z2.
  exact (sender_shown _ _ _ _ st (EvRun os when) st' eff _ p f (u_opts sB) es c eff0 index sub now now2 c' permC wordsC oC namesC env
    A3 A5 A4 Hf P2 Hr B4 B5 B6 B7 N Hh C1 C2 C3 C4 C5 C6 T1 T2 Z1 Z2).
Qed.
