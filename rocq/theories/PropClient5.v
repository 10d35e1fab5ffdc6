(** C152 on FreeBSD and OpenBSD. *)
From Verif Require Import Base Types Tlv Bpf Wire Parent Util Child Netif Sysinfo Send Bsd HostBsd BsdSend Cli Post Opts Getopt Config ClientMain
  Spec SpecAdv SpecRound SpecNet SpecChild SpecNetif SpecNetif2 SpecSend SpecSys SpecCli SpecE2E SpecPost SpecOpts SpecGetopt SpecCmd SpecClient SpecBsd SpecHostBsd SpecBsdSend SpecBsdE2E.
From Verif Require Import Lemmas ClientProofs5 SendProofs6 Cases2 Cases3 Cases4 Cases6 Cases7 Cases8 Cases9 Cases14 PropGetopt PropCli PropCmd PropE2E PropBsdSend PropBsdE2E PropCmdBsd PropClient PropClient3 PropClient4.

(** The same for a sender on FreeBSD or OpenBSD. *)
Theorem C152_shown_bsd cfg pf sos country location st e st' eff i p f opts es c eff0 index sub now now2 c' perm words o names env :
  b_running_on cfg pf sos country location st -> b_event_ok e -> bc_step cfg pf st e = DOk (st', eff) -> In (SFrame i p f) eff -> p <> 2 ->
  Z.testbit opts 2 = true -> reached opts es c eff0 -> Forall daemon_event es -> 0 <= index < 4294967296 ->
  netif_byindex (c_nfs c) index = Some sub -> netif_byaddr (c_nfs c) (firstn 6 (skipn 6 f)) = None ->
  hears opts c index f now now2 c' ->
  says perm client_letters words o names -> usable (map fst o) names (ce_ifindex env) -> without (bs "bdfpo") o ->
  SpecCli.asked (map fst o) p = true -> asked_if names (ce_ifindex env) index = true -> (p = 5 -> says_letter 67 o = false) ->
  0 <= now <= ce_now env -> ce_now env < 9223372036854775808 ->
  (forall en, In en (c_queue c') -> q_received en <= ce_now env) ->
  (forall en, In en (c_queue c') -> wanted o names (ce_ifindex env) en = true -> fresh (ce_now env) en = true) ->
  exists hw pw heading rs r x port,
  ladvdc perm words env (map entry_bytes (c_queue c')) = DOk (mkRun (legend ++ heading ++ concat rs) [] 0)
  /\ In r rs /\ row_of hw pw x r /\ In port (table st') /\ nf_index port = i
  /\ sh_name x = nf_name sub /\ sh_proto x = p /\ sh_hold x = 180 - (ce_now env - now)
  /\ nth 0 (sh_peer x) None = told p (si_hostname (st_si st')) /\ nth 1 (sh_peer x) None = told p (nf_name port).
Proof. exact (b_sender_shown cfg pf sos country location st e st' eff i p f opts es c eff0 index sub now now2 c' perm words o names env). Qed.
Print Assumptions C152_shown_bsd.

(** And from the three command lines. *)
Theorem C152_words_bsd nA permA wordsA sA namesA oA pf sos b when st st' eff nfs si top port p
  nB permB wordsB sB namesB oB es c eff0 index sub now now2 permC wordsC oC namesC env :
  main_argv nA permA wordsA = Some (sA, namesA) -> says permA daemon_letters wordsA oA namesA ->
  b_running_on (Config.conf_of sA namesA) pf sos (u_country sA) (u_location sA) st ->
  bc_step (Config.conf_of sA namesA) pf st (BRun b when) = DOk (st', eff) ->
  b_ok b -> b_refresh (Config.conf_of sA namesA) pf b st nfs si -> b_consistent b nfs ->
  given (bs "s") oA = false -> In top nfs -> chosen namesA top -> allowed oA top ->
  In port (b_stands_for b nfs top) -> allowed oA port -> In p [0; 1; 3; 4; 5] -> SpecCmd.asked oA top p ->
  zlen (b_frame_due (Config.conf_of sA namesA) b nfs si 0 (top, port, p)) <= 1518 ->
  main_argv nB permB wordsB = Some (sB, namesB) -> says permB daemon_letters wordsB oB namesB -> given (bs "aryz") oB = true ->
  reached (u_opts sB) es c eff0 -> Forall daemon_event es -> 0 <= index < 4294967296 -> netif_byindex (c_nfs c) index = Some sub ->
  says permC client_letters wordsC oC namesC -> usable (map fst oC) namesC (ce_ifindex env) -> without (bs "bdfpo") oC ->
  SpecCli.asked (map fst oC) p = true -> asked_if namesC (ce_ifindex env) index = true -> (p = 5 -> says_letter 67 oC = false) ->
  0 <= now <= ce_now env -> ce_now env < 9223372036854775808 ->
  exists f, In (SFrame (nf_index port) p f) eff
  /\ (netif_byaddr (c_nfs c) (firstn 6 (skipn 6 f)) = None ->
      exists c', hears (u_opts sB) c index f now now2 c'
      /\ ((forall en, In en (c_queue c') -> q_received en <= ce_now env) ->
          (forall en, In en (c_queue c') -> wanted oC namesC (ce_ifindex env) en = true -> fresh (ce_now env) en = true) ->
          exists hw pw heading rs r x out,
          ladvdc permC wordsC env (map entry_bytes (c_queue c')) = DOk (mkRun (legend ++ heading ++ concat rs) [] 0)
          /\ In r rs /\ row_of hw pw x r /\ In out (table st') /\ nf_index out = nf_index port
          /\ sh_name x = nf_name sub /\ sh_proto x = p /\ sh_hold x = 180 - (ce_now env - now)
          /\ nth 0 (sh_peer x) None = told p (si_hostname (st_si st')) /\ nth 1 (sh_peer x) None = told p (nf_name out))).
Proof. exact (b_words_shown nA permA wordsA sA namesA oA pf sos b when st st' eff nfs si top port p nB permB wordsB sB namesB oB es c eff0 index sub now now2 permC wordsC oC namesC env). Qed.
Print Assumptions C152_words_bsd.

(** *** Example *)
(** The FreeBSD host of C144_case sends on em0, a member of a bridge; the other daemon and the client are those
    of C152_case. *)
Definition cu_d : list Z := Eval vm_compute in hd [] (parent_recv 3 [cv_f]).
Definition cu_c : child := Eval vm_compute in cw_child (z_es ++ [CRecv cu_d 120 120]).
Definition cu_port : netif := Eval vm_compute in match find (fun n => nf_index n =? 5) cv_tab with Some n => n | None => u_eth end.
Definition cu_top : netif := Eval vm_compute in
  match find (fun n => (nf_child n =? 0) && existsb (fun m => nf_index m =? 5) (b_stands_for f_os1 cv_tab n)) cv_tab with Some n => n | None => u_eth end.
Definition cu_all (n : netif) : bool := (0 <=? nf_type n) && negb (nf_type n =? 1) && negb (nf_type n =? 2).
Lemma cu_allowed n : cu_all n = true -> (forall x, In x (args_of 101 cv_o) -> firstn 15 x <> nf_name n) -> allowed cv_o n.
Proof. unfold cu_all, allowed. intros H. split; [lia|]. split; [lia|]. split; [lia|assumption]. Qed.
Example C152_bsd_case :
  b_running_on (Config.conf_of cv_s []) FreeBSD bd_sys (u_country cv_s) (u_location cv_s) bd_st0 /\ b_ok f_os1
  /\ bc_step (Config.conf_of cv_s []) FreeBSD bd_st0 (BRun f_os1 1000) = DOk cv_run /\ In (SFrame 5 0 cv_f) (snd cv_run)
  /\ given (bs "s") cv_o = false /\ In cu_top cv_tab /\ nf_index cu_port = 5 /\ chosen [] cu_top /\ allowed cv_o cu_top /\ allowed cv_o cu_port
  /\ In cu_port (b_stands_for f_os1 cv_tab cu_top) /\ SpecCmd.asked cv_o cu_top 0
  /\ zlen (b_frame_due (Config.conf_of cv_s []) f_os1 cv_tab cv_si 0 (cu_top, cu_port, 0)) <= 1518
  /\ netif_byaddr (c_nfs cw_c) (firstn 6 (skipn 6 cv_f)) = None /\ hears (u_opts cw_s) cw_c 3 cv_f 120 120 cu_c
  /\ (forall en, In en (c_queue cu_c) -> q_received en <= 150)
  /\ (forall en, In en (c_queue cu_c) -> wanted [(76, [])] [] x_ifindex en = true -> fresh 150 en = true)
  /\ match ladvdc true [bs "-L"] cw_env (map entry_bytes (c_queue cu_c)) with
     | DOk r => skipn (Z.to_nat (zlen legend)) (cr_out r)
       = bs "Device ID            Local Intf    Proto   Hold-time    Capability    Port ID" ++ [10]
      ++ bs "sw2.example.org      eth0          LLDP    71                         Eth1/7" ++ [10]
      ++ bs "fw.example.org       eth1          LLDP    150          BR            em0" ++ [10]
     | _ => False
     end.
Proof.
  split; [apply be_on|]. split; [exact f_os1_ok|]. split; [vm_compute; reflexivity|].
  split; [apply (proj2 (in_frames 5 0 cv_f _)); vm_compute; auto|].
  split; [reflexivity|]. split; [vm_compute; auto 20|]. split; [reflexivity|]. split; [reflexivity|].
  do 2 (split; [apply cu_allowed; [vm_compute; reflexivity|intros x X; vm_compute in X; intuition; subst; discriminate]|]).
  split; [vm_compute; auto|]. split; [left; reflexivity|]. split; [vm_compute; discriminate|]. split; [vm_compute; reflexivity|].
  split; [apply cw_hears; vm_compute; reflexivity|]. split; [apply x_before; vm_compute; reflexivity|].
  split; [apply cw_fresh; vm_compute; reflexivity|]. vm_compute. reflexivity.
Qed.
