(** C152: from the command line of one host to the terminal of another. *)
From Verif Require Import Base Types Tlv Bpf Wire Parent Util Child Netif Sysinfo Send Cli Post Opts Getopt Config ClientMain
  Spec SpecAdv SpecRound SpecNet SpecChild SpecNetif SpecNetif2 SpecSend SpecSys SpecCli SpecE2E SpecPost SpecOpts SpecGetopt SpecCmd SpecClient.
From Verif Require Import Lemmas ClientProofs4 Cases2 Cases3 Cases4 Cases6 Cases7 Cases8 Cases9 PropGetopt PropCli PropCmd PropE2E PropClient PropClient3.

(** A daemon on Linux sends a frame, in whatever state it got into; another one that
    receives hears it on the interface [sub].  A client started afterwards on that host,
    with words that ask for this protocol and this interface, prints a table with a row of
    the sender: its host name and port, the interface, the protocol and the time left of
    the 180 seconds.  (The words have none of -b, -d, -f, -p and -o; none of the entries
    asked for has expired, for others see C44.) *)
Theorem C152_shown cfg sos country location st e st' eff i p f opts es c eff0 index sub now now2 c' perm words o names env :
  running_on cfg sos country location st -> event_ok e -> send_step cfg st e = DOk (st', eff) -> In (SFrame i p f) eff -> p <> 2 ->
  Z.testbit opts 2 = true -> reached opts es c eff0 -> Forall daemon_event es -> 0 <= index < 4294967296 ->
  netif_byindex (c_nfs c) index = Some sub -> netif_byaddr (c_nfs c) (firstn 6 (skipn 6 f)) = None ->
  hears opts c index f now now2 c' ->
  says perm client_letters words o names -> usable (map fst o) names (ce_ifindex env) -> without (bs "bdfpo") o ->
  SpecCli.asked (map fst o) p = true -> asked_if names (ce_ifindex env) index = true -> (p = 5 -> says_letter 67 o = false) ->
  0 <= now <= ce_now env -> ce_now env < 9223372036854775808 ->
  (forall en, In en (c_queue c') -> q_received en <= ce_now env) ->
  (forall en, In en (c_queue c') -> wanted o names (ce_ifindex env) en = true -> fresh (ce_now env) en = true) ->
  exists hw pw heading rs r x port,
  ladvdc perm words env (map entry_bytes (c_queue c')) = DOk (mkRun (legend ++ heading ++ concat rs) [] 0)
  /\ In r rs /\ row_of hw pw x r /\ In port (table st') /\ nf_index port = i
  /\ sh_name x = nf_name sub /\ sh_proto x = p /\ sh_hold x = 180 - (ce_now env - now)
  /\ nth 0 (sh_peer x) None = told p (si_hostname (st_si st')) /\ nth 1 (sh_peer x) None = told p (nf_name port).
Proof. exact (sender_shown cfg sos country location st e st' eff i p f opts es c eff0 index sub now now2 c' perm words o names env). Qed.
Print Assumptions C152_shown.

(** The same from the three command lines: the one of the sender chooses the interface and
    the protocol and does not have -s, the one of the receiver has -a, -r, -y or -z, the one
    of the client asks for the protocol and the interface.  EDP (2) is never received: C17.
    (The receiver has no interface with the address of the sender.) *)
Theorem C152_words nA permA wordsA sA namesA oA sos os when st st' eff nfs si ias top port p
  nB permB wordsB sB namesB oB es c eff0 index sub now now2 permC wordsC oC namesC env :
  main_argv nA permA wordsA = Some (sA, namesA) -> says permA daemon_letters wordsA oA namesA ->
  running_on (Config.conf_of sA namesA) sos (u_country sA) (u_location sA) st ->
  send_step (Config.conf_of sA namesA) st (EvRun os when) = DOk (st', eff) ->
  os_ok os -> no_ifaddrs os = Some ias -> names_apart ias -> refresh (Config.conf_of sA namesA) os st nfs si -> consistent os nfs ->
  given (bs "s") oA = false -> In top nfs -> chosen namesA top -> allowed oA top ->
  In port (stands_for os nfs top) -> allowed oA port -> In p [0; 1; 3; 4; 5] -> SpecCmd.asked oA top p ->
  zlen (frame_due (Config.conf_of sA namesA) os nfs si 0 (top, port, p)) <= 1518 ->
  main_argv nB permB wordsB = Some (sB, namesB) -> says permB daemon_letters wordsB oB namesB -> given (bs "aryz") oB = true ->
  reached (u_opts sB) es c eff0 -> Forall daemon_event es -> 0 <= index < 4294967296 -> netif_byindex (c_nfs c) index = Some sub ->
  says permC client_letters wordsC oC namesC -> usable (map fst oC) namesC (ce_ifindex env) -> without (bs "bdfpo") oC ->
  SpecCli.asked (map fst oC) p = true -> asked_if namesC (ce_ifindex env) index = true -> (p = 5 -> says_letter 67 oC = false) ->
  0 <= now <= ce_now env -> ce_now env < 9223372036854775808 ->
  exists f, In (SFrame (nf_index port) p f) eff
  /\ (netif_byaddr (c_nfs c) (firstn 6 (skipn 6 f)) = None ->
      exists c', hears (u_opts sB) c index f now now2 c'
      /\ ((forall en, In en (c_queue c') -> q_received en <= ce_now env) ->
          (forall en, In en (c_queue c') -> wanted oC namesC (ce_ifindex env) en = true -> fresh (ce_now env) en = true) ->
          exists hw pw heading rs r x out,
          ladvdc permC wordsC env (map entry_bytes (c_queue c')) = DOk (mkRun (legend ++ heading ++ concat rs) [] 0)
          /\ In r rs /\ row_of hw pw x r /\ In out (table st') /\ nf_index out = nf_index port
          /\ sh_name x = nf_name sub /\ sh_proto x = p /\ sh_hold x = 180 - (ce_now env - now)
          /\ nth 0 (sh_peer x) None = told p (si_hostname (st_si st')) /\ nth 1 (sh_peer x) None = told p (nf_name out))).
Proof. exact (words_shown nA permA wordsA sA namesA oA sos os when st st' eff nfs si ias top port p nB permB wordsB sB namesB oB es c eff0 index sub now now2 permC wordsC oC namesC env). Qed.
Print Assumptions C152_words.

(** *** Example *)
(** ladvd -faL -e eth2 -cnl -l attic on one host (the one of C142_case), ladvd -frL on another
    that knows a switch on its first interface (the one of C81), and there ladvdc -L, half a
    minute after the frame. *)
Definition cw_w : list (list Z) := [bs "-frL"].
Definition cw_o : list (Z * list Z) := [(102, []); (114, []); (76, [])].
Definition cw_s : setup := Eval vm_compute in match main_argv gg_n false cw_w with Some (s, _) => s | None => cc_s end.
Lemma cw_says : says false daemon_letters cw_w cw_o [].
Proof. apply (says_bare false daemon_letters (bs "frL") _ []); [discriminate|gg_letters|apply says_nothing]. Qed.
Definition cw_child (es : list cevent) : child := match child_run (u_opts cw_s) child_start es with DOk (c, _) => c | _ => child_start end.
Definition cw_c : child := Eval vm_compute in cw_child z_es.
Definition cw_d : list Z := Eval vm_compute in hd [] (parent_recv 3 [cc_f]).
Definition cw_c' : child := Eval vm_compute in cw_child (z_es ++ [CRecv cw_d 120 120]).
Lemma cw_reached opts es c : match child_run opts child_start es with DOk (x, _) => x = c | _ => False end -> exists eff, reached opts es c eff.
Proof. unfold reached. destruct (child_run opts child_start es) as [[x eff]| | | |]; try contradiction. intros ->. now exists eff. Qed.
Lemma cw_hears opts c index f now c' : match parent_recv index [f] with [d] => match child_queue opts c d now now with DOk (x, _) => x = c' | _ => False end | _ => False end ->
  socket_filter opts f = true -> hears opts c index f now now c'.
Proof.
  intros H F. split; [exact F|]. destruct (parent_recv index [f]) as [|d [|]]; try contradiction.
  exists d. destruct (child_queue opts c d now now) as [[x eff]| | | |] eqn:E; try contradiction. subst x. exists eff. now split.
Qed.
Definition cw_env : client_env := mkCEnv x_ifindex 150 None false false (fun _ => None) y_http percent [].
Definition cw_top : netif := Eval vm_compute in match cc_tab with n :: _ => n | [] => u_eth end.
Definition cw_sub : netif := Eval vm_compute in match netif_byindex (c_nfs cw_c) 3 with Some n => n | None => cw_top end.
Lemma cw_fresh o names es : forallb (fun e => negb (wanted o names x_ifindex e) || fresh 150 e) es = true ->
  forall e, In e es -> wanted o names x_ifindex e = true -> fresh 150 e = true.
Proof. intros H e K W. rewrite forallb_forall in H. specialize (H e K). rewrite W in H. exact H. Qed.
Example C152_sender_case :
  running_on (Config.conf_of cc_s []) w_sios (u_country cc_s) (u_location cc_s) cc_st2
  /\ send_step (Config.conf_of cc_s []) cc_st2 (EvRun w_osb 2000) = DOk (cc_after, cc_eff) /\ os_ok w_osb /\ In (SFrame 1 0 cc_f) cc_eff
  /\ given (bs "s") cc_o = false /\ In cw_top cc_tab /\ nf_index cw_top = 1 /\ chosen [] cw_top /\ allowed cc_o cw_top
  /\ In cw_top (stands_for w_osb cc_tab cw_top) /\ SpecCmd.asked cc_o cw_top 0
  /\ zlen (frame_due (Config.conf_of cc_s []) w_osb cc_tab cc_si 0 (cw_top, cw_top, 0)) <= 1518.
Proof.
  split; [exact cc_on2|]. split; [vm_compute; reflexivity|]. split; [exact w_run_ok|]. split; [vm_compute; auto 20|].
  split; [reflexivity|]. split; [vm_compute; auto|]. split; [reflexivity|].
  split; [reflexivity|]. split; [split; [vm_compute; discriminate|]; split; [discriminate|]; split; [discriminate|]; intros x X; cbn in X; intuition; subst; discriminate|]. split; [vm_compute; auto|]. split; [left; reflexivity|]. vm_compute. discriminate.
Qed.
Example C152_case :
  main_argv gg_n false cw_w = Some (cw_s, []) /\ says false daemon_letters cw_w cw_o [] /\ given (bs "aryz") cw_o = true
  /\ (exists eff, reached (u_opts cw_s) z_es cw_c eff) /\ Forall daemon_event z_es
  /\ netif_byindex (c_nfs cw_c) 3 = Some cw_sub /\ netif_byaddr (c_nfs cw_c) (firstn 6 (skipn 6 cc_f)) = None
  /\ hears (u_opts cw_s) cw_c 3 cc_f 120 120 cw_c'
  /\ says true client_letters [bs "-L"] [(76, [])] [] /\ usable [76] [] (ce_ifindex cw_env) /\ without (bs "bdfpo") [(76, [])]
  /\ SpecCli.asked [76] 0 = true /\ asked_if [] x_ifindex 3 = true
  /\ (forall en, In en (c_queue cw_c') -> q_received en <= 150)
  /\ (forall en, In en (c_queue cw_c') -> wanted [(76, [])] [] x_ifindex en = true -> fresh 150 en = true)
  /\ match ladvdc true [bs "-L"] cw_env (map entry_bytes (c_queue cw_c')) with
     | DOk r => skipn (Z.to_nat (zlen legend)) (cr_out r)
       = bs "Device ID            Local Intf    Proto   Hold-time    Capability    Port ID" ++ [10]
      ++ bs "sw2.example.org      eth0          LLDP    71                         Eth1/7" ++ [10]
      ++ bs "host                 eth1          LLDP    150          H             eth0" ++ [10]
     | _ => False
     end.
Proof.
  split; [vm_compute; reflexivity|]. split; [exact cw_says|]. split; [reflexivity|].
  split; [apply cw_reached; vm_compute; reflexivity|]. split; [constructor; [exact x_fetch|constructor; [exact x_sw2_ev|constructor]]|].
  split; [vm_compute; reflexivity|]. split; [vm_compute; reflexivity|]. split; [apply cw_hears; vm_compute; reflexivity|].
  split; [apply (says_bare true client_letters (bs "L") _ []); [discriminate|cz_letters|apply says_nothing]|].
  split; [apply x_usable; vm_compute; reflexivity|]. split; [intros x X; cbn in X; intuition; subst; reflexivity|].
  split; [reflexivity|]. split; [reflexivity|]. split; [apply x_before; vm_compute; reflexivity|].
  split; [apply cw_fresh; vm_compute; reflexivity|]. vm_compute. reflexivity.
Qed.
