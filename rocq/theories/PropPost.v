(** The client's command line, captures and posts, the daemon's capture: C22,
    C75 to C80. *)
From Verif Require Import Base Tlv Types Msg Protos Parent Wire Util Child Cli Post Spec SpecAdv SpecRound SpecNet SpecChild SpecCli SpecPost
  Lemmas Conformance Cases Cases2 Cases3 Cases4 Cases7 Cases9 PropNet CliProofs2 PostProofs2 PostProofs3 PostProofs4 PostProofs5.

(** C22 for everything a neighbour can put on the terminal with the table or
    -b: only printable characters and the five control characters of the
    refutation in PropText. *)
Theorem C22_text_only_partial letters names ifindex now ws reads o text :
  usable letters names ifindex -> (exists m, way letters m /\ m <> 102) ->
  Forall bytes reads -> (forall m, In m reads -> plain (pm_name m)) ->
  cli_main letters names ifindex now ws reads = Some (DOk (o, text)) ->
  plain text.
Proof. exact (plain_only letters names ifindex now ws reads o text). Qed.
Print Assumptions C22_text_only_partial.
(** An escape sequence in a host name. *)
Definition y_esc : list entry := x_queue
  [CFetch u_nfs; CRecv (u_in 3 (u_frame (u_src 5) 120 (bs "a" ++ [27; 91; 50; 74; 200]) (bs "1"))) 102 102].
Example C22_case :
  let reads := map entry_bytes y_esc in let r := cli_main (bs "b") [] x_ifindex 150 None reads in
  usable (bs "b") [] x_ifindex /\ way (bs "b") 98 /\ Forall bytes reads /\ (forall m, In m reads -> plain (pm_name m))
  /\ x_out r = [(3, 0, Some (bs "a\033[2J\310"), Some (bs "1"), 72)] /\ zlen (x_text r) = 198.
Proof.
  cbv zeta. split; [now apply y_usable|]. split; [apply y_way; reflexivity|]. split; [apply x_bytes; vm_compute; reflexivity|].
  split; [|split; vm_compute; reflexivity]. apply y_names. vm_compute. reflexivity.
Qed.

(** C75: a command line with an unknown option, a second -p or the name of an
    interface that does not exist does nothing and fails. *)
Theorem C75_refused ol names env reads :
  ~ usable (letters ol) names (ce_ifindex env) -> cli_run ol names env reads = DOk (mkRun [] [] 1).
Proof. exact (fun H => proj1 (run_refused ol names env reads H)). Qed.
Print Assumptions C75_refused.
Example C75_refused_case :
  ~ usable (letters [(112, bs "http://a/"); (76, []); (112, bs "http://b/")]) [] x_ifindex
  /\ ~ usable (letters [(76, []); (113, [])]) [] x_ifindex /\ ~ usable (letters [(76, [])]) [bs "eth9"] x_ifindex.
Proof.
  split; [|split]; intros (H1 & H2 & H3).
  - destruct (H2 [] [76; 112]) as [K|K]; [now apply K|apply K; cbn; tauto].
  - specialize (H1 113). cbn in H1. lia.
  - specialize (H3 (bs "eth9") (or_introl eq_refl)). now apply H3.
Qed.
(** Of several of -b, -d, -f and -p the last one counts: the run is the same
    without the others. *)
Theorem C75_last_counts a x arg b names env reads :
  usable (letters (a ++ (x, arg) :: b)) names (ce_ifindex env) ->
  In x (bs "bdfp") -> (forall y, In y (letters b) -> ~ In y (bs "bdfp")) ->
  cli_run (a ++ (x, arg) :: b) names env reads
  = cli_run (filter (fun o => negb (existsb (Z.eqb (fst o)) (bs "bdfp"))) a ++ (x, arg) :: b) names env reads.
Proof. exact (fun Hu Hx Hb => last_wins a b x arg names env reads Hx Hb Hu). Qed.
Print Assumptions C75_last_counts.
(** Without -d and -p the text for the options is written, and the client
    succeeds. *)
Theorem C75_text ol names env reads m o text :
  usable (letters ol) names (ce_ifindex env) -> way (letters ol) m -> m <> 100 -> m <> 112 ->
  cli_main (letters ol) names (ce_ifindex env) (ce_now env) (ce_ws env) reads = Some (DOk (o, text)) ->
  cli_run ol names env reads = DOk (mkRun text [] 0).
Proof. exact (fun Hu => run_text ol names env reads Hu m o text). Qed.
Print Assumptions C75_text.
(** -p, then -L, then -b: batch output, nothing posted. *)
Example C75_case :
  let ol := [(112, bs "http://a/x"); (76, []); (98, [])] in
  usable (letters ol) [] x_ifindex /\ way (letters ol) 98
  /\ match cli_run ol [] y_env (map entry_bytes x_last), cli_run [(76, []); (98, [])] [] y_env (map entry_bytes x_last) with
     | DOk r, DOk r' => r = r' /\ firstn 34 (cr_out r) = bs "INTERFACE_0='eth0'" ++ [10] ++ bs "HOSTNAME_0='sw2" /\ cr_posts r = [] /\ cr_exit r = 0
     | _, _ => False
     end.
Proof.
  cbv zeta. split; [apply y_usable; vm_compute; reflexivity|]. split; [apply y_way; reflexivity|]. vm_compute. repeat split.
Qed.

(** C76 for urls without a port: every post goes to the host and path of the
    url, at the port of the service http. *)
Theorem C76_url_partial ol names env reads u host path port me r :
  usable (letters ol) names (ce_ifindex env) -> way (letters ol) 112 -> In (112, u) ol -> url host path u ->
  connected (ce_http env) port me -> (forall f, h_found (ce_http env) = Some f -> zlen f < 255) ->
  cli_run ol names env reads = DOk r ->
  forall p, In p (cr_posts r) -> po_host p = host /\ po_port p = port /\ po_path p = path.
Proof. exact (fun Hu => run_target ol names env reads Hu u host path port me r). Qed.
Print Assumptions C76_url_partial.
Example C76_case :
  let ol := [(112, bs "http://stats.example.org/post.php?x=1"); (111, [])] in
  usable (letters ol) [] x_ifindex /\ way (letters ol) 112
  /\ url (bs "stats.example.org") (bs "/post.php?x=1") (bs "http://stats.example.org/post.php?x=1")
  /\ connected (ce_http y_env) 80 (bs "me.example.org")
  /\ match cli_run ol [] y_env (map entry_bytes x_last) with
     | DOk r => map (fun p => (po_host p, po_port p, po_path p)) (cr_posts r) = [(bs "stats.example.org", 80, bs "/post.php?x=1")]
     | _ => False
     end.
Proof.
  cbv zeta. split; [apply y_usable; vm_compute; reflexivity|]. split; [apply y_way; reflexivity|]. split; [|split; [exact y_connected|vm_compute; reflexivity]].
  split; [y_out|]. split; [y_out|]. right. exists (bs "post.php?x=1"). now split.
Qed.
(** C76 is false: with a port in the url, name and port of the server are both
    wrong. *)
Theorem C76_port_refuted :
  exists ol u r p, usable (letters ol) [] x_ifindex /\ way (letters ol) 112 /\ In (112, u) ol
    /\ port_url (bs "stats") 8080 (bs "/x") u
    /\ cli_run ol [] y_env (map entry_bytes x_last) = DOk r /\ In p (cr_posts r)
    /\ po_port p = 80 /\ po_host p = bs "stats:8080".
Proof.
  exists [(112, bs "http://stats:8080/x")], (bs "http://stats:8080/x").
  destruct (cli_run [(112, bs "http://stats:8080/x")] [] y_env (map entry_bytes x_last)) as [r| | | |] eqn:E; [|exfalso; revert E; vm_compute; discriminate..].
  exists r, (nth 0 (cr_posts r) (mkPost [] 0 [] [])).
  split; [apply y_usable; vm_compute; reflexivity|]. split; [apply y_way; reflexivity|]. split; [now left|].
  split; [split; [y_out|]; split; [y_out|]; exists (bs "x"); split; vm_compute; reflexivity|]. split; [reflexivity|].
  pattern r. refine (y_run _ _ _ r _ E). vm_compute. repeat split. now left.
Qed.
Print Assumptions C76_port_refuted.

(** C77: one post per neighbour shown, and read as a form it has its fields, but
    for two line ends after the last value.  Missing: names of the host or of an
    interface with '%', '&' or '+' in them. *)
Theorem C77_form_partial ol names env reads u port me r :
  usable (letters ol) names (ce_ifindex env) -> way (letters ol) 112 -> In (112, u) ol ->
  Forall bytes reads -> (forall m, In m reads -> literal (pm_name m)) ->
  connected (ce_http env) port me -> (forall f, h_found (ce_http env) = Some f -> zlen f < 255) -> literal me ->
  url_encoder (ce_enc env) -> cli_run ol names env reads = DOk r ->
  exists ms text,
    cli_main (letters ol) names (ce_ifindex env) (ce_now env) (ce_ws env) reads = Some (DOk (map OShow ms, text))
    /\ map (fun p => form (po_body p)) (cr_posts r) = map (fun m => form_of me m [13; 10; 13; 10]) ms.
Proof. exact (fun Hu => run_posts ol names env reads Hu u port me r). Qed.
Print Assumptions C77_form_partial.
(** libevent's encoder is one; a host name with a line end and quotes. *)
Example C77_case :
  let ol := [(112, bs "http://stats/x")] in
  usable (letters ol) [] x_ifindex /\ way (letters ol) 112 /\ Forall bytes (map entry_bytes x_tricky)
  /\ connected (ce_http y_env) 80 (bs "me.example.org") /\ literal (bs "me.example.org") /\ url_encoder (ce_enc y_env)
  /\ match cli_run ol [] y_env (map entry_bytes x_tricky) with
     | DOk r => map (fun p => nth 2 (form (po_body p)) ([], [])) (cr_posts r)
                = [(bs "peer_hostname", bs "a" ++ [10] ++ bs "core';reboot"); (bs "peer_hostname", bs "sw2.example.org")]
                /\ map (fun p => zlen (form (po_body p))) (cr_posts r) = [8; 8]
     | _ => False
     end.
Proof.
  cbv zeta. split; [apply y_usable; vm_compute; reflexivity|]. split; [apply y_way; reflexivity|]. split; [apply x_bytes; vm_compute; reflexivity|].
  split; [exact y_connected|]. split; [now apply literal_check|]. split; [exact percent_encoder|]. vm_compute. now split.
Qed.
(** C77 is false: the last value is never a number, and the name of an interface
    is not encoded, so that it can hold further fields. *)
Theorem C77_holdtime_refuted :
  exists ol r, usable (letters ol) [] x_ifindex /\ way (letters ol) 112
    /\ cli_run ol [] y_env (map entry_bytes x_last) = DOk r
    /\ map (fun p => nth 7 (form (po_body p)) ([], [])) (firstn 1 (cr_posts r)) = [(bs "holdtime", bs "71" ++ [13; 10; 13; 10])].
Proof.
  exists [(112, bs "http://stats/x")].
  destruct (cli_run [(112, bs "http://stats/x")] [] y_env (map entry_bytes x_last)) as [r| | | |] eqn:E; [|exfalso; revert E; vm_compute; discriminate..].
  exists r. split; [apply y_usable; vm_compute; reflexivity|]. split; [apply y_way; reflexivity|]. split; [reflexivity|].
  pattern r. refine (y_run _ _ _ r _ E). vm_compute. reflexivity.
Qed.
Print Assumptions C77_holdtime_refuted.
Definition y_amp : list entry := x_queue [CFetch [u_if 9 (bs "e&ttl=1") [] 0 0 None None]; CRecv (u_in 9 x_sw2) 101 101].
Theorem C77_interface_refuted :
  exists r m text, cli_run [(112, bs "http://stats/x")] [] y_env (map entry_bytes y_amp) = DOk r
    /\ cli_main [112] [] x_ifindex 150 None (map entry_bytes y_amp) = Some (DOk ([OShow m], text))
    /\ sh_ttl m = 120
    /\ map (fun p => nth 2 (form (po_body p)) ([], [])) (cr_posts r) = [(bs "ttl", bs "1")].
Proof.
  destruct (cli_run [(112, bs "http://stats/x")] [] y_env (map entry_bytes y_amp)) as [r| | | |] eqn:E; [|exfalso; revert E; vm_compute; discriminate..].
  exists r. do 2 eexists. split; [reflexivity|]. split; [vm_compute; reflexivity|]. split; [reflexivity|].
  pattern r. refine (y_run _ _ _ r _ E). vm_compute. reflexivity.
Qed.
Print Assumptions C77_interface_refuted.

(** C78: with -p the exit status is 0 if and only if the connection could be set
    up and every request was answered with a status below 400. *)
Theorem C78_exit_status ol names env reads u r :
  usable (letters ol) names (ce_ifindex env) -> way (letters ol) 112 -> In (112, u) ol ->
  cli_run ol names env reads = DOk r ->
  (cr_exit r = 0 <-> h_port (ce_http env) <> None /\ h_conn (ce_http env) = true /\ h_name (ce_http env) <> None
     /\ Forall (fun a => exists c, a = Some c /\ c <> 0 /\ c < 400) (ce_answers env)).
Proof. exact (fun Hu => run_status ol names env reads Hu u r). Qed.
Print Assumptions C78_exit_status.
(** A failure in the middle is not forgotten. *)
Example C78_case :
  let ol := [(112, bs "http://stats/x")] in
  let status l := match cli_run ol [] (y_answers l) (map entry_bytes x_last) with DOk r => cr_exit r | _ => -1 end in
  usable (letters ol) [] x_ifindex /\ way (letters ol) 112
  /\ status [Some 200; Some 302; Some 204] = 0 /\ status [Some 200; Some 404; Some 200] = 1 /\ status [Some 200; None] = 1.
Proof.
  cbv zeta. split; [apply y_usable; vm_compute; reflexivity|]. split; [apply y_way; reflexivity|]. repeat split; vm_compute; reflexivity.
Qed.

(** C79: with -d the output is a capture file of the frames of the neighbours
    selected, complete and in the order of the table.  The conditions are those
    of C44. *)
Theorem C79_capture_partial ol names env es :
  usable (letters ol) names (ce_ifindex env) -> way (letters ol) 100 -> ce_tty env = false ->
  0 <= ce_now env < 9223372036854775808 -> clock_ok (ce_clock env) ->
  Forall genuine es -> (forall e, In e es -> q_received e <= ce_now env) ->
  (forall e, In e es -> q_proto e = 5 -> ~ In 67 (letters ol)) ->
  undisturbed (fun e => asked (letters ol) (q_proto e) && asked_if names (ce_ifindex env) (q_index e)) (fresh (ce_now env)) es ->
  let all := filter (fun e => asked (letters ol) (q_proto e) && asked_if names (ce_ifindex env) (q_index e)
                              && fresh (ce_now env) e) es in
  exists out ks, cli_run ol names env (map entry_bytes es) = DOk (mkRun out [] 0)
  /\ capture_read out = Some ks
  /\ capture_of (ce_clock env) (map (fun e => firstn (Z.to_nat (q_len e)) (q_msg e))
       (if existsb (Z.eqb 111) (letters ol) then firstn 1 all else all)) ks.
Proof. exact (client_capture ol names env es). Qed.
Print Assumptions C79_capture_partial.
Example C79_case :
  let ol := [(100, []); (118, [])] in
  usable (letters ol) [] (ce_ifindex y_file) /\ way (letters ol) 100 /\ clock_ok (ce_clock y_file) /\ Forall genuine x_last
  /\ (forall e, In e x_last -> q_received e <= ce_now y_file)
  /\ undisturbed (fun e => asked (letters ol) (q_proto e) && asked_if [] x_ifindex (q_index e)) (fresh 150) x_last
  /\ match cli_run ol [] y_file (map entry_bytes x_last) with
     | DOk r => option_map (map (fun k => (k_sec k, k_usec k, k_len k, k_frame k))) (capture_read (cr_out r))
                = Some [(150, 0, 60, x_sw2); (150, 7, zlen x_port, x_port); (150, 14, zlen x_old, x_old)]
     | _ => False
     end.
Proof.
  cbv zeta. split; [apply y_usable; vm_compute; reflexivity|]. split; [apply y_way; reflexivity|]. split; [exact y_clock|].
  split; [exact x_last_genuine|]. split; [apply x_before; vm_compute; reflexivity|]. split; [apply x_calm; vm_compute; reflexivity|].
  vm_compute. reflexivity.
Qed.
(** A terminal gets no binary data. *)
Theorem C79_not_on_a_terminal ol names env reads :
  way (letters ol) 100 -> ce_tty env = true -> cli_run ol names env reads = DOk (mkRun [] [] 1).
Proof. exact (capture_tty ol names env reads). Qed.
Print Assumptions C79_not_on_a_terminal.
Example C79_terminal_case : way (letters [(98, []); (100, [])]) 100.
Proof. apply y_way. reflexivity. Qed.
(** C79 is false as far as the times are concerned: the record of a frame
    received at 101 says 150, when the client ran. *)
Theorem C79_times_refuted :
  exists e out ks, In e x_last /\ usable (letters [(100, [])]) [] (ce_ifindex y_file)
  /\ cli_run [(100, [])] [] y_file (map entry_bytes [e]) = DOk (mkRun out [] 0)
  /\ capture_read out = Some ks /\ map k_frame ks = [x_sw2] /\ q_received e = 101 /\ map k_sec ks = [150].
Proof.
  exists (x_at 0 x_last). do 2 eexists. split; [apply x_in; vm_compute; reflexivity|]. split; [apply y_usable; vm_compute; reflexivity|].
  split; [vm_compute; reflexivity|]. split; [vm_compute; reflexivity|]. repeat split; vm_compute; reflexivity.
Qed.
Print Assumptions C79_times_refuted.

(** C80: the daemon with -d transmits nothing and changes no membership. *)
Theorem C80_nothing_sent cfg fds es :
  has (pc_opts cfg) OPT_DEBUG = true ->
  forall e, In e (r_eff (parent_run cfg fds es)) ->
  (forall i fd f, e <> EFrame i fd f) /\ (forall i op a, e <> EMulti i op a).
Proof.
  intros H e He. pose proof (debug_silent cfg H es fds) as S. rewrite forallb_forall in S. apply S in He.
  split; intros; intros ->; discriminate.
Qed.
Print Assumptions C80_nothing_sent.
(** What it writes instead is a capture of the frames handed to the privileged
    process, in that order. *)
Theorem C80_capture cfg es fs big clock :
  has (pc_opts cfg) OPT_DEBUG = true -> clock_ok clock -> handed es fs -> r_alive (parent_run cfg [] es) = true ->
  exists ks, capture_read (daemon_capture big clock (r_eff (parent_run cfg [] es))) = Some ks /\ capture_of clock fs ks.
Proof. exact (fun H => debug_capture cfg H es fs big clock). Qed.
Print Assumptions C80_capture.
(** The frames alone never end it. *)
Theorem C80_alive cfg es fs :
  has (pc_opts cfg) OPT_DEBUG = true -> handed es fs -> (forall e, In e es -> exists d os, e = PSend d os) ->
  r_alive (parent_run cfg [] es) = true.
Proof. exact (fun H Hh He => debug_sends cfg H es fs Hh He []). Qed.
Print Assumptions C80_alive.
Definition y_debug : pcfg := mkPcfg (7 + OPT_DEBUG) [true; true; false; false; false; false] false false.
Example C80_case :
  let es := [PReq (t_req 0 3 0 []) (t_os (Some (bs "eth0"))); PSend t_dgram (t_os (Some (bs "eth0")));
             PSend t_dgram (t_os None); PSend t_dgram (t_os (Some (bs "eth0")))] in
  has (pc_opts y_debug) OPT_DEBUG = true /\ handed es [c_cdp; c_cdp] /\ r_alive (parent_run y_debug [] es) = true
  /\ option_map (map k_frame) (capture_read (daemon_capture true (fun _ => None) (r_eff (parent_run y_debug [] es)))) = Some [c_cdp; c_cdp].
Proof.
  cbv zeta. split; [vm_compute; reflexivity|]. split; [|split; vm_compute; reflexivity].
  assert (K : forall es fs, handed es fs -> handed (PSend t_dgram (t_os (Some (bs "eth0"))) :: es) (c_cdp :: fs)).
  { intros es fs. apply (handed_frame _ _ _ _ 3 1 0 _ (skipn 22 c_cdp)); [is_bytes|is_bytes|repeat split; vm_compute; reflexivity|lia| | |discriminate].
    - split; vm_compute; discriminate.
    - apply c_cdp_frame. }
  apply handed_req, K, handed_gone; [reflexivity|]. apply K, handed_nil.
Qed.
