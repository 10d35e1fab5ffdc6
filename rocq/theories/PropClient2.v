(** C150: from the words given to the client to posts, captures and full texts. *)
From Verif Require Import Base Tlv Types Msg Protos Wire Util Child Cli Post Getopt ClientMain Spec SpecAdv SpecRound SpecNet SpecChild SpecCli SpecAddr SpecPrint SpecPost SpecGetopt SpecClient.
From Verif Require Import ClientProofs2 PostProofs2 Cases7 Cases9 PropCli PropPrint PropClient.

(** If -p is the last of -b, -d, -f and -p, and -f is not given, there is one post for each
    neighbour asked for, in order, to the host and path of the url; read as a form, its body
    has the fields of the neighbour (but for line ends after the last, as in C77). *)
Theorem C150_posts perm words o names env es u host path port me r :
  says perm client_letters words o names -> usable (map fst o) names (ce_ifindex env) ->
  way (map fst o) 112 -> In (112, u) o -> url host path u -> says_letter 102 o = false ->
  0 <= ce_now env < 9223372036854775808 -> Forall genuine es ->
  (forall e, In e es -> q_received e <= ce_now env /\ literal (q_name e)) ->
  (forall e, In e es -> wanted o names (ce_ifindex env) e = true -> fresh (ce_now env) e = true) ->
  connected (ce_http env) port me -> (forall f, h_found (ce_http env) = Some f -> zlen f < 255) -> literal me -> url_encoder (ce_enc env) ->
  ladvdc perm words env (map entry_bytes es) = DOk r ->
  Forall (fun p => po_host p = host /\ po_port p = port /\ po_path p = path) (cr_posts r)
  /\ map (fun p => form (po_body p)) (cr_posts r)
     = map (fun e => form_of me (display (ce_now env) e) [13; 10; 13; 10]) (to_show o names (ce_ifindex env) es).
Proof. exact (client_posts perm words o names env es u host path port me r). Qed.
Print Assumptions C150_posts.

(** If -d is the last of them, and the output no terminal, the client writes a capture of
    the frames of the neighbours asked for, complete and in order. *)
Theorem C150_capture perm words o names env es :
  says perm client_letters words o names -> usable (map fst o) names (ce_ifindex env) -> way (map fst o) 100 -> ce_tty env = false ->
  0 <= ce_now env < 9223372036854775808 -> clock_ok (ce_clock env) -> Forall genuine es -> (forall e, In e es -> q_received e <= ce_now env) ->
  (forall e, In e es -> q_proto e = 5 -> says_letter 67 o = false) ->
  (forall e, In e es -> wanted o names (ce_ifindex env) e = true -> fresh (ce_now env) e = true) ->
  exists out ks, ladvdc perm words env (map entry_bytes es) = DOk (mkRun out [] 0) /\ capture_read out = Some ks
  /\ capture_of (ce_clock env) (map (fun e => firstn (Z.to_nat (q_len e)) (q_msg e)) (to_show o names (ce_ifindex env) es)) ks.
Proof. exact (client_file perm words o names env es). Qed.
Print Assumptions C150_capture.

(** With -f and none of the others, and without -o, the client prints what the frames of the
    neighbours asked for say, each with an empty line after it, and nothing else, if they are
    LLDP and CDP (C91: the others say nothing, and LLDP chassis may not be network
    addresses). *)
Theorem C150_print perm words o names env es texts :
  says perm client_letters words o names -> usable (map fst o) names (ce_ifindex env) -> says_letter 102 o = true -> without (bs "bdpo") o ->
  0 <= ce_now env < 9223372036854775808 -> Forall genuine es -> (forall e, In e es -> q_received e <= ce_now env) ->
  (forall e, In e es -> q_proto e = 5 -> says_letter 67 o = false) ->
  (forall e, In e es -> wanted o names (ce_ifindex env) e = true -> fresh (ce_now env) e = true) ->
  Forall2 (entry_says (ce_now env)) (to_show o names (ce_ifindex env) es) texts ->
  ladvdc perm words env (map entry_bytes es) = DOk (mkRun (flat_map (fun t => t ++ [10]) texts) [] 0).
Proof. exact (client_print perm words o names env es texts). Qed.
Print Assumptions C150_print.

(** *** Examples *)
Lemma cz_way ls m : (exists a b, ls = a ++ m :: b /\ existsb (Z.eqb m) (bs "bdfp") = true /\ forallb (fun x => negb (existsb (Z.eqb x) (bs "bdfp"))) b = true) -> way ls m.
Proof.
  intros (a & b & E & H1 & H2). left. exists a, b. split; [exact E|]. split.
  - apply existsb_exists in H1 as (y & Hy & K). apply Z.eqb_eq in K. now subst.
  - intros x X K. rewrite forallb_forall in H2. specialize (H2 x X). apply negb_true_iff in H2. rewrite <- not_true_iff_false in H2.
    apply H2, existsb_exists. exists x. split; [exact K|apply Z.eqb_refl].
Qed.
Lemma cz_literal now es : forallb (fun e => (q_received e <=? now) && forallb (fun b => negb (b =? 37) && negb (b =? 38) && negb (b =? 43)) (q_name e)) es = true ->
  forall e, In e es -> q_received e <= now /\ literal (q_name e).
Proof. intros H e K. rewrite forallb_forall in H. specialize (H e K). apply andb_true_iff in H as [H1 H2]. split; [lia|now apply literal_check]. Qed.
(** ladvdc -b -p http://stats/x eth0 *)
Definition cz_p : list (list Z) := [bs "-b"; bs "-p"; bs "http://stats/x"; bs "eth0"].
Definition cz_po : list (Z * list Z) := [(98, []); (112, bs "http://stats/x")].
Example C150_posts_case :
  says false client_letters cz_p cz_po [bs "eth0"] /\ usable (map fst cz_po) [bs "eth0"] (ce_ifindex y_env) /\ way (map fst cz_po) 112
  /\ Forall genuine x_last /\ (forall e, In e x_last -> wanted cz_po [bs "eth0"] x_ifindex e = true -> fresh 150 e = true)
  /\ (forall e, In e x_last -> q_received e <= ce_now y_env /\ literal (q_name e)) /\ url (bs "stats") (bs "/x") (bs "http://stats/x")
  /\ connected (ce_http y_env) 80 (bs "me.example.org") /\ literal (bs "me.example.org") /\ url_encoder (ce_enc y_env)
  /\ match ladvdc false cz_p y_env (map entry_bytes x_last) with
     | DOk r => map (fun p => (po_host p, po_port p, po_path p, nth 2 (form (po_body p)) ([], []))) (cr_posts r)
                = [(bs "stats", 80, bs "/x", (bs "peer_hostname", bs "sw2.example.org")); (bs "stats", 80, bs "/x", (bs "peer_hostname", bs "old.example.org"))]
     | _ => False
     end.
Proof.
  split.
  { apply (says_bare false client_letters (bs "b") _ [(112, bs "http://stats/x")]); [discriminate|cz_letters|].
    apply (says_apart false client_letters [] 112 (bs "http://stats/x") _ []); [cz_letters|cbn; auto|].
    apply says_names; [reflexivity|intros (c & r & E); discriminate]. }
  split; [apply y_usable; vm_compute; reflexivity|]. split; [apply cz_way; exists [98], []; repeat split|].
  split; [exact x_last_genuine|]. split; [apply cz_fresh; vm_compute; reflexivity|].
  split; [apply cz_literal; vm_compute; reflexivity|].
  split; [split; [y_out|]; split; [y_out|]; right; exists (bs "x"); now split|].
  split; [exact y_connected|]. split; [now apply literal_check|]. split; [exact percent_encoder|]. vm_compute. reflexivity.
Qed.
(** ladvdc -dv eth0 > file *)
Example C150_capture_case :
  let o := [(100, []); (118, [])] in
  says false client_letters [bs "-dv"; bs "eth0"] o [bs "eth0"] /\ usable (map fst o) [bs "eth0"] (ce_ifindex y_file) /\ way (map fst o) 100
  /\ ce_tty y_file = false /\ clock_ok (ce_clock y_file)
  /\ (forall e, In e x_last -> wanted o [bs "eth0"] x_ifindex e = true -> fresh 150 e = true)
  /\ match ladvdc false [bs "-dv"; bs "eth0"] y_file (map entry_bytes x_last) with
     | DOk r => option_map (map k_frame) (capture_read (cr_out r)) = Some [x_sw2; x_old]
     | _ => False
     end.
Proof.
  cbv zeta. split.
  { apply (says_bare false client_letters (bs "dv") _ []); [discriminate|cz_letters|].
    apply says_names; [reflexivity|intros (c & r & E); discriminate]. }
  split; [apply y_usable; vm_compute; reflexivity|]. split; [apply cz_way; exists [], [118]; repeat split|].
  split; [reflexivity|]. split; [exact y_clock|]. split; [apply cz_fresh; vm_compute; reflexivity|]. vm_compute. reflexivity.
Qed.
(** ladvdc -f at time 105: the texts of C91_client_case. *)
Definition cz_now : client_env := mkCEnv x_ifindex 105 None false false (fun _ => None) y_http percent [].
Example C150_print_case :
  says false client_letters [bs "-f"] [(102, [])] [] /\ usable [102] [] (ce_ifindex cz_now) /\ says_letter 102 [(102, [])] = true
  /\ to_show [(102, [])] [] x_ifindex x_last = x_last /\ Forall2 (entry_says (ce_now cz_now)) x_last k_texts
  /\ ladvdc false [bs "-f"] cz_now (map entry_bytes x_last) = DOk (mkRun (flat_map (fun t => t ++ [10]) k_texts) [] 0).
Proof.
  split; [apply (says_bare false client_letters (bs "f") _ []); [discriminate|cz_letters|apply says_nothing]|].
  split; [apply x_usable; vm_compute; reflexivity|]. split; [reflexivity|]. split; [vm_compute; reflexivity|].
  split; [exact (proj1 (proj2 (proj2 (proj2 (proj2 (proj2 C91_client_case))))))|]. vm_compute. reflexivity.
Qed.
