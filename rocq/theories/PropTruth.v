(** From the wire to the client: C121. *)
From Verif Require Import Base Types Tlv Bpf Wire Parent Util Child Cli Spec SpecAdv SpecRound SpecNet SpecChild SpecHold SpecCli SpecTruth
  Cases2 Cases3 Cases4 Cases7 PropCli PropE2E TruthProofs.

(** C121.  Take any history of the daemon in which all datagrams are frames of the
    wire that passed the filter, and a client that connects afterwards and is
    served completely, among other clients.  What it shows, for whatever it was
    asked, are the last words of the neighbours heard, each neighbour once: the
    frame that came last, if it still holds.  Missing, because of the refutations
    of C28, C44 and C46: clients that had to wait before, expired entries before
    others, CDP version 1 with -C. *)
Theorem C121_client_truth_partial letters names ifindex ws opts es c eff sid ses c' eff' t :
  reached opts es c eff -> Forall (from_wire opts) es -> Forall unblocked es -> Forall (past t) es -> 0 <= t < 9223372036854775808 ->
  ~ In sid (map ss_id (c_sess c)) -> Forall session_event ses -> ~ In (CAccept sid) ses ->
  child_run opts c (CAccept sid :: ses) = DOk (c', eff') ->
  ~ In sid (map ss_id (c_sess c')) -> ~ Exists (breaks sid) ses ->
  usable letters names ifindex -> ~ In 102 letters -> ~ In 111 letters ->
  (forall e, In e (c_queue c) -> q_proto e = 5 -> ~ In 67 letters) ->
  undisturbed (fun e => asked letters (q_proto e) && asked_if names ifindex (q_index e)) (fresh t) (c_queue c) ->
  exists words text, cli_main letters names ifindex t ws (sent_to sid eff') = Some (DOk (map OShow (map (display t) words), text))
  /\ NoDup (map who words)
  /\ forall en, In en words <-> last_word opts es t en /\ asked letters (q_proto en) = true /\ asked_if names ifindex (q_index en) = true.
Proof. exact (truth letters names ifindex ws opts es c eff sid ses c' eff' t). Qed.
Print Assumptions C121_client_truth_partial.
(** All frames that passed the filter are handed over at once and in order, but for
    those behind a frame to 00:0e:2b:00:00:00, the address that the filter has
    instead of EDP's (C17). *)
Theorem C121_handed_over_partial opts index fs : 0 <= index < 4294967296 -> Forall bytes fs ->
  Forall (fun f => socket_filter opts f = true /\ firstn 6 f <> [0; 14; 43; 0; 0; 0]) fs ->
  exists ds, parent_recv index fs = ds /\ Forall2 (caught opts index) (filter (fun f => 60 <=? zlen f) fs) ds.
Proof. exact (all_caught opts index fs). Qed.
Print Assumptions C121_handed_over_partial.
(** Such a frame, anybody can send it, holds up the frames behind it. *)
Definition d_fake : list Z := [0; 14; 43; 0; 0; 0] ++ u_src 6 ++ be16 60 ++ [170; 170; 3; 0; 14; 43; 0; 187] ++ repeat 0 52.
Theorem C121_handed_over_refuted : exists opts index fs, 0 <= index < 4294967296 /\ Forall bytes fs
  /\ Forall (fun f => socket_filter opts f = true /\ 60 <= zlen f) fs /\ zlen fs = 3
  /\ zlen (parent_recv index fs) = 1 /\ exists f d, In f fs /\ parent_recv index [f] = [d] /\ ~ In d (parent_recv index fs).
Proof.
  exists 4, 1, [x_sw2; d_fake; x_port]. split; [lia|]. split; [repeat (apply Forall_cons; [is_bytes|]); apply Forall_nil|].
  split; [repeat (apply Forall_cons; [split; [vm_compute; reflexivity|vm_compute; discriminate]|]); apply Forall_nil|].
  split; [reflexivity|]. split; [vm_compute; reflexivity|]. exists x_port, (u_in 1 x_port). split; [right; right; now left|].
  split; [vm_compute; reflexivity|]. assert (E : forall (a d : list Z), zlen a <> zlen d -> ~ In d [a]) by (intros a d N [->|[]]; now apply N).
  assert (P : parent_recv 1 [x_sw2; d_fake; x_port] = [u_in 1 x_sw2]) by (vm_compute; reflexivity). rewrite P.
  apply E. vm_compute. discriminate.
Qed.
Print Assumptions C121_handed_over_refuted.

(** A switch heard twice, another one on another interface, a run, one with a short
    hold time that has passed; a client that has to wait, asked for one interface
    or for all. *)
Definition d_es : list cevent :=
  [CFetch u_nfs; CRecv (u_in 1 x_sw2) 101 101; CAccept 9; CReady 9 [WOk]; CRecv (u_in 3 x_port) 102 102; CRecv (u_in 1 x_sw2) 131 131; CTick 135;
   CRecv (u_in 1 x_brief) 136 136].
Definition d_ses : list cevent := [CReady 7 [WOk; WAgain]; CAccept 8; CReady 7 [WOk; WOk]].
Definition d_c : child := Eval vm_compute in z_child d_es.
Definition d_end : option (list Z * list (list Z)) :=
  match child_run 4 d_c (CAccept 7 :: d_ses) with DOk (c', eff) => Some (map ss_id (c_sess c'), sent_to 7 eff) | _ => None end.
Lemma d_caught i f now : 0 < now < 9223372036854775808 -> 0 <= i < 4294967296 -> bytes f -> socket_filter 4 f = true -> parent_recv i [f] = [u_in i f] ->
  from_wire 4 (CRecv (u_in i f) now now).
Proof. intros H1 H2 H3 H4 H5. split; [exact H1|]. split; [exact (proj1 H1)|]. exists i, f. now split. Qed.
Lemma d_wire : Forall (from_wire 4) d_es.
Proof.
  apply Forall_cons; [exact x_fetch|].
  repeat (apply Forall_cons; [first [exact Logic.I | apply d_caught; [lia|lia|is_bytes|vm_compute; reflexivity|vm_compute; reflexivity] | cbn; lia]|]).
  apply Forall_nil.
Qed.
Example C121_case :
  (exists eff, reached 4 d_es d_c eff) /\ Forall (from_wire 4) d_es /\ Forall unblocked d_es /\ Forall (past 150) d_es
  /\ Forall session_event d_ses /\ ~ In (CAccept 7) d_ses /\ ~ Exists (breaks 7) d_ses
  /\ map (fun e => (q_index e, q_proto e, q_received e, q_ttl e)) (c_queue d_c) = [(1, 0, 131, 120); (3, 1, 102, 180); (1, 0, 136, 10)]
  /\ undisturbed (fun e => asked [] (q_proto e) && asked_if [bs "eth0"] x_ifindex (q_index e)) (fresh 150) (c_queue d_c)
  /\ match d_end with
     | Some (left, sent) => left = [8]
       /\ x_out (cli_main [] [bs "eth0"] x_ifindex 150 None sent) = [(1, 0, Some (bs "sw2.example.org"), Some (bs "Ethernet1/7"), 101)]
       /\ x_out (cli_main [] [] x_ifindex 150 None sent)
          = [(1, 0, Some (bs "sw2.example.org"), Some (bs "Ethernet1/7"), 101); (3, 1, None, Some (bs "GigabitEthernet0/17"), 132)]
     | None => False
     end.
Proof.
  split; [apply z_reached; vm_compute; reflexivity|]. split; [exact d_wire|].
  split; [repeat (apply Forall_cons; [cbn; intuition discriminate|]); apply Forall_nil|].
  split; [repeat (apply Forall_cons; [first [exact Logic.I | split; vm_compute; discriminate]|]); apply Forall_nil|].
  split; [repeat (apply Forall_cons; [exact Logic.I|]); apply Forall_nil|]. split; [cbn; intuition discriminate|].
  split; [intros H; unfold d_ses in H; repeat (apply Exists_cons in H as [H|H]; [cbn in H; intuition discriminate|]); now apply Exists_nil in H|].
  split; [vm_compute; reflexivity|]. split; [apply x_calm; vm_compute; reflexivity|]. vm_compute. repeat split.
Qed.
