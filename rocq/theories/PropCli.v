(** The client: C23, C44, C45, C46, C59. *)
From Verif Require Import Base Tlv Types Msg Protos Parent Wire Util Child Cli Spec SpecAdv SpecRound SpecNet SpecChild SpecCli
  Lemmas Cases2 Cases3 Cases4 Cases7 CliProofs5 CliProofs6 CliProofs7 CliProofs8.

(** C23: whatever the daemon sends, the output of -b read by a shell is the
    documented list of assignments for the neighbours shown. *)
Theorem C23_batch_safe letters names ifindex now ws reads o text :
  usable letters names ifindex -> In 98 letters -> (forall x, In x letters -> x <> 100 /\ x <> 102 /\ x <> 112) ->
  Forall bytes reads -> zlen reads <= 4294967296 -> (forall m, In m reads -> ~ In 39 (pm_name m)) ->
  cli_main letters names ifindex now ws reads = Some (DOk (o, text)) ->
  exists ms, o = map OShow ms /\ sh_read (InName []) text = Some (documented_all 0 ms).
Proof. exact (batch_safe letters names ifindex now ws reads o text). Qed.
Print Assumptions C23_batch_safe.
(** A host name that tries to run a command; -b and -v. *)
Lemma x_usable letters names : forallb (fun x => existsb (Z.eqb x) (bs "LCEFNbdfov")) letters
  && forallb (fun n => negb (x_ifindex n =? 0)) names = true -> usable letters names x_ifindex.
Proof.
  intros H. apply andb_true_iff in H as [H1 H2]. rewrite forallb_forall in H1, H2.
  assert (K : forall x, In x letters -> In x (bs "LCEFNbdfov")).
  { intros x Hx. apply H1 in Hx. apply existsb_exists in Hx as (y & Hy & E). apply Z.eqb_eq in E. now subst y. }
  split; [|split].
  - intros x Hx. apply K in Hx. cbn in Hx |- *. tauto.
  - intros a b. left. intros ->. specialize (K 112). cbn in K.
    assert (In 112 (a ++ 112 :: b)) by (apply in_app_iff; right; now left). apply K in H. lia.
  - intros n Hn. apply H2 in Hn. lia.
Qed.
Example C23_case :
  let r := cli_main (bs "bv") [] x_ifindex 150 None (map entry_bytes x_tricky) in
  usable (bs "bv") [] x_ifindex /\ Forall bytes (map entry_bytes x_tricky)
  /\ forallb (fun m => negb (existsb (Z.eqb 39) (pm_name m))) (map entry_bytes x_tricky) = true
  /\ x_out r = [(3, 0, Some (bs "a" ++ [10] ++ bs "core';reboot"), Some (bs "1"), 72);
                (1, 0, Some (bs "sw2.example.org"), Some (bs "Ethernet1/7"), 71)]
  /\ match sh_read (InName []) (x_text r) with
     | Some l => zlen l = 24 /\ nth 1 l ([], []) = (bs "HOSTNAME_0", bs "a" ++ [10] ++ bs "core" ++ [34] ++ bs ";reboot")
                 /\ nth 23 l ([], []) = (bs "HOLDTIME_1", bs "71")
     | None => False
     end.
Proof.
  cbv zeta. split; [now apply x_usable|]. split.
  - apply x_bytes. vm_compute. reflexivity.
  - split; [vm_compute; reflexivity|]. split; [vm_compute; reflexivity|]. vm_compute. repeat split.
Qed.

(** The daemon's table holds only genuine entries, whatever it received. *)
Theorem C44_table_genuine opts es c eff :
  Forall daemon_event es -> reached opts es c eff -> Forall genuine (c_queue c).
Proof. exact (table_genuine opts es c eff). Qed.
Print Assumptions C44_table_genuine.
Example C44_table_case :
  map (fun e => (q_index e, q_proto e, q_ttl e, q_received e)) x_last
  = [(1, 0, 120, 101); (3, 1, 180, 102); (1, 5, 180, 103); (3, 0, 10, 100)] /\ Forall genuine x_last.
Proof. split; [vm_compute; reflexivity|exact x_last_genuine]. Qed.

(** C44 for every command line without -f, as long as no unexpired neighbour is
    sent after a selected one that has expired, CDP version 1 is not meant by -C,
    and the client's clock is not behind.  Missing: the other cases, for which
    see the refutations. *)
Theorem C44_shown_partial letters names ifindex now ws es :
  usable letters names ifindex -> ~ In 102 letters -> 0 <= now < 9223372036854775808 ->
  Forall genuine es -> (forall e, In e es -> q_received e <= now) ->
  (forall e, In e es -> q_proto e = 5 -> ~ In 67 letters) ->
  undisturbed (fun e => asked letters (q_proto e) && asked_if names ifindex (q_index e)) (fresh now) es ->
  let all := map (display now)
    (filter (fun e => asked letters (q_proto e) && asked_if names ifindex (q_index e) && fresh now e) es) in
  exists text, cli_main letters names ifindex now ws (map entry_bytes es)
    = Some (DOk (map OShow (if existsb (Z.eqb 111) letters then firstn 1 all else all), text)).
Proof. exact (client_shows letters names ifindex now ws es). Qed.
Print Assumptions C44_shown_partial.
Example C44_shown_case :
  Forall genuine x_last /\ usable [] [bs "eth0"] x_ifindex
  /\ undisturbed (fun e => asked [] (q_proto e) && asked_if [bs "eth0"] x_ifindex (q_index e)) (fresh 150) x_last
  /\ undisturbed (fun e => asked [] (q_proto e) && asked_if [] x_ifindex (q_index e)) (fresh 150) x_last
  /\ x_out (cli_main [] [bs "eth0"] x_ifindex 150 None (map entry_bytes x_last))
     = [(1, 0, Some (bs "sw2.example.org"), Some (bs "Ethernet1/7"), 71);
        (1, 5, Some (bs "old.example.org"), Some (bs "FastEthernet0/3"), 133)]
  /\ map x_view (map (display 150) (filter (fresh 150) x_last))
     = x_out (cli_main [] [] x_ifindex 150 None (map entry_bytes x_last)).
Proof.
  split; [exact x_last_genuine|]. split; [now apply x_usable|].
  split; [|split; [|split; vm_compute; reflexivity]];
    apply x_calm; vm_compute; reflexivity.
Qed.
(** C44 is false: with -f an expired neighbour is displayed (with a hold time of
    18 hours).  The output is the text of the decoder. *)
Theorem C44_print_refuted : exists es now e text,
  Forall genuine es /\ es = [e] /\ usable [102] [] x_ifindex /\ q_received e <= now /\ fresh now e = false
  /\ cli_main [102] [] x_ifindex now None (map entry_bytes es) = Some (DOk (map OText text, concat text))
  /\ concat text = bs "Chassis id: 02:00:00:00:00:09" ++ [10] ++ bs "Port id: ge-0/0/1" ++ [10]
     ++ bs "Time remaining: 65496 seconds" ++ [10] ++ bs "System Name: sw1.example.org" ++ [10].
Proof.
  exists [x_at 0 x_mixed], 150, (x_at 0 x_mixed).
  exists [bs "Chassis id: 02:00:00:00:00:09" ++ [10]; bs "Port id: ge-0/0/1" ++ [10];
     bs "Time remaining: 65496 seconds" ++ [10]; bs "System Name: sw1.example.org" ++ [10]]. split.
  - apply x_pick; [exact x_mixed_genuine|vm_compute; reflexivity].
  - split; [reflexivity|]. split; [now apply x_usable|]. split; [vm_compute; discriminate|]. split; [vm_compute; reflexivity|].
    split; vm_compute; reflexivity.
Qed.
Print Assumptions C44_print_refuted.
(** C44 and C45 are false: a neighbour that has not expired is not displayed,
    because of an expired one before it. *)
Theorem C44_hidden_refuted : exists es now e,
  Forall genuine es /\ In e es /\ (forall e', In e' es -> q_received e' <= now) /\ fresh now e = true
  /\ sh_peer (display now e) <> no_peers
  /\ (forall o text, cli_main [] [] x_ifindex now None (map entry_bytes es) = Some (DOk (o, text)) ->
      ~ In (OShow (display now e)) o)
  /\ exists text, cli_main [] [] x_ifindex now None [entry_bytes e] = Some (DOk ([OShow (display now e)], text)).
Proof.
  exists x_first, 150, (x_at 1 x_first). split; [exact x_first_genuine|].
  split; [apply x_in; vm_compute; reflexivity|]. split.
  - apply x_before. vm_compute. reflexivity.
  - split; [vm_compute; reflexivity|]. split; [vm_compute; discriminate|]. split.
    + apply x_hides. vm_compute. reflexivity.
    + eexists. vm_compute. reflexivity.
Qed.
Print Assumptions C44_hidden_refuted.
(** C45 is false: a neighbour is displayed with the host name and port of another
    one, expired and on another interface. *)
Theorem C45_mixed_refuted : exists es now a b m,
  Forall genuine es /\ es = [a; b] /\ (forall e', In e' es -> q_received e' <= now)
  /\ q_index a <> q_index b /\ fresh now a = false /\ fresh now b = true
  /\ (exists text, cli_main [] [] x_ifindex now None (map entry_bytes es) = Some (DOk ([OShow m], text)))
  /\ sh_index m = q_index b /\ sh_proto m = q_proto b
  /\ nth 0 (q_peer b) None = None /\ nth 1 (q_peer b) None = Some (bs "GigabitEthernet0/17")
  /\ nth 0 (sh_peer m) None = nth 0 (q_peer a) None /\ nth 1 (sh_peer m) None = nth 1 (q_peer a) None
  /\ nth 0 (q_peer a) None = Some (bs "sw1.example.org") /\ nth 1 (q_peer a) None = Some (bs "ge-0/0/1").
Proof.
  exists x_mixed, 150, (x_at 0 x_mixed), (x_at 1 x_mixed). eexists.
  split; [exact x_mixed_genuine|]. split; [vm_compute; reflexivity|]. split.
  - apply x_before. vm_compute. reflexivity.
  - split; [vm_compute; discriminate|]. split; [vm_compute; reflexivity|]. split; [vm_compute; reflexivity|].
    split; [eexists; vm_compute; reflexivity|]. repeat (split; [vm_compute; reflexivity|]). vm_compute. reflexivity.
Qed.
Print Assumptions C45_mixed_refuted.
(** C45 without -f and -o, under the same condition on the order of expired
    neighbours: the neighbours displayed are those displayed for every message
    alone. *)
Theorem C45_apart_partial letters names ifindex now ws es :
  usable letters names ifindex -> ~ In 102 letters -> ~ In 111 letters -> 0 <= now < 9223372036854775808 ->
  Forall genuine es -> (forall e, In e es -> q_received e <= now) ->
  undisturbed (fun e => asked letters (q_proto e) && asked_if names ifindex (q_index e)
    && negb (existsb (Z.eqb 67) letters && (q_proto e =? 5))) (fresh now) es ->
  exists text each,
  cli_main letters names ifindex now ws (map entry_bytes es) = Some (DOk (concat each, text))
  /\ Forall2 (fun e o => exists t, cli_main letters names ifindex now ws [entry_bytes e] = Some (DOk (o, t))) es each.
Proof. exact (client_apart letters names ifindex now ws es). Qed.
Print Assumptions C45_apart_partial.
Example C45_apart_case :
  map (fun e => x_out (cli_main [] [] x_ifindex 150 None [entry_bytes e])) x_last
  = [[(1, 0, Some (bs "sw2.example.org"), Some (bs "Ethernet1/7"), 71)];
     [(3, 1, None, Some (bs "GigabitEthernet0/17"), 132)];
     [(1, 5, Some (bs "old.example.org"), Some (bs "FastEthernet0/3"), 133)]; []].
Proof. vm_compute. reflexivity. Qed.

(** C46 is false: with -C a CDP version 1 neighbour is not displayed. *)
Theorem C46_version1_refuted : exists es now e text,
  Forall genuine es /\ es = [e] /\ q_received e <= now /\ fresh now e = true
  /\ q_proto e = 5 /\ proto_text (q_proto e) = bs "CDP1"
  /\ usable [67] [] x_ifindex /\ cli_main [67] [] x_ifindex now None (map entry_bytes es) = Some (DOk ([], text)).
Proof.
  exists [x_at 2 x_last], 150, (x_at 2 x_last). eexists. split.
  - apply x_pick; [exact x_last_genuine|vm_compute; reflexivity].
  - split; [reflexivity|]. split; [vm_compute; discriminate|]. split; [vm_compute; reflexivity|].
    split; [vm_compute; reflexivity|]. split; [vm_compute; reflexivity|]. split; [now apply x_usable|]. vm_compute. reflexivity.
Qed.
Print Assumptions C46_version1_refuted.
(** C46 for version 2: with -C exactly the unexpired neighbours of that version
    are displayed, under the condition on the order of expired neighbours.
    Missing: version 1. *)
Theorem C46_cdp_partial ifindex now ws es :
  0 <= now < 9223372036854775808 ->
  Forall genuine es -> (forall e, In e es -> q_received e <= now) ->
  undisturbed (fun e => q_proto e =? 1) (fresh now) es ->
  exists text, cli_main [67] [] ifindex now ws (map entry_bytes es)
    = Some (DOk (map OShow (map (display now) (filter (fun e => (q_proto e =? 1) && fresh now e) es)), text)).
Proof. exact (client_cdp ifindex now ws es). Qed.
Print Assumptions C46_cdp_partial.
Example C46_cdp_case :
  undisturbed (fun e => q_proto e =? 1) (fresh 150) x_last
  /\ x_out (cli_main [67] [] x_ifindex 150 None (map entry_bytes x_last))
     = [(3, 1, None, Some (bs "GigabitEthernet0/17"), 132)].
Proof.
  split; [|vm_compute; reflexivity].
  apply x_calm; vm_compute; reflexivity.
Qed.

(** C59: the default output is one row per neighbour in aligned columns.
    Missing: a row is one line only if nothing in it has a line break. *)
Theorem C59_rows_partial letters names ifindex now ws reads o text :
  usable letters names ifindex -> (forall x, In x letters -> x <> 98 /\ x <> 100 /\ x <> 102 /\ x <> 112) ->
  Forall bytes reads ->
  cli_main letters names ifindex now ws reads = Some (DOk (o, text)) ->
  exists hw pw ms heading rs,
  20 <= hw <= 30
  /\ match pw with Some w => exists col, ws = Some col /\ 0 < col /\ hw + 50 + w = Z.max 80 col
                  | None => forall col, ws = Some col -> col <= 0 end
  /\ o = map OShow ms /\ text = legend ++ heading ++ concat rs
  /\ row hw None (bs "Device ID") (bs "Local Intf") (bs "Proto") (bs "Hold-time") (bs "Capability") (bs "Port ID") heading
  /\ Forall2 (row_of hw pw) ms rs
  /\ (forall m r, In (m, r) (combine ms rs) -> unbroken m -> lines r = 1).
Proof. exact (table_rows letters names ifindex now ws reads o text). Qed.
Print Assumptions C59_rows_partial.
Example C59_rows_case :
  skipn (Z.to_nat (zlen legend)) (x_text (cli_main [] [] x_ifindex 150 (Some 100) (map entry_bytes x_last)))
  = bs "Device ID                      Local Intf    Proto   Hold-time    Capability    Port ID" ++ [10]
 ++ bs "sw2.example.org                eth0          LLDP    71                         Eth1/7              " ++ [10]
 ++ bs "                               eth1          CDP     132          S             Gi0/17              " ++ [10]
 ++ bs "old.example.org                eth0          CDP1    133                        Fa0/3               " ++ [10].
Proof. vm_compute. reflexivity. Qed.
(** C59 is false in full: a neighbour can put a line of its choice on the
    terminal. *)
Theorem C59_lines_refuted : exists es now e,
  Forall genuine es /\ es = [e] /\ q_received e <= now
  /\ exists text r, cli_main [] [] x_ifindex now None (map entry_bytes es) = Some (DOk ([OShow (display now e)], text))
     /\ text = legend ++ r /\ lines r = 3.
Proof.
  exists [x_at 0 x_tricky], 150, (x_at 0 x_tricky). split.
  - apply x_pick; [exact x_tricky_genuine|vm_compute; reflexivity].
  - split; [reflexivity|]. split; [vm_compute; discriminate|]. eexists. exists (skipn (Z.to_nat (zlen legend))
      (x_text (cli_main [] [] x_ifindex 150 None (map entry_bytes [x_at 0 x_tricky])))).
    split; [vm_compute; reflexivity|]. split; vm_compute; reflexivity.
Qed.
Print Assumptions C59_lines_refuted.
