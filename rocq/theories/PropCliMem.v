(** The memory of the client: C120. *)
From Verif Require Import Base Types Tlv Msg Protos Parent Wire Util Child Cli Heap CliHeap
  Spec SpecAdv SpecRound SpecNet SpecChild SpecHeap SpecCliMem Cases2 Cases3 Cases4 Cases7 PropHeap CliHeapProofs.

(** C120.  The client frees nothing it may not free, whatever it reads: the memory
    management changes nothing. *)
Theorem C120_same c idx now reads : shown (snd (h_cli_run c idx now reads)) = cli_loop c idx now no_peers reads.
Proof. exact (same c idx now reads). Qed.
Print Assumptions C120_same.
(** After any number of messages there are in use its own blocks and the strings of
    the message structure, nothing else, unless frames are printed in full. *)
Theorem C120_used_partial c idx now reads own s s' o : h_cli_start c idx = (own, s) -> h_cli_loop c idx now s reads = DOk (s', o) ->
  exists lost, client_uses c own s' lost.
Proof. exact (used c idx now reads own s s' o). Qed.
Print Assumptions C120_used_partial.
(** So their number does not depend on the number of messages. *)
Theorem C120_bounded_partial c idx now reads own s s' o : h_cli_start c idx = (own, s) -> h_cli_loop c idx now s reads = DOk (s', o) ->
  zlen (live (hl_heap s')) <= 11 + headed (hl_printed s') /\ (cl_mode c <> MODE_PRINT -> zlen (live (hl_heap s')) <= 11).
Proof. exact (few c idx now reads own s s' o). Qed.
Print Assumptions C120_bounded_partial.
(** The strings of a neighbour that was shown are given back. *)
Theorem C120_shown c idx now own s m s' o : length (hl_peer s) = 8%nat -> (exists lost, client_uses c own s lost) ->
  h_cli_step c idx now s m = DOk (s', true, o) -> strings s' = [].
Proof. exact (no_strings_left c idx now own s m s' o). Qed.
Print Assumptions C120_shown.
(** In the end the message structure is given back too. *)
Theorem C120_end_partial c idx now reads own s' o : h_cli_run c idx now reads = (own, DOk (s', o)) -> exists lost, client_uses c (tl own) s' lost.
Proof. exact (at_end c idx now reads own s' o). Qed.
Print Assumptions C120_end_partial.

(** A switch with a software version of two lines, and [n] messages about it. *)
Definition d_reads (n : nat) : list (list Z) :=
  repeat (entry_bytes (x_at 0 (x_queue [CFetch u_nfs; CRecv (u_in 1 (g_cdp (bs "v1" ++ [10] ++ bs "v2"))) 101 101]))) n.
(** What is in use after the loop, the own blocks, and the number of neighbours shown. *)
Definition d_after (c : cconf) (idx : list Z) (reads : list (list Z)) : list Z * option (list Z * list Z * Z) :=
  let '(own, s) := h_cli_start c idx in
  (own, match h_cli_loop c idx 150 s reads with
        | DOk (s', o) => Some (live (hl_heap s'), strings s', zlen (filter (fun x => match x with OShow _ => true | _ => false end) o))
        | _ => None
        end).
Lemma d_ran c idx reads own l strs n : d_after c idx reads = (own, Some (l, strs, n)) ->
  exists s s' o, h_cli_start c idx = (own, s) /\ h_cli_loop c idx 150 s reads = DOk (s', o) /\ live (hl_heap s') = l /\ strings s' = strs.
Proof.
  unfold d_after. intros H. destruct (h_cli_start c idx) as [own' s]. apply pair_equal_spec in H as [<- H].
  destruct (h_cli_loop c idx 150 s reads) as [[s' o]| | | |] eqn:L; try discriminate. injection H as <- <- _. exists s, s', o. split; [reflexivity|]. split; [exact L|]. split; reflexivity.
Qed.
(** C120 is false with -f: every such message leaves a block behind. *)
Theorem C120_print_refuted : exists c idx now reads own s s' o, cl_mode c = MODE_PRINT /\
  h_cli_start c idx = (own, s) /\ h_cli_loop c idx now s reads = DOk (s', o)
  /\ strings s' = [] /\ zlen own = 1 /\ zlen reads = 20 /\ zlen (live (hl_heap s')) = 21.
Proof.
  exists (mkCli 63 MODE_PRINT false), [], 150, (d_reads 20).
  assert (E : exists s s' o, h_cli_start (mkCli 63 MODE_PRINT false) [] = ([0], s)
    /\ h_cli_loop (mkCli 63 MODE_PRINT false) [] 150 s (d_reads 20) = DOk (s', o)
    /\ live (hl_heap s') = [99; 94; 89; 84; 79; 74; 69; 64; 59; 54; 49; 44; 39; 34; 29; 24; 19; 14; 9; 4; 0] /\ strings s' = [])
    by (apply (d_ran _ _ _ _ _ _ 20); vm_compute; reflexivity).
  destruct E as (s & s' & o & E1 & E2 & E3 & E4). exists [0], s, s', o. split; [reflexivity|]. split; [exact E1|]. split; [exact E2|].
  split; [exact E4|]. split; [reflexivity|]. split; [vm_compute; reflexivity|]. rewrite E3. reflexivity.
Qed.
Print Assumptions C120_print_refuted.
(** Four neighbours, the last one expired, with interfaces named and without, in a
    table, posted, and printed; and twenty messages as above. *)
Example C120_case :
  d_after (mkCli 63 MODE_CLI false) [] (map entry_bytes x_last) = ([0], Some ([8; 7; 0], [8; 7], 3))
  /\ d_after (mkCli 63 MODE_CLI true) [1; 3] (map entry_bytes x_last) = ([1; 0], Some ([1; 0], [], 1))
  /\ d_after (mkCli 63 MODE_HTTP false) [1; 3] (map entry_bytes x_last) = ([2; 0; 1], Some ([19; 18; 2; 1; 0], [19; 18], 3))
  /\ snd (d_after (mkCli 63 MODE_BATCH false) [] (d_reads 20)) = Some ([0], [], 20).
Proof. split; [|split; [|split]]; vm_compute; reflexivity. Qed.
