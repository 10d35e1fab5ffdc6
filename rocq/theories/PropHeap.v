(** Who frees what: C113. *)
From Coq Require Import Permutation.
From Verif Require Import Base Types Tlv Msg Protos Parent Wire Util Child Heap
  Spec SpecAdv SpecRound SpecNet SpecChild SpecHeap Cases2 Cases3 Cases4.
From Verif Require Import Lemmas HeapProofs HeapProofs2 HeapProofs3.

(** C113.  A decoder working for the daemon frees nothing it may not free (freeing
    would end in [DUB], which [proto_decode] does not), and leaves in use what
    was in use before and the strings in peer[], whether it accepts or rejects. *)
Theorem C113_decoders p c s others : d_mode c <> DECODE_PRINT -> length (h_peer s) = 8%nat ->
  in_use (h_heap s) (held_by s ++ others) ->
  ran (h_decode p c s) = proto_decode p c (erase s)
  /\ forall r s', h_decode p c s = (r, s') -> r = DFail \/ (exists n, r = DOk n) -> in_use (h_heap s') (held_by s' ++ others).
Proof. exact (decoders_clean p c s others). Qed.
Print Assumptions C113_decoders.
(** In any history the memory management changes nothing: no block is freed that is
    not in use. *)
Theorem C113_history opts es : ran_child (h_run opts h_start es) = child_run opts child_start es.
Proof. exact (history opts es). Qed.
Print Assumptions C113_history.
(** Afterwards the blocks in use are exactly those of the entries, of their
    strings, and of the sessions, each for one purpose only. *)
Theorem C113_owned opts es c eff : h_run opts h_start es = DOk (c, eff) ->
  in_use (hc_heap c) (child_uses c) /\ Forall backed (hc_queue c).
Proof. exact (run_owned opts es c eff). Qed.
Print Assumptions C113_owned.
(** So their number is bounded by the size of the table, however long it ran. *)
Theorem C113_bounded opts es c eff : h_run opts h_start es = DOk (c, eff) ->
  zlen (live (hc_heap c)) <= 9 * zlen (hc_queue c) + zlen (hc_sess c).
Proof. exact (run_bounded opts es c eff). Qed.
Print Assumptions C113_bounded.
(** child_free gives back the table. *)
Theorem C113_free opts es c eff : h_run opts h_start es = DOk (c, eff) ->
  exists h, h_child_free (hc_queue c) (hc_heap c) = DOk h /\ in_use h (map snd (hc_sess c)).
Proof. exact (run_free opts es c eff). Qed.
Print Assumptions C113_free.
(** Describing an interface gives back all it takes. *)
Theorem C113_description opts n q h others : in_use h others ->
  exists h', h_netif_descr opts n q h = DOk (netif_descr opts n q, h') /\ in_use h' others.
Proof. exact (description opts n q h others). Qed.
Print Assumptions C113_description.
(** Printing, for ladvdc -f, frees nothing wrongly, but a block may be lost for every
    description of several lines. *)
Theorem C113_print_partial p c s others : length (h_peer s) = 8%nat -> in_use (h_heap s) (held_by s ++ others) ->
  ran (h_decode p c s) = proto_decode p c (erase s)
  /\ forall r s', h_decode p c s = (r, s') -> r = DFail \/ (exists n, r = DOk n) ->
     exists lost, in_use (h_heap s') (held_by s' ++ others ++ lost) /\ (d_mode c <> DECODE_PRINT -> lost = [])
       /\ zlen lost <= headed (h_out s') - headed (h_out s).
Proof. exact (decoders p c s others). Qed.
Print Assumptions C113_print_partial.

Definition g_none (p : Z) : hst := mkHst (repeat None 8) 0 p [] (mkHeap [] 0).
(** A CDP advertisement; [text] is its software version. *)
Definition g_cdp (text : list Z) : list Z :=
  snap [1; 0; 12; 204; 204; 204] (u_src 1) [0; 0; 12] 8192
    ([2; 180; 0; 0] ++ flat_map cdp_bytes [(1, bs "sw.example.org"); (3, bs "GigabitEthernet0/1"); (4, [0; 0; 0; 1]);
       (5, text); (10, [0; 7]); (10, [0; 8]); (1, bs "again")]).
Definition g_bad : list Z := firstn 60 (g_cdp (bs "v1")).
(** Printing the version "v1, newline, v2" loses the string. *)
Theorem C113_print_refuted : exists p c s n s',
  length (h_peer s) = 8%nat /\ in_use (h_heap s) (held_by s ++ []) /\ h_decode p c s = (DOk n, s')
  /\ ~ in_use (h_heap s') (held_by s' ++ []).
Proof.
  exists 1, (t_ctx 0 2 (g_cdp (bs "v1" ++ [10] ++ bs "v2"))), (g_none 1).
  assert (E : exists n s', h_decode 1 (t_ctx 0 2 (g_cdp (bs "v1" ++ [10] ++ bs "v2"))) (g_none 1) = (DOk n, s')
    /\ held_by s' ++ [] = [] /\ live (h_heap s') = [3]) by (do 2 eexists; vm_compute; split; [reflexivity|split; reflexivity]).
  destruct E as (n & s' & E & E1 & E2). exists n, s'. split; [reflexivity|]. split.
  { split; [constructor|]. split; constructor. }
  split; [exact E|]. rewrite E1. intros (_ & P & _). rewrite E2 in P. apply Permutation_length in P. discriminate.
Qed.
Print Assumptions C113_print_refuted.
(** What is in use after decoding, and in which slots. *)
Definition g_after (p mode : Z) (f : list Z) : option (bool * list Z * list (option Z)) :=
  match h_decode p (t_ctx 0 mode f) (g_none p) with
  | (DOk _, s) => Some (true, live (h_heap s), map (option_map fst) (h_peer s))
  | (DFail, s) => Some (false, live (h_heap s), map (option_map fst) (h_peer s))
  | _ => None
  end.
Definition g_headed (f : list Z) : Z := headed (h_out (snd (h_decode 1 (t_ctx 0 2 f) (g_none 1)))).
Definition g_events : list cevent :=
  [CFetch u_nfs; CRecv (u_in 1 (u_sw 1 120)) 100 100; CRecv (u_in 1 (g_cdp (bs "v1"))) 101 101; CAccept 7; CReady 7 [WAgain];
   CRecv (u_in 1 (u_sw 1 120)) 110 110; CRecv (u_in 1 g_bad) 111 111; CAccept 8; CTimeout 7; CTick 400; CReady 8 []].
Definition g_state (n : nat) : option (list Z * list (Z * list (option Z)) * list Z) :=
  match h_run 2060 h_start (firstn n g_events) with
  | DOk (c, _) => Some (live (hc_heap c), map (fun e => (he_ptr e, he_strs e)) (hc_queue c), map snd (hc_sess c))
  | _ => None
  end.
Example C113_case :
  g_after 1 1 (g_cdp (bs "v1")) = Some (true, [3; 2; 1; 0], [Some 0; Some 1; None; Some 2; None; None; None; Some 3])
  /\ g_after 1 2 (g_cdp (bs "v1")) = Some (true, [], repeat None 8)
  /\ g_after 1 1 g_bad = Some (false, [0], [Some 0; None; None; None; None; None; None; None])
  /\ g_after 1 2 (g_cdp [118; 49; 10; 118; 50; 10]) = Some (true, [3], repeat None 8)
  /\ g_headed (g_cdp (bs "v1")) = 0 /\ g_headed (g_cdp [118; 49; 10; 118; 50; 10]) = 1
  /\ g_state 3 = Some ([9; 6; 5; 4; 3; 2; 1; 0],
       [(2, [Some 1; Some 0; None; None; None; None; None; None]);
        (9, [Some 3; Some 4; None; Some 5; None; None; None; Some 6])], [])
  /\ g_state 8 = Some ([14; 12; 11; 10; 9; 6; 5; 4; 3; 2],
       [(2, [Some 12; Some 11; None; None; None; None; None; None]);
        (9, [Some 3; Some 4; None; Some 5; None; None; None; Some 6])], [10; 14])
  /\ g_state 10 = Some ([14], [], [14]) /\ g_state 11 = Some ([], [], [])
  /\ h_netif_descr 0 u_eth [] (mkHeap [4] 5) = DOk (None, mkHeap [4] 5)
  /\ (let* (c, _) := h_run 2060 h_start (firstn 3 g_events) in h_netif_descr 0 u_eth (map he_entry (hc_queue c)) (mkHeap [4] 5))
     = DOk (Some (bs "connected to sw (Gi0/1)"), mkHeap [4] 8).
Proof. repeat split; vm_compute; reflexivity. Qed.
