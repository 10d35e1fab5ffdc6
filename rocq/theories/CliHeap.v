(** The memory of the client, /repo/src/cli.c. *)
From Verif Require Import Base Tlv Types Msg Protos Wire Util Child Cli Heap.

(** peer[] of the message structure used for every message (cli.c 62, 176), the heap,
    and all lines the decoders have printed. *)
Record hcli := mkHcli { hl_peer : list (option (Z * list Z)); hl_heap : heap; hl_printed : list (list Z) }.

(** The allocations of the function that shows a neighbour, by mode: batch_write and
    cli_write (cli.c 246-271, 301-330) and debug_write make none, http_request (362-404)
    makes three (evhttp_encode_uri twice, asprintf) and frees them; what libevent keeps
    for the request is not considered. *)
Definition h_write (mode : Z) (h : heap) : dres heap :=
  if mode =? MODE_HTTP then
    let '(host, h) := malloc h in
    let '(port, h) := malloc h in
    let '(data, h) := malloc h in
    let* h := free host h in
    let* h := free port h in
    free data h
  else DOk h.

(** One message, cli.c 178-223; as [cli_step], with the memory.  peer_free is called
    for a frame that is not accepted and for one that was shown, not for one that is
    expired (208-209). *)
Definition h_cli_step (c : cconf) (idx : list Z) (now : Z) (s : hcli) (m : list Z)
  : dres (hcli * bool * list cout) :=
  if 6 <=? pm_proto m then DOk (s, false, [])
  else if (pm_len m <? 60) || (ETHER_MAX_LEN <? pm_len m) then DOk (s, false, [])
  else if negb (zlen idx =? 0) && negb (existsb (fun i => i =? pm_index m) idx) then DOk (s, false, [])
  else if negb (has (cl_proto c) (Z.shiftl 1 (pm_proto m))) then DOk (s, false, [])
  else
    let mode := if cl_mode c =? MODE_PRINT then DECODE_PRINT else DECODE_STR in
    let ctx := mkCtx (pm_msg m) (pm_len m) mode (pm_name m) (pm_received m) now in
    let freed d h :=
      let* h := h_peer_free (map (option_map fst) (h_peer d)) h in
      DOk (mkHcli (map (fun _ => None) (h_peer d)) h (hl_printed s ++ h_out d)) in
    match h_decode (pm_proto m) ctx (mkHst (hl_peer s) 0 (pm_proto m) [] (hl_heap s)) with
    | (DFail, d) => let* s' := freed d (h_heap d) in DOk (s', false, [])
    | (DAbort, _) => DAbort
    | (DUB, _) => DUB
    | (DLoop, _) => DLoop
    | (DOk n, d) =>
        let text := map OText (h_out d) in
        if n =? 0 then let* s' := freed d (h_heap d) in DOk (s', false, text)
        else
          let age := now - pm_received m in
          if (age <? -9223372036854775808) || (9223372036854775807 <? age) then DUB
          else if h_ttl d <? age then DOk (mkHcli (h_peer d) (h_heap d) (hl_printed s ++ h_out d), false, text)
          else
            let* h := h_write (cl_mode c) (h_heap d) in
            let* s' := freed d h in
            DOk (s', true,
                 text ++ OShow (mkItem (pm_index m) (pm_name m) (h_proto d) (h_ttl d) (map (option_map snd) (h_peer d))
                                  ((h_ttl d - age) mod 65536))
                   :: (if (cl_mode c =? MODE_PRINT) && negb (cl_once c) then [OText [10]] else []))
    end.
(** The loop, cli.c 178-224. *)
Fixpoint h_cli_loop (c : cconf) (idx : list Z) (now : Z) (s : hcli) (reads : list (list Z))
  : dres (hcli * list cout) :=
  match reads with
  | [] => DOk (s, [])
  | m :: reads' =>
      if negb (zlen m =? PARENT_MSG_MAX) then DOk (s, [])
      else
        let* (s', did, o) := h_cli_step c idx now s m in
        if did && cl_once c then DOk (s', o)
        else let* (s2, o') := h_cli_loop c idx now s' reads' in DOk (s2, o ++ o')
  end.
(** What cli_main allocates itself: the indices (cli.c 139-140) if interfaces are
    named, the host name for posts (357), the message (176).  Options that copy strings
    (109-119) are not considered.  Allocations in this order, the message last. *)
Definition h_cli_start (c : cconf) (idx : list Z) : list Z * hcli :=
  let h := mkHeap [] 0 in
  let '(l1, h) := if zlen idx =? 0 then ([], h) else let '(a, h) := malloc h in ([a], h) in
  let '(l2, h) := if cl_mode c =? MODE_HTTP then let '(a, h) := malloc h in ([a], h) else ([], h) in
  let '(a, h) := malloc h in
  (a :: l1 ++ l2, mkHcli (repeat None 8) h []).
(** cli.c 133-231: the loop and "free(msg)"; the first part of the result are the
    allocations made before the loop. *)
Definition h_cli_run (c : cconf) (idx : list Z) (now : Z) (reads : list (list Z)) : list Z * dres (hcli * list cout) :=
  let '(own, s) := h_cli_start c idx in
  (own,
   let* (s', o) := h_cli_loop c idx now s reads in
   let* h := free (hd 0 own) (hl_heap s') in
   DOk (mkHcli (hl_peer s') h (hl_printed s'), o)).
