(** The sockets the child must not wait for: C128. *)
From Verif Require Import Base Types Tlv Util Child Netif Imsg Send Bsd Link LinkFd SpecLink PropLink LinkFdProofs.

(** C128.  The link socket is watched exactly when it could be opened and bound to the
    messages about links; otherwise none is left open, and the child does without. *)
Theorem C128_link_socket os : (forall f, lk_open os = Some f -> 0 <= f) ->
  let r := child_link_fd os in
  (link_watched r = None -> snd r = None)
  /\ (forall fd, link_watched r = Some fd -> exists k, snd r = Some k /\ ks_fd k = fd /\ ks_links k = true)
  /\ (link_watched r <> None <-> lk_open os <> None /\ lk_bind os = true).
Proof. exact (link_socket os). Qed.
Print Assumptions C128_link_socket.
Theorem C128_bsd_socket pf os : (forall f, lk_open os = Some f -> 0 <= f) ->
  let r := bsd_link_fd pf os in
  (link_watched r = None -> snd r = None)
  /\ (forall fd, link_watched r = Some fd -> exists k, snd r = Some k /\ ks_fd k = fd /\ ks_links k = true).
Proof. exact (bsd_socket pf os). Qed.
Print Assumptions C128_bsd_socket.
(** If the flags of the socket can be set, reading link events comes to its end with every
    queue of messages of the kernel, without waiting for more (missing: the flags cannot
    be set, see below; what is done with the messages is C107). *)
Theorem C128_link_returns_partial os fd k buf dss : child_link_fd os = (fd, Some k) -> lk_getfl os = true -> lk_setfl os = true ->
  Forall (fun d => zlen d + 16 <= zlen buf) dss -> exists ms rest, nl_wait k buf dss = DOk (ms, Some rest).
Proof.
  intros H G F B. destruct (C107_buffer_partial buf dss B) as (ms & rest & E). exists ms, rest.
  rewrite (link_returns os fd k buf dss H G F), E. reflexivity.
Qed.
Print Assumptions C128_link_returns_partial.
(** As does writing to a client: as many messages as fit go to it, the others wait for the
    next event. *)
Theorem C128_client_returns_partial os k room msgs : cli_socket os = Some k -> lk_getfl os = true -> lk_setfl os = true ->
  exists rest, cli_loop k room msgs = (firstn room msgs, Some rest) /\ msgs = firstn room msgs ++ rest.
Proof. exact (client_returns os k room msgs). Qed.
Print Assumptions C128_client_returns_partial.
(** Setting the flag leaves the others. *)
Theorem C128_flags os s n : lk_getfl os = true -> lk_setfl os = true -> 0 <= n -> n <> 11 ->
  Z.testbit (ks_flags (snd (my_nonblock os s))) n = Z.testbit (ks_flags s) n.
Proof. exact (flags_kept os s n). Qed.
Print Assumptions C128_flags.
(** C128 is false when fcntl fails, which is not looked at: a link event makes the child
    wait for the next one, its timers and clients unattended; and a client that does not
    read makes it wait for this client. *)
Definition lw_os : link_os := mkLinkOs (Some 7) 2 true true false.
Theorem C128_link_waits_refuted : exists os fd k ms, child_link_fd os = (fd, Some k) /\ link_watched (child_link_fd os) = Some fd
  /\ nl_wait k (repeat 0 4096) (map datagram l_queue) = DOk (ms, None) /\ zlen ms = 4.
Proof. exists lw_os, 7, (mkKsock 7 true 2). eexists. split; [reflexivity|]. split; [reflexivity|]. split; vm_compute; reflexivity. Qed.
Print Assumptions C128_link_waits_refuted.
Theorem C128_client_waits_refuted : exists os k room msgs, cli_socket os = Some k /\ cli_loop k room msgs = (firstn room msgs, None).
Proof. exists lw_os, (mkKsock 7 false 2), 1%nat, [[1]; [2]; [3]]. split; reflexivity. Qed.
Print Assumptions C128_client_waits_refuted.

(** All goes well; the socket cannot be bound; a client with room for two of three
    messages. *)
Definition lw_good : link_os := mkLinkOs (Some 7) 2 true true true.
Example C128_case :
  (forall f, lk_open lw_good = Some f -> 0 <= f)
  /\ child_link_fd lw_good = (7, Some (mkKsock 7 true 2050)) /\ link_watched (child_link_fd lw_good) = Some 7
  /\ child_link_fd (mkLinkOs (Some 7) 2 false true true) = (-1, None)
  /\ bsd_link_fd OpenBSD (mkLinkOs (Some 7) 2 false true true) = (-1, None) /\ bsd_link_fd FreeBSD lw_good = (7, Some (mkKsock 7 true 2))
  /\ Forall (fun d => zlen d + 16 <= zlen (repeat 0 4096)) (map datagram l_queue)
  /\ nl_wait (mkKsock 7 true 2050) (repeat 0 4096) (map datagram l_queue) = DOk ([(1, 69699, 1); (1, 4099, 2); (772, 65609, 3); (1, 69699, 2)], Some [])
  /\ cli_socket lw_good = Some (mkKsock 7 false 2050) /\ cli_loop (mkKsock 7 false 2050) 2 [[1]; [2]; [3]] = ([[1]; [2]], Some [[3]]).
Proof.
  split; [intros f H; injection H as <-; lia|]. do 5 (split; [reflexivity|]). split; [repeat (constructor; [vm_compute; discriminate|]); constructor|].
  split; [vm_compute; reflexivity|]. split; reflexivity.
Qed.
