(** The sockets the child must not wait for: child_link_fd of /repo/src/child.c 536-571,
    the accepted one of 475-496, and my_nonblock of util.c 135-146. *)
From Verif Require Import Base Types Tlv Util Child Netif Imsg Send Bsd Link.

(** A socket of the kernel: its descriptor, whether the messages about links come to it,
    and its flags (F_GETFL). *)
Record ksock := mkKsock { ks_fd : Z; ks_links : bool; ks_flags : Z }.
(** What the kernel answers: mnl_socket_open (the descriptor) or socket(2), the flags of the
    new socket, mnl_socket_bind or setsockopt, and fcntl twice; child.c 539-547, 554-561 and
    util.c 138-142. *)
Record link_os := mkLinkOs { lk_open : option Z; lk_flags : Z; lk_bind : bool; lk_getfl : bool; lk_setfl : bool }.
Definition O_NONBLOCK := 2048. (* fcntl.h of Linux, util.c 141 *)
(** my_nonblock, util.c 135-146: its result, and the socket. *)
Definition my_nonblock (os : link_os) (s : ksock) : Z * ksock :=
  if negb (lk_getfl os) then (0, s)
  else
    let flags := Z.lor (ks_flags s) O_NONBLOCK in
    if negb (lk_setfl os) then (0, s)
    else (flags, mkKsock (ks_fd s) (ks_links s) flags).
(** child_link_fd with libmnl, child.c 538-551: its result, and the socket if it is open
    still. *)
Definition child_link_fd (os : link_os) : Z * option ksock :=
  match lk_open os with
  | None => (-1, None)
  | Some fd =>
      if negb (lk_bind os) then (-1, None)
      else let s := snd (my_nonblock os (mkKsock fd true (lk_flags os))) in (ks_fd s, Some s)
  end.
(** child_link_fd on BSD, child.c 553-568; only OpenBSD has ROUTE_MSGFILTER. *)
Definition bsd_link_fd (pf : platform) (os : link_os) : Z * option ksock :=
  match lk_open os with
  | None => (-1, None)
  | Some fd =>
      match pf with
      | OpenBSD => if lk_bind os then (fd, Some (mkKsock fd true (lk_flags os))) else (-1, None)
      | FreeBSD => (fd, Some (mkKsock fd true (lk_flags os)))
      end
  end.
(** child_init, child.c 149-154: the descriptor whose events call child_link. *)
Definition link_watched (r : Z * option ksock) : option Z := if negb (fst r =? -1) then Some (fst r) else None.
(** Whether a call that has nothing to do waits: read(2), write(2) and recvmsg(2) of the
    system. *)
Definition waits (s : ksock) : bool := negb (has (ks_flags s) O_NONBLOCK).
(** The loop of child_link, child.c 599-603, on this socket with the datagrams [ds] in it, as
    in Link.v: the calls of child_link_cb, and the datagrams left; [None] if the child waits
    in mnl_socket_recvfrom for more. *)
Fixpoint nl_wait (s : ksock) (buf : list Z) (ds : list (list Z)) : dres (list (Z * Z * Z) * option (list (list Z))) :=
  match ds with
  | [] => DOk ([], if waits s then None else Some [])
  | d :: ds' =>
      match nl_recv buf d with
      | None => DOk ([], Some ds')
      | Some (buf', n) =>
          let* (ms, ret) := nl_run (S (length d)) buf' 0 n in
          if ret <=? 0 then DOk (ms, Some ds')
          else
            let* (ms', rest) := nl_wait s buf' ds' in
            DOk (ms ++ ms', rest)
      end
  end.
(** child_cli_accept, child.c 482-487: the socket of the client. *)
Definition cli_socket (os : link_os) : option ksock :=
  match lk_open os with
  | None => None
  | Some fd => Some (snd (my_nonblock os (mkKsock fd false (lk_flags os))))
  end.
(** The loop of child_cli_write, child.c 510-526, to a client in whose socket [room] more
    messages fit: those written, and those for the next event (524), none if all are; [None]
    if the child waits in write(2). *)
Fixpoint cli_loop (s : ksock) (room : nat) (msgs : list (list Z)) : list (list Z) * option (list (list Z)) :=
  match msgs, room with
  | [], _ => ([], Some [])
  | _ :: _, O => ([], if waits s then None else Some msgs)
  | m :: msgs', S room' => let '(done, rest) := cli_loop s room' msgs' in (m :: done, rest)
  end.
