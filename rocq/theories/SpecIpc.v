(** Two processes that wait for each other: vocabulary of C125. *)
From Verif Require Import Base Types Tlv Checks Wire Parent Netif Mreq Util Child Send Ipc.

(** Sockets that take a datagram when nothing waits in them. *)
Definition takes_one (room : list (list Z) -> list Z -> bool) : Prop := forall d, room [] d = true.
(** Sockets that hold [n] datagrams for certain. *)
Definition holds (room : list (list Z) -> list Z -> bool) (n : nat) : Prop := forall q d, (length q < n)%nat -> room q d = true.
(** Sockets that hold only so many datagrams, whatever their sizes. *)
Definition finite (room : list (list Z) -> list Z -> bool) : Prop :=
  exists n, forall q d, (n <= length q)%nat -> room q d = false.
(** Both processes exist. *)
Definition both_live (s : ipc) : Prop := i_child s <> Run TEnd /\ i_parent s <> PEnd.
(** Nothing can happen any more, although both exist: events, messages and packets make
    no difference. *)
Definition deadlock (room : list (list Z) -> list Z -> bool) (starts : ctree -> Prop) (cfg : pcfg) (s : ipc) : Prop :=
  both_live s /\ forall e s', ~ istep room starts cfg s e s'.
(** The privileged process waits to hand over a frame it received. *)
Definition parent_waits (room : list (list Z) -> list Z -> bool) (s : ipc) : Prop :=
  exists m ms, i_parent s = PRecv (m :: ms) /\ room (i_in s) m = false.
(** The other waits for the answer to a request, or to hand over a frame to be sent. *)
Definition child_waits (room : list (list Z) -> list Z -> bool) (s : ipc) : Prop :=
  (exists k, i_child s = Await k /\ i_rep s = []) \/ exists d k, i_child s = Run (TFrame d k) /\ room (i_out s) d = false.
(** Messages for the child, waiting or about to be written. *)
Definition pending (s : ipc) : nat := (length (i_in s) + match i_parent s with PRecv ms => length ms | _ => 0 end)%nat.
(** A periodic run of the child (child.c 163-296) on some host. *)
Definition a_run (t : ctree) : Prop :=
  exists cfg os now st, t = tree_of (snd (child_send cfg os NETIF_INDEX_MAX true now st)).
