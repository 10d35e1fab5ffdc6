(** Vocabulary for C146: with whose addresses a command line has interfaces announced. *)
From Verif Require Import Base Types Netif Send Bsd BsdSend Opts SpecOpts.

(** The interfaces and addresses the kernel lists at this event. *)
Definition lists (e : sevent) (ias : list ifaddr) : Prop :=
  match e with EvRun os _ | EvLink os _ _ _ _ => no_ifaddrs os = Some ias | EvChild _ => False end.
Definition b_lists (e : bevent) (ias : list ifaddr) : Prop :=
  match e with BRun os _ | BLink os _ _ => bo_ifaddrs os = Some ias | BChild _ => False end.
(** [source n o T k x]: interface [k] is to be announced with the addresses of the
    interface of name [x]: its own without -n and without -m; with -n those of the last
    interface given with -m, if it is in the table. *)
Inductive source (n : naming) (o : list (Z * list Z)) (T : list netif) (k : netif) : list Z -> Prop :=
| own : given (bs "n") o = false \/ given (bs "m") o = false -> source n o T k (nf_name k)
| of_management before m : given (bs "n") o = true -> m_interfaces n o = before ++ [nf_name m] -> In m T ->
    source n o T k (nf_name m).
