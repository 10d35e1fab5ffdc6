(** What crosses between the two processes running at once: vocabulary of C126. *)
From Verif Require Import Base Types Tlv Checks Wire Parent Netif Mreq Util Child Send Ipc SpecSend SpecJoint.

(** ** What happened *)
(** The requests the child made, and the answers it read. *)
Definition requests (es : list ievent) : list (list Z) := flat_map (fun e => match e with IAsk d => [d] | _ => [] end) es.
Definition answers (es : list ievent) : list (list Z) := flat_map (fun e => match e with IGot a => [a] | _ => [] end) es.
(** The requests the privileged process acted on, with the answer to each. *)
Definition served (es : list ievent) : list (list Z * option (list Z)) :=
  flat_map (fun e => match e with IServe d _ a => [(d, a)] | _ => [] end) es.
(** The frames the child handed over, and those the privileged process acted on. *)
Definition put (es : list ievent) : list (list Z) := flat_map (fun e => match e with IPut d => [d] | _ => [] end) es.
Definition acted_on (es : list ievent) : list (list Z) := flat_map (fun e => match e with ISend d _ => [d] | _ => [] end) es.
(** The messages due for the packets captured (C19), and those the child read. *)
Definition due (es : list ievent) : list (list Z) := flat_map (fun e => match e with ICapture i c => parent_recv i c | _ => [] end) es.
Definition taken (es : list ievent) : list (list Z) := flat_map (fun e => match e with ITake d _ => [d] | _ => [] end) es.
(** What the child began to do, one after the other. *)
Definition begun (es : list ievent) : list ctree := flat_map (fun e => match e with IBegin t | ITake _ t => [t] | _ => [] end) es.
(** The events of the privileged process, as it sees them. *)
Definition parent_saw (es : list ievent) : list pevent :=
  flat_map (fun e => match e with IServe d os _ => [PReq d os] | ISend d os => [PSend d os] | _ => [] end) es.

(** ** What is under way *)
(** Written, not read yet. *)
Definition to_hand_over (s : ipc) : list (list Z) := match i_parent s with PRecv ms => ms | _ => [] end.
(** Packet capture can be set up (C84) and answers can be written. *)
Definition able (e : pevent) : Prop :=
  match e with PReq _ os => os_sock os <> SockFatal /\ os_reply os = true | PSend _ os => os_sock os <> SockFatal end.
