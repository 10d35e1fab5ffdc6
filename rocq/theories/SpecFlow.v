(** What depends on what neighbours and clients do: vocabulary of C129. *)
From Verif Require Import Base Types Tlv Wire Util Child Netif Send SpecSend.

(** The part of an event that comes from the machine itself: a periodic run or a
    link message with what the kernel answers meanwhile, but neither frames of
    neighbours, nor clients, nor the time of day. *)
Inductive hostev :=
| HRun (os : nos)
| HLink (os : nos) (hatype flags index : Z).
Definition host_part (e : sevent) : list hostev :=
  match e with
  | EvRun os _ => [HRun os]
  | EvLink os hatype flags index _ => [HLink os hatype flags index]
  | EvChild _ => []
  end.
Definition host_parts (es : list sevent) : list hostev := flat_map host_part es.

(** Everything asked of the parent in a run except interface descriptions: sockets
    to open and to close and frames to transmit. *)
Definition outgoing (effs : list (list seff)) : list seff :=
  filter (fun e => match e with SChild _ => false | _ => true end) (concat effs).
(** The frames of the protocols enabled on the command line. *)
Definition configured (cfg : scfg) (effs : list (list seff)) : list (Z * Z * list Z) :=
  filter (fun x => sc_enabled cfg (snd (fst x))) (frames (concat effs)).
(** The interfaces the parent is told to forget. *)
Definition closed (effs : list (list seff)) : list Z :=
  flat_map (fun e => match e with SClose i => [i] | _ => [] end) (concat effs).

(** Two states of the child that may differ in the neighbours known and the
    clients connected only. *)
Definition alike (st st' : sstate) : Prop :=
  table st = table st' /\ st_si st = st_si st' /\ st_edp st = st_edp st'.

(** An event of a client. *)
Definition from_client (e : sevent) : bool :=
  match e with EvChild (CAccept _) | EvChild (CReady _ _) | EvChild (CTimeout _) => true | _ => false end.
