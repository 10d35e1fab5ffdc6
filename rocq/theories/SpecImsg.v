(** Specification vocabulary for message passing. *)
From Verif Require Import Base Imsg.

(** Arguments within the C types: 32 bit numbers, bytes, at most 65535 of them, a
    descriptor or -1. *)
Definition u32 (v : Z) : Prop := 0 <= v < 4294967296.
Definition legal (o : op) : Prop :=
  match o with
  | Compose type peerid pid fd data =>
      u32 type /\ u32 peerid /\ u32 pid /\ -1 <= fd /\ Forall (fun b => 0 <= b < 256) data /\ zlen data < 65536
  | _ => True
  end.
(** The messages among the answers of imsg_get. *)
Fixpoint messages (l : list got) : list imsg :=
  match l with
  | [] => []
  | Got m :: l' => m :: messages l'
  | _ :: l' => messages l'
  end.
(** The messages the sender asked to send and the library can carry. *)
Fixpoint asked (own : Z) (ops : list op) : list imsg :=
  match ops with
  | [] => []
  | Compose type peerid pid fd data :: ops' =>
      if zlen data <=? 16368 then mkImsg type peerid (if pid =? 0 then own else pid) fd data :: asked own ops'
      else asked own ops'
  | _ :: ops' => asked own ops'
  end.
