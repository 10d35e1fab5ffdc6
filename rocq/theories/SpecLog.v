(** What the log says about neighbours: vocabulary of C136. *)
From Verif Require Import Base Types Wire Util Child Log Spec SpecAdv SpecRound SpecNet SpecNetif SpecNetif2 SpecChild SpecHold.

(** The name a table entry gives, its first attribute. *)
Definition called (h : list Z) (e : entry) : bool :=
  match nth 0 (q_peer e) None with Some x => same x h | None => false end.
(** How often the log says that a neighbour of this name and protocol is new, and that
    one is removed; how many are in the table. *)
Definition said_new (h : list Z) (p : Z) (l : list lmsg) : Z :=
  zlen (filter (fun m => match m with LNew x q _ => same x h && (q =? p) | _ => false end) l).
Definition said_gone (h : list Z) (p : Z) (l : list lmsg) : Z :=
  zlen (filter (fun m => match m with LGone x q => same x h && (q =? p) | _ => false end) l).
Definition listed (h : list Z) (p : Z) (q : list entry) : Z :=
  zlen (filter (fun e => called h e && (q_proto e =? p)) q).

(** Every neighbour has one name, which all of its frames give, that of a shutdown
    included. *)
Definition one_name (name : Z * Z * list Z -> option (list Z)) (es : list cevent) : Prop :=
  forall c e en, In e es -> news c e en -> nth 0 (q_peer en) None = name (who en).

(** The protocols by number, and the text of a message. *)
Definition named (p : Z) : list Z :=
  match p with
  | 0 => bs "LLDP" | 1 => bs "CDP" | 2 => bs "EDP" | 3 => bs "FDP" | 4 => bs "NDP" | 5 => bs "CDP1"
  | _ => []
  end.
Definition text (m : lmsg) : list Z :=
  match m with
  | LNew h p i => bs "new peer " ++ h ++ bs " (" ++ named p ++ bs ") on interface " ++ i
  | LGone h p => bs "removing peer " ++ h ++ bs " (" ++ named p ++ bs ")"
  | LOn p i => bs "enabling " ++ named p ++ bs " on interface " ++ i
  end.
(** The lines of a text: what is between its line feeds (10). *)
Inductive lines : list Z -> list (list Z) -> Prop :=
| lines_nil : lines [] []
| lines_cons l r ls : ~ In 10 l -> lines r ls -> lines (l ++ 10 :: r) (l :: ls).
(** Names in a message are free of line feeds. *)
Definition plain (m : lmsg) : Prop :=
  match m with LNew h _ i => ~ In 10 h /\ ~ In 10 i | LGone h _ => ~ In 10 h | LOn _ i => ~ In 10 i end.

(** The protocol of a neighbour gets enabled on an interface: it was not and option
    -a (bit 3) is given and, if interfaces are named on the command line (bit 5), the
    interface heard on or its aggregate is. *)
Definition enables (opts p : Z) (n top : netif) : Prop :=
  Z.testbit opts 3 = true /\ Z.testbit (nf_protos top) p = false
  /\ (Z.testbit opts 5 = true -> nf_argv n <> 0 \/ nf_argv top <> 0).
