(** Vocabulary for C120: the memory of the client. *)
From Verif Require Import Base Types Tlv Msg Wire Util Child Cli Heap CliHeap SpecHeap.

(** The strings in use for the message structure. *)
Definition strings (s : hcli) : list Z := held (map (option_map fst) (hl_peer s)).
(** What a function did, without the allocations. *)
Definition shown (r : dres (hcli * list cout)) : dres (list cout) :=
  match r with
  | DOk (_, o) => DOk o
  | DFail => DFail
  | DAbort => DAbort
  | DUB => DUB
  | DLoop => DLoop
  end.
(** In use are [own], the strings of the message structure and, if frames are printed
    in full, [lost], at most one block for each description of several lines that was
    printed. *)
Definition client_uses (c : cconf) (own : list Z) (s : hcli) (lost : list Z) : Prop :=
  in_use (hl_heap s) (strings s ++ own ++ lost)
  /\ (cl_mode c <> MODE_PRINT -> lost = []) /\ zlen lost <= headed (hl_printed s).
