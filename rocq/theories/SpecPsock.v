(** Specification vocabulary: the raw sockets of the privileged process and the
    names of its devices. *)
From Verif Require Import Base Types Tlv Checks Wire Bpf Spec SpecNet Parent Psock.

(** Capture handles got for the interface [i] and not given back. *)
Fixpoint handles (i : Z) (cs : list pcall) : Z :=
  match cs with
  | [] => 0
  | KCreate j _ true :: cs' => (if i =? j then 1 else 0) + handles i cs'
  | KClose j :: cs' => (if i =? j then -1 else 0) + handles i cs'
  | _ :: cs' => handles i cs'
  end.
(** Duplicates of standard input got for it; there is no call giving one back. *)
Fixpoint duplicates (i : Z) (cs : list pcall) : Z :=
  match cs with
  | [] => 0
  | KDup j true :: cs' => (if i =? j then 1 else 0) + duplicates i cs'
  | _ :: cs' => duplicates i cs'
  end.
(** Sockets of the interface in the table. *)
Definition sockets (i : Z) (fds : list rawfd) : Z := zlen (filter (fun s => rf_index s =? i) fds).
(** Every capture handle has a descriptor to wait for. *)
Definition selectable (es : list (pevent * pcapos)) : Prop := Forall (fun x => 0 <= pp_fd (snd x)) es.

(** Every call of libpcap succeeded. *)
Definition all_well (p : pcapos) : Prop :=
  pp_create p = true /\ pp_timeout p = true /\ pp_snaplen p = true /\ pp_immediate p = true
  /\ pp_activate p = true /\ pp_filter p = true /\ pp_nonblock p = true /\ pp_direction p = true.
(** The calls that set up the socket of an interface: one handle for its name,
    whole frames of up to 1518 bytes delivered at once, and after its activation
    one filter, which passes [passes] and nothing else; reads do not block and only
    frames coming in are seen.  Nothing is given back. *)
Definition set_up (index : Z) (name : list Z) (passes : list Z -> Prop) (cs : list pcall) : Prop :=
  exists a b prog,
    cs = KCreate index name true :: a ++ KActivate :: b
    /\ In (KSnaplen 1518) a /\ In KImmediate a
    /\ In (KFilter prog) b /\ (forall prog', In (KFilter prog') (a ++ b) -> prog' = prog)
    /\ (forall f, bytes f -> (bpf_run prog 0 f 0 0 <> 0 <-> passes f))
    /\ In KNonblock b /\ In KIncoming b
    /\ (forall i, ~ In (KClose i) cs).

(** ** Names of devices *)
(** The device hangs on the bus [bus]: the last part of the link. *)
Definition on_bus (dv : devos) (bus : list Z) : Prop :=
  exists pre, dv_link dv = Some (pre ++ 47 :: bus) /\ zlen (pre ++ 47 :: bus) <= 255 /\ ~ In 47 bus.
(** The first line of a file is [l]. *)
Definition reads (dv : devos) (path l : list Z) : Prop :=
  exists rest, dv_file dv path = Some (l ++ rest) /\ (rest = [] \/ exists r, rest = 10 :: r)
               /\ l <> [] /\ ~ In 10 l /\ ~ In 0 l.
(** White space; [t] is [l] without the white space at its end. *)
Definition white (b : Z) : Prop := b = 32 \/ 9 <= b <= 13.
Definition trimmed (l t : list Z) : Prop :=
  exists sp, l = t ++ sp /\ Forall white sp /\ forall t' b, t = t' ++ [b] -> ~ white b.
(** The kernel's notation of a 16-bit number, "0x%04x". *)
Definition hexdigit (d : Z) : Z := if d <? 10 then 48 + d else 87 + d.
Definition kernel_hex (n : Z) : list Z :=
  [48; 120; hexdigit (n / 4096); hexdigit (n / 256 mod 16); hexdigit (n / 16 mod 16); hexdigit (n mod 16)].
