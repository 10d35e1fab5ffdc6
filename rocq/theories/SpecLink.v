(** Messages of the kernel about links: vocabulary of C107. *)
From Verif Require Import Base Types Tlv Util Child Netif Sysinfo Send Bsd Link Spec SpecSend.

(** A number in [n] bytes, the least significant first. *)
Fixpoint LE (n : nat) (v : Z) : list Z :=
  match n with O => [] | S n' => v mod 256 :: LE n' (v / 256) end.
Fixpoint unLE (l : list Z) : Z :=
  match l with [] => 0 | b :: l' => b + 256 * unLE l' end.

(** ** Linux: rtnetlink(7) *)
(** A new, changed or removed link: kind of the message, sender, ifinfomsg and
    attributes. *)
Record linkmsg := mkLink {
  lm_kind : Z; lm_seq : Z; lm_pid : Z;
  lm_family : Z; lm_type : Z; lm_index : Z; lm_flags : Z; lm_change : Z; lm_attrs : list Z
}.
Definition link_ok (m : linkmsg) : Prop :=
  (lm_kind m = 16 \/ lm_kind m = 17) /\ 0 <= lm_seq m < 4294967296 /\ 0 <= lm_pid m < 4294967296
  /\ 0 <= lm_family m < 256 /\ 0 <= lm_type m < 65536 /\ 0 < lm_index m < 2147483648
  /\ 0 <= lm_flags m < 4294967296 /\ 0 <= lm_change m < 4294967296
  /\ zlen (lm_attrs m) < 2147483648.
(** The message: header, ifinfomsg, attributes, and padding to a multiple of four
    bytes. *)
Definition link_bytes (m : linkmsg) : list Z :=
  LE 4 (32 + zlen (lm_attrs m)) ++ LE 2 (lm_kind m) ++ [0; 0] ++ LE 4 (lm_seq m) ++ LE 4 (lm_pid m)
  ++ [lm_family m; 0] ++ LE 2 (lm_type m) ++ LE 4 (lm_index m) ++ LE 4 (lm_flags m) ++ LE 4 (lm_change m)
  ++ lm_attrs m ++ repeat 0 (Z.to_nat ((- zlen (lm_attrs m)) mod 4)).
Definition datagram (ms : list linkmsg) : list Z := flat_map link_bytes ms.
(** An Ethernet interface (type 1) that is running (bit 6) on a lower layer that is
    up (bit 16). *)
Definition link_up (m : linkmsg) : bool :=
  (lm_type m =? 1) && Z.testbit (lm_flags m) 6 && Z.testbit (lm_flags m) 16.
(** The messages as events of the child, with the answers of the system
    meanwhile. *)
Fixpoint link_events (world : nat -> nos * Z) (k : nat) (ms : list linkmsg) : list sevent :=
  match ms with
  | [] => []
  | m :: ms' => EvLink (fst (world k)) (lm_type m) (lm_flags m) (lm_index m) (snd (world k))
                :: link_events world (S k) ms'
  end.
(** A message gets a run for its interface, if the link is up, and no other. *)
Definition answered (m : linkmsg) (eff : list seff) : Prop :=
  (link_up m = false -> eff = []) /\ forall i p f, In (SFrame i p f) eff -> i = lm_index m.

(** ** BSD: route(4) *)
Definition number (n : nat) (d : list Z) (off : Z) : Z := unLE (firstn n (skipn (Z.to_nat off) d)).
(** The fields lie within their structures. *)
Definition layout_ok (lay : rt_layout) : Prop :=
  0 <= rl_rt lay <= 2048 /\ 0 <= rl_if lay <= 2048
  /\ 0 <= rl_version lay < rl_rt lay /\ 0 <= rl_type lay < rl_rt lay
  /\ 0 <= rl_index lay <= rl_if lay - 2 /\ 0 <= rl_flags lay <= rl_if lay - 4
  /\ 0 <= rl_iftype lay < rl_if lay /\ 0 <= rl_state lay < rl_if lay.
(** Version 5, type 14 (an interface changed), Ethernet, up and running, and with
    a link unless the driver does not know. *)
Definition route_up (pf : platform) (lay : rt_layout) (d : list Z) : bool :=
  let state := number 1 d (rl_state lay) in
  (number 1 d (rl_version lay) =? 5) && (number 1 d (rl_type lay) =? 14) && (number 1 d (rl_iftype lay) =? 6)
  && Z.testbit (number 4 d (rl_flags lay)) 0 && Z.testbit (number 4 d (rl_flags lay)) 6
  && ((state =? 0) || ((match pf with FreeBSD => 2 | OpenBSD => 4 end) <=? state)).
