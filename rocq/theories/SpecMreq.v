(** Vocabulary for the requests of the unprivileged process (C92, C93). *)
From Verif Require Import Base Types Wire Util Parent Netif Mreq SpecSys.

(** A request that fits in the structure: an index of 32 bits, a length within the
    buffer of 512 bytes. *)
Definition request (q : preq) : Prop :=
  0 <= rq_index q < 4294967296 /\ 0 <= rq_len q <= 512 /\ zlen (rq_buf q) = 512.
(** The payload of a request or an answer. *)
Definition payload (q : preq) : list Z := firstn (Z.to_nat (rq_len q)) (rq_buf q).

(** The parent does nothing but answer, and the child is left with [a]. *)
Definition answered (cfg : pcfg) (fds : list rawfd) (q : preq) (os : pos) (a : preq) : Prop :=
  exchange cfg fds q os = (mkRes fds [EReply (rq_op q) (rq_index q) (rq_len a) (payload a)] true, DOk a).

(** [t] is the alias of an interface as the operating system has it, the first line
    of the file, cut to 63 bytes: nothing when the interface is gone or has no alias
    file. *)
Definition alias_is (os : pos) (t : list Z) : Prop :=
  match os_name os with
  | None => t = []
  | Some _ => if os_stat os then first_line 63 (os_alias os) t else t = []
  end.

(** 32-bit and 16-bit words in memory, little endian. *)
Definition word4 (v : Z) : list Z :=
  [v mod 256; (v / 256) mod 256; (v / 65536) mod 256; (v / 16777216) mod 256].
Definition word2 (v : Z) : list Z := [v mod 256; (v / 256) mod 256].
(** A C string in an array of [n] bytes. *)
Definition in_array (n : Z) (s field : list Z) : Prop :=
  zlen field = n /\ Forall (fun b => b <> 0) s /\ exists rest, field = s ++ 0 :: rest.
(** struct ethtool_drvinfo of linux/ethtool.h: a word, the driver's name in 32
    bytes, and 160 bytes that do not matter here. *)
Definition drvinfo (d driver : list Z) : Prop :=
  exists cmd field rest, d = cmd ++ field ++ rest /\ zlen cmd = 4 /\ in_array 32 driver field /\ zlen rest = 160.
(** struct ethtool_cmd of linux/ethtool.h, 44 bytes. *)
Definition ethcmd (d : list Z) (e : ecmd) : Prop :=
  exists cmd phy transceiver rest,
    d = cmd ++ word4 (ec_supported e) ++ word4 (ec_advertising e) ++ word2 (ec_speed e) ++ [ec_duplex e; ec_port e]
          ++ [phy; transceiver; ec_autoneg e] ++ rest
    /\ zlen cmd = 4 /\ zlen rest = 25
    /\ 0 <= ec_supported e < 4294967296 /\ 0 <= ec_advertising e < 4294967296 /\ 0 <= ec_speed e < 65536.
(** struct parent_team_info of common.h: mode, number of members, the array of 32
    members (those behind the number are zero), the active one. *)
Definition teaminfo (d : list Z) (mode : Z) (ports : list Z) (active : Z) : Prop :=
  exists pad, d = [mode; zlen ports] ++ pad ++ concat (map word4 ports) ++ repeat 0 (Z.to_nat (4 * (32 - zlen ports)))
                    ++ word4 active
    /\ zlen pad = 2 /\ zlen ports <= 32
    /\ Forall (fun i => 0 <= i < 4294967296) ports /\ 0 <= active < 4294967296.

(** The structure netif_fetch uses for all its requests: cleared at first, then
    whatever the answer to the previous request was. *)
Inductive reused (cfg : pcfg) : preq -> Prop :=
| reused_new : reused cfg preq0
| reused_alias q i fds os r a : reused cfg q -> 0 <= i < 4294967296 ->
    exchange cfg fds (q_alias q i) os = (r, DOk a) -> reused cfg a
| reused_close q i fds os r a : reused cfg q -> 0 <= i < 4294967296 ->
    exchange cfg fds (q_close q i) os = (r, DOk a) -> reused cfg a.
(** The requests the child makes, in a build with and without libteam and
    libpci. *)
Inductive asked (cfg : pcfg) : preq -> Prop :=
| asked_open i : asked cfg (q_open i)
| asked_close q i : reused cfg q -> asked cfg (q_close q i)
| asked_alias q i : reused cfg q -> asked cfg (q_alias q i)
| asked_device i : asked cfg (q_device i)
| asked_driver i : asked cfg (q_driver i)
| asked_settings i : asked cfg (q_settings i)
| asked_device_id i : pc_pci cfg = true -> asked cfg (q_device_id i)
| asked_team i : pc_team cfg = true -> asked cfg (q_team i)
| asked_descr opts n queue t : netif_descr opts n queue = Some t -> asked cfg (q_descr (nf_index n) t).

(** The alias the operating system keeps for an interface after the effects of a
    request.  Linux ignores a write of no bytes to a file of sysfs (sysfs_kf_write,
    fs/sysfs/file.c of the kernel); a trailing line end is not kept. *)
Fixpoint alias_after (name old : list Z) (effs : list peff) : list Z :=
  match effs with
  | [] => old
  | EAlias n data :: effs' =>
      alias_after name (if beq n name then match data with [] => old | _ => data end else old) effs'
  | _ :: effs' => alias_after name old effs'
  end.
