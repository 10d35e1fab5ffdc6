(** Specification vocabulary for the start of the daemon: what system calls do
    to the process and to its files. *)
From Verif Require Import Base Types Start.

(** A call succeeds unless it returns -1; umask cannot fail. *)
Definition succeeded (c : call) (a : answer) : bool :=
  match c with KUmask _ => true | _ => negb (a_ret a =? -1) end.

(** The state of a process, its client socket (permission bits and group) and the
    pid file (content, permission bits, locked). *)
Record world := mkW {
  w_uid : Z; w_gid : Z; w_groups : option (list Z);
  w_root : list Z; w_cwd : option (list Z);
  w_nproc : option Z; w_fsize : option Z;
  w_caps : option (list Z);             (* None: all *)
  w_umask : Z;
  w_sock : option (Z * Z);
  w_pidfile : option (list Z * Z); w_locked : bool
}.
(** A process of root started from anywhere. *)
Definition started (w : world) : Prop :=
  w_uid w = 0 /\ w_gid w = 0 /\ w_root w = [47] /\ w_sock w = None /\ w_locked w = false.
(** The effect of a successful call.  The root directory is relative to the old
    one, which is "/" here.  A socket file is made with the permissions left by
    the umask, a new pid file likewise; writing at the start of a file replaces
    its first bytes only. *)
Definition effect (w : world) (c : call) : world :=
  let '(mkW u g gs r d np fs cs um so pf lo) := w in
  match c with
  | KUmask m => mkW u g gs r d np fs cs m so pf lo
  | KUnlinkSock => mkW u g gs r d np fs cs um None pf lo
  | KBind => mkW u g gs r d np fs cs um (Some (Z.land 511 (Z.lnot um), g)) pf lo
  | KChmod m => mkW u g gs r d np fs cs um (match so with Some (_, sg) => Some (m, sg) | None => None end) pf lo
  | KChown sg => mkW u g gs r d np fs cs um (match so with Some (m, _) => Some (m, sg) | None => None end) pf lo
  | KChdir p => mkW u g gs r (Some (if beq p [47] then r else p)) np fs cs um so pf lo
  | KChroot p => mkW u g gs p d np fs cs um so pf lo
  | KSetgroups => mkW u g (Some []) r d np fs cs um so pf lo
  | KSetresgid x => mkW u x gs r d np fs cs um so pf lo
  | KSetresuid x => mkW x g gs r d np fs cs um so pf lo
  | KNproc l => mkW u g gs r d (Some l) fs cs um so pf lo
  | KFsize l => mkW u g gs r d np (Some l) cs um so pf lo
  | KCaps l => mkW u g gs r d np fs (Some l) um so pf lo
  | KOpenPid => mkW u g gs r d np fs cs um so
                  (match pf with None => Some ([], Z.land 438 (Z.lnot um)) | Some p => Some p end) lo
  | KLockPid => mkW u g gs r d np fs cs um so pf true
  | KWritePid t => mkW u g gs r d np fs cs um so
                  (match pf with Some (old, m) => Some (t ++ skipn (length t) old, m) | None => None end) lo
  | _ => w
  end.
(** The world after a history. *)
Fixpoint after_from (k : kernel) (w : world) (past h : list call) : world :=
  match h with
  | [] => w
  | c :: h' => after_from k (if succeeded c (k (past ++ [c])) then effect w c else w) (past ++ [c]) h'
  end.
Definition after (k : kernel) (w : world) (h : list call) : world := after_from k w [] h.

(** The process has given up its privileges for those of [pw], inside [dir]. *)
Definition confined (pw : passwd) (dir : list Z) (w : world) : Prop :=
  w_uid w = pw_uid pw /\ w_gid w = pw_gid pw /\ w_groups w = Some []
  /\ w_root w = dir /\ w_cwd w = Some dir /\ w_nproc w = Some 0 /\ w_fsize w = Some 0.
(** The steps come in this order: root directory, supplementary groups, group,
    user, resource limits. *)
Definition in_turn (pw : passwd) (dir : list Z) (w : world) (c : call) : Prop :=
  match c with
  | KSetgroups => w_root w = dir /\ w_cwd w = Some dir
  | KSetresgid _ => w_root w = dir /\ w_groups w = Some []
  | KSetresuid _ => w_root w = dir /\ w_groups w = Some [] /\ w_gid w = pw_gid pw
  | KNproc _ | KFsize _ => w_root w = dir /\ w_groups w = Some [] /\ w_gid w = pw_gid pw /\ w_uid w = pw_uid pw
  | _ => True
  end.
(** Calls that exchange data with anybody. *)
Definition talks (c : call) : Prop := c = KSend \/ c = KLink \/ c = KLoop.
(** Calls by which privileges are given up. *)
Definition guards (c : call) : Prop :=
  match c with
  | KStat _ | KChdir _ | KChroot _ | KSetgroups | KSetresgid _ | KSetresuid _ | KNproc _ | KFsize _ => True
  | _ => False
  end.
(** [q] names a directory on the way to [p], or [p] itself. *)
Definition on_the_way (q p : list Z) : Prop := q = p \/ exists a r, q = a ++ [47] /\ p = q ++ r.
(** A directory only root can change, according to stat. *)
Definition trusted (a : answer) : Prop :=
  a_ret a = 0 /\ a_x a = 0 /\ Z.testbit (a_y a) 4 = false /\ Z.testbit (a_y a) 1 = false
  /\ Z.land (a_y a) 61440 = 16384.
(** A guard that fails: the call fails, or the directory is not trusted. *)
Definition refused (c : call) (a : answer) : Prop :=
  match c with KStat _ => ~ trusted a | _ => a_ret a = -1 end.
(** The client socket: nothing for others, and for its group only if that is
    root's or [g]. *)
Definition private (g : Z) (w : world) : Prop :=
  match w_sock w with
  | None => True
  | Some (m, sg) => Z.land m 7 = 0 /\ (Z.land m 56 = 0 \/ sg = 0 \/ sg = g)
  end.
(** Calls the daemon cannot do without. *)
Definition vital (c : call) : Prop :=
  match c with
  | KGetpw _ | KDaemon | KOpenPid | KLockPid | KWritePid _ | KSocketpair | KSockopt | KFork | KBind | KListen
  | KChmod _ | KChown _ | KChdir _ | KChroot _ | KSetgroups | KSetresgid _ | KSetresuid _ | KNproc _ | KFsize _
  | KCapText | KCaps _ => True
  | _ => False
  end.
