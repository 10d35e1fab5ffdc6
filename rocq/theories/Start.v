(** Start and end of the daemon: main, parent_init, parent_signal, child_init,
    my_chroot, my_drop_privs, my_rlimit_child as programs that make system
    calls.  The answers of the operating system are a parameter. *)
From Verif Require Import Base Types.

(** The calls made by main.c 192-285, parent.c 80-156, child.c 50-161, util.c
    150-226.  Not modelled: malloc and libevent bookkeeping (event_set,
    event_add, signal_set), setproctitle, logging, tzset and openlog. *)
Inductive call :=
| KGetpw (user : list Z)        (* getpwnam, /repo/src/main.c 213; result: uid, gid *)
| KSysinfo                      (* sysinfo_fetch, main.c 217 *)
| KDaemon                       (* daemon(0,0), main.c 222 *)
| KOpenPid                      (* open(PACKAGE_PID_FILE, O_WRONLY|O_CREAT, 0666), main.c 226 *)
| KLockPid                      (* fcntl(F_SETLK), main.c 229 *)
| KGetpid                       (* getpid, main.c 233 *)
| KWritePid (text : list Z)     (* write, main.c 234 *)
| KSocketpair                   (* socketpair, /repo/src/util.c 121 *)
| KSockopt                      (* setsockopt, util.c 125-131 *)
| KFork                         (* fork, main.c 247 *)
| KSocket                       (* socket, util.c 109; /repo/src/child.c 76 *)
| KUmask (m : Z)                (* umask, child.c 88, 104 *)
| KUnlinkSock                   (* unlink(PACKAGE_SOCKET), child.c 90; /repo/src/parent.c 180 *)
| KBind                         (* bind, child.c 92 *)
| KListen                       (* listen, child.c 95 *)
| KChmod (m : Z)                (* chmod(PACKAGE_SOCKET), child.c 99 *)
| KChown (g : Z)                (* chown(PACKAGE_SOCKET, -1, g), child.c 101 *)
| KStat (p : list Z)            (* stat, util.c 170; result: owner, mode *)
| KChdir (p : list Z)           (* chdir, util.c 180, 184 *)
| KChroot (p : list Z)          (* chroot, util.c 182 *)
| KSetgroups                    (* setgroups(0, NULL), util.c 190 *)
| KSetresgid (g : Z)            (* util.c 194 *)
| KSetresuid (u : Z)            (* util.c 204 *)
| KNproc (l : Z)                (* setrlimit(RLIMIT_NPROC), util.c 221 *)
| KFsize (l : Z)                (* setrlimit(RLIMIT_FSIZE), util.c 224 *)
| KPcap                         (* my_pcap_init and my_pcap_close, parent.c 102, 178 *)
| KCapText                      (* cap_from_text, parent.c 113 *)
| KCaps (l : list Z)            (* capng_apply or cap_set_proc, parent.c 107, 119 *)
| KWaitpid (p : Z)              (* waitpid(p, WNOHANG), parent.c 148, 166 *)
| KKill (p sig : Z)             (* kill, parent.c 175 *)
| KCloseRaw                     (* rfd_closeall, parent.c 179 *)
| KSend                         (* the first child_send, child.c 126 *)
| KLink                         (* child_link_fd, child.c 150 *)
| KLoop.                        (* event_dispatch, child.c 157, parent.c 152 *)

(** The answer to a call, an argument of the model: return value, errno and two more
    results.  The
    operating system answers according to everything that happened before. *)
Record answer := mkAns { a_ret : Z; a_errno : Z; a_x : Z; a_y : Z }.
(** The kernel answers according to what was called before; an argument of the model. *)
Definition kernel := list call -> answer.

(** A piece of main.c, parent.c, child.c or util.c: it continues with a value, ends
    with an exit status, or
    dereferences a null pointer. *)
Inductive ending (A : Type) : Type := ERet (a : A) | EExit (status : Z) | EUB.
Arguments ERet {A} a.
Arguments EExit {A} status.
Arguments EUB {A}.
(** Sequencing of programs: helpers without a counterpart in the C code. *)
Definition proc (A : Type) := list call -> ending A * list call.
(** As above: ending with a value. *)
Definition ret {A} (a : A) : proc A := fun h => (ERet a, h).
(** As above: exit(3). *)
Definition exit {A} (status : Z) : proc A := fun h => (EExit status, h).
(** As above: one after the other. *)
Definition seq {A B} (m : proc A) (f : A -> proc B) : proc B :=
  fun h => match m h with
           | (ERet a, h') => f a h'
           | (EExit s, h') => (EExit s, h')
           | (EUB, h') => (EUB, h')
           end.
Notation "'do' x '<-' e ';;' f" := (seq e (fun x => f))
  (at level 200, x pattern, e at level 100, f at level 200, right associativity).
(** A system call: it is recorded and answered. Helper without a counterpart in the C
    code. *)
Definition sys (k : kernel) (c : call) : proc answer := fun h => (ERet (k (h ++ [c])), h ++ [c]).

(** parent_signal for SIGINT (2), SIGTERM (15) and SIGCHLD (17), /repo/src/parent.c
    162-183. *)
Definition parent_quit {A} (k : kernel) (opts sig pid : Z) : proc A :=
  do w <- sys k (KWaitpid pid);;
  do _ <- (if a_ret w >? 0 then ret w else sys k (KKill pid sig));;
  do _ <- (if has opts OPT_DEBUG then sys k KPcap else ret w);;
  do _ <- sys k KCloseRaw;;
  do _ <- sys k KUnlinkSock;;
  exit 0.
(** my_fatal, /repo/src/util.c 65-78; [pid] is the global variable set by fork,
    util.c 30, main.c 247. *)
Definition fatal {A} (k : kernel) (opts pid : Z) : proc A :=
  if pid =? 0 then exit 1 else parent_quit k opts 15 pid.
(** parent_signal, parent.c 159-189. *)
Definition parent_signal (k : kernel) (opts sig pid : Z) : proc unit :=
  if (sig =? 2) || (sig =? 15) || (sig =? 17) then parent_quit k opts sig pid
  else if sig =? 1 then ret tt
  else fatal k opts pid.
(** A call whose failure is fatal, my_fatal, util.c 65-78. *)
Definition need (k : kernel) (opts pid : Z) (c : call) : proc answer :=
  do a <- sys k c;; if a_ret a =? -1 then fatal k opts pid else ret a.

(** The strings passed to stat by my_chroot, /repo/src/util.c 160-168: the path up
    to each '/', then the path. *)
Fixpoint components (path done rest : list Z) : list (list Z) :=
  match rest with
  | [] => [path]
  | b :: rest' =>
      if b =? 47 then (done ++ [b]) :: components path (done ++ [b]) rest'
      else components path (done ++ [b]) rest'
  end.
(** The checks of a component, util.c 170-177. *)
Fixpoint check_components (k : kernel) (opts pid : Z) (l : list (list Z)) : proc unit :=
  match l with
  | [] => ret tt
  | p :: l' =>
      do a <- sys k (KStat p);;
      if negb (a_ret a =? 0) then fatal k opts pid
      else if negb (a_x a =? 0) || negb (Z.land (a_y a) 18 =? 0) then fatal k opts pid
      else if negb (Z.land (a_y a) 61440 =? 16384) then fatal k opts pid
      else check_components k opts pid l'
  end.
(** my_chroot, util.c 150-186. *)
Definition my_chroot (k : kernel) (opts pid : Z) (path : list Z) : proc unit :=
  if negb (hd 0 path =? 47) then fatal k opts pid
  else if zlen path >=? 4096 then fatal k opts pid
  else
    do _ <- check_components k opts pid (components path [] path);;
    do _ <- need k opts pid (KChdir path);;
    do _ <- need k opts pid (KChroot path);;
    do _ <- need k opts pid (KChdir [47]);;
    ret tt.

(** struct passwd: uid and gid, getpwnam(3) at main.c 213. *)
Record passwd := mkPw { pw_uid : Z; pw_gid : Z }.
(** my_drop_privs, util.c 189-212. *)
Definition my_drop_privs (k : kernel) (opts pid : Z) (pw : option passwd) : proc unit :=
  do _ <- need k opts pid KSetgroups;;
  match pw with
  | None => fun h => (EUB, h)
  | Some p =>
      do _ <- need k opts pid (KSetresgid (pw_gid p));;
      do _ <- need k opts pid (KSetresuid (pw_uid p));;
      ret tt
  end.
(** my_rlimit_child, util.c 215-226. *)
Definition my_rlimit_child (k : kernel) (opts pid : Z) : proc unit :=
  do _ <- need k opts pid (KNproc 0);;
  do _ <- need k opts pid (KFsize 0);;
  ret tt.

(** PACKAGE_CHROOT_DIR, /repo/configure.ac 111. *)
Definition chroot_dir : list Z := bs "/var/run/ladvd".
(** The client socket, /repo/src/child.c 73-105.  EPROTONOSUPPORT is 93, ENOENT 2. *)
Definition child_socket (k : kernel) (opts : Z) (pw : option passwd) : proc unit :=
  do s <- sys k KSocket;;
  do _ <- (if a_ret s =? -1 then
             if a_errno s =? 93 then need k opts 0 KSocket else fatal k opts 0
           else ret s);;
  do old <- sys k (KUmask 127);;
  do u <- sys k KUnlinkSock;;
  do _ <- (if (a_ret u =? -1) && negb (a_errno u =? 2) then fatal k opts 0 else ret u);;
  do b <- need k opts 0 KBind;;
  do _ <- (if has opts OPT_RECV then need k opts 0 KListen else ret b);;
  do _ <- need k opts 0 (KChmod 504);;
  match pw with
  | None => fun h => (EUB, h)
  | Some p =>
      do _ <- need k opts 0 (KChown (pw_gid p));;
      do _ <- sys k (KUmask (a_ret old));;
      ret tt
  end.
(** child_init, /repo/src/child.c 50-161.  netif_init opens a socket, netif.c 71-74.
    Receiving and serving clients only happens in the event loop. *)
Definition child_init (k : kernel) (opts : Z) (pw : option passwd) : proc unit :=
  do _ <- (if has opts OPT_DEBUG || has opts OPT_ONCE then ret tt else child_socket k opts pw);;
  do _ <- need k opts 0 KSocket;;
  do _ <- (if has opts OPT_DEBUG then ret tt
           else do _ <- my_chroot k opts 0 chroot_dir;;
                do _ <- my_drop_privs k opts 0 pw;;
                my_rlimit_child k opts 0);;
  do _ <- sys k KSend;;
  if has opts OPT_ONCE then exit 0
  else
    do _ <- sys k KLink;;
    do _ <- sys k KLoop;;
    fatal k opts 0.

(** The build's capability library: none, libcap-ng, libcap (#ifdef at
    parent.c 105-125). *)
Inductive caplib := NoCaps | CapNg | LibCap.
(** CAP_KILL, CAP_NET_ADMIN, CAP_NET_RAW, CAP_NET_BROADCAST, parent.c 104-115. *)
Definition kept_caps : list Z := [5; 12; 13; 11].
(** parent_init, /repo/src/parent.c 80-156. *)
Definition parent_init (k : kernel) (lib : caplib) (opts pid : Z) : proc unit :=
  do s <- need k opts pid KSocket;;
  do _ <- (if has opts OPT_DEBUG then sys k KPcap
           else match lib with
                | NoCaps => ret s
                | CapNg => need k opts pid (KCaps kept_caps)
                | LibCap => do _ <- need k opts pid KCapText;; need k opts pid (KCaps kept_caps)
                end);;
  do w <- sys k (KWaitpid pid);;
  if negb (a_ret w =? 0) then exit 1
  else do _ <- sys k KLoop;; fatal k opts pid.

(** my_socketpair, /repo/src/util.c 115-133. *)
Definition my_socketpair (k : kernel) (opts : Z) : proc unit :=
  do _ <- need k opts 0 KSocketpair;;
  do _ <- need k opts 0 KSockopt;;
  do _ <- need k opts 0 KSockopt;;
  do _ <- need k opts 0 KSockopt;;
  do _ <- need k opts 0 KSockopt;;
  ret tt.
(** The pid file, /repo/src/main.c 219-236: the text fits the 16 bytes of pidstr. *)
Definition pidfile (k : kernel) (opts : Z) : proc unit :=
  do _ <- need k opts 0 KDaemon;;
  do _ <- need k opts 0 KOpenPid;;
  do _ <- need k opts 0 KLockPid;;
  do p <- sys k KGetpid;;
  do w <- sys k (KWritePid (dec (a_ret p) ++ [10]));;
  if a_ret w <=? 0 then fatal k opts 0 else ret tt.
(** main after the options, main.c 212-285, up to the end of the process that is
    followed through fork. *)
Definition main_start (k : kernel) (lib : caplib) (opts : Z) (user : list Z) : proc unit :=
  do pw <- (if has opts OPT_DEBUG then ret None
            else do a <- sys k (KGetpw user);;
                 if a_ret a =? -1 then fatal k opts 0 else ret (Some (mkPw (a_x a) (a_y a))));;
  do _ <- sys k KSysinfo;;
  do _ <- (if has opts OPT_DAEMON then pidfile k opts else ret tt);;
  do _ <- my_socketpair k opts;;
  do _ <- my_socketpair k opts;;
  do f <- sys k KFork;;
  if a_ret f =? -1 then fatal k opts (-1)
  else if a_ret f =? 0 then child_init k opts pw
  else parent_init k lib opts (a_ret f).
