(** The command line of the daemon, /repo/src/main.c 84-210 (build with sysfs, as
    on Linux).  The results of getopt(3), the option letters with their arguments and
    the operands, are the input; getopt itself is in Getopt. *)
From Verif Require Import Base Types.

(** What the options set: options, username, exclifs, sysinfo.mifname,
    sysinfo.maddr4 and maddr6, sysinfo.country, sysinfo.location and
    protos[].enabled (LLDP, CDP, EDP, FDP, NDP, CDP1). *)
Record setup := mkSetup {
  u_opts : Z; u_user : list Z; u_excl : list (list Z); u_mif : option (list Z);
  u_m4 : option (list Z); u_m6 : option (list Z);
  u_country : list Z; u_location : list Z; u_enabled : list bool
}.
(** Initial values: main.c 29, 39, 62-65, main.h 24-38; PACKAGE_USER is "ladvd",
    /repo/configure.ac 86. *)
Definition setup0 : setup :=
  mkSetup (Z.lor OPT_DAEMON OPT_SEND) (bs "ladvd") [] None None None [] []
    [false; false; false; false; false; false].
(** Assignment to options, main.c 93-137. *)
Definition set_opts (s : setup) (o : Z) : setup :=
  let '(mkSetup _ u e mi m4 m6 c l en) := s in mkSetup o u e mi m4 m6 c l en.   (* options = o *)
(** protos[i].enabled = 1, main.c 173-187. *)
Definition enable (s : setup) (i : nat) : setup :=
  let '(mkSetup o u e mi m4 m6 c l en) := s in mkSetup o u e mi m4 m6 c l (firstn i en ++ true :: skipn (S i) en).
(** toupper(3) in the C locale. *)
Definition toupper (b : Z) : Z := if (97 <=? b) && (b <=? 122) then b - 32 else b.

(** The operating system and libc: if_nametoindex, inet_pton (main.c 84-191). *)
Record naming := mkNaming { n_index : list Z -> Z; n_pton4 : list Z -> option (list Z); n_pton6 : list Z -> option (list Z) }.

(** One option, main.c 86-190; [None]: usage(), the process exits with
    status 1. *)
Definition opt_step (n : naming) (s : setup) (x : Z) (arg : list Z) : option setup :=
  let '(mkSetup o u e mi m4 m6 c l en) := s in
  match x with
  | 97 (* a *) => Some (set_opts s (Z.lor o (Z.lor OPT_AUTO OPT_RECV)))
  | 100 (* d *) => Some (set_opts s (Z.land (Z.lor o OPT_DEBUG) (Z.lnot OPT_DAEMON)))
  | 101 (* e *) =>
      if negb (n_index n arg =? 0) then Some (mkSetup o u (e ++ [firstn 15 arg]) mi m4 m6 c l en) else None
  | 102 (* f *) => Some (set_opts s (Z.land o (Z.lnot OPT_DAEMON)))
  | 109 (* m *) =>
      let o' := Z.lor o OPT_MNETIF in
      if negb (n_index n arg =? 0) then Some (mkSetup o' u e (Some arg) m4 m6 c l en)
      else match n_pton4 n arg with
           | Some a => Some (mkSetup o' u e mi (Some a) m6 c l en)
           | None => match n_pton6 n arg with
                     | Some a => Some (mkSetup o' u e mi m4 (Some a) c l en)
                     | None => None
                     end
           end
  | 110 (* n *) => Some (set_opts s (Z.lor o OPT_MADDR))
  | 111 (* o *) => Some (set_opts s (Z.lor o OPT_ONCE))
  | 113 (* q *) => Some (set_opts s (Z.lor o OPT_CHASSIS_IF))
  | 114 (* r *) => Some (set_opts s (Z.lor o OPT_RECV))
  | 115 (* s *) => Some (set_opts s (Z.land o (Z.lnot OPT_SEND)))
  | 116 (* t *) => Some (set_opts s (Z.lor o OPT_TAP))
  | 117 (* u *) => Some (mkSetup o arg e mi m4 m6 c l en)
  | 118 (* v *) => Some s
  | 119 (* w *) => Some (set_opts s (Z.lor o OPT_WIRELESS))
  | 121 (* y *) => Some (set_opts s (Z.lor (Z.lor o OPT_USEDESCR) (Z.lor OPT_RECV OPT_IFDESCR)))
  | 122 (* z *) => Some (set_opts s (Z.lor o (Z.lor OPT_RECV OPT_IFDESCR)))
  | 99 (* c *) =>
      match arg with
      | [a; b] => Some (mkSetup o u e mi m4 m6 [toupper a; toupper b] l en)
      | _ => None
      end
  | 108 (* l *) =>
      match arg with
      | [] => None
      | _ => Some (mkSetup o u e mi m4 m6 c (firstn 255 arg) en)
      end
  | 76 (* L *) => Some (enable s 0)
  | 67 (* C *) => Some (enable s 1)
  | 69 (* E *) => Some (enable s 2)
  | 70 (* F *) => Some (enable s 3)
  | 78 (* N *) => Some (enable s 4)
  | _ => None
  end.
(** The loop, main.c 84-191. *)
Fixpoint opt_loop (n : naming) (s : setup) (ol : list (Z * list Z)) : option setup :=
  match ol with
  | [] => Some s
  | (x, arg) :: ol' => let? s' := opt_step n s x arg in opt_loop n s' ol'
  end.
(** Operands and the check of the protocols, main.c 193-210. *)
Definition main_opts (n : naming) (ol : list (Z * list Z)) (operands : list (list Z)) : option setup :=
  let? s := opt_loop n setup0 ol in
  let s := match operands with [] => s | _ => set_opts s (Z.lor (u_opts s) OPT_ARGV) end in
  if negb (has (u_opts s) OPT_AUTO) && negb (existsb (fun b => b) (u_enabled s)) then None else Some s.
