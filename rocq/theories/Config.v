(** What the options leave behind for the interface code and the child:
    /repo/src/main.c 84-210 and 274 (the globals options, exclifs, protos and sysinfo,
    and the arguments sargc and sargv of child_init). *)
From Verif Require Import Base Types Parent Netif Send Opts.

(** sysinfo.mifname, maddr4 and maddr6 are zero unless set, main.c 64, 106-121;
    common.h 184-187. *)
Definition or_zero (k : nat) (o : option (list Z)) : list Z := match o with Some a => a | None => repeat 0 k end.
(** The configuration of the child, main.c 84-210, 274. *)
Definition conf_of (s : setup) (names : list (list Z)) : scfg :=
  mkScfg (mkNcfg (u_opts s) names (u_mif s) (or_zero 4 (u_m4 s)) (or_zero 16 (u_m6 s)))
    (u_excl s) (fun p => nth (Z.to_nat p) (u_enabled s) false).
(** The configuration of the privileged process, a copy of the same globals (fork, main.c
    248); whether libpci and libteam were found is decided when building. *)
Definition pconf_of (s : setup) (pci team : bool) : Parent.pcfg := Parent.mkPcfg (u_opts s) (u_enabled s) pci team.
