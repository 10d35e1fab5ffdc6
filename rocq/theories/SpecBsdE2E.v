(** A daemon on FreeBSD or OpenBSD and one that hears it: vocabulary of C138. *)
From Verif Require Import Base Types Tlv Wire Util Child Netif Sysinfo Send Bsd HostBsd BsdSend Spec SpecAdv SpecNetif SpecSend SpecSys SpecBsd SpecHostBsd SpecBsdSend.

(** The states of the child from its start on the machine [o], through any events. *)
Inductive b_running_on (cfg : scfg) (pf : platform) (o : bsios) (country location : list Z) : sstate -> Prop :=
| bon_boot :
    b_boot_ok pf o -> cstring 3 country -> cstring 256 location ->
    b_running_on cfg pf o country location (mkSt child_start (bsd_sysinfo pf o country location) 0)
| bon_event st e st' eff :
    b_running_on cfg pf o country location st -> b_event_ok e -> bc_step cfg pf st e = DOk (st', eff) ->
    b_running_on cfg pf o country location st'.
