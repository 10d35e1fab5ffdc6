(** C103: the loops over the members of an aggregate end. *)
From Verif Require Import Base Tlv Types Util Netif Bsd Spec SpecAdv SpecNetif SpecBsd SpecWalk Lemmas Cases Cases5 Cases14 WalkProofs PropNetif PropBsd.

(** ** C103 *)
(** The slaves of a bond are asked for one by one.  When an answer is repeated,
    for instance because the bond changes in between, the member becomes its own
    successor and the loop over the members never ends. *)
Definition p_slave (dev : list Z) (i : Z) : option (list Z * Z) :=
  if list_eq_dec Z.eq_dec dev (bs "bond0") then Some (bs "eth1", 0) else None.
Definition p_os : nos :=
  mkNos (no_ifaddrs v_os1) (no_flags v_os1) (no_wireless v_os1) (no_device v_os1) (no_driver v_os1) (no_vlan v_os1) (no_vid v_os1)
    (no_alias v_os1) (no_device_id v_os1) (no_bond v_os1) p_slave (no_bridge v_os1) (no_team v_os1)
    (no_mtu v_os1) (no_ecmd v_os1).
Definition p_tab : list netif := Eval vm_compute in let '(_, nfs', _, _) := netif_fetch v_cfg p_os v_tab1 v_si1 in nfs'.
Definition p_bond : netif := Eval vm_compute in nth 3 p_tab (fresh_netif 0 [] 0 [] 0 0 0 []).
Definition p_eth1 : netif := Eval vm_compute in nth 1 p_tab (fresh_netif 0 [] 0 [] 0 0 0 []).
Theorem C103_loop_ends_refuted :
  exists cfg oss os nfs si ret nfs' si' gone p,
    refreshed cfg oss nfs si /\ no_ifaddrs os <> None /\ netif_fetch cfg os nfs si = (ret, nfs', si', gone)
    /\ In p nfs' /\ nf_type p = 12 /\ forall k, exists m, call k p nfs' = Some m.
Proof.
  exists v_cfg, [v_os1], p_os, v_tab1, v_si1, (fst (fst (fst (netif_fetch v_cfg p_os v_tab1 v_si1)))), p_tab,
    (snd (fst (netif_fetch v_cfg p_os v_tab1 v_si1))), (snd (netif_fetch v_cfg p_os v_tab1 v_si1)), p_bond.
  split; [exact v_refreshed|]. split; [discriminate|]. split; [vm_compute; reflexivity|].
  split; [vm_compute; intuition|]. split; [reflexivity|].
  intros k. exists p_eth1. apply stuck; vm_compute; reflexivity.
Qed.
Print Assumptions C103_loop_ends_refuted.
(** They end when no interface is reported as a member twice (missing: any other
    answers of the kernel, which is refuted above). *)
Theorem C103_loop_ends_partial cfg oss os nfs nfs1 si ret nfs' si' gone p :
  refreshed cfg oss nfs si -> indices nfs1 = indices nfs -> no_ifaddrs os <> None ->
  netif_fetch cfg os nfs1 si = (ret, nfs', si', gone) -> consistent os nfs' -> In p nfs' ->
  loop_ends p nfs'.
Proof. exact (walk_linux cfg oss os nfs nfs1 si ret nfs' si' gone p). Qed.
Print Assumptions C103_loop_ends_partial.
(** The same on FreeBSD and OpenBSD. *)
Theorem C103_loop_ends_bsd_partial cfg pf b nfs nfs1 si ret nfs' si' gone ias p :
  b_refreshed cfg pf nfs si -> indices nfs1 = indices nfs -> bo_ifaddrs b = Some ias -> b_ok b ->
  bsd_fetch cfg pf b nfs1 si = (ret, nfs', si', gone) -> b_consistent b nfs' -> In p nfs' ->
  loop_ends p nfs'.
Proof. exact (walk_bsd cfg pf b nfs nfs1 si ret nfs' si' gone ias p). Qed.
Print Assumptions C103_loop_ends_bsd_partial.
(** Cases: the hosts of C58 and C97. *)
Example C103_case :
  consistent v_os1 v_tab1 /\ map nf_type v_tab1 = [0; 0; 0; 12; -1; 13]
  /\ map (fun k => option_map nf_index (call k (nth 3 v_tab1 p_bond) v_tab1)) [0; 1; 2]%nat = [Some 2; Some 3; None].
Proof. split; [exact (proj1 C58_case)|]. vm_compute. split; reflexivity. Qed.
Example C103_bsd_case :
  b_consistent f_os1 (f_tab f_os1)
  /\ map (fun k => option_map nf_index (call k (nth 2 (f_tab f_os1) p_bond) (f_tab f_os1))) [0; 1; 2]%nat = [Some 2; Some 1; None].
Proof. split; [exact (proj1 C97_case)|]. vm_compute. reflexivity. Qed.
