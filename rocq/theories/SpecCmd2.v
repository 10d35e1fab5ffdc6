(** Vocabulary for C145: which management addresses a command line asks for. *)
From Verif Require Import Base Types Tlv Netif Send Spec SpecAdv SpecNetif2.

(** The management address TLVs (type 8) of LLDP for an interface: its IPv4 and its IPv6
    address, if it has one, and its MAC address, each with the number of the interface. *)
Definition managed (m : netif) : list tlv :=
  when (is_set (nf_ipaddr4 m)) [mgmt_tlv 1 (nf_ipaddr4 m) (nf_index m)]
  ++ when (is_set (nf_ipaddr6 m)) [mgmt_tlv 2 (nf_ipaddr6 m) (nf_index m)]
  ++ [mgmt_tlv 6 (nf_hwaddr m) (nf_index m)].
(** In what the kernel says at this event, names (at most 15 characters) and numbers of
    interfaces identify each other. *)
Definition event_apart (e : sevent) : Prop :=
  match e with
  | EvRun os _ | EvLink os _ _ _ _ => forall ias, no_ifaddrs os = Some ias -> names_apart ias
  | EvChild _ => True
  end.
