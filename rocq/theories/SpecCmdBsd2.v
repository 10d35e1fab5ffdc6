(** Where a socket is asked for on FreeBSD and OpenBSD. *)
From Verif Require Import Base Types Netif Send Bsd SpecSend SpecBsd SpecBsdSend.

(** The interfaces to listen on, as [listened] of SpecJoint. *)
Definition b_listened (cfg : scfg) (os : bos) (nfs : list netif) : list Z :=
  if opt cfg 2
  then flat_map (fun top => map nf_index (filter (fun s => eligible cfg s && (nf_protos s =? 0)) (b_stands_for os nfs top)))
         (filter (fun top => selected cfg top && eligible cfg top) nfs)
  else [].
