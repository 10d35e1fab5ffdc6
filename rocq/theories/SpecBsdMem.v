(** Vocabulary for C140: what the kernel of FreeBSD or OpenBSD fills in. *)
From Verif Require Import Base Types Tlv Util Netif Bsd.

(** The kernel fills in no more ports of an aggregate than it was given room for (32
    on FreeBSD, 8 on OpenBSD), and no more media than it was asked for. *)
Definition b_filled (pf : platform) (b : bos) : Prop :=
  (forall x proto ports, bo_lagg b x = Some (proto, ports) -> zlen ports <= match pf with FreeBSD => 32 | OpenBSD => 8 end)
  /\ (forall x im l, bo_media b x = Some im -> im_list im = Some l -> zlen l <= im_count im).
