(** C140: detection on BSD stays within its buffers and gives its memory back. *)
From Coq Require Import Permutation.
From Verif Require Import Base Types Tlv Checks Util Sysinfo Netif Bsd Heap BsdMem Spec SpecAdv SpecNetif SpecBsd SpecHeap SpecSend SpecBsdMem Lemmas BsdMemProofs Cases5 Cases8 Cases14.

(** A refresh, whichever of the larger and larger buffers there is [room] for: it
    touches nothing outside its buffers, all it allocated is free again, and with
    enough memory it gives the same table as when buffers are not looked at. *)
Theorem C140_refresh room cfg pf b nfs si h l :
  b_ok b -> b_filled pf b -> in_use h l ->
  exists r h', bm_fetch room cfg pf b nfs si h = DOk (r, h') /\ in_use h' l
  /\ ((forall n, room n = true) -> r = bsd_fetch cfg pf b nfs si).
Proof. exact (fun O F => bm_fetch_ok room cfg pf b O F nfs si h l). Qed.
Print Assumptions C140_refresh.

(** The same for the media of an interface. *)
Theorem C140_media pf b n h l :
  b_filled pf b -> in_use h l -> exists h', bm_media b n h = DOk (bsd_media b n, h') /\ in_use h' l.
Proof. exact (fun F => bm_media_ok pf b F n h l). Qed.
Print Assumptions C140_media.

(** *** Examples *)
(** The FreeBSD host of C87, with a bridge, an aggregate and a driver with a unit
    number. *)
Example bm_filled : b_filled FreeBSD f_os1.
Proof.
  split.
  - intros x pr ports. unfold f_os1, f_os. cbn [bo_lagg]. destruct (f_is x _); [|discriminate]. intros [= <- <-]. vm_compute. discriminate.
  - intros x im lm. unfold f_os1, f_os. cbn [bo_media]. destruct (f_is x _); [intros [= <-]; cbn [im_list im_count f_media]; intros [= <-]; vm_compute; discriminate|].
    destruct (f_is x _); [|discriminate]. intros [= <-]. cbn [im_list im_count f_fixed]. intros [= <-]. vm_compute. discriminate.
Qed.
Definition bm_h : heap := mkHeap [3; 7] 9.
Example bm_h_used : in_use bm_h [7; 3].
Proof. split; [repeat constructor; cbn; intuition discriminate|]. split; [constructor|repeat constructor; cbn; lia]. Qed.
Example bm_case : exists r h', bm_fetch (fun _ => true) f_cfg FreeBSD f_os1 [] v_si bm_h = DOk (r, h') /\ in_use h' [7; 3]
  /\ ((forall n : Z, true = true) -> r = bsd_fetch f_cfg FreeBSD f_os1 [] v_si).
Proof. exact (C140_refresh (fun _ => true) f_cfg FreeBSD f_os1 [] v_si bm_h [7; 3] f_os1_ok bm_filled bm_h_used). Qed.
(** Two blocks have come and gone: the list of addresses and the members of the bridge. *)
Definition bm_left (x : dres ((Z * list netif * sysinfo * list Z) * heap)) : option heap := match x with DOk (_, h) => Some h | _ => None end.
Example bm_blocks : bm_left (bm_fetch (fun _ => true) f_cfg FreeBSD f_os1 [] v_si bm_h) = Some (mkHeap [3; 7] 11).
Proof. vm_compute. reflexivity. Qed.
(** Without memory for the bridge. *)
Example bm_none : bm_left (bm_fetch (fun _ => false) f_cfg FreeBSD f_os1 [] v_si bm_h) = Some (mkHeap [3; 7] 10).
Proof. vm_compute. reflexivity. Qed.
(** A name with a unit number, in its buffer of 17 bytes. *)
Example bm_name : bm_sysctl_name (bs "em0" ++ repeat 0 14) = DOk (Some (bs "dev.em.0.%desc")).
Proof. vm_compute. reflexivity. Qed.

(** *** Refuted *)
(** A driver name that fills all 16 bytes given to the kernel: the dot written
    before the unit number pushes the last digit over the NUL, and the name is read
    past the end of the buffer (netif_bsd.c 251-256). *)
Definition bm_long : bos :=
  mkBos (bo_ifaddrs f_os1) (bo_iftype f_os1) (bo_flags f_os1) (bo_wireless f_os1)
    (fun i => if i =? 5 then bs "thunderboltnet10" else bo_driver f_os1 i) (bo_vlan f_os1) (bo_lagg f_os1) (bo_ifbreq f_os1) (bo_bridge f_os1)
    (bo_descr f_os1) (bo_sysctl f_os1) (bo_mtu f_os1) (bo_media f_os1).
Theorem C140_driver_refuted :
  exists cfg b si h,
    (forall i, zlen (bo_driver b i) <= 16 /\ ~ In 0 (bo_driver b i)) /\ b_filled FreeBSD b /\ in_use h []
    /\ bm_fetch (fun _ => true) cfg FreeBSD b [] si h = DUB.
Proof.
  exists f_cfg, bm_long, v_si, (mkHeap [] 1). split; [|split; [exact bm_filled|split; [repeat constructor|vm_compute; reflexivity]]].
  intros i. unfold bm_long, f_os1, f_os. cbn [bo_driver]. unfold f_name. repeat (destruct (i =? _); [vm_compute; intuition discriminate|]). vm_compute. intuition discriminate.
Qed.
Print Assumptions C140_driver_refuted.
(** One character less, and nothing happens. *)
Example bm_short : bm_sysctl_name (bs "thunderboltnet1" ++ repeat 0 2) = DOk (Some (bs "dev.thunderboltnet.1.%desc")).
Proof. vm_compute. reflexivity. Qed.
Example bm_over : bm_sysctl_name (bs "thunderboltnet10" ++ repeat 0 1) = DUB.
Proof. vm_compute. reflexivity. Qed.
