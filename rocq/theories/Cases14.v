(** FreeBSD hosts for the examples of interface detection. *)
From Verif Require Import Base Tlv Types Util Netif Bsd Spec SpecAdv SpecNetif SpecSend SpecNetif2 SpecSys SpecBsd Lemmas
  Conformance Cases5 Cases8 BsdProofs2.

Definition f_name (i : Z) : list Z :=
  if i =? 1 then bs "igb0" else if i =? 2 then bs "igb1" else if i =? 3 then bs "lagg0" else if i =? 4 then bs "bridge0"
  else if i =? 5 then bs "em0" else if i =? 6 then bs "vlan5" else if i =? 7 then bs "vlan7" else if i =? 8 then bs "tap0"
  else if i =? 9 then bs "wlan0" else if i =? 10 then bs "ipfw0" else bs "lo0".
Definition f_is (x : list Z) (i : Z) : bool := same x (f_name i).
(** The datalink entries [l], with their types; some addresses. *)
Definition f_ias (l : list (Z * Z)) : list ifaddr :=
  mkIfa (bs "lo0") (Some (SALink 24 11 (repeat 0 6)))
  :: map (fun x => mkIfa (f_name (snd x)) (Some (SALink (fst x) (snd x) [2; 0; 0; 0; 0; snd x]))) l
  ++ [mkIfa (bs "lagg0") (Some (SAInet [10; 0; 0; 2])); mkIfa (bs "igb0") None].
Definition f_media : ifmedia := mkIfm true MAuto true M1000_T true 4 (Some [(MAuto, false); (M1000_T, true); (M100_TX, true); (M10_T, false)]).
Definition f_fixed : ifmedia := mkIfm true M1000_SX true M1000_SX true 1 (Some [(M1000_SX, true)]).
(** igb0 and igb1 in lagg0, em0 in bridge0, VLANs of em0, tap0, wlan0 (down), ipfw0;
    em0 has description [d]. *)
Definition f_os (l : list (Z * Z)) (d : list Z) : bos :=
  mkBos (Some (f_ias l))
    (fun x => if f_is x 1 || f_is x 2 then 161 else if f_is x 4 then 209 else if f_is x 7 then 135 else 6)
    (fun x => Some (if f_is x 9 then 34818 else 34883))
    (fun x => f_is x 9)
    (fun i => f_name i)
    (fun x => if f_is x 6 then Some (bs "em0", 5) else if f_is x 7 then Some (bs "em0", 7) else None)
    (fun x => if f_is x 3 then Some (4, [(bs "igb1", true); (bs "igb0", false)]) else None)
    288
    (fun x => if f_is x 4 then Some [bs "em0"; bs "gone0"] else None)
    (fun x => if f_is x 5 then Some (bs "uplink") else None)
    (fun s => if same s (bs "dev.em.0.%desc") then Some d else None)
    (fun _ => Some 1500)
    (fun x => if f_is x 5 then Some f_media else if f_is x 1 then Some f_fixed else None).
Definition f_list : list (Z * Z) := [(6, 1); (6, 2); (6, 3); (209, 4); (6, 5); (6, 8); (6, 9); (6, 10); (6, 6)].
Definition f_text : list Z := bs "Intel PRO/1000".
Definition f_os1 : bos := f_os f_list f_text.
Definition f_ias1 : list ifaddr := Eval vm_compute in f_ias f_list.
Definition f_cfg : ncfg := mkNcfg 12 [] (Some (bs "lagg0")) (repeat 0 4) (repeat 0 16).
Definition f_run (b : bos) : Z * list netif * sysinfo * list Z := bsd_fetch f_cfg FreeBSD b [] v_si.
Definition f_tab (b : bos) : list netif := snd (fst (fst (f_run b))).
Definition f_si (b : bos) : sysinfo := snd (fst (f_run b)).
Lemma f_run_eq b : bsd_fetch f_cfg FreeBSD b [] v_si = (fst (fst (fst (f_run b))), f_tab b, f_si b, snd (f_run b)).
Proof. unfold f_tab, f_si, f_run. now destruct (bsd_fetch f_cfg FreeBSD b [] v_si) as [[[r a] c] g]. Qed.
Lemma f_start : b_refreshed f_cfg FreeBSD [] v_si.
Proof. apply bref_start. reflexivity. Qed.
Lemma f_ok l d : forallb ifaddr_okb (f_ias l) = true -> apart_b (f_ias l) = true -> cstring 64 d -> d <> [] -> b_ok (f_os l d).
Proof.
  intros H1 H2 H3 H4. split; [|split; [|split; [|split; [|split]]]].
  - intros ias [= <-]. split; [now apply all_ok|now apply apart_ok].
  - cbn [bo_ifbreq f_os]. lia.
  - intros x ports. cbn [bo_bridge bo_ifbreq f_os]. destruct (f_is x 4); [|discriminate]. intros [= <-]. vm_compute. reflexivity.
  - intros x t. cbn [bo_descr f_os]. destruct (f_is x 5); [|discriminate]. intros [= <-]. apply bytes_okb. reflexivity.
  - intros x v. cbn [bo_sysctl f_os]. destruct (same x _); [|discriminate]. intros [= <-]. now split.
  - intros i. cbn [bo_driver f_os]. unfold f_name. repeat (destruct (i =? _); [vm_compute; discriminate|]). vm_compute. discriminate.
Qed.
Lemma f_text_ok : cstring 64 f_text /\ f_text <> [].
Proof. split; [|discriminate]. split; [apply bytes_okb; reflexivity|]. split; [cbn; intuition discriminate|now vm_compute]. Qed.
Lemma f_os1_ok : b_ok f_os1.
Proof. apply f_ok; [vm_compute; reflexivity|vm_compute; reflexivity|apply f_text_ok|apply f_text_ok]. Qed.
Lemma f_os1_ias : bo_ifaddrs f_os1 = Some f_ias1. Proof. vm_compute. reflexivity. Qed.
Lemma f_refreshed : b_refreshed f_cfg FreeBSD (f_tab f_os1) (f_si f_os1).
Proof. eapply bref_fetch; [exact f_start|reflexivity|exact f_os1_ok|apply f_run_eq]. Qed.
(** Kinds, from the type computed. *)
Lemma f_kind pf b i x ty : zlen x <= 15 -> bsd_type pf b i x = ty -> ty <> NETIF_INVALID -> b_kind pf b i x ty.
Proof. intros S <- N. now apply bsd_type_kind. Qed.
