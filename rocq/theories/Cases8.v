(** Operating systems for the examples of addresses, capabilities and management
    interfaces. *)
From Verif Require Import Base Tlv Types Util Netif Spec SpecAdv SpecNetif SpecSend SpecNetif2 Lemmas Conformance Cases5.

(** Checks for concrete lists of addresses. *)
Definition ifaddr_okb (ia : ifaddr) : bool :=
  let okb l := forallb (fun b => (0 <=? b) && (b <? 256)) l in
  okb (ia_name ia) && forallb (fun b => negb (b =? 0)) (ia_name ia) && (zlen (ia_name ia) <? 16)
  && negb (zlen (ia_name ia) =? 0)
  && match ia_addr ia with
     | Some (SALink _ i hw) => (0 <=? i) && (i <? 4294967296) && okb hw && (zlen hw =? 6)
     | Some (SAInet a) => okb a && (zlen a =? 4)
     | Some (SAInet6 a) => okb a && (zlen a =? 16)
     | _ => true
     end.
Lemma bytes_okb l : forallb (fun b => (0 <=? b) && (b <? 256)) l = true -> bytes l.
Proof. intros H. rewrite forallb_forall in H. apply Forall_forall. intros x Hx. apply H in Hx. unfold byte. lia. Qed.
Lemma ifaddr_okb_ok ia : ifaddr_okb ia = true -> ifaddr_ok ia.
Proof.
  unfold ifaddr_okb, ifaddr_ok. rewrite !andb_true_iff. intros ((((H1 & H2) & H3) & H4) & H5). split; [|split].
  - split; [now apply bytes_okb|]. split; [|lia]. intros K. rewrite forallb_forall in H2. apply H2 in K. discriminate.
  - intros K. rewrite K in H4. discriminate.
  - destruct (ia_addr ia) as [[h i a|a|a|]|]; try exact I; rewrite !andb_true_iff in H5.
    + destruct H5 as (((H5 & H6) & H7) & H8). split; [lia|]. split; [now apply bytes_okb|lia].
    + destruct H5. split; [now apply bytes_okb|lia].
    + destruct H5. split; [now apply bytes_okb|lia].
Qed.
Lemma all_ok ias : forallb ifaddr_okb ias = true -> Forall ifaddr_ok ias.
Proof. intros H. rewrite forallb_forall in H. apply Forall_forall. intros x Hx. now apply ifaddr_okb_ok, H. Qed.
Definition apart_b (ias : list ifaddr) : bool :=
  forallb (fun ia => zlen (ia_name ia) <=? 15) ias
  && forallb (fun x => forallb (fun y => match link_of x, link_of y with
       | Some (i, a), Some (j, b) => Bool.eqb (i =? j) (same a b)
       | _, _ => true
       end) ias) ias.
Lemma apart_ok ias : apart_b ias = true -> names_apart ias.
Proof.
  unfold apart_b. rewrite andb_true_iff, !forallb_forall. intros [H1 H2]. split.
  - intros ia Hi. apply H1 in Hi. lia.
  - intros x y i j a b Hx Hy Lx Ly. specialize (H2 x Hx). rewrite forallb_forall in H2. specialize (H2 y Hy). rewrite Lx, Ly in H2.
    apply Bool.eqb_prop in H2. unfold same in H2. destruct (list_eq_dec Z.eq_dec a b) as [->|K]; split; intros; try reflexivity; try lia; contradiction.
Qed.

Definition v_ias1 : list ifaddr := Eval vm_compute in match no_ifaddrs v_os1 with Some l => l | None => [] end.
Lemma v_os_ok exist : forallb (fun i => (0 <=? i) && (i <? 256)) exist = true -> os_ok (v_os exist).
Proof.
  intros H. split; [|split].
  - intros ias E. cbn [no_ifaddrs v_os] in E. injection E as <-. constructor; [now apply ifaddr_okb_ok|].
    apply Forall_app. split; [|apply all_ok; vm_compute; reflexivity].
    apply Forall_forall. intros x Hx. apply in_map_iff in Hx as (i & <- & Hi). rewrite forallb_forall in H. apply H in Hi.
    unfold v_link, ifaddr_ok. cbn [ia_name ia_addr]. split; [|split].
    + unfold v_name. repeat destruct (_ =? _); (split; [apply bytes_okb; reflexivity|split; [cbn; intuition discriminate|now vm_compute]]).
    + unfold v_name. now repeat destruct (_ =? _).
    + split; [lia|]. split; [|reflexivity]. repeat constructor; unfold byte; lia.
  - intros i. cbn [no_alias v_os]. destruct (i =? 1); apply bytes_okb; reflexivity.
  - intros i. constructor.
Qed.
Lemma v_os1_ias : no_ifaddrs v_os1 = Some v_ias1. Proof. vm_compute. reflexivity. Qed.
Lemma v_os1_ok : os_ok v_os1. Proof. apply v_os_ok. reflexivity. Qed.
Lemma v_ias1_apart : names_apart v_ias1. Proof. apply apart_ok. vm_compute. reflexivity. Qed.

(** The same host, where somebody has renamed bond0 to bond9. *)
Definition v_rename (x : list Z) : list Z := if same x (bs "bond0") then bs "bond9" else x.
Definition v_back (x : list Z) : list Z := if same x (bs "bond9") then bs "bond0" else x.
Definition v_ias3 : list ifaddr := Eval vm_compute in map (fun ia => mkIfa (v_rename (ia_name ia)) (ia_addr ia)) v_ias1.
Definition v_os3 : nos :=
  mkNos (Some v_ias3) (fun x => no_flags v_os1 (v_back x)) (fun x => no_wireless v_os1 (v_back x)) (no_device v_os1)
    (no_driver v_os1) (fun x => no_vlan v_os1 (v_back x)) (fun x => no_vid v_os1 (v_back x)) (no_alias v_os1) (no_device_id v_os1)
    (fun x => no_bond v_os1 (v_back x)) (fun x => no_slave v_os1 (v_back x)) (fun x => no_bridge v_os1 (v_back x))
    (no_team v_os1) (fun x => no_mtu v_os1 (v_back x)) (no_ecmd v_os1).
Lemma v_os3_ok : os_ok v_os3.
Proof.
  split; [|split].
  - intros ias E. cbn [no_ifaddrs v_os3] in E. injection E as <-. apply all_ok. vm_compute. reflexivity.
  - exact (proj1 (proj2 v_os1_ok)).
  - exact (proj2 (proj2 v_os1_ok)).
Qed.
Lemma v_ias3_apart : names_apart v_ias3. Proof. apply apart_ok. vm_compute. reflexivity. Qed.
