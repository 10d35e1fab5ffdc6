(** Concrete data used by the examples beside the property theorems. *)
From Verif Require Import Base Tlv Types Spec SpecAdv Conformance.

Ltac concrete :=
  unfold netif_ok, hinv_ok, sysinfo_ok, hinv_ok, cstring, bytes, byte;
  repeat match goal with
  | |- _ /\ _ => split
  | |- Forall _ _ => vm_compute; repeat constructor; discriminate
  | |- ~ In _ _ => vm_compute; intros H; repeat destruct H as [H|H]; try discriminate; contradiction
  | |- _ <> [] => discriminate
  | |- _ => vm_compute; (reflexivity || discriminate)
  end.
Lemma t_parent_ok : netif_ok t_parent. Proof. concrete. Qed.
Lemma t_n1_ok : netif_ok t_n1. Proof. concrete. Qed.
Lemma t_n2_ok : netif_ok t_n2. Proof. concrete. Qed.
Lemma t_vlan1_ok : netif_ok t_vlan1. Proof. concrete. Qed.
Lemma t_vlan2_ok : netif_ok t_vlan2. Proof. concrete. Qed.
Lemma t_si_ok c a : 0 <= c < 65536 -> 0 <= a < 65536 -> sysinfo_ok (t_si c a).
Proof.
  intros Hc Ha.
  assert (H : sysinfo_ok (t_si 0 0)) by concrete. revert H.
  unfold sysinfo_ok. cbn. tauto.
Qed.
Definition t_nfs := [t_n1; t_parent; t_vlan1; t_vlan2].
(** An aggregate member with VLANs on a host that routes. *)
Lemma t_inputs_ok :
  inputs_ok 7 t_n1 (Some t_parent) (Some t_parent) t_nfs (t_si 8 8).
Proof.
  split; [apply t_n1_ok|]. split; [intros q [= <-]; apply t_parent_ok|].
  split; [intros q [= <-]; apply t_parent_ok|].
  split; [|split; [apply t_si_ok; lia|lia]].
  intros v [<- | [<- | [<- | [<- | []]]]];
    [apply t_n1_ok | apply t_parent_ok | apply t_vlan1_ok | apply t_vlan2_ok].
Qed.
