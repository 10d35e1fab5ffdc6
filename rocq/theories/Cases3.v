(** Quick check that a concrete list consists of bytes. *)
From Verif Require Import Base Tlv Types Spec.
From Coq Require Import ZifyBool.
Lemma t_bytes l : forallb (fun b => (0 <=? b) && (b <? 256)) l = true -> bytes l.
Proof.
  intros H. rewrite forallb_forall in H. apply Forall_forall. intros b Hb%H. unfold byte. lia.
Qed.
Ltac is_bytes := apply t_bytes; vm_compute; reflexivity.
