(** Proofs of C103. *)
From Verif Require Import Base Tlv Types Util Netif Bsd Spec SpecAdv SpecNetif SpecBsd SpecWalk Lemmas VisProofs VisProps NetifProofs6 BsdProofs3.

Lemma chain_calls nfs n : NoDup (indices nfs) -> forall i ms, member_chain nfs i ms ->
  forall s k, call k n nfs = Some s -> nf_subif s = i -> exists j, call j n nfs = None.
Proof.
  intros D i ms H. induction H as [|i m ms Hin Hm Hc IH]; intros s k Hk Hs.
  - exists (S k). cbn [call]. rewrite Hk. unfold subif_iter. destruct (_ =? _); [reflexivity|]. now rewrite Hs.
  - destruct (nf_index s =? nf_index n) eqn:E.
    + exists (S k). cbn [call]. rewrite Hk. unfold subif_iter. now rewrite E.
    + apply (IH m (S k)); [|reflexivity]. cbn [call]. rewrite Hk. unfold subif_iter. rewrite E, Hs, <- Hm. now apply netif_byindex_in.
Qed.
Lemma chain_ends nfs n ms : NoDup (indices nfs) -> (10 < nf_type n -> member_chain nfs (nf_subif n) ms) -> loop_ends n nfs.
Proof.
  intros D H. unfold loop_ends. destruct (10 <? nf_type n) eqn:E.
  - specialize (H ltac:(lia)). inversion H as [K|i m ms' Hin Hm Hc K]; subst.
    + exists 0%nat. cbn. unfold subif_iter. change NETIF_PARENT with 10. now rewrite E, <- K.
    + apply (chain_calls nfs n D _ _ Hc m 0%nat); [|reflexivity]. cbn. unfold subif_iter. change NETIF_PARENT with 10.
      rewrite E, <- K. now apply netif_byindex_in.
  - destruct (nf_type n <? 0) eqn:F.
    + exists 0%nat. cbn. unfold subif_iter. change NETIF_PARENT with 10. change NETIF_REGULAR with 0. now rewrite E, F.
    + exists 1%nat. cbn [call]. unfold subif_iter. change NETIF_PARENT with 10. change NETIF_REGULAR with 0. rewrite E, F.
      now rewrite Z.eqb_refl.
Qed.
Lemma walk_linux cfg oss os nfs nfs1 si ret nfs' si' gone p :
  refreshed cfg oss nfs si -> indices nfs1 = indices nfs -> no_ifaddrs os <> None ->
  netif_fetch cfg os nfs1 si = (ret, nfs', si', gone) -> consistent os nfs' -> In p nfs' -> loop_ends p nfs'.
Proof.
  intros H1 H2 H3 H4 H5 Hp. destruct (refresh_exact cfg oss os nfs nfs1 si ret nfs' si' gone H1 H2 H3 H4) as (A & _ & _ & _ & _ & _ & L).
  destruct (L H5 p Hp) as (_ & K & _). assert (D : NoDup (indices nfs')) by apply A.
  destruct (10 <? nf_type p) eqn:E.
  - destruct (K ltac:(lia)) as (ms & C & _). apply (chain_ends nfs' p ms D). intros _. exact C.
  - apply (chain_ends nfs' p [] D). lia.
Qed.
Lemma walk_bsd cfg pf b nfs nfs1 si ret nfs' si' gone ias p :
  b_refreshed cfg pf nfs si -> indices nfs1 = indices nfs -> bo_ifaddrs b = Some ias -> b_ok b ->
  bsd_fetch cfg pf b nfs1 si = (ret, nfs', si', gone) -> b_consistent b nfs' -> In p nfs' -> loop_ends p nfs'.
Proof.
  intros H1 H2 H3 H4 H5 H6 Hp. destruct (b_exact cfg pf b nfs nfs1 si ret nfs' si' gone ias H1 H2 H3 H4 H5) as (A & _ & _ & _ & _ & L & _).
  destruct (L H6 p Hp) as (_ & K & _). assert (D : NoDup (indices nfs')) by apply A.
  destruct (10 <? nf_type p) eqn:E.
  - destruct (K ltac:(lia)) as (ms & C & _). apply (chain_ends nfs' p ms D). intros _. exact C.
  - apply (chain_ends nfs' p [] D). lia.
Qed.
Lemma stuck n nfs s : subif_iter None n nfs = Some s -> subif_iter (Some s) n nfs = Some s -> forall k, call k n nfs = Some s.
Proof. intros H0 H1 k. induction k as [|k IH]; [exact H0|]. cbn [call]. now rewrite IH. Qed.
