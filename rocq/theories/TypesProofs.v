(** Proofs about the interface iterators. *)
From Verif Require Import Base Tlv Types Spec SpecAdv Lemmas VisProofs.

Lemma has_argv opts : has opts OPT_ARGV = Z.testbit opts 5.
Proof. apply (has_bit opts 5). lia. Qed.

Lemma iter_skip_visible opts n : iter_skip opts n = negb (visible opts n).
Proof.
  unfold iter_skip, visible, NETIF_PARENT. rewrite has_argv.
  destruct (Z.testbit opts 5), (nf_child n =? 0), (nf_argv n =? 0), (10 <? nf_type n),
    (nf_subif n); reflexivity.
Qed.

Lemma iter_scan_spec opts l k :
  (iter_scan opts l k = None /\ filter (visible opts) l = [])
  \/ exists j n, iter_scan opts l k = Some (k + j)%nat /\ nth_error l j = Some n
       /\ filter (visible opts) l = n :: filter (visible opts) (skipn (S j) l).
Proof.
  revert k. induction l as [|n l IH]; intros k; cbn [iter_scan filter].
  - now left.
  - rewrite iter_skip_visible. destruct (visible opts n) eqn:E; cbn [negb].
    + right. exists 0%nat, n. rewrite Nat.add_0_r. now repeat split.
    + destruct (IH (S k)) as [[H1 H2]|(j & m & H1 & H2 & H3)].
      * left. now split.
      * right. exists (S j), m. rewrite H1. split; [f_equal; lia|]. now split.
Qed.

Lemma skipn_nth A (l : list A) i j : nth_error (skipn i l) j = nth_error l (i + j).
Proof. revert l. induction i; intros [|x l]; cbn; try easy. now destruct j. Qed.
Lemma skipn_skipn A (l : list A) i j : skipn i (skipn j l) = skipn (j + i) l.
Proof. revert l. induction j; intros [|x l]; cbn; try easy. now destruct i. Qed.

Lemma netif_loop_spec fuel opts cur nfs :
  let k := match cur with None => 0%nat | Some k => S k end in
  (length nfs < fuel + k)%nat -> (k <= length nfs)%nat ->
  netif_loop fuel opts cur nfs = filter (visible opts) (skipn k nfs).
Proof.
  revert cur. induction fuel as [|f IH]; intros cur k Hf Hk.
  - lia.
  - cbn [netif_loop].
    assert (E : netif_iter opts cur nfs = iter_scan opts (skipn k nfs) k)
      by (now destruct cur).
    rewrite E. destruct (iter_scan_spec opts (skipn k nfs) k) as [[H1 H2]|(j & m & H1 & H2 & H3)].
    + now rewrite H1, H2.
    + rewrite H1. rewrite skipn_nth in H2. rewrite H2.
      assert (Hlt : (k + j < length nfs)%nat) by (apply nth_error_Some; congruence).
      rewrite (IH (Some (k + j)%nat)) by lia.
      rewrite H3, skipn_skipn. do 3 f_equal. lia.
Qed.

Lemma netif_each_filter opts nfs : netif_each opts nfs = filter (visible opts) nfs.
Proof. unfold netif_each. rewrite (netif_loop_spec _ _ None) by lia. reflexivity. Qed.

Lemma filter_filter A (f g : A -> bool) l :
  filter f (filter g l) = filter (fun x => g x && f x) l.
Proof.
  induction l as [|x l IH]; cbn; [easy|]. destruct (g x); cbn; [destruct (f x)|]; now rewrite IH.
Qed.

Lemma vlan_attached_spec opts n p nfs : vlan_attached opts n p nfs = vlans_of opts n p nfs.
Proof.
  unfold vlan_attached, vlans_of. rewrite netif_each_filter, filter_filter.
  apply filter_ext. intros v. unfold NETIF_VLAN.
  now rewrite <- andb_assoc.
Qed.
