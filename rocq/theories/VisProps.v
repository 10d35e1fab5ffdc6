(** Consequences of the exact form of escaped strings; member iteration. *)
From Verif Require Import Base Vis Tlv Types Spec SpecAdv SpecOut Lemmas VisProofs TypesProofs.

Lemma shown_all (show : Z -> list Z) (P : Z -> Prop) v :
  bytes v -> (forall b, byte b -> b <> 0 -> Forall P (show b)) -> Forall P (shown show v).
Proof.
  intros Hb H. unfold shown. apply Forall_flat_map.
  assert (Hf : bytes (before_nul (firstn 511 v))) by (apply before_nul_bytes, bytes_firstn, Hb).
  pose proof (before_nul_nonzero (firstn 511 v)) as Hz.
  rewrite Forall_forall. intros b Hi. apply H.
  - unfold bytes in Hf. rewrite Forall_forall in Hf. auto.
  - intros ->. auto.
Qed.
Lemma show_safe_ok b : byte b -> b <> 0 ->
  Forall (fun x => 32 <= x <= 126 \/ In x [7; 8; 9; 10; 13]) (show_safe b).
Proof.
  unfold byte. intros Hb H0. unfold show_safe, octal.
  destruct (b =? 92); [repeat constructor; lia|].
  destruct (((32 <=? b) && (b <=? 126)) || existsb (Z.eqb b) [7; 8; 9; 10; 13]) eqn:E.
  - constructor; [|constructor]. apply orb_prop in E as [E|E]; [lia|]. right.
    apply existsb_exists in E as (x & Hx & E). apply Z.eqb_eq in E. now subst.
  - repeat constructor; lia.
Qed.
Lemma show_strict_ok b : byte b -> b <> 0 ->
  Forall (fun x => 32 <= x <= 126 /\ ~ In x [35; 42; 63; 91]) (show_strict b).
Proof.
  unfold byte. intros Hb H0. unfold show_strict, octal.
  destruct (b =? 92) eqn:E9; [repeat constructor; cbn; lia|].
  destruct ((32 <=? b) && (b <=? 126) && negb (existsb (Z.eqb b) [35; 42; 63; 91])) eqn:E.
  - constructor; [|constructor]. cbn [existsb In] in *. lia.
  - repeat constructor; cbn [In]; lia.
Qed.

Lemma unshow_app_safe fuel b r : byte b -> b <> 0 -> zlen (show_safe b) <= 4 ->
  unshow (S fuel) (show_safe b ++ r) = b :: unshow fuel r.
Proof.
  unfold byte. intros Hb H0 _. unfold show_safe, octal.
  destruct (b =? 92) eqn:E9.
  - apply Z.eqb_eq in E9. subst. reflexivity.
  - destruct (_ || _) eqn:E.
    + cbn [app unshow]. rewrite E9. reflexivity.
    + cbn [app unshow]. change (92 =? 92) with true. cbv iota.
      replace (48 + b / 64 =? 92) with false by lia. f_equal. lia.
Qed.
Lemma unshow_app_strict fuel b r : byte b -> b <> 0 -> zlen (show_strict b) <= 4 ->
  unshow (S fuel) (show_strict b ++ r) = b :: unshow fuel r.
Proof.
  unfold byte. intros Hb H0 _. unfold show_strict, octal.
  destruct (b =? 92) eqn:E9.
  - apply Z.eqb_eq in E9. subst. reflexivity.
  - destruct (_ && _ && _) eqn:E.
    + cbn [app unshow]. rewrite E9. reflexivity.
    + cbn [app unshow]. change (92 =? 92) with true. cbv iota.
      replace (48 + b / 64 =? 92) with false by lia. f_equal. lia.
Qed.

Lemma unshow_all show fuel l :
  (forall f b r, byte b -> b <> 0 -> zlen (show b) <= 4 ->
     unshow (S f) (show b ++ r) = b :: unshow f r) ->
  (forall b, 1 <= zlen (show b) <= 4) ->
  bytes l -> ~ In 0 l -> (length l <= fuel)%nat -> unshow fuel (flat_map show l) = l.
Proof.
  intros Hs Hl. revert fuel. induction l as [|b l IH]; intros fuel Hb Hz Hf; cbn [flat_map].
  - now destruct fuel.
  - inversion Hb; subst. destruct fuel as [|fuel]; [cbn in Hf; lia|].
    rewrite Hs; [|easy|intros ->; apply Hz; now left|apply Hl].
    f_equal. apply IH; [easy|intros Hi; apply Hz; now right|cbn in Hf; lia].
Qed.

Lemma before_nul_length l : (length (before_nul l) <= length l)%nat.
Proof. pose proof (before_nul_le l). unfold zlen in *. lia. Qed.
Lemma unshow_shown show v :
  (forall f b r, byte b -> b <> 0 -> zlen (show b) <= 4 ->
     unshow (S f) (show b ++ r) = b :: unshow f r) ->
  (forall b, 1 <= zlen (show b) <= 4) -> bytes v ->
  unshow 511 (shown show v) = before_nul (firstn 511 v).
Proof.
  intros H1 H2 Hb. unfold shown. apply unshow_all; try assumption.
  - now apply before_nul_bytes, bytes_firstn.
  - apply before_nul_nonzero.
  - etransitivity; [apply before_nul_length|]. rewrite firstn_length. lia.
Qed.

(** The two escaping calls on any byte string placed anywhere in a buffer. *)
Lemma copy_safe buf p v s : view buf p v -> bytes v ->
  tlv_str_copy buf p (zlen v) = DOk s ->
  Forall (fun x => 32 <= x <= 126 \/ In x [7; 8; 9; 10; 13]) s.
Proof.
  intros Hv Hb. rewrite tlv_str_copy_view by assumption. intros [= <-].
  apply shown_all; [easy|apply show_safe_ok].
Qed.

(** ** Members *)
Lemma netif_byindex_in nfs m : NoDup (map nf_index nfs) -> In m nfs ->
  netif_byindex nfs (nf_index m) = Some m.
Proof.
  unfold netif_byindex. induction nfs as [|x nfs IH]; cbn; [easy|].
  intros Hd Hi. inversion Hd as [|? ? Hx Hd']; subst. destruct Hi as [->|Hi].
  - now rewrite Z.eqb_refl.
  - destruct (nf_index x =? nf_index m) eqn:E.
    + apply Z.eqb_eq in E. exfalso. apply Hx. rewrite E. now apply in_map.
    + auto.
Qed.
Lemma chain_in nfs i ms : member_chain nfs i ms -> incl ms nfs.
Proof. induction 1; [easy|]. intros x [<-|Hx]; auto. Qed.
Lemma subif_loop_chain nfs n s i ms fuel :
  NoDup (map nf_index nfs) -> member_chain nfs i ms ->
  (forall m, In m ms -> nf_index m <> nf_index n) ->
  nf_index s <> nf_index n -> nf_subif s = i ->
  (length ms < fuel)%nat -> subif_loop fuel (Some s) n nfs = ms.
Proof.
  intros Hd Hc. revert s fuel. induction Hc as [|i m ms Hin Hm Hc IH];
    intros s fuel Hne Hs Hl Hf; (destruct fuel as [|fuel]; [lia|]); cbn [subif_loop subif_iter].
  - destruct (nf_index s =? nf_index n) eqn:E; [easy|]. now rewrite Hl.
  - destruct (nf_index s =? nf_index n) eqn:E; [lia|]. rewrite Hl. subst i.
    rewrite netif_byindex_in by easy. f_equal. apply IH; try easy.
    + intros x Hx. apply Hne. now right.
    + apply Hne. now left.
    + cbn in Hf. lia.
Qed.
Lemma subif_each_members nfs n ms :
  NoDup (map nf_index nfs) -> 10 < nf_type n -> member_chain nfs (nf_subif n) ms ->
  NoDup ms -> (forall m, In m ms -> nf_index m <> nf_index n) ->
  subif_each n nfs = ms.
Proof.
  intros Hd Ht Hc Hn Hne. unfold subif_each.
  pose proof (NoDup_incl_length Hn (chain_in _ _ _ Hc)) as Hle.
  cbn [subif_loop subif_iter].
  unfold NETIF_PARENT. replace (10 <? nf_type n) with true by lia.
  inversion Hc as [E|i m ms' Hin Hm Hc' E]; subst; [easy|].
  rewrite netif_byindex_in by easy. f_equal.
  apply (subif_loop_chain nfs n m (nf_subif m)); try easy.
  - intros x Hx. apply Hne. now right.
  - apply Hne. now left.
Qed.
Lemma subif_each_plain nfs n : 0 <= nf_type n <= 10 -> subif_each n nfs = [n].
Proof.
  intros H. unfold subif_each. cbn [subif_loop subif_iter].
  unfold NETIF_PARENT, NETIF_REGULAR.
  replace (10 <? nf_type n) with false by lia. replace (nf_type n <? 0) with false by lia.
  f_equal. destruct nfs; cbn [length subif_loop subif_iter]; [easy|]. now rewrite Z.eqb_refl.
Qed.
Lemma subif_each_vlan nfs n : nf_type n < 0 -> subif_each n nfs = [].
Proof.
  intros H. unfold subif_each. cbn [subif_loop subif_iter].
  unfold NETIF_PARENT, NETIF_REGULAR.
  replace (10 <? nf_type n) with false by lia. now replace (nf_type n <? 0) with true by lia.
Qed.

Lemma view_at pre v post : view (pre ++ v ++ post) (zlen pre) v.
Proof. now exists pre, post. Qed.
