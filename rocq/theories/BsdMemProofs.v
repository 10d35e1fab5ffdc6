(** Proofs of C140. *)
From Coq Require Import Permutation.
From Verif Require Import Base Types Tlv Checks Util Sysinfo Netif Bsd Heap BsdMem Spec SpecAdv SpecNetif SpecBsd SpecHeap SpecSend SpecBsdMem Lemmas VisProofs BsdProofs1.

(** ** Arrays *)
Lemma get_mid a c z : a_get (a ++ c :: z) (zlen a) = DOk c.
Proof.
  unfold a_get. replace ((0 <=? zlen a) && (zlen a <? zlen (a ++ c :: z))) with true by (rewrite zlen_app, zlen_cons; pose proof (zlen_nonneg _ a); pose proof (zlen_nonneg _ z); lia).
  unfold zlen. rewrite Nat2Z.id, app_nth2, Nat.sub_diag by lia. reflexivity.
Qed.
Lemma put_mid a c z v : a_put (a ++ c :: z) (zlen a) v = DOk (a ++ v :: z).
Proof.
  unfold a_put. replace ((0 <=? zlen a) && (zlen a <? zlen (a ++ c :: z))) with true by (rewrite zlen_app, zlen_cons; pose proof (zlen_nonneg _ a); pose proof (zlen_nonneg _ z); lia).
  rewrite firstn_zlen_app. replace (Z.to_nat (zlen a + 1)) with (S (length a)) by (unfold zlen; lia).
  rewrite skipn_app. rewrite (skipn_all2 a) by lia. replace (S (length a) - length a)%nat with 1%nat by lia. reflexivity.
Qed.
Lemma str_mid z : forall s a fuel, ~ In 0 s -> (length s < fuel)%nat -> a_str fuel (a ++ s ++ 0 :: z) (zlen a) = DOk s.
Proof.
  induction s as [|c s IH]; intros a fuel N L; (destruct fuel as [|f]; [cbn in L; lia|]); cbn [a_str app].
  - now rewrite get_mid.
  - rewrite get_mid. cbn [dbind]. replace (c =? 0) with false by (symmetry; apply Z.eqb_neq; intros ->; apply N; now left).
    replace (a ++ c :: s ++ 0 :: z) with ((a ++ [c]) ++ s ++ 0 :: z) by now rewrite <- app_assoc.
    replace (zlen a + 1) with (zlen (a ++ [c])) by (rewrite zlen_app; reflexivity).
    rewrite IH; [reflexivity|intros K; apply N; now right|cbn in L; lia].
Qed.
Lemma str_start z s fuel : ~ In 0 s -> (length s < fuel)%nat -> a_str fuel (s ++ 0 :: z) 0 = DOk s.
Proof. intros N L. exact (str_mid z s [] fuel N L). Qed.

(** ** Driver names *)
Lemma zap_snoc s c : zap_unit (s ++ [c]) = if isdigit c then zap_unit s else s ++ [c].
Proof. unfold zap_unit. rewrite rev_app_distr. cbn [rev app skip_digits]. destruct (isdigit c); [reflexivity|]. cbn [rev]. now rewrite rev_involutive. Qed.
Lemma zap_split s : exists u, s = zap_unit s ++ u.
Proof.
  induction s as [|c s IH] using rev_ind; [now exists []|]. rewrite zap_snoc. destruct (isdigit c); [|exists []; now rewrite app_nil_r].
  destruct IH as [u E]. exists (u ++ [c]). rewrite app_assoc, <- E. reflexivity.
Qed.
Lemma zap_loop_ok : forall s fuel z, (length s < fuel)%nat ->
  exists k, zap_loop fuel (s ++ z) (zlen s) = DOk (zap_unit s ++ repeat 0 k ++ z).
Proof.
  induction s as [|c s IH] using rev_ind; intros fuel z L; (destruct fuel as [|f]; [lia|]); cbn [zap_loop].
  - exists O. reflexivity.
  - rewrite app_length in L. cbn in L. rewrite zlen_app. change (zlen [c]) with 1. pose proof (zlen_nonneg _ s).
    replace (zlen s + 1 =? 0) with false by lia. replace (zlen s + 1 - 1) with (zlen s) by lia. rewrite <- app_assoc. cbn [app].
    rewrite get_mid. cbn [dbind]. rewrite zap_snoc. destruct (isdigit c).
    + rewrite put_mid. cbn [dbind]. destruct (IH f (0 :: z) ltac:(lia)) as [k E]. exists (S k). rewrite E. f_equal. f_equal.
      change (0 :: z) with ([0] ++ z). rewrite app_assoc. f_equal. change [0] with (repeat 0 1). rewrite <- repeat_app. f_equal. lia.
    + exists O. now rewrite <- app_assoc.
Qed.
Lemma unit_loop_ok : forall s fuel z, s <> [] -> (length s <= fuel)%nat -> unit_loop fuel (s ++ z) (zlen s) = DOk (zlen (zap_unit s)).
Proof.
  induction s as [|c s IH] using rev_ind; intros fuel z N L; [congruence|]. rewrite app_length in L. cbn in L.
  destruct fuel as [|f]; [lia|]. cbn [unit_loop]. rewrite zlen_app. change (zlen [c]) with 1. pose proof (zlen_nonneg _ s).
  replace (zlen s + 1 - 1) with (zlen s) by lia. rewrite <- app_assoc. cbn [app]. rewrite get_mid. cbn [dbind]. rewrite zap_snoc.
  destruct (isdigit c).
  - destruct s as [|x s]; [reflexivity|]. replace (zlen (x :: s) =? 0) with false by (rewrite zlen_cons; pose proof (zlen_nonneg _ s); lia).
    apply IH; [discriminate|lia].
  - now rewrite zlen_app.
Qed.
Lemma cstr_nonul l : ~ In 0 (cstr l).
Proof. induction l as [|c l IH]; [easy|]. cbn. destruct (c =? 0) eqn:E; [easy|]. intros [->|K]; [discriminate|now apply IH]. Qed.
(** The buffer: the name, then at least two NULs. *)
Lemma dname_form pf b index ifr : zlen (cstr (bo_driver b index)) <= 15 -> ~ In 0 ifr ->
  exists z, dname_buf pf b index ifr = bsd_driver pf b index ifr ++ 0 :: 0 :: z
  /\ ~ In 0 (bsd_driver pf b index ifr) /\ (length (bsd_driver pf b index ifr) < 16)%nat.
Proof.
  intros D N. unfold dname_buf, bsd_driver. change (Z.to_nat IFNAMSIZ) with 16%nat. change (Z.to_nat (IFNAMSIZ - 1)) with 15%nat. change (Z.to_nat (IFNAMSIZ + 1)) with 17%nat.
  assert (X : forall s : list Z, (length s < 16)%nat -> exists z, (s ++ [0]) ++ repeat 0 (17 - length (s ++ [0])) = s ++ 0 :: 0 :: z).
  { intros s L. exists (repeat 0 (15 - length s)). rewrite <- app_assoc. cbn [app]. rewrite app_length. cbn [length].
    replace (17 - (length s + 1))%nat with (S (15 - length s)) by lia. reflexivity. }
  destruct pf.
  - assert (L : (length (cstr (bo_driver b index)) < 16)%nat) by (unfold zlen in D; lia).
    rewrite (firstn_all2 (n := 16) (cstr _ ++ [0])) by (rewrite app_length; cbn; lia). rewrite (firstn_all2 (n := 16) (cstr _)) by lia.
    destruct (X _ L) as [z E]. exists z. split; [exact E|]. split; [apply cstr_nonul|exact L].
  - assert (L : (length (firstn 15 ifr) < 16)%nat) by (rewrite firstn_length; lia). destruct (X _ L) as [z E]. exists z. split; [exact E|].
    split; [|exact L]. intros K. apply N. revert K. clear. generalize 15%nat. intros n. revert ifr. induction n as [|n IH]; intros [|c l]; cbn; try easy.
    intros [->|K]; [now left|right; now apply IH].
Qed.
Lemma bm_type_ok pf b index name : zlen (cstr (bo_driver b index)) <= 15 -> ~ In 0 (firstn 15 name) -> bm_type pf b index name = DOk (bsd_type pf b index name).
Proof.
  intros D N. destruct (dname_form pf b index (firstn 15 name) D N) as (z & E & N0 & L). unfold bm_type, bsd_type. cbv zeta. rewrite E. set (s := bsd_driver _ _ _ _) in *.
  destruct (bo_wireless _ _); [reflexivity|]. destruct (_ =? IFT_ETHER).
  2: { destruct (_ =? IFT_BRIDGE); [reflexivity|]. destruct (_ =? IFT_IEEE8023ADLAG); [reflexivity|]. destruct (_ =? IFT_L2VLAN); reflexivity. }
  destruct (bo_vlan _ _); [reflexivity|]. rewrite (str_start (0 :: z) s 32 N0) by lia. cbn [dbind].
  destruct (zap_loop_ok s 32 (0 :: 0 :: z) ltac:(lia)) as [k Z1]. rewrite Z1. cbn [dbind].
  assert (Y : exists y, repeat 0 k ++ 0 :: 0 :: z = 0 :: y) by (destruct k; cbn; eauto). destruct Y as [y ->].
  destruct (zap_split s) as [u U].
  rewrite str_start.
  - cbn [dbind]. destruct (_ || _); [reflexivity|]. destruct (_ && _); [reflexivity|]. destruct (bo_lagg _ _); reflexivity.
  - intros K. apply N0. rewrite U. apply in_or_app. now left.
  - rewrite U in L. rewrite app_length in L. lia.
Qed.
Lemma move_ok d u z : u <> [] -> exists x, a_move (d ++ u ++ 0 :: 0 :: z) (zlen d + 1) (zlen d) (zlen u) = DOk (d ++ x :: u ++ 0 :: z).
Proof.
  intros N. destruct u as [|x u]; [congruence|]. exists x. unfold a_move. set (w := x :: u). pose proof (zlen_nonneg _ d). pose proof (zlen_nonneg _ w). pose proof (zlen_nonneg _ z).
  replace ((0 <=? zlen d) && (0 <=? zlen d + 1) && (zlen d + zlen w <=? zlen (d ++ w ++ 0 :: 0 :: z)) && (zlen d + 1 + zlen w <=? zlen (d ++ w ++ 0 :: 0 :: z))) with true
    by (rewrite !zlen_app, !zlen_cons; lia).
  rewrite skipn_zlen_app, firstn_zlen_app. f_equal.
  assert (A : firstn (Z.to_nat (zlen d + 1)) (d ++ w ++ 0 :: 0 :: z) = d ++ [x]).
  { replace (d ++ w ++ 0 :: 0 :: z) with ((d ++ [x]) ++ u ++ 0 :: 0 :: z) by (unfold w; rewrite <- app_assoc; reflexivity).
    replace (zlen d + 1) with (zlen (d ++ [x])) by (rewrite zlen_app; reflexivity). apply firstn_zlen_app. }
  assert (B : skipn (Z.to_nat (zlen d + 1 + zlen w)) (d ++ w ++ 0 :: 0 :: z) = 0 :: z).
  { replace (d ++ w ++ 0 :: 0 :: z) with ((d ++ w ++ [0]) ++ 0 :: z) by (rewrite <- !app_assoc; reflexivity).
    replace (zlen d + 1 + zlen w) with (zlen (d ++ w ++ [0])) by (rewrite !zlen_app; change (zlen [0]) with 1; lia). apply skipn_zlen_app. }
  rewrite A, B. now rewrite <- app_assoc.
Qed.
Lemma bm_sysctl_ok s z : ~ In 0 s -> (length s < 16)%nat -> bm_sysctl_name (s ++ 0 :: 0 :: z) = DOk (sysctl_name s).
Proof.
  intros N L. unfold bm_sysctl_name, sysctl_name. cbv zeta. rewrite (str_start (0 :: z) s 32 N) by lia. cbn [dbind].
  destruct s as [|c s0] eqn:Es; [reflexivity|]. rewrite <- Es in *. replace (zlen s =? 0) with false by (subst s; rewrite zlen_cons; pose proof (zlen_nonneg _ s0); lia).
  rewrite (unit_loop_ok s 32 _) by (try lia; subst s; discriminate). cbn [dbind].
  destruct (zap_split s) as [u U]. set (d := zap_unit s) in *. clearbody d.
  assert (Nd : ~ In 0 d) by (intros K; apply N; rewrite U; apply in_or_app; now left).
  assert (Nu : ~ In 0 u) by (intros K; apply N; rewrite U; apply in_or_app; now right).
  assert (Ll : (length d + length u < 16)%nat) by (rewrite U, app_length in L; exact L).
  rewrite U. rewrite <- app_assoc, (str_mid (0 :: z) u d 32 Nu) by lia. cbn [dbind].
  rewrite skipn_app, skipn_all, Nat.sub_diag. cbn [skipn app]. destruct (zlen u =? 0) eqn:Zu; [reflexivity|].
  destruct (move_ok d u z) as [x M]; [intros ->; discriminate|]. rewrite M. cbn [dbind]. rewrite put_mid. cbn [dbind].
  replace (d ++ 46 :: u ++ 0 :: z) with ((d ++ 46 :: u) ++ 0 :: z) by (rewrite <- app_assoc; reflexivity).
  rewrite str_start.
  - cbn [dbind]. f_equal. f_equal. rewrite firstn_all2; [|rewrite !app_length; cbn [length]; rewrite ?app_length; change (length (bs "dev.")) with 4%nat; change (length (bs ".%desc")) with 6%nat; lia].
    rewrite <- app_assoc. reflexivity.
  - intros K. apply in_app_or in K as [K|[K|K]]; [now apply Nd|discriminate|now apply Nu].
  - rewrite app_length. cbn [length]. lia.
Qed.
Lemma bm_device_ok pf b ifr n nfs : zlen (cstr (bo_driver b (nf_index n))) <= 15 -> ~ In 0 ifr -> bm_device_id pf b ifr n nfs = DOk (bsd_device_id pf b ifr n nfs).
Proof.
  intros D N. unfold bm_device_id, bsd_device_id. destruct (negb _); [reflexivity|]. destruct pf; [|reflexivity].
  destruct (dname_form FreeBSD b (nf_index n) ifr D N) as (z & E & N0 & L). rewrite E, (bm_sysctl_ok _ z N0 L). cbn [dbind].
  destruct (sysctl_name _) as [s|]; [|reflexivity]. destruct (bo_sysctl b s); reflexivity.
Qed.

(** ** Memory *)
Lemma use_malloc h l : in_use h l -> in_use (snd (malloc h)) (fst (malloc h) :: l).
Proof.
  intros (A & B & C). unfold malloc. cbn [fst snd]. split; [constructor; [|assumption]|split].
  - intros K. apply (proj1 (Forall_forall _ _) C) in K. lia.
  - cbn [live]. now constructor.
  - cbn [next]. constructor; [lia|]. eapply Forall_impl; [|exact C]. cbn. intros. lia.
Qed.
Lemma use_live h a l : in_use h (a :: l) -> is_live a h = true.
Proof.
  intros (A & B & C). unfold is_live. apply existsb_exists. exists a. split; [|apply Z.eqb_refl].
  apply (Permutation_in _ (Permutation_sym B)). now left.
Qed.
Lemma filter_perm {A} (f : A -> bool) l l' : Permutation l l' -> Permutation (filter f l) (filter f l').
Proof.
  induction 1 as [|x l l' P IH|x y l|l l' l'' P1 IH1 P2 IH2]; cbn; [constructor| | |now transitivity (filter f l')].
  - destruct (f x); [now constructor|assumption].
  - destruct (f x), (f y); try reflexivity. constructor.
Qed.
Lemma use_free h a l : in_use h (a :: l) -> exists h', free a h = DOk h' /\ in_use h' l.
Proof.
  intros U. pose proof (use_live _ _ _ U) as L. destruct U as (A & B & C). unfold free. rewrite L. eexists. split; [reflexivity|].
  inversion A as [|x y A1 A2]; subst. inversion C as [|x y C1 C2]; subst. split; [assumption|]. split; [|assumption]. cbn [live].
  rewrite (filter_perm _ _ _ B). cbn [filter]. rewrite Z.eqb_refl. cbn [negb].
  assert (Y : forall m, ~ In a m -> filter (fun x => negb (x =? a)) m = m).
  { induction m as [|x m IH]; intros M; [reflexivity|]. cbn [filter]. destruct (Z.eqb_spec x a) as [->|]; [exfalso; apply M; now left|]. cbn [negb]. f_equal. apply IH. intros K. apply M. now right. }
  rewrite (Y l A1). reflexivity.
Qed.
Lemma bridge_fetch_ok room sz total ask : 0 < sz -> 0 <= total -> (forall len, ask len = Some (Z.min total (len / sz) * sz)) ->
  forall fuel len k inbuf h l, 0 < len -> bridge_read fuel sz total len = Some k -> in_use h (match inbuf with Some a => [a] | None => [] end ++ l) ->
  exists r h', bm_bridge_fetch fuel room sz ask inbuf len h = DOk (r, h')
  /\ match r with
     | None => in_use h' l /\ exists n, room n = false
     | Some (a, n, used) => in_use h' (a :: l) /\ used / sz = k /\ (used / sz) * sz <= n
     end.
Proof.
  intros Sz T A. induction fuel as [|f IH]; intros len k inbuf h l Ln R U; [discriminate|]. cbn [bridge_read] in R. cbn [bm_bridge_fetch].
  assert (F : exists h1, match inbuf with Some a => free a h | None => DOk h end = DOk h1 /\ in_use h1 l).
  { destruct inbuf as [a|]; [exact (use_free _ _ _ U)|]. now exists h. }
  destruct F as (h1 & F & U1). rewrite F. cbn [dbind]. destruct (room len) eqn:Ro; cbn [negb].
  2: { exists None, h1. split; [reflexivity|]. split; [assumption|now exists len]. }
  pose proof (use_malloc _ _ U1) as U2. destruct (malloc h1) as [a h2]. cbn [fst snd] in U2. rewrite A. cbv zeta in R.
  destruct (_ <? len) eqn:C.
  - injection R as <-. eexists (Some _), h2. split; [reflexivity|]. cbn beta iota. split; [assumption|]. split; [reflexivity|].
    rewrite Z.div_mul by lia. lia.
  - destruct (2147483647 <? len * 2); [discriminate|]. exact (IH (len * 2) k (Some a) h2 l ltac:(lia) R U2).
Qed.
Lemma bm_bridge_ok room b p nfs h l : b_ok b -> in_use h l ->
  exists x h', bm_bridge room b p nfs h = DOk (x, h') /\ in_use h' l /\ ((forall n, room n = true) -> x = bsd_bridge b p nfs).
Proof.
  intros (_ & Sz & Br & _) U. unfold bm_bridge, bsd_bridge. cbv zeta. destruct (bo_bridge b (nf_name p)) as [ports|] eqn:E.
  - pose proof (zlen_nonneg _ ports) as T. specialize (Br _ _ E).
    assert (R : bridge_read 32 (bo_ifbreq b) (zlen ports) 8192 = Some (zlen ports)).
    { apply (bridge_read_all (bo_ifbreq b) (zlen ports)); [assumption|assumption|assumption|lia|lia|]. change (2 ^ (Z.of_nat 32 - 1)) with 2147483648. nia. }
    rewrite R. destruct (bridge_fetch_ok room (bo_ifbreq b) (zlen ports) (fun len => Some (Z.min (zlen ports) (len / bo_ifbreq b) * bo_ifbreq b))
      ltac:(lia) T (fun _ => eq_refl) 32 8192 (zlen ports) None h l ltac:(lia) R U) as (r & h' & F & K).
    rewrite F. cbn [dbind]. destruct r as [[[a n] used]|].
    + destruct K as (K1 & K2 & K3). rewrite (use_live _ _ _ K1). replace (used / bo_ifbreq b * bo_ifbreq b <=? n) with true by lia. cbn [andb].
      destruct (use_free _ _ _ K1) as (h2 & Fr & U2). rewrite Fr. cbn [dbind]. eexists _, h2. split; [reflexivity|]. split; [assumption|]. intros _. now rewrite K2.
    + destruct K as (K1 & n & K2). eexists _, h'. split; [reflexivity|]. split; [assumption|]. intros H. specialize (H n). congruence.
  - cbn [bm_bridge_fetch]. destruct (room 8192) eqn:Ro; cbn [negb dbind].
    + pose proof (use_malloc _ _ U) as U2. destruct (malloc h) as [a h2]. cbn [fst snd] in U2. destruct (use_free _ _ _ U2) as (h3 & Fr & U3).
      rewrite Fr. cbn [dbind]. eexists _, h3. split; [reflexivity|]. now split.
    + eexists _, h. split; [reflexivity|]. now split.
Qed.

(** ** A refresh *)
Section refresh.
Variables (room : Z -> bool) (cfg : ncfg) (pf : platform) (b : bos).
Hypothesis O : b_ok b.
Hypothesis Fi : b_filled pf b.
Lemma driver_short i : zlen (cstr (bo_driver b i)) <= 15.
Proof. destruct O as (_ & _ & _ & _ & _ & D). specialize (D i). now rewrite cstr_before_nul. Qed.
Lemma firstn_nonul n (l : list Z) : ~ In 0 l -> ~ In 0 (firstn n l).
Proof. intros N K. apply N. rewrite <- (firstn_skipn n l). apply in_or_app. now left. Qed.
Lemma bm_one_ok st ia : ifaddr_ok ia -> bm_fetch_one cfg pf b st ia = DOk (bsd_fetch_one cfg pf b st ia).
Proof.
  intros ((_ & N & _) & _). destruct st as [[nfs si] count]. unfold bm_fetch_one, bsd_fetch_one. destruct (ia_addr ia) as [[t i hw|a|a|]|]; try reflexivity.
  destruct (negb (t =? IFT_BRIDGE) && negb (t =? IFT_ETHER)); [reflexivity|].
  rewrite bm_type_ok by (try apply driver_short; now apply firstn_nonul). cbn [dbind]. cbv zeta.
  destruct (bsd_type pf b i (ia_name ia) =? NETIF_INVALID); [reflexivity|]. destruct (negb _); reflexivity.
Qed.
Lemma d_fold_ok ias : Forall ifaddr_ok ias -> forall st, d_fold (bm_fetch_one cfg pf b) ias st = DOk (fold_left (bsd_fetch_one cfg pf b) ias st).
Proof. induction 1 as [|ia ias K _ IH]; intros st; [reflexivity|]. cbn [d_fold fold_left]. rewrite bm_one_ok by assumption. cbn [dbind]. apply IH. Qed.
Lemma bm_detect_ok ifr nfs h i l : ~ In 0 ifr -> in_use h l ->
  exists x h', bm_detect_one room pf b ifr (nfs, h) i = DOk (x, h') /\ in_use h' l
  /\ ((forall n, room n = true) -> x = bsd_detect_one pf b ifr nfs i).
Proof.
  intros N U. unfold bm_detect_one, bsd_detect_one. destruct (netif_byindex nfs i) as [n|]; [|now exists nfs, h].
  destruct (_ =? NETIF_BONDING).
  - replace (bm_bond pf b n nfs) with (DOk (bsd_bond pf b n nfs)).
    + cbn [dbind]. eexists _, h. now split.
    + unfold bm_bond. destruct (bo_lagg b (nf_name n)) as [[pr ports]|] eqn:E; [|reflexivity]. destruct Fi as (F & _). specialize (F _ _ _ E).
      unfold MAX_PORTS. replace (_ <=? _) with true by (destruct pf; lia). reflexivity.
  - destruct (_ =? NETIF_BRIDGE); [exact (bm_bridge_ok room b n nfs h l O U)|].
    destruct (_ =? NETIF_VLAN); [eexists _, h; now split|]. destruct (_ =? NETIF_REGULAR); [|eexists _, h; now split].
    rewrite bm_device_ok by (try apply driver_short; assumption). cbn [dbind]. eexists _, h. now split.
Qed.
Lemma detect_fold_ok ifr l : ~ In 0 ifr -> forall is nfs h, in_use h l ->
  exists x h', d_fold (bm_detect_one room pf b ifr) is (nfs, h) = DOk (x, h') /\ in_use h' l
  /\ ((forall n, room n = true) -> x = fold_left (bsd_detect_one pf b ifr) is nfs).
Proof.
  intros N. induction is as [|i is IH]; intros nfs h U; [now exists nfs, h|]. cbn [d_fold fold_left].
  destruct (bm_detect_ok ifr nfs h i l N U) as (x & h1 & E & U1 & X). rewrite E. cbn [dbind].
  destruct (IH x h1 U1) as (y & h2 & E2 & U2 & Y). exists y, h2. split; [exact E2|]. split; [exact U2|].
  intros R. rewrite (Y R), (X R). reflexivity.
Qed.
Lemma last_nonul ias : Forall ifaddr_ok ias -> forall ifr, ~ In 0 ifr -> ~ In 0 (last_ifr ias ifr).
Proof.
  induction 1 as [|ia ias ((_ & K & _) & _) _ IH]; intros ifr N; [exact N|]. cbn [last_ifr].
  destruct (ia_addr ia) as [[t i hw|a|a|]|]; try (now apply IH). repeat match goal with |- context [if ?c then _ else _] => destruct c end; apply IH; try exact N; now apply firstn_nonul.
Qed.
Lemma bm_fetch_ok nfs si h l : in_use h l ->
  exists r h', bm_fetch room cfg pf b nfs si h = DOk (r, h') /\ in_use h' l /\ ((forall n, room n = true) -> r = bsd_fetch cfg pf b nfs si).
Proof.
  intros U. unfold bm_fetch, bsd_fetch. destruct (bo_ifaddrs b) as [ias|] eqn:E; [|eexists _, h; now split].
  destruct O as (A & _). destruct (A _ E) as (A1 & _). clear A.
  pose proof (use_malloc _ _ U) as U1. destruct (malloc h) as [a h1]. cbn [fst snd] in U1. cbv zeta.
  rewrite d_fold_ok by assumption. cbn [dbind]. destruct (fold_left _ ias _) as [[nfs1 si1] count].
  destruct (remove_old nfs1 si1) as [[nfs2 si2] gone].
  destruct (detect_fold_ok (last_ifr ias []) (a :: l) ltac:(now apply last_nonul) (map nf_index nfs2) nfs2 h1 U1) as (x & h2 & D & U2 & X).
  rewrite D. cbn [dbind].
  destruct (netif_addrs cfg ias x si2) as [nfs4 si4] eqn:Ea. rewrite (use_live _ _ _ U2).
  destruct (use_free _ _ _ U2) as (h3 & Fr & U3). rewrite Fr. cbn [dbind].
  eexists _, h3. split; [reflexivity|]. split; [exact U3|]. intros R. rewrite <- (X R), Ea. reflexivity.
Qed.
End refresh.
Lemma bm_media_ok pf b (Fi : b_filled pf b) n h l : in_use h l -> exists h', bm_media b n h = DOk (bsd_media b n, h') /\ in_use h' l.
Proof.
  intros U. unfold bm_media. cbv zeta. destruct (negb _); [now exists h|]. destruct (bo_media b (nf_name n)) as [im|] eqn:E; [|now exists h].
  destruct (negb (im_ether im)); [now exists h|]. destruct (negb (im_up im)); [now exists h|]. destruct (im_count im =? 0); [now exists h|].
  pose proof (use_malloc _ _ U) as U1. destruct (malloc h) as [a h1]. cbn [fst snd] in U1. destruct (use_free _ _ _ U1) as (h3 & Fr & U3).
  destruct (im_list im) as [lm|] eqn:El.
  - destruct Fi as (_ & F). specialize (F _ _ _ E El). replace (zlen lm <=? im_count im) with true by lia. rewrite Fr. now exists h3.
  - rewrite Fr. now exists h3.
Qed.
