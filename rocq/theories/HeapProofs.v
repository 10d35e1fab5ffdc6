(** Proofs for C113: the decoders. *)
From Coq Require Import Permutation.
From Verif Require Import Base Vis Tlv Types Checks Msg Cdp Edp Fdp Ndp Lldp Protos Wire Util Child Lemmas Heap SpecHeap.

(** ** Taking and giving back *)
Lemma use_perm h l l' : in_use h l -> Permutation l l' -> in_use h l'.
Proof.
  intros (H1 & H2 & H3) P. split; [|split].
  - now apply (Permutation_NoDup P).
  - now rewrite <- P.
  - now apply (Permutation_Forall P).
Qed.
Lemma malloc_use h l : in_use h l -> in_use (snd (malloc h)) (next h :: l).
Proof.
  intros (H1 & H2 & H3). unfold malloc. split; [|split]; cbn [live next fst snd].
  - constructor; [|assumption]. intros K. rewrite Forall_forall in H3. apply H3 in K. lia.
  - now constructor.
  - constructor; [lia|]. eapply Forall_impl; [|exact H3]. cbn. lia.
Qed.
Lemma without_perm a l m : NoDup (a :: m) -> Permutation l (a :: m) -> Permutation (filter (fun x => negb (x =? a)) l) m.
Proof.
  intros N P. assert (Q : Permutation (filter (fun x => negb (x =? a)) l) (filter (fun x => negb (x =? a)) (a :: m))).
  { clear N. induction P; cbn [filter].
    - constructor.
    - destruct (negb (x =? a)); [now constructor|assumption].
    - destruct (negb (x =? a)), (negb (y =? a)); try apply Permutation_refl. apply perm_swap.
    - now rewrite IHP1. }
  rewrite Q. cbn [filter]. rewrite Z.eqb_refl. cbn [negb]. inversion N as [|? ? K _]; subst. clear - K.
  induction m as [|b m IH]; cbn [filter]; [constructor|]. destruct (b =? a) eqn:E.
  - exfalso. apply K. left. lia.
  - cbn [negb]. constructor. apply IH. intros H. apply K. now right.
Qed.
Lemma free_use h a l : in_use h (a :: l) -> exists h', free a h = DOk h' /\ in_use h' l /\ next h' = next h.
Proof.
  intros (H1 & H2 & H3). unfold free. assert (E : is_live a h = true).
  { unfold is_live. apply existsb_exists. exists a. split; [|apply Z.eqb_refl].
    apply (Permutation_in _ (Permutation_sym H2)). now left. }
  rewrite E. eexists. split; [reflexivity|]. split; [|reflexivity]. split; [|split]; cbn [live next].
  - now inversion H1.
  - now apply without_perm.
  - now inversion H3.
Qed.

(** ** The state of a decoder; [lk] are lost allocations *)
Definition ok (lost : bool * Z) (base : list Z) (s : hst) : Prop :=
  length (h_peer s) = 8%nat /\
  exists lk, (fst lost = false -> lk = []) /\ snd lost + zlen lk <= headed (h_out s) /\ in_use (h_heap s) (held_by s ++ base ++ lk).
Definition fits (i : Z) : Prop := 0 <= i < 8.

Definition tot (lost : bool * Z) (base : list Z) (m : HM unit) (t : dst -> dst) : Prop :=
  forall s, ok lost base s -> exists s', m s = (DOk tt, s') /\ erase s' = t (erase s) /\ ok lost base s'.
(** Outcomes after which the process goes on. *)
Definition after {A} (lost : bool * Z) (base : list Z) (r : dres A * hst) : Prop :=
  match fst r with DOk _ | DFail => ok lost base (snd r) | _ => True end.
Definition resU (lost : bool * Z) (base : list Z) (r : dres unit * hst) (X : dres dst) : Prop :=
  ran r = dbind X (fun s => DOk (tt, s)) /\ after lost base r.
Definition resV {A} (lost : bool * Z) (base : list Z) (r : dres A * hst) (X : dres (A * dst)) : Prop :=
  ran r = X /\ after lost base r.

Lemma malloc_ok lost base s : ok lost base s ->
  exists a s', h_malloc s = (DOk a, s') /\ erase s' = erase s /\ h_peer s' = h_peer s /\ ok lost (a :: base) s'.
Proof.
  intros (H8 & lk & Hl & Hd & Hu). apply malloc_use in Hu. exists (next (h_heap s)). unfold h_malloc.
  eexists. split; [reflexivity|]. split; [reflexivity|]. split; [reflexivity|]. split; [exact H8|].
  exists lk. split; [exact Hl|]. split; [exact Hd|]. eapply use_perm; [exact Hu|]. unfold held_by. cbn [h_peer app].
  apply Permutation_middle.
Qed.
Lemma free_ok lost base a s : ok lost (a :: base) s ->
  exists s', h_free a s = (DOk tt, s') /\ erase s' = erase s /\ ok lost base s'.
Proof.
  intros (H8 & lk & Hl & Hd & Hu).
  assert (Hu' : in_use (h_heap s) (a :: (held_by s ++ base ++ lk))).
  { eapply use_perm; [exact Hu|]. cbn [app]. symmetry. apply Permutation_middle. }
  apply free_use in Hu' as (h' & Ef & Hu' & _). unfold h_free. rewrite Ef. eexists. split; [reflexivity|].
  split; [reflexivity|]. split; [exact H8|]. exists lk. split; [exact Hl|]. split; [exact Hd|exact Hu'].
Qed.
Lemma headed_app a b : headed (a ++ b) = headed a + headed b.
Proof. unfold headed. rewrite filter_app. apply zlen_app. Qed.
Lemma headed_pos a : 0 <= headed a. Proof. unfold headed, zlen. lia. Qed.
(** A block may be lost when a heading is printed. *)
Lemma leak_ok n0 base a line s : existsb (beq line) headings = true -> ok (true, n0) (a :: base) s ->
  exists s', h_print line s = (DOk tt, s') /\ erase s' = print (erase s) line /\ ok (true, n0) base s'.
Proof.
  intros Hh (H8 & lk & Hl & Hd & Hu). eexists. split; [reflexivity|]. split; [reflexivity|]. split; [exact H8|].
  exists (a :: lk). split; [discriminate|]. split.
  - cbn [h_out snd] in *. rewrite headed_app, zlen_cons. unfold headed at 2. cbn [filter]. rewrite Hh. unfold zlen at 2. cbn [length]. lia.
  - eapply use_perm; [exact Hu|]. apply Permutation_app_head. cbn [app]. apply Permutation_middle.
Qed.
Lemma slot_erase i s : h_slot i s = (DOk (match pget (s_peer (erase s)) i with Some _ => true | None => false end), s).
Proof.
  unfold h_slot, pget, erase. cbn [s_peer]. change (@None (list Z)) with (option_map (@snd Z (list Z)) None). rewrite map_nth.
  now destruct (nth (Z.to_nat i) (h_peer s) None).
Qed.
Lemma held_upd : forall (p : list (option (Z * list Z))) n a v, (n < length p)%nat -> nth n p None = None ->
  Permutation (held (map (option_map fst) (upd p n (Some (a, v))))) (a :: held (map (option_map fst) p)).
Proof.
  induction p as [|x p IH]; intros [|n] a v Hn E; cbn [length] in Hn; try lia.
  - cbn [nth] in E. subst x. reflexivity.
  - cbn [nth] in E. cbn [upd map held]. specialize (IH n a v ltac:(lia) E). destruct x as [[b w]|]; cbn [option_map fst].
    + rewrite IH. apply perm_swap.
    + exact IH.
Qed.
Lemma upd_length {A} (p : list A) : forall n x, length (upd p n x) = length p.
Proof. induction p as [|y p IH]; intros [|n] x; cbn [upd length]; try reflexivity. now rewrite IH. Qed.
Lemma upd_map {A B} (f : A -> B) (p : list A) : forall n x, map f (upd p n x) = upd (map f p) n (f x).
Proof. induction p as [|y p IH]; intros [|n] x; cbn [upd map]; try reflexivity. now rewrite IH. Qed.
Lemma set_slot_ok lost base i a v s : fits i -> ok lost (a :: base) s -> pget (s_peer (erase s)) i = None ->
  exists s', h_set_slot i (a, v) s = (DOk tt, s') /\
    erase s' = set_peer (erase s) (upd (s_peer (erase s)) (Z.to_nat i) (Some v)) /\ ok lost base s'.
Proof.
  unfold fits. intros Hi (H8 & lk & Hl & Hd & Hu) En. unfold h_set_slot. eexists. split; [reflexivity|]. split.
  { unfold erase, set_peer. cbn [h_peer h_ttl h_proto h_out s_peer s_ttl s_proto s_out]. now rewrite upd_map. }
  split; cbn [h_peer h_heap]; [now rewrite upd_length|]. exists lk. split; [exact Hl|]. split; [exact Hd|].
  assert (En' : nth (Z.to_nat i) (h_peer s) None = None).
  { unfold pget, erase in En. cbn [s_peer] in En.
    change (@None (list Z)) with (option_map (@snd Z (list Z)) None) in En. rewrite map_nth in En.
    now destruct (nth (Z.to_nat i) (h_peer s) None). }
  eapply use_perm; [exact Hu|]. unfold held_by. cbn [h_peer]. rewrite held_upd; [|lia|exact En']. cbn [app].
  symmetry. apply Permutation_middle.
Qed.
Lemma PEER_STR_ok lost base i a v s : fits i -> ok lost (a :: base) s ->
  exists s', h_PEER_STR i (a, v) s = (DOk tt, s') /\ erase s' = peer_str (erase s) i v /\ ok lost base s'.
Proof.
  intros Hi Ho. unfold h_PEER_STR, hbind. rewrite slot_erase. unfold peer_str, PEER_STR.
  destruct (pget (s_peer (erase s)) i) as [w|] eqn:E.
  - cbn [fst]. apply free_ok in Ho as (s' & E1 & E2 & Ho). exists s'. split; [exact E1|]. split; [|exact Ho].
    rewrite E2. now destruct (erase s).
  - destruct (set_slot_ok lost base i a v s Hi Ho E) as (s' & E1 & E2 & Ho'). now exists s'.
Qed.
Lemma print_ok lost base l : tot lost base (h_print l) (fun s => print s l).
Proof.
  intros s (H8 & lk & Hl & Hd & Hu). eexists. split; [reflexivity|]. split; [reflexivity|]. split; [exact H8|].
  exists lk. split; [exact Hl|]. split; [|exact Hu]. cbn [h_out]. rewrite headed_app. pose proof (headed_pos [l]). lia.
Qed.
Lemma ttl_ok lost base t : tot lost base (h_set_ttl t) (fun s => set_ttl s t).
Proof. intros s Ho. eexists. split; [reflexivity|]. split; [reflexivity|exact Ho]. Qed.
Lemma proto_ok lost base t : tot lost base (h_set_proto t) (fun s => set_proto s t).
Proof. intros s Ho. eexists. split; [reflexivity|]. split; [reflexivity|exact Ho]. Qed.
Lemma ret_tot lost base : tot lost base (hret tt) (fun s => s).
Proof. intros s Ho. eexists. split; [reflexivity|]. split; [reflexivity|exact Ho]. Qed.

(** ** Rules *)
Lemma bind_at {A B} (m : HM A) (f : A -> HM B) s a s' : m s = (DOk a, s') -> hbind m f s = f a s'.
Proof. unfold hbind. now intros ->. Qed.
Lemma bind_tot {B} lost base m t (f : unit -> HM B) s (P : dres B * hst -> Prop) : tot lost base m t -> ok lost base s ->
  (forall s', ok lost base s' -> erase s' = t (erase s) -> P (f tt s')) -> P (hbind m f s).
Proof. intros Hm Ho H. destruct (Hm s Ho) as (s' & E1 & E2 & Ho'). rewrite (bind_at _ _ _ _ _ E1). now apply H. Qed.
Lemma tot_bind lost base m t f t' : tot lost base m t -> tot lost base (f tt) t' ->
  tot lost base (hbind m f) (fun s => t' (t s)).
Proof.
  intros Hm Hf s Ho. apply (bind_tot lost base m t f s (fun r => exists s', r = (DOk tt, s') /\ erase s' = t' (t (erase s)) /\ ok lost base s')); try assumption.
  intros s' Ho' E. destruct (Hf s' Ho') as (s'' & E1 & E2 & Ho''). exists s''. rewrite E2, E. now split.
Qed.
Lemma U_tot lost base m t s : tot lost base m t -> ok lost base s -> resU lost base (m s) (DOk (t (erase s))).
Proof. intros Hm Ho. destruct (Hm s Ho) as (s' & E1 & E2 & Ho'). rewrite E1. split; [cbn; now rewrite E2|exact Ho']. Qed.
Lemma U_fail lost base s : ok lost base s -> resU lost base (hlift DFail s) DFail.
Proof. intros Ho. now split. Qed.
Lemma U_ub lost base s : ok lost base s -> resU lost base (hlift DUB s) DUB.
Proof. intros Ho. now split. Qed.
Lemma U_loop lost base s : ok lost base s -> resU lost base (hlift DLoop s) DLoop.
Proof. intros Ho. now split. Qed.
Lemma V_fail {A} lost base s : ok lost base s -> resV lost base (@hlift A DFail s) DFail.
Proof. intros Ho. now split. Qed.
Lemma V_abort {A} lost base s : ok lost base s -> resV lost base (@hlift A DAbort s) DAbort.
Proof. intros Ho. now split. Qed.
Lemma V_loop {A} lost base s : ok lost base s -> resV lost base (@hlift A DLoop s) DLoop.
Proof. intros Ho. now split. Qed.
Lemma V_ub {A} lost base s : ok lost base s -> resV lost base (@hlift A DUB s) DUB.
Proof. intros Ho. now split. Qed.
Lemma V_ret {A} lost base (a : A) s : ok lost base s -> resV lost base (hret a s) (DOk (a, erase s)).
Proof. intros Ho. now split. Qed.
Lemma U_lift {B} lost base (r : dres B) (f : B -> HM unit) g s : ok lost base s ->
  (forall a, resU lost base (f a s) (g a)) -> resU lost base (hbind (hlift r) f s) (dbind r g).
Proof. intros Ho H. unfold hbind, hlift, dbind. destruct r; try (now split). apply H. Qed.
Lemma V_lift {A B} lost base (r : dres B) (f : B -> HM A) g s : ok lost base s ->
  (forall a, resV lost base (f a s) (g a)) -> resV lost base (hbind (hlift r) f s) (dbind r g).
Proof. intros Ho H. unfold hbind, hlift, dbind. destruct r; try (now split). apply H. Qed.
Lemma U_bind lost base (m : HM unit) X f g s : resU lost base (m s) X ->
  (forall s', ok lost base s' -> resU lost base (f tt s') (g (erase s'))) -> resU lost base (hbind m f s) (dbind X g).
Proof.
  intros [E Ho] H. unfold hbind. destruct (m s) as [[[]| | | |] s']; destruct X; cbn [ran dbind snd fst after] in E, Ho; try discriminate; try (now split).
  apply (f_equal (fun r => match r with DOk (_, x) => x | _ => erase s' end)) in E. cbn in E. subst. cbn [dbind]. now apply H.
Qed.
Lemma V_bind {A} lost base (m : HM unit) X (f : unit -> HM A) g s : resU lost base (m s) X ->
  (forall s', ok lost base s' -> resV lost base (f tt s') (g (erase s'))) -> resV lost base (hbind m f s) (dbind X g).
Proof.
  intros [E Ho] H. unfold hbind. destruct (m s) as [[[]| | | |] s']; destruct X; cbn [ran dbind snd fst after] in E, Ho; try discriminate; try (now split).
  apply (f_equal (fun r => match r with DOk (_, x) => x | _ => erase s' end)) in E. cbn in E. subst. cbn [dbind]. now apply H.
Qed.

(** ** The building blocks *)
Lemma sos_ok lost base c line i v : fits i -> tot lost base (h_show_or_store c line i v) (fun s => show_or_store c s line i v).
Proof.
  intros Hi s Ho. unfold h_show_or_store, show_or_store. destruct (malloc_ok _ _ _ Ho) as (a & s1 & E1 & E2 & _ & Ho1).
  rewrite (bind_at _ _ _ _ _ E1). destruct (d_mode c =? DECODE_PRINT).
  - destruct (print_ok _ _ line _ Ho1) as (s2 & E3 & E4 & Ho2). rewrite (bind_at _ _ _ _ _ E3).
    destruct (free_ok _ _ _ _ Ho2) as (s3 & E5 & E6 & Ho3). exists s3. split; [exact E5|]. split; [|exact Ho3]. now rewrite E6, E4, E2.
  - destruct (PEER_STR_ok _ _ i a v _ Hi Ho1) as (s3 & E5 & E6 & Ho3). exists s3. split; [exact E5|]. split; [|exact Ho3]. now rewrite E6, E2.
Qed.
Lemma number_ok lost base c line i v : fits i -> tot lost base (h_print_or_number c line i v) (fun s => show_or_store c s line i v).
Proof.
  intros Hi s Ho. unfold h_print_or_number, show_or_store. destruct (d_mode c =? DECODE_PRINT); [now apply print_ok|].
  destruct (malloc_ok _ _ _ Ho) as (a & s1 & E1 & E2 & _ & Ho1). rewrite (bind_at _ _ _ _ _ E1).
  destruct (PEER_STR_ok _ _ i a v _ Hi Ho1) as (s3 & E5 & E6 & Ho3). exists s3. split; [exact E5|]. split; [|exact Ho3]. now rewrite E6, E2.
Qed.
Lemma store_ok lost base i v : fits i -> tot lost base (hbind h_malloc (fun a => h_PEER_STR i (a, v))) (fun s => peer_str s i v).
Proof.
  intros Hi s Ho. destruct (malloc_ok _ _ _ Ho) as (a & s1 & E1 & E2 & _ & Ho1). rewrite (bind_at _ _ _ _ _ E1).
  destruct (PEER_STR_ok _ _ i a v _ Hi Ho1) as (s3 & E5 & E6 & Ho3). exists s3. split; [exact E5|]. split; [|exact Ho3]. now rewrite E6, E2.
Qed.
Lemma show_ok lost base line : tot lost base (h_show line) (fun s => print s line).
Proof.
  intros s Ho. unfold h_show. destruct (malloc_ok _ _ _ Ho) as (a & s1 & E1 & E2 & _ & Ho1). rewrite (bind_at _ _ _ _ _ E1).
  destruct (print_ok _ _ line _ Ho1) as (s2 & E3 & E4 & Ho2). rewrite (bind_at _ _ _ _ _ E3).
  destruct (free_ok _ _ _ _ Ho2) as (s3 & E5 & E6 & Ho3). exists s3. split; [exact E5|]. split; [|exact Ho3]. now rewrite E6, E4, E2.
Qed.
Lemma lines_ok lost base : forall l, tot lost base (h_lines l) (fun s => fold_left (fun s t => print s (bs "  " ++ t ++ [10])) l s).
Proof.
  induction l as [|t l IH]; cbn [h_lines fold_left]; [apply ret_tot|].
  exact (tot_bind _ _ _ _ (fun _ => h_lines l) _ (print_ok _ _ _) IH).
Qed.
Lemma descr_print_ok n0 base label v : existsb (beq (label ++ bs ":" ++ [10])) headings = true ->
  tot (true, n0) base (h_descr_print label v) (fun s => descr_print s label v).
Proof.
  intros Hh s Ho. unfold h_descr_print, descr_print. destruct (malloc_ok _ _ _ Ho) as (a & s1 & E1 & E2 & _ & Ho1).
  rewrite (bind_at _ _ _ _ _ E1). destruct (existsb _ v).
  - destruct (leak_ok _ _ _ _ _ Hh Ho1) as (s2 & E3 & E4 & Ho2). rewrite (bind_at _ _ _ _ _ E3).
    destruct (lines_ok _ _ (strsep_nl v []) _ Ho2) as (s3 & E5 & E6 & Ho3). exists s3. split; [exact E5|]. split; [|exact Ho3]. now rewrite E6, E4, E2.
  - destruct (print_ok _ _ (label ++ bs ": " ++ v ++ [10]) _ Ho1) as (s2 & E3 & E4 & Ho2). rewrite (bind_at _ _ _ _ _ E3).
    destruct (free_ok _ _ _ _ Ho2) as (s3 & E5 & E6 & Ho3). exists s3. split; [exact E5|]. split; [|exact Ho3]. now rewrite E6, E4, E2.
Qed.
Lemma finally_ok lost base m a X s : resU lost (a :: base) (m s) X -> resU lost base (h_finally m a s) X.
Proof.
  intros [E Ho]. unfold h_finally. destruct (m s) as [[[]| | | |] s']; destruct X; cbn [ran dbind snd fst after] in E, Ho; try discriminate;
    try (now split).
  - destruct (free_ok _ _ _ _ Ho) as (s3 & E5 & E6 & Ho3). rewrite E5. split; [|exact Ho3]. cbn. rewrite E6.
    apply (f_equal (fun r => match r with DOk (_, x) => x | _ => erase s' end)) in E. cbn in E. now subst.
  - destruct (free_ok _ _ _ _ Ho) as (s3 & E5 & E6 & Ho3). rewrite E5. now split.
Qed.
