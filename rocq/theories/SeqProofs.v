(** Proofs of C132. *)
From Verif Require Import Base Tlv Types Protos Util Netif Child Sysinfo Send Spec SpecAdv SpecRound SpecNetif SpecChild SpecSend SpecSeq Lemmas ChildProofs ChildProofs2 ChildProofs4
  VisProofs EncProofs EncProofs2 EncProofs3 EncProofs4 EncProps TlvInj SendProofs1 SendProofs2 SendProofs3 SendProofs4 SendProofs5 SendProofs6 SysProofs1 SysProofs2 E2EProofs MtuProofs TagProofs2 StdProofs.

Definition is_edp (x : Z * Z * list Z) : bool := snd (fst x) =? 2.
Definition numbers (l : list (Z * Z * list Z)) : list Z := map (fun x => edp_number (snd x)) (filter is_edp l).
Lemma numbers_app a b : numbers (a ++ b) = numbers a ++ numbers b.
Proof. unfold numbers. now rewrite filter_app, map_app. Qed.

(** ** One frame *)
Section Due.
Context (cfg : scfg) (os : nos) (nfs : list netif) (si : sysinfo).
Hypothesis W : well nfs.
Hypothesis S : sysinfo_ok si.
Lemma due_inputs seq sub : In sub nfs -> 0 <= seq < 65536 ->
  inputs_ok seq (netif_media os sub) (at_index nfs (nf_parent sub)) (at_index nfs (si_mnetif si)) nfs si.
Proof.
  intros Hs Q. assert (Hat : forall o q, at_index nfs o = Some q -> netif_ok q).
  { intros [j|] q X; [|discriminate]. apply find_some in X as [X _]. now apply (well_in nfs). }
  split; [apply ok_probed; now apply (well_in nfs)|]. split; [apply Hat|]. split; [apply Hat|]. split; [intros v; now apply well_in|]. now split.
Qed.
Lemma due_number seq top sub : In sub nfs -> 0 <= seq < 65536 -> edp_number (frame_due cfg os nfs si seq (top, sub, 2)) = seq.
Proof.
  intros Hs Q. pose proof (due_inputs seq sub Hs Q) as Hi. unfold frame_due.
  set (n := netif_media os sub) in *. set (par := at_index nfs (nf_parent sub)) in *. set (mg := at_index nfs (si_mnetif si)) in *.
  assert (Lh : zlen (nf_hwaddr n) = 6) by (destruct Hi as (Hn0 & _); apply Hn0).
  set (g := SpecAdv.advert _ _ _ _ _ _ _ _).
  assert (G : exists a b, g = a ++ U16 seq ++ b /\ zlen a = 28).
  { unfold g. cbn [SpecAdv.advert]. unfold edp_advert, snap, chk_of. cbv zeta. set (T := flat_map _ _). set (s := inet_sum _ _).
    exists ([0; 224; 43; 0; 0; 0] ++ nf_hwaddr n ++ U16 (8 + zlen (([1; 0] ++ U16 (16 + zlen T)) ++ U16 (65535 - s) ++ (U16 seq ++ [0; 0] ++ (if Z.testbit (nc_opts (sc_net cfg)) 13 then nf_hwaddr n else si_hwaddr si) ++ T)))
              ++ [170; 170; 3] ++ [0; 224; 43] ++ U16 187 ++ [1; 0] ++ U16 (16 + zlen T) ++ U16 (65535 - s)).
    exists ([0; 0] ++ (if Z.testbit (nc_opts (sc_net cfg)) 13 then nf_hwaddr n else si_hwaddr si) ++ T). split; [|rewrite !zlen_app, Lh; reflexivity].
    rewrite <- !app_assoc. reflexivity. }
  assert (N : edp_number g = seq).
  { destruct G as (a & b & -> & La). unfold edp_number. assert (La' : length a = 28%nat) by (unfold zlen in La; lia).
    rewrite (@app_nth2 Z a _ 0 28), (@app_nth2 Z a _ 0 29) by lia. rewrite La'. cbn [Nat.sub]. unfold U16. cbn [app nth]. lia. }
  destruct (_ && _); [|exact N]. rewrite <- N. unfold edp_number. f_equal; [f_equal|].
  all: rewrite <- (firstn_skipn 12 g) at 2; unfold blanked; rewrite app_assoc.
  all: assert (L : 28 <= zlen g) by (destruct G as (a & b & -> & La); rewrite !zlen_app; pose proof (zlen_nonneg _ (U16 seq)); pose proof (zlen_nonneg _ b); lia).
  all: assert (L6 : length (firstn 6 g) = 6%nat) by (rewrite firstn_length; unfold zlen in L; lia).
  all: assert (L12 : length (firstn 12 g) = 12%nat) by (rewrite firstn_length; unfold zlen in L; lia).
  all: rewrite !app_nth2 by (rewrite ?app_length, ?L6, ?L12; cbn; lia); rewrite ?app_length, ?L6, ?L12; reflexivity.
Qed.

(** ** One run *)
Lemma growing_weak n n' l m : n' <= n -> growing n l m -> growing n' l m.
Proof. intros H G. destruct G; [apply grow_end|apply grow_next]; (lia || assumption). Qed.
Lemma growing_app n l m l' m' : growing n l m -> growing m l' m' -> growing n (l ++ l') m'.
Proof. induction 1 as [n m H|n k l m H G IH]; intros G'; [now apply (growing_weak m)|]. cbn [app]. apply grow_next; auto. Qed.
Lemma consecutive_app n l m l' m' : consecutive n l m -> consecutive m l' m' -> consecutive n (l ++ l') m'.
Proof. induction 1 as [n|n l m G IH]; intros G'; [assumption|]. cbn [app]. apply cons_next; auto. Qed.
Lemma consecutive_growing n l m : consecutive n l m -> growing n l m.
Proof. induction 1 as [n|n l m G IH]; [apply grow_end; lia|]. apply grow_next; [lia|assumption]. Qed.
Lemma next_mod n : (n mod 65536 + 1) mod 65536 = (n + 1) mod 65536.
Proof. now rewrite Zplus_mod_idemp_l. Qed.
Lemma due_growing ds : (forall top sub p, In (top, sub, p) ds -> In sub nfs) -> forall n,
  exists m, growing n (numbers (frames_due cfg os nfs si (n mod 65536) ds)) m /\ after (n mod 65536) ds = m mod 65536.
Proof.
  induction ds as [|[[top sub] p] ds IH]; intros H n; [exists n; split; [apply grow_end; lia|reflexivity]|].
  assert (Q : 0 <= n mod 65536 < 65536) by (apply Z.mod_pos_bound; lia).
  assert (IH' := IH (fun t s q K => H t s q (or_intror K))). clear IH. cbn [frames_due]. cbv zeta. cbn [fst snd]. rewrite numbers_app.
  unfold after. cbn [fold_left]. unfold next at 2. cbn [snd]. destruct (p =? 2) eqn:P.
  - apply Z.eqb_eq in P. subst p. rewrite next_mod. destruct (IH' (n + 1)) as (m & G & A). exists m. split; [|exact A].
    destruct (zlen _ <=? 1518); cbn [when]; [|cbn; apply (growing_weak (n + 1)); [lia|assumption]].
    unfold numbers at 1. cbn [filter is_edp fst snd Z.eqb Pos.eqb map app]. rewrite due_number by (try assumption; exact (H _ _ _ (or_introl eq_refl))).
    apply grow_next; [lia|assumption].
  - destruct (IH' n) as (m & G & A). exists m. split; [|exact A]. destruct (zlen _ <=? 1518); cbn [when]; [|exact G].
    unfold numbers at 1, is_edp. cbn [filter fst snd]. rewrite P. exact G.
Qed.
Lemma due_consecutive ds : (forall top sub p, In (top, sub, p) ds -> In sub nfs) ->
  (forall top sub seq, In (top, sub, 2) ds -> 0 <= seq < 65536 -> zlen (frame_due cfg os nfs si seq (top, sub, 2)) <= 1518) -> forall n,
  exists m, consecutive n (numbers (frames_due cfg os nfs si (n mod 65536) ds)) m /\ after (n mod 65536) ds = m mod 65536.
Proof.
  induction ds as [|[[top sub] p] ds IH]; intros H B n; [exists n; split; [apply cons_end; lia|reflexivity]|].
  assert (Q : 0 <= n mod 65536 < 65536) by (apply Z.mod_pos_bound; lia).
  assert (IH' := IH (fun t s q K => H t s q (or_intror K)) (fun t s q K => B t s q (or_intror K))). clear IH. cbn [frames_due]. cbv zeta. cbn [fst snd]. rewrite numbers_app.
  unfold after. cbn [fold_left]. unfold next at 2. cbn [snd]. destruct (p =? 2) eqn:P.
  - apply Z.eqb_eq in P. subst p. rewrite next_mod. destruct (IH' (n + 1)) as (m & G & A). exists m. split; [|exact A].
    pose proof (B top sub _ (or_introl eq_refl) Q) as L. apply Z.leb_le in L. rewrite L. cbn [when].
    unfold numbers at 1. cbn [filter is_edp fst snd Z.eqb Pos.eqb map app]. rewrite due_number by (try assumption; exact (H _ _ _ (or_introl eq_refl))).
    now apply cons_next.
  - destruct (IH' n) as (m & G & A). exists m. split; [|exact A]. destruct (zlen _ <=? 1518); cbn [when]; [|exact G].
    unfold numbers at 1, is_edp. cbn [filter fst snd]. rewrite P. exact G.
Qed.
(** An EDP frame has room for 37 VLANs. *)
Lemma due_fits top sub seq : In sub nfs -> 0 <= seq < 65536 -> zlen (filter (fun n => nf_type n =? -1) nfs) <= 37 ->
  zlen (frame_due cfg os nfs si seq (top, sub, 2)) <= 1518.
Proof.
  intros Hs Q V. pose proof (due_inputs seq sub Hs Q) as Hi. unfold frame_due.
  set (n := netif_media os sub) in *. set (par := at_index nfs (nf_parent sub)) in *. set (mg := at_index nfs (si_mnetif si)) in *. set (opts := nc_opts (sc_net cfg)).
  pose proof (inputs_up _ _ _ _ _ _ Hi) as Hp. destruct Hi as (Hn & _ & _ & Hv & _).
  assert (L : zlen (SpecAdv.advert 2 opts seq n par mg nfs si) <= 1518).
  { cbn [SpecAdv.advert]. unfold edp_advert, snap, chk_of. cbv zeta. set (T := flat_map _ _).
    assert (LT : zlen T <= 332 + 31 * zlen (filter (fun n => nf_type n =? -1) nfs)).
    { unfold T, edp_content. set (q := up n par) in *. rewrite !flat_map_app, !zlen_app.
      assert (L1 : zlen (si_hostname si) <= 255) by (destruct S as (_ & _ & S1 & _); apply cstring_len in S1; lia).
      assert (L2 : zlen (si_uts_rel si) = 3) by apply S.
      assert (L3 : zlen (nf_name n) <= 15) by (destruct Hn as (N1 & _); apply cstring_len in N1; lia).
      assert (L4 : zlen (nf_ipaddr4 q) = 4) by apply Hp.
      assert (LV : forall l, (forall v, In v l -> netif_ok v) ->
         zlen (flat_map (fun x => edp_bytes (153, x)) (map (fun v => (5, [if is_set (nf_ipaddr4 v) then 128 else 0; 0] ++ U16 (nf_vlan_id v) ++ repeat 0 4 ++ nf_ipaddr4 v ++ nf_name n))
           (filter (fun v => visible opts v && (nf_type v =? -1) && ((nf_vlan_parent v =? nf_index n) || (nf_vlan_parent v =? nf_index q))) l)))
         <= 31 * zlen (filter (fun n => nf_type n =? -1) l)).
      { induction l as [|v l IH]; intros Hl; [discriminate|]. specialize (IH (fun w K => Hl w (or_intror K))). cbn [filter].
        assert (L5 : zlen (nf_ipaddr4 v) = 4) by (apply Hl; now left).
        destruct (nf_type v =? -1); rewrite ?andb_false_r; cbn [andb]; [|exact IH]. rewrite andb_true_r.
        destruct (_ && _); [|rewrite zlen_cons; lia]. cbn [map flat_map]. rewrite zlen_app, zlen_cons. unfold edp_bytes at 1. cbn [fst snd]. zl. lia. }
      specialize (LV nfs Hv). fold (vlans_of opts n q nfs) in LV.
      assert (LI : zlen (flat_map (fun x => edp_bytes (153, x)) (when (is_set (nf_ipaddr4 q)) [(5, 128 :: repeat 0 7 ++ nf_ipaddr4 q ++ nf_name n ++ [0])])) <= 32).
      { destruct (is_set (nf_ipaddr4 q)); cbn [when flat_map]; [|discriminate]. rewrite app_nil_r. unfold edp_bytes. cbn [fst snd]. zl. lia. }
      assert (LA : zlen (flat_map (fun x => edp_bytes (153, x))
        [(1, si_hostname si ++ [0]); (2, [0; 0] ++ U16 (nf_index n mod 65536) ++ repeat 0 8 ++ si_uts_rel si ++ [0] ++ [255; 255] ++ repeat 0 14)]) <= 296).
      { cbn [flat_map]. rewrite app_nil_r. unfold edp_bytes. cbn [fst snd]. zl. lia. }
      assert (LE : zlen (flat_map (fun x => edp_bytes (153, x)) [(0, [])]) = 4) by reflexivity. lia. }
    assert (LC : zlen (if Z.testbit opts 13 then nf_hwaddr n else si_hwaddr si) = 6).
    { destruct (Z.testbit opts 13); [apply Hn|apply S]. }
    assert (Lh : zlen (nf_hwaddr n) = 6) by apply Hn. zl. lia. }
  destruct (_ && _); [|exact L]. rewrite blank_len; [exact L|]. pose proof (advert_len nfs si 2 opts seq n par mg Hn). lia.
Qed.
End Due.

(** ** One event *)
Definition numbered (R : Z -> list Z -> Z -> Prop) (st st' : sstate) (eff : list seff) : Prop :=
  forall n, st_edp st = n mod 65536 -> exists m, R n (numbers (frames eff)) m /\ st_edp st' = m mod 65536.
Lemma types_same f (a b : list netif) : (forall n, nf_type (f n) = nf_type n) -> map f a = map f b ->
  zlen (filter (fun n => nf_type n =? -1) a) = zlen (filter (fun n => nf_type n =? -1) b).
Proof.
  intros Hf. revert b. induction a as [|x a IH]; intros [|y b] E; try discriminate; [reflexivity|]. cbn [map] in E. apply cons_inj in E as [Ex Ea].
  apply (f_equal nf_type) in Ex. rewrite !Hf in Ex. cbn [filter]. rewrite Ex. destruct (_ =? -1); rewrite ?zlen_cons; specialize (IH _ Ea); lia.
Qed.
Lemma send_numbered cfg os index timeout now st st' eff : os_ok os -> inv st -> child_send cfg os index timeout now st = (st', eff) ->
  numbered growing st st' eff /\ (vlan_count st' <= 37 -> numbered consecutive st st' eff).
Proof.
  intros O Iv H. destruct (send_core _ _ _ _ _ _ _ _ O Iv H) as (st1 & eff1 & C & F & _ & E2 & E3). unfold numbered. rewrite F, E2. clear F.
  assert (E4 : map fixed (table st') = map fixed (table st1)) by (unfold table; destruct (_ && _); rewrite E3; [apply expire_fixed|reflexivity]).
  destruct C as [F1|ret nfs si gone eff1 FL F1 Z E5|ret nfs si gone T eff1 FL F1 Z G W N S HT HL E5].
  - split; [|intros _]; intros n Q; exists n; (split; [|exact Q]); [apply grow_end; lia|apply cons_end].
  - rewrite E5. split; [|intros _]; intros n Q; exists n; (split; [|exact Q]); [apply grow_end; lia|apply cons_end].
  - rewrite E5. cbn [st_edp]. assert (A : forall top sub p, In (top, sub, p) (all_due cfg index nfs) -> In sub nfs) by (intros t s p K; now apply all_due_in in K).
    split; [|intros V]; intros n ->; [now apply due_growing|]. apply due_consecutive; try assumption. intros top sub seq K Q. apply due_fits; try assumption; [now apply (A top sub 2)|].
    unfold vlan_count in V. rewrite (types_same fixed _ _ (fun n => eq_refl) E4) in V.
    unfold table in V. cbn [st_child c_nfs set_nfs] in V.
    rewrite (types_same bare T nfs (fun n => eq_refl)) in V; [exact V|]. now apply (touches_bare os).
Qed.
Lemma child_edp cfg st e st' eff : send_step cfg st (EvChild e) = DOk (st', eff) -> st_edp st' = st_edp st.
Proof.
  intros H. cbn in H. destruct e; try (injection H as <- _; reflexivity).
  all: destruct (child_step _ _ _) as [[c x]| | | |]; try discriminate; cbn in H; injection H as <- _; reflexivity.
Qed.
Lemma step_numbered cfg st e st' eff : running cfg st -> event_ok e -> send_step cfg st e = DOk (st', eff) ->
  numbered growing st st' eff /\ (vlan_count st' <= 37 -> numbered consecutive st st' eff).
Proof.
  intros R O H. apply running_inv in R.
  assert (N : frames eff = [] -> st_edp st' = st_edp st -> numbered growing st st' eff /\ (vlan_count st' <= 37 -> numbered consecutive st st' eff)).
  { unfold numbered. intros -> ->. split; [|intros _]; intros n Q; exists n; (split; [|exact Q]); [apply grow_end; lia|apply cons_end]. }
  destruct e as [os now|os hatype flags index now|e].
  - cbn in H. injection H as H. exact (send_numbered _ _ _ _ _ _ _ _ O R H).
  - cbn in H. injection H as H. unfold child_link in H. destruct (negb _); [injection H as <- <-; now apply N|]. destruct (negb _); [injection H as <- <-; now apply N|].
    exact (send_numbered _ _ _ _ _ _ _ _ O R H).
  - destruct (child_frames _ _ _ _ _ R H) as (_ & E & _). apply child_edp in H. now apply N.
Qed.
(** ** Many events *)
Lemma concat_frames a b : numbers (frames (concat (a :: b))) = numbers (frames a) ++ numbers (frames (concat b)).
Proof. cbn [concat]. now rewrite SendProofs2.frames_app, numbers_app. Qed.
Lemma run_growing cfg es : forall st st' effs n, running cfg st -> Forall event_ok es -> send_run cfg st es = DOk (st', effs) ->
  st_edp st = n mod 65536 -> exists m, growing n (edp_numbers effs) m /\ st_edp st' = m mod 65536.
Proof.
  unfold edp_numbers. fold is_edp. induction es as [|e es IH]; intros st st' effs n R F H Q; cbn [send_run] in H.
  { injection H as <- <-. exists n. split; [apply grow_end; lia|exact Q]. }
  inversion F as [|? ? Fe Fs]; subst. apply dbind_ok in H as ([st1 eff1] & H1 & H). apply dbind_ok in H as ([st2 effs2] & H2 & H). injection H as <- <-.
  destruct (proj1 (step_numbered _ _ _ _ _ R Fe H1) n Q) as (m & G & Q1).
  destruct (IH _ _ _ m (run_event _ _ _ _ _ R Fe H1) Fs H2 Q1) as (k & G2 & Q2). exists k. split; [|exact Q2].
  change (growing n (numbers (frames (concat (eff1 :: effs2)))) k). rewrite concat_frames. now apply (growing_app n _ m).
Qed.
Lemma run_consecutive cfg es : forall st st' effs n, running cfg st -> Forall event_ok es -> send_run cfg st es = DOk (st', effs) ->
  (forall a b st1 effs1, es = a ++ b -> send_run cfg st a = DOk (st1, effs1) -> vlan_count st1 <= 37) ->
  st_edp st = n mod 65536 -> exists m, consecutive n (edp_numbers effs) m /\ st_edp st' = m mod 65536.
Proof.
  unfold edp_numbers. induction es as [|e es IH]; intros st st' effs n R F H V Q; cbn [send_run] in H.
  { injection H as <- <-. exists n. split; [apply cons_end|exact Q]. }
  inversion F as [|? ? Fe Fs]; subst. apply dbind_ok in H as ([st1 eff1] & H1 & H). apply dbind_ok in H as ([st2 effs2] & H2 & H). injection H as <- <-.
  assert (V1 : vlan_count st1 <= 37) by (apply (V [e] es st1 [eff1] eq_refl); cbn [send_run]; now rewrite H1).
  destruct (proj2 (step_numbered _ _ _ _ _ R Fe H1) V1 n Q) as (m & G & Q1).
  assert (V2 : forall a b st3 effs3, es = a ++ b -> send_run cfg st1 a = DOk (st3, effs3) -> vlan_count st3 <= 37).
  { intros a b st3 effs3 E K. apply (V (e :: a) b st3 (eff1 :: effs3)); [now rewrite E|]. cbn [send_run]. rewrite H1. cbn [dbind]. now rewrite K. }
  destruct (IH _ _ _ m (run_event _ _ _ _ _ R Fe H1) Fs H2 V2 Q1) as (k & G2 & Q2). exists k. split; [|exact Q2].
  change (consecutive n (numbers (frames (concat (eff1 :: effs2)))) k). rewrite concat_frames. now apply (consecutive_app n _ m).
Qed.
Lemma running_edp cfg st : running cfg st -> st_edp st = st_edp st mod 65536.
Proof. intros R. apply running_inv in R. destruct R. symmetry. apply Z.mod_small. assumption. Qed.
