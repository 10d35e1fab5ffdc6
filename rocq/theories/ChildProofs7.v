(** Enabled protocols and descriptions in the terms of the specification. *)
From Verif Require Import Base Types Tlv Msg Protos Wire Util Child Lemmas Spec SpecAdv SpecRound SpecNet SpecChild
  VisProofs VisProps TypesProofs NetProofs ChildProofs ChildProofs2 ChildProofs3 ChildProofs4.

Lemma has_auto opts : has opts OPT_AUTO = Z.testbit opts 3.
Proof. now apply (has_bit opts 3). Qed.
Lemma has_ifdescr opts : has opts OPT_IFDESCR = Z.testbit opts 11.
Proof. now apply (has_bit opts 11). Qed.
Lemma uplink_top nfs n top : uplink nfs n top -> top_of nfs n = top.
Proof. unfold top_of. intros [[-> ->]|(i & -> & E)]; [reflexivity|now rewrite E]. Qed.
Lemma counted_subif nfs top ms : NoDup (map nf_index nfs) -> counted nfs top ms -> subif_each top nfs = ms.
Proof.
  intros Hn [[H ->]|(H & Hc & Hm & Hi)]; [now apply subif_each_plain|now apply subif_each_members].
Qed.
Lemma uplink_in nfs n top : In n nfs -> uplink nfs n top -> In top nfs.
Proof. intros H U. apply uplink_top in U. subst top. now apply top_in. Qed.
Lemma counted_in nfs top ms m : In top nfs -> counted nfs top ms -> In m ms -> In m nfs.
Proof.
  intros Ht [[_ ->]|(_ & Hc & _)] Hm; [now destruct Hm as [<-|[]]|]. now apply (chain_in _ _ _ Hc).
Qed.
Lemma heard_map g ms q p : cfg g -> heard (map g ms) q p <-> heard ms q p.
Proof.
  intros Hg. unfold heard. split.
  - intros (m & x & Hm & H). apply in_map_iff in Hm as (m0 & <- & Hm0). rewrite (cfg_index g Hg) in H. now exists m0, x.
  - intros (m & x & Hm & H). exists (g m), x. split; [now apply in_map|]. now rewrite (cfg_index g Hg).
Qed.
Lemma protos_heard n nfs q p ms : NoDup (map nf_index nfs) -> counted nfs n ms -> 0 <= p < 8 ->
  (Z.testbit (netif_protos n nfs q) p = true <-> heard ms q p).
Proof. intros Hn Hc Hp. rewrite protos_bits by assumption. now rewrite (counted_subif nfs n ms Hn Hc). Qed.
Lemma cfg_comp g h : cfg g -> cfg h -> cfg (fun n => h (g n)).
Proof. intros Hg Hh n. now rewrite Hh, Hg. Qed.
Lemma map_index g nfs : cfg g -> map nf_index (map g nfs) = map nf_index nfs.
Proof. intros Hg. rewrite map_map. apply map_ext. apply (cfg_index g Hg). Qed.

Lemma netif_eq_dec (a b : netif) : {a = b} + {a <> b}.
Proof. repeat decide equality. Qed.

(** ** One expiry run *)
Lemma expire_protos opts now c c' eff e sub top ms :
  now <> -1 -> Z.testbit opts 3 = true -> NoDup (map nf_index (c_nfs c)) ->
  child_expire opts now c = (c', eff) ->
  In e (c_queue c) -> ~ In e (c_queue c') -> netif_byindex (c_nfs c) (q_index e) = Some sub ->
  uplink (c_nfs c) sub top -> counted (c_nfs c) top ms ->
  exists top', netif_byindex (c_nfs c') (nf_index top) = Some top' /\ fixed top' = fixed top
  /\ forall p, 0 <= p < 8 -> (Z.testbit (nf_protos top') p = true <-> heard ms (c_queue c') p).
Proof.
  intros Hnow Ha Hn He Hin Hout Hsub Hup Hcnt. pose proof (expire_all opts now c Hnow Hn) as E. cbv zeta in E.
  rewrite He in E. clear He. set (gone := filter (fun e => negb (stays now e)) _) in E. set (q := filter (stays now) _) in E.
  pose proof (f_equal fst E) as E1. cbn [fst] in E1. clear E.
  rewrite E1 in Hout. cbn [c_queue] in Hout. rewrite E1. cbn [c_nfs c_queue].
  assert (Hg : In e gone).
  { apply filter_In. split; [assumption|]. destruct (stays now e) eqn:S; [|reflexivity]. exfalso. apply Hout. now apply filter_In. }
  set (nfs := map (mark gone) (c_nfs c)). set (g := fun n => aft opts q nfs nfs (mark gone n)).
  assert (Cm := mark_cfg gone). assert (Ca := aft_cfg opts q nfs nfs).
  assert (Cg : cfg g) by (now apply (cfg_comp _ _ Cm)).
  replace (map (aft opts q nfs nfs) nfs) with (map g (c_nfs c)) by (unfold nfs, g; now rewrite map_map).
  apply byindex_some in Hsub as [Hs Hi].
  pose proof (uplink_in _ _ _ Hs Hup) as Ht. exists (g top).
  rewrite (byindex_map g Cg), (byindex_in _ _ Hn Ht). split; [reflexivity|]. split; [apply Cg|].
  intros p Hp. unfold g, aft. cbn [set_update set_protos nf_protos]. rewrite has_auto, Ha. cbn [andb].
  assert (T : touched nfs nfs (mark gone top) = true).
  { unfold touched. apply existsb_exists. exists (mark gone sub). split; [unfold nfs; now apply in_map|].
    unfold nfs at 1. rewrite (top_map _ Cm), !(cfg_index _ Cm), (uplink_top _ _ _ Hup), Z.eqb_refl, andb_true_r.
    unfold mark. assert (X : existsb (fun e0 => q_index e0 =? nf_index sub) gone = true).
    { apply existsb_exists. exists e. split; [assumption|lia]. }
    now rewrite X. }
  rewrite T. unfold nfs at 1. rewrite (protos_map _ Cm). now apply protos_heard.
Qed.

Lemma heard_who ms q q' p : map who q = map who q' -> heard ms q p <-> heard ms q' p.
Proof.
  assert (G : forall a b, map who a = map who b -> heard ms a p -> heard ms b p).
  { intros a b E (m & x & Hm & Hx & Ex & Px). apply (in_map who) in Hx. rewrite E in Hx. apply in_map_iff in Hx as (y & Ey & Hy).
    pose proof (f_equal (fun k => fst (fst k)) Ey) as Q1. pose proof (f_equal (fun k => snd (fst k)) Ey) as Q2. cbn in Q1, Q2.
    exists m, y. repeat split; try assumption; congruence. }
  intros E. split; apply G; congruence.
Qed.
Lemma write_who c sid t ws c' eff : child_cli_write c sid t ws = DOk (c', eff) ->
  c_nfs c' = c_nfs c /\ map who (c_queue c') = map who (c_queue c).
Proof.
  unfold child_cli_write. destruct (find _ _) as [s|]; [|now intros [= <- _]].
  destruct t; [now intros [= <- _]|]. intros Hw. apply dbind_ok in Hw as ((q1 & l) & Est & Hw).
  assert (A : map who q1 = map who (c_queue c)).
  { destruct (ss_msg s) as [i|]; [|now injection Est as <- <-]. destruct (queue_from i _); [|discriminate].
    injection Est as <- <-. apply add_lock_who. }
  destruct (write_loop _ _ _) as [e1 [i|]]; injection Hw as <- _; cbn [c_nfs c_queue]; rewrite ?add_lock_who; now split.
Qed.

(** ** Histories with a fixed configuration *)
Section auto.
Variables (opts : Z) (nfs : list netif).
Hypotheses (Ha : Z.testbit opts 3 = true) (Hv : Z.testbit opts 5 = false) (Hw : wired nfs).

Definition exact_protos (c : child) : Prop :=
  table_ok (c_queue c) (c_next c) /\
  exists g, cfg g /\ c_nfs c = map g nfs
  /\ (forall n, In n nfs -> nf_update (g n) = 0)
  /\ (forall n ms p, In n nfs -> nf_parent n = None -> counted nfs n ms -> 0 <= p < 8 ->
        (Z.testbit (nf_protos (g n)) p = true <-> heard ms (c_queue c) p)).

Lemma wired_top n : In n nfs -> 0 <= nf_type n <= 10 ->
  exists ms, nf_parent (top_of nfs n) = None /\ counted nfs (top_of nfs n) ms /\ In n ms.
Proof.
  destruct Hw as (_ & _ & W3 & W4). intros H Hty. unfold top_of. destruct (nf_parent n) as [i|] eqn:E.
  - destruct (W4 n i H E) as (top & ms & -> & Hp & Hc & Hin). now exists ms.
  - destruct (W3 n H E) as (ms & Hc & Hu). exists ms. split; [assumption|]. split; [assumption|].
    destruct Hc as [[_ ->]|(Ht & _)]; [now left|lia].
Qed.
Lemma wired_members n ms m : In n nfs -> nf_parent n = None -> counted nfs n ms -> In m ms -> top_of nfs m = n.
Proof.
  destruct Hw as (Hn & _ & W3 & _). intros H E Hc Hm. destruct (W3 n H E) as (ms' & Hc' & Hu).
  pose proof (counted_subif nfs n ms Hn Hc) as E1. pose proof (counted_subif nfs n ms' Hn Hc') as E2.
  apply uplink_top. apply Hu. congruence.
Qed.
(** Before an expiry run it is enough that the interfaces are right which lose
    no neighbour. *)
Lemma expire_almost now c g : now <> -1 -> table_ok (c_queue c) (c_next c) -> cfg g -> c_nfs c = map g nfs ->
  (forall n, In n nfs -> nf_update (g n) = 0) ->
  (forall n ms p, In n nfs -> nf_parent n = None -> counted nfs n ms -> 0 <= p < 8 ->
     (Z.testbit (nf_protos (g n)) p = true <-> heard ms (c_queue c) p)
     \/ exists m x, In m ms /\ In x (c_queue c) /\ q_index x = nf_index m /\ stays now x = false) ->
  exact_protos (fst (child_expire opts now c)).
Proof.
  intros Hnow Ht Cg En Hu Hp. split; [now apply expire_ok|].
  pose proof (proj1 Hw) as Hn.
  assert (Hn' : NoDup (map nf_index (c_nfs c))) by (rewrite En, (map_index g nfs Cg); exact Hn).
  pose proof (expire_all opts now c Hnow Hn') as E. cbv zeta in E. rewrite E. clear E. cbn [fst c_nfs c_queue].
  set (gone := filter (fun e => negb (stays now e)) _). set (q := filter (stays now) _). rewrite En.
  set (l := map (mark gone) (map g nfs)). set (h := fun n => aft opts q l l (mark gone (g n))).
  assert (Cm := mark_cfg gone). assert (Ca := aft_cfg opts q l l).
  assert (Cmg : cfg (fun n => mark gone (g n))) by (now apply (cfg_comp g (mark gone))).
  assert (Ch : cfg h) by (now apply (cfg_comp _ _ Cmg)).
  assert (El : l = map (fun n => mark gone (g n)) nfs) by (unfold l; now rewrite map_map).
  exists h. split; [exact Ch|]. split; [transitivity (map (aft opts q l l) (map (fun n => mark gone (g n)) nfs)); [now rewrite El at 3|now rewrite map_map]|]. split.
  - intros n Hin. unfold h, aft. cbn [set_update nf_update].
    assert (X : existsb (fun m => nf_index m =? nf_index (mark gone (g n))) l = true).
    { apply existsb_exists. exists (mark gone (g n)). rewrite Z.eqb_refl, El. split; [|reflexivity].
      apply (in_map (fun n => mark gone (g n))). exact Hin. }
    now rewrite X.
  - intros n ms p Hin Hpar Hc Hrange. unfold h, aft. cbn [set_update set_protos nf_protos]. rewrite has_auto, Ha. cbn [andb].
    assert (K : forall m x, In m ms -> In x (c_queue c) -> q_index x = nf_index m -> stays now x = false ->
              touched l l (mark gone (g n)) = true).
    { intros m x Hm Hx Ex S. 
      unfold touched. apply existsb_exists. exists (mark gone (g m)).
      pose proof (counted_in nfs n ms m Hin Hc Hm) as Hmn.
      split; [rewrite El; apply (in_map (fun n => mark gone (g n))); exact Hmn|].
      rewrite El. rewrite (top_map _ Cmg). rewrite (wired_members n ms m Hin Hpar Hc Hm), Z.eqb_refl, andb_true_r.
      unfold mark. assert (X : existsb (fun e => q_index e =? nf_index (g m)) gone = true).
      { apply existsb_exists. exists x. split; [apply filter_In; now rewrite S|]. rewrite (cfg_index g Cg). lia. }
      now rewrite X. }
    destruct (touched l l (mark gone (g n))) eqn:T.
    + rewrite El. rewrite (protos_map _ Cmg). now apply protos_heard.
    + assert (Em : nf_protos (mark gone (g n)) = nf_protos (g n)) by (unfold mark; now destruct (existsb _ _)).
      rewrite Em. destruct (Hp n ms p Hin Hpar Hc Hrange) as [Hp'|(m & x & Hm & Hx & Ex & S)].
      2:{ specialize (K m x Hm Hx Ex S). discriminate. }
      rewrite Hp'. unfold heard. split.
      * intros (m & x & Hm & Hx & Ex & Px). exists m, x. repeat split; try assumption. apply filter_In. split; [assumption|].
        destruct (stays now x) eqn:S; [reflexivity|]. specialize (K m x Hm Hx Ex S). discriminate.
      * intros (m & x & Hm & Hx & Ex & Px). exists m, x. apply filter_In in Hx as [Hx _]. now repeat split.
Qed.
Lemma expire_exact now c : exact_protos c -> exact_protos (fst (child_expire opts now c)).
Proof.
  intros Hex. destruct (Z.eq_dec now (-1)) as [->|Hnow]; [exact Hex|].
  destruct Hex as (Ht & g & Cg & En & Hu & Hp). apply (expire_almost now c g); try assumption.
  intros n ms p H1 H2 H3 H4. left. now apply Hp.
Qed.
(** Adding an entry for the interface [sub]: only the protocol of the entry on
    the interface above it is new. *)
Lemma put_heard q fresh new q' fresh' sub ms p : table_ok q fresh -> queue_put new q fresh = (q', fresh') ->
  In sub nfs -> q_index new = nf_index sub -> incl ms nfs ->
  heard ms q' p <-> heard ms q p \/ (In sub ms /\ q_proto new = p).
Proof.
  intros Ht Hput Hs Ei Hms. pose proof (put_content _ _ _ _ _ Ht Hput) as ((i & P1) & P2 & P3).
  pose proof (proj1 Hw) as Hn. unfold heard.
  assert (Wd : forall x, {who x = who new} + {who x <> who new}).
  { intros x. unfold who. decide equality; [|decide equality; apply Z.eq_dec]. apply (list_eq_dec Z.eq_dec). }
  assert (Uq : forall m, In m nfs -> nf_index m = nf_index sub -> m = sub).
  { intros m Hm Em. pose proof (byindex_in nfs m Hn Hm) as A. pose proof (byindex_in nfs sub Hn Hs) as B. congruence. }
  split.
  - intros (m & x & Hm & Hx & Ex & Px). destruct (Wd x) as [Eq|Ne].
    + destruct (P2 x Hx Eq) as (j & ->). right. cbn in Ex, Px. rewrite <- (Uq m); [now split|now apply Hms|congruence].
    + left. apply P3 in Hx; [|assumption]. now exists m, x.
  - intros [(m & x & Hm & Hx & Ex & Px)|[Hin Px]].
    + destruct (Wd x) as [Eq|Ne].
      * exists m, (with_id i new). cbn [with_id q_index q_proto]. unfold who in Eq.
        pose proof (f_equal (fun k => fst (fst k)) Eq) as Q1. pose proof (f_equal (fun k => snd (fst k)) Eq) as Q2. cbn in Q1, Q2.
        repeat split; try assumption; congruence.
      * exists m, x. repeat split; try assumption. now apply P3.
    + exists sub, (with_id i new). cbn [with_id q_index q_proto]. now repeat split.
Qed.
Lemma recv_exact c d now now2 c' eff : exact_protos c -> stable_event nfs (CRecv d now now2) ->
  child_queue opts c d now now2 = DOk (c', eff) -> exact_protos c'.
Proof.
  intros Hex (Hn2 & index & p & f & payload & Hb & Hl & Hp & Hc & Hf & Hphys) Hq.
  pose proof Hex as (Ht & g & Cg & En & Hu & Hpr). pose proof (proj1 Hw) as Hn.
  destruct (Z.eq_dec now (-1)) as [->|Hnow].
  { assert (c' = c); [|now subst]. revert Hq. unfold child_queue. cbv zeta. destruct (negb _); cbn; intros H; injection H as H _; now symmetry. }
  destruct (netif_byindex (c_nfs c) index) as [sub|] eqn:Es.
  2:{ rewrite (rcv_unknown opts c d index p 0 f now now2 Hc Hp Hl Hnow Es) in Hq. injection Hq as <- _. exact Hex. }
  destruct (netif_byaddr (c_nfs c) (firstn 6 (skipn 6 f))) as [own|] eqn:Eo.
  { rewrite (rcv_own opts c d index p 0 f now now2 Hc Hp Hl Hnow own Eo) in Hq. injection Hq as <- _. exact Hex. }
  assert (D : c' = c \/ exists proto ttl attrs, advert p f proto ttl attrs).
  { revert Hq. unfold child_queue. cbv zeta. destruct Hc as (L & Ei & Ep & Er & El & Em).
    destruct (negb _); [intros [= <- _]; now left|]. destruct (now =? -1); [intros [= <- _]; now left|].
    destruct (negb _); [discriminate|]. destruct (negb _); [discriminate|].
    rewrite Ei, Es. destruct (netif_byaddr (c_nfs c) (slice _ 6 6)) as [o|]; [intros H; injection H as H _; now left|].
    destruct (proto_decode _ _ _) as [[n s]| | | |] eqn:E; try discriminate; [|intros [= <- _]; now left].
    intros _. right. rewrite Ep, El, Er, Em in E. apply (decode_advert p _ f payload) in E as (proto & ttl & attrs & A & _); try assumption; try reflexivity.
    - now exists proto, ttl, attrs.
    - apply rcv_in; assumption. }
  destruct D as [->|(proto & ttl & attrs & Hadv)]; [exact Hex|].
  rewrite (rcv_good opts c d index p 0 f now now2 Hb Hc Hp Hl Hnow sub proto ttl attrs Es Eo Hadv) in Hq.
  set (new := fresh_entry _ _ _ _ _ _ _) in Hq. destruct (queue_put new (c_queue c) (c_next c)) as [q fresh] eqn:Ep.
  pose proof (put_ok _ _ _ _ _ Ht Ep) as Ht'. cbv zeta in Hq.
  rewrite En, (byindex_map g Cg) in Es. destruct (netif_byindex nfs index) as [sub0|] eqn:Es0; [|discriminate]. cbn in Es.
  injection Es as <-. apply byindex_some in Es0 as [Hs0 Ei0].
  pose proof (advert_range p f proto ttl attrs Hp Hb Hadv) as Hpr6.
  destruct (wired_top sub0 Hs0 (Hphys sub0 Hs0 Ei0)) as (msT & HtP & HtC & HtI). set (top := top_of nfs sub0) in *.
  assert (HtN : In top nfs) by (now apply top_in).
  assert (Et : top_of (c_nfs c) (g sub0) = g top) by (rewrite En; apply (top_map g Cg)).
  assert (Hsub : forall n ms, In n nfs -> nf_parent n = None -> counted nfs n ms -> In sub0 ms -> n = top).
  { intros n ms Hi Hpar Hcn Hin. symmetry. exact (wired_members n ms sub0 Hi Hpar Hcn Hin). }
  assert (Hput : forall n ms k, In n nfs -> counted nfs n ms ->
    heard ms q k <-> heard ms (c_queue c) k \/ (In sub0 ms /\ proto = k)).
  { intros n ms k Hi Hcn. apply (put_heard _ _ new _ _ sub0 ms k Ht Ep Hs0 (eq_sym Ei0)).
    intros m Hm. exact (counted_in nfs n ms m Hi Hcn Hm). }
  assert (Hin : forall ms, counted nfs top ms -> In sub0 ms).
  { intros ms Hcn. rewrite <- (counted_subif nfs top ms Hn Hcn), (counted_subif nfs top msT Hn HtC). exact HtI. }
  destruct (ttl =? 0) eqn:Ettl.
  - injection Hq as Hq. rewrite <- (f_equal fst Hq : fst _ = c'). clear Hq.
    apply (expire_almost now2 _ g); try assumption; [lia|]. cbn [c_queue].
    intros n ms k Hi Hpar Hcn Hk. destruct (in_dec netif_eq_dec sub0 ms) as [Hin'|Nin].
    + right. destruct (put_content _ _ _ _ _ Ht Ep) as ((i & P1) & _). exists sub0, (with_id i new).
      split; [assumption|]. split; [assumption|]. split; [cbn; now rewrite Ei0|]. unfold stays. cbn. rewrite orb_false_r. lia.
    + left. rewrite (Hput n ms k Hi Hcn), (Hpr n ms k Hi Hpar Hcn Hk). tauto.
  - rewrite Et, has_auto, Ha, has_argv, Hv in Hq. cbn [negb orb andb] in Hq.
    destruct (has (nf_protos (g top)) (Z.shiftl 1 proto)) eqn:Eh; injection Hq as <- _.
    + split; [exact Ht'|]. exists g. cbn [c_nfs c_queue]. repeat (split; [assumption|]).
      intros n ms k Hi Hpar Hcn Hk. rewrite (Hput n ms k Hi Hcn), (Hpr n ms k Hi Hpar Hcn Hk). split; [now left|].
      intros [H|[H1 H2]]; [exact H|]. apply (Hpr n ms k Hi Hpar Hcn Hk). rewrite (Hsub n ms Hi Hpar Hcn H1).
      subst k. rewrite Z.shiftl_1_l, has_bit in Eh by lia. exact Eh.
    + split; [exact Ht'|]. cbn [set_nfs c_nfs c_queue]. rewrite En, (cfg_index g Cg).
      exists (fun n => if nf_index n =? nf_index top then set_protos (Z.lor (nf_protos (g top)) (Z.shiftl 1 proto) mod 256) (g n) else g n).
      split; [intros n; destruct (nf_index n =? nf_index top); [rewrite <- (Cg n); reflexivity|apply Cg]|].
      split; [now apply assign_map|].
      split; [intros n Hi; specialize (Hu n Hi); now destruct (nf_index n =? nf_index top)|].
      intros n ms k Hi Hpar Hcn Hk. rewrite (Hput n ms k Hi Hcn), <- (Hpr n ms k Hi Hpar Hcn Hk).
      destruct (nf_index n =? nf_index top) eqn:Ex.
      * assert (n = top). { pose proof (byindex_in nfs n Hn Hi) as A. pose proof (byindex_in nfs top Hn HtN) as B.
          replace (nf_index n) with (nf_index top) in A by lia. congruence. }
        subst n. cbn [set_protos nf_protos]. change 256 with (2 ^ 8). rewrite Z.mod_pow2_bits_low by lia.
        rewrite Z.lor_spec, orb_true_iff, shift_bit by lia. specialize (Hin ms Hcn). split; (intros [H|H]; [now left|right]); [split; [assumption|lia]|lia].
      * split; [now left|]. intros [H|[H1 H2]]; [exact H|]. rewrite (Hsub n ms Hi Hpar Hcn H1) in Ex. lia.
Qed.
Lemma run_exact : forall es c c' eff, exact_protos c -> Forall (stable_event nfs) es ->
  child_run opts c es = DOk (c', eff) -> exact_protos c'.
Proof.
  induction es as [|e es IH]; intros c c' eff Hex He Hr; cbn [child_run] in Hr; [now injection Hr as <- _|].
  apply dbind_ok in Hr as ((c1 & eff1) & E1 & Hr). apply dbind_ok in Hr as ((c2 & eff2) & E2 & Hr). injection Hr as <- _.
  inversion He as [|? ? He1 He2]; subst. apply (IH c1 c2 eff2); try assumption. clear IH E2 He.
  assert (Q : forall sid t ws, child_cli_write c sid t ws = DOk (c1, eff1) -> exact_protos c1).
  { intros sid t ws H. pose proof (write_ok c sid t ws c1 eff1 (proj1 Hex) H) as Hok. destruct Hex as (Ht & g & Cg & En & Hu & Hp).
    destruct (write_who c sid t ws c1 eff1 H) as [A1 A2]. split; [exact Hok|]. exists g. rewrite A1. repeat (split; [assumption|]).
    intros n ms p H1 H2 H3 H4. rewrite (heard_who ms (c_queue c1) (c_queue c) p A2). now apply Hp. }
  destruct e as [d now now2|now|l|sid|sid ws|sid]; cbn [child_step] in E1.
  - eapply recv_exact; eauto.
  - injection E1 as E1. rewrite <- (f_equal fst E1 : fst _ = c1). now apply expire_exact.
  - easy.
  - destruct (existsb _ _); injection E1 as <- _; [exact Hex|]. exact Hex.
  - now apply (Q sid false ws).
  - now apply (Q sid true []).
Qed.
End auto.

Lemma auto_exact opts nfs es c eff n ms p :
  Z.testbit opts 3 = true -> Z.testbit opts 5 = false -> wired nfs -> Forall (stable_event nfs) es ->
  reached opts (CFetch nfs :: es) c eff ->
  In n nfs -> nf_parent n = None -> counted nfs n ms -> 0 <= p < 8 ->
  exists n', netif_byindex (c_nfs c) (nf_index n) = Some n' /\ fixed n' = fixed n
  /\ (Z.testbit (nf_protos n') p = true <-> heard ms (c_queue c) p).
Proof.
  intros Ha Hv Hw He Hr Hin Hpar Hc Hp. unfold reached in Hr. cbn [child_run] in Hr. cbn [child_step dbind] in Hr.
  apply dbind_ok in Hr as ((c2 & eff2) & E2 & Hr). injection Hr as <- _.
  apply (run_exact opts nfs Ha Hv Hw) in E2; [|split; [apply start_ok|]|assumption].
  - destruct E2 as (_ & g & Cg & En & _ & Hg). exists (g n). rewrite En, (byindex_map g Cg), (byindex_in nfs n (proj1 Hw) Hin).
    split; [reflexivity|]. split; [apply Cg|]. now apply Hg.
  - exists (fun n => n). split; [intros m; reflexivity|]. split; [cbn; now rewrite map_id|].
    destruct Hw as (_ & W & _). split; [intros m Hm; now apply W|].
    intros m l k Hm _ _ Hk. rewrite (proj2 (W m Hm)), Z.bits_0. split; [discriminate|]. intros (? & ? & _ & [] & _).
Qed.

(** ** Descriptions written *)
Lemma descr_in opts n q i t : In (CDescr i t) (descr_eff opts n q) ->
  i = nf_index n /\ t = descr_text (descr_scan opts i q) /\ t <> nf_description n.
Proof.
  unfold descr_eff, netif_descr. cbv zeta. destruct (beq _ _) eqn:E; [easy|]. intros [[= <- <-]|[]].
  split; [reflexivity|]. split; [reflexivity|]. now apply beq_false.
Qed.
Lemma expire_written opts now c c' eff i t : NoDup (map nf_index (c_nfs c)) -> child_expire opts now c = (c', eff) ->
  In (CDescr i t) eff ->
  t = descr_text (descr_scan opts i (c_queue c')) /\ exists n, In n (c_nfs c) /\ nf_index n = i /\ t <> nf_description n.
Proof.
  intros Hn He Hin. destruct (Z.eq_dec now (-1)) as [->|Hnow]; [injection He as <- <-; easy|].
  pose proof (expire_all opts now c Hnow Hn) as E. cbv zeta in E. rewrite He in E.
  rewrite (f_equal snd E : eff = _) in Hin. rewrite (f_equal fst E : c' = _). cbn [snd c_queue] in *.
  apply in_flat_map in Hin as (m & Hm & Hin). apply in_map_iff in Hm as (n & <- & Hn0). unfold written in Hin.
  destruct (_ =? 0); [easy|]. destruct (has _ _); [|easy]. rewrite (descr_cfg opts _ (mark _) n (mark_cfg _)) in Hin.
  apply descr_in in Hin as (-> & Ht & Hd). split; [exact Ht|]. now exists n.
Qed.
Lemma step_written opts c e c' eff i t : NoDup (map nf_index (c_nfs c)) -> child_step opts c e = DOk (c', eff) ->
  In (CDescr i t) eff ->
  t = descr_text (descr_scan opts i (c_queue c')) /\ exists n, In n (c_nfs c) /\ nf_index n = i /\ t <> nf_description n.
Proof.
  intros Hn Hs Hin.
  assert (W : forall sid b ws, child_cli_write c sid b ws = DOk (c', eff) -> False).
  { intros sid b ws. unfold child_cli_write. destruct (find _ _) as [s|]; [|intros [= _ <-]; easy].
    destruct b; [intros [= _ <-]; easy|]. intros Hw. apply dbind_ok in Hw as ((q1 & l) & _ & Hw).
    assert (L : forall q ws', ~ In (CDescr i t) (fst (write_loop sid q ws'))).
    { intros q. induction q as [|x q IH]; intros ws'; [easy|]. cbn [write_loop]. specialize (IH (tl ws')).
      destruct ws' as [|[| |] ws']; try easy; destruct (write_loop sid q _); cbn in *; intros [K|K]; easy. }
    specialize (L l ws). destruct (write_loop _ _ _) as [e1 [j|]]; injection Hw as _ <-; easy. }
  destruct e as [d now now2|now|l|sid|sid ws|sid]; cbn [child_step] in Hs.
  - revert Hs. unfold child_queue. cbv zeta. 
    destruct (negb _); [intros [= _ <-]; easy|]. destruct (now =? -1); [intros [= _ <-]; easy|].
    destruct (negb _); [discriminate|]. destruct (negb _); [discriminate|].
    destruct (netif_byindex _ _) as [sub|] eqn:Es; [|intros [= _ <-]; easy].
    destruct (netif_byaddr _ _); [intros [= _ <-]; easy|].
    destruct (proto_decode _ _ _) as [[n s]| | | |]; try discriminate; [|intros [= _ <-]; easy].
    destruct (n =? 0); [intros [= _ <-]; easy|].
    destruct (queue_put _ _ _) as [q fresh]. destruct (s_ttl s =? 0).
    + intros H. injection H as H. now apply (expire_written opts now2 (mkChild (c_nfs c) q (c_sess c) fresh) c' eff).
    + intros H. assert (E : c_queue c' = q /\ eff = if has opts OPT_IFDESCR then descr_eff opts sub q else []).
      { destruct (_ || _); [now injection H as <- <-|]. destruct (_ && _); now injection H as <- <-. }
      destruct E as [-> E]. rewrite E in Hin. destruct (has opts OPT_IFDESCR); [|easy].
      apply descr_in in Hin as (-> & Ht & Hd). split; [exact Ht|]. apply byindex_some in Es as [Es _]. now exists sub.
  - injection Hs as Hs. now apply (expire_written opts now c c' eff).
  - injection Hs as _ <-. easy.
  - destruct (existsb _ _); injection Hs as _ <-; easy.
  - now apply W in Hs.
  - now apply W in Hs.
Qed.
Lemma step_describes opts es c eff0 e c' eff i t n :
  reached opts es c eff0 -> NoDup (map nf_index (c_nfs c)) -> child_step opts c e = DOk (c', eff) -> In (CDescr i t) eff ->
  hd_error (sources i (c_queue c')) <> Some [0; 0; 0; 0; 0; 0] -> distinct (sources i (c_queue c')) n -> n < 65536 ->
  describes opts i (c_queue c') t /\ zlen t <= 63 /\ exists m, In m (c_nfs c) /\ nf_index m = i /\ t <> nf_description m.
Proof.
  intros Hr Hn Hs Hin Hh Hd Hlt. destruct (step_written opts c e c' eff i t Hn Hs Hin) as [-> Hm].
  assert (Ht : table_ok (c_queue c') (c_next c')) by (eapply step_ok; [|exact Hs]; eapply reached_ok; exact Hr).
  split; [|split; [apply descr_short|exact Hm]]. eapply descr_describes; try eassumption. apply (t_grouped _ _ Ht).
Qed.
(** And it is written after every valid frame and every removal. *)
Lemma descr_out opts n q : descr_eff opts n q = [] /\ descr_text (descr_scan opts (nf_index n) q) = nf_description n
  \/ descr_eff opts n q = [CDescr (nf_index n) (descr_text (descr_scan opts (nf_index n) q))].
Proof.
  unfold descr_eff, netif_descr. cbv zeta. destruct (beq _ _) eqn:E; [left|now right]. split; [reflexivity|]. now apply beq_true.
Qed.
Lemma frame_describes opts es c eff0 d index p f now now2 sub proto ttl attrs c' eff n :
  reached opts es c eff0 -> Z.testbit opts 11 = true ->
  bytes f -> carries d index p 0 f -> 0 <= p < 6 -> 60 <= zlen f <= 1518 -> now <> -1 ->
  netif_byindex (c_nfs c) index = Some sub -> netif_byaddr (c_nfs c) (firstn 6 (skipn 6 f)) = None ->
  advert p f proto ttl attrs -> ttl <> 0 -> child_queue opts c d now now2 = DOk (c', eff) ->
  hd_error (sources index (c_queue c')) <> Some [0; 0; 0; 0; 0; 0] -> distinct (sources index (c_queue c')) n -> n < 65536 ->
  exists t, describes opts index (c_queue c') t /\ (eff = [CDescr index t] \/ eff = [] /\ t = nf_description sub).
Proof.
  intros Hr Ho Hb Hc Hp Hl Hnow Hn Ha Had H0 H Hh Hd Hlt.
  assert (Ht : table_ok (c_queue c') (c_next c')).
  { eapply (step_ok opts c (CRecv d now now2)); [eapply reached_ok; exact Hr|exact H]. }
  rewrite (rcv_good opts c d index p 0 f now now2 Hb Hc Hp Hl Hnow sub proto ttl attrs Hn Ha Had) in H.
  replace (ttl =? 0) with false in H by lia.
  destruct (queue_put _ _ _) as [q fresh] eqn:Ep.
  assert (E : c_queue c' = q /\ eff = descr_eff opts sub q).
  { cbv zeta in H. rewrite has_ifdescr, Ho in H. destruct (_ || _); [now injection H as <- <-|]. destruct (_ && _); now injection H as <- <-. }
  destruct E as [E1 E2]. apply byindex_some in Hn as [_ Hi].
  exists (descr_text (descr_scan opts index q)). split.
  - rewrite <- E1. eapply descr_describes; try eassumption. apply (t_grouped _ _ Ht).
  - rewrite E2, <- Hi. destruct (descr_out opts sub q) as [[-> E]| ->]; [right; now split|now left].
Qed.
Lemma expiry_describes opts es c eff0 now c' eff e sub n :
  reached opts es c eff0 -> Z.testbit opts 11 = true -> now <> -1 -> NoDup (map nf_index (c_nfs c)) ->
  child_expire opts now c = (c', eff) -> In e (c_queue c) -> ~ In e (c_queue c') ->
  netif_byindex (c_nfs c) (q_index e) = Some sub ->
  hd_error (sources (q_index e) (c_queue c')) <> Some [0; 0; 0; 0; 0; 0] -> distinct (sources (q_index e) (c_queue c')) n -> n < 65536 ->
  exists t, describes opts (q_index e) (c_queue c') t /\ (In (CDescr (q_index e) t) eff \/ t = nf_description sub).
Proof.
  intros Hr Ho Hnow Hn He Hin Hout Hsub Hh Hd Hlt.
  assert (Ht : table_ok (c_queue c') (c_next c')).
  { rewrite <- (f_equal fst He : fst _ = c'). apply expire_ok. eapply reached_ok. exact Hr. }
  pose proof (expire_all opts now c Hnow Hn) as E. cbv zeta in E. rewrite He in E.
  set (gone := filter (fun e => negb (stays now e)) _) in E. set (q := filter (stays now) _) in E.
  assert (E1 : c_queue c' = q) by (now rewrite (f_equal fst E : c' = _)).
  assert (E2 : eff = flat_map (written opts q) (map (mark gone) (c_nfs c))) by exact (f_equal snd E). clear E.
  exists (descr_text (descr_scan opts (q_index e) (c_queue c'))). split.
  { eapply descr_describes; try eassumption. apply (t_grouped _ _ Ht). }
  apply byindex_some in Hsub as [Hs Hi]. rewrite E1, <- Hi. destruct (descr_out opts sub q) as [[_ E]|E]; [now right|left].
  rewrite E2. apply in_flat_map. exists (mark gone sub). split; [now apply in_map|]. unfold written.
  assert (Hg : In e gone).
  { apply filter_In. split; [assumption|]. destruct (stays now e) eqn:S; [|reflexivity]. exfalso. apply Hout. rewrite E1. now apply filter_In. }
  assert (U : nf_update (mark gone sub) = 1).
  { unfold mark. assert (X : existsb (fun e0 => q_index e0 =? nf_index sub) gone = true); [|now rewrite X].
    apply existsb_exists. exists e. split; [assumption|lia]. }
  rewrite U, has_ifdescr, Ho. cbn [Z.eqb]. rewrite (descr_cfg opts q (mark gone) sub (mark_cfg gone)), E. now left.
Qed.
(** ** Receiving enables a protocol *)
Lemma frame_enables opts c d index p f now now2 sub proto ttl attrs c' eff top :
  Z.testbit opts 3 = true -> (Z.testbit opts 5 = true -> nf_argv sub <> 0 \/ nf_argv top <> 0) ->
  NoDup (map nf_index (c_nfs c)) -> uplink (c_nfs c) sub top ->
  bytes f -> carries d index p 0 f -> 0 <= p < 6 -> 60 <= zlen f <= 1518 -> now <> -1 ->
  netif_byindex (c_nfs c) index = Some sub -> netif_byaddr (c_nfs c) (firstn 6 (skipn 6 f)) = None ->
  advert p f proto ttl attrs -> ttl <> 0 -> child_queue opts c d now now2 = DOk (c', eff) ->
  exists top', netif_byindex (c_nfs c') (nf_index top) = Some top' /\ fixed top' = fixed top
  /\ forall k, 0 <= k < 8 -> Z.testbit (nf_protos top') k = Z.testbit (nf_protos top) k || (k =? proto).
Proof.
  intros Ha Hv Hn Hup Hb Hc Hp Hl Hnow Hs Ho Had H0 H.
  rewrite (rcv_good opts c d index p 0 f now now2 Hb Hc Hp Hl Hnow sub proto ttl attrs Hs Ho Had) in H.
  replace (ttl =? 0) with false in H by lia. pose proof (advert_range p f proto ttl attrs Hp Hb Had) as Hr.
  destruct (queue_put _ _ _) as [q fresh] eqn:Ep. cbv zeta in H. rewrite has_auto, Ha, has_argv, (uplink_top _ _ _ Hup) in H. cbn [negb orb] in H.
  apply byindex_some in Hs as [Hs Hi]. pose proof (uplink_in _ _ _ Hs Hup) as Ht.
  destruct (has (nf_protos top) (Z.shiftl 1 proto)) eqn:Eh.
  - injection H as <- _. cbn [c_nfs]. exists top. split; [now apply byindex_in|]. split; [reflexivity|]. intros k Hk.
    rewrite Z.shiftl_1_l, has_bit in Eh by lia. destruct (k =? proto) eqn:E; [|now rewrite orb_false_r].
    replace k with proto by lia. now rewrite Eh.
  - replace (Z.testbit opts 5 && (nf_argv sub =? 0) && (nf_argv top =? 0)) with false in H.
    2:{ destruct (Z.testbit opts 5); [|reflexivity]. destruct (Hv eq_refl); lia. }
    injection H as <- _. cbn [set_nfs c_nfs].
    assert (Ci : cfg (fun n => n)) by (intros n; reflexivity).
    pose proof (assign_map _ Ci (set_protos (Z.lor (nf_protos top) (Z.shiftl 1 proto) mod 256)) (c_nfs c) (nf_index top) Hn) as E.
    rewrite map_id in E. rewrite E. clear E.
    set (h := fun n => if nf_index n =? nf_index top then _ else n).
    assert (Ch : cfg h) by (intros n; unfold h; now destruct (nf_index n =? nf_index top)).
    exists (h top). rewrite (byindex_map h Ch), (byindex_in _ _ Hn Ht). split; [reflexivity|]. split; [apply Ch|]. intros k Hk.
    unfold h. rewrite Z.eqb_refl. cbn [set_protos nf_protos]. change 256 with (2 ^ 8). rewrite Z.mod_pow2_bits_low by lia.
    rewrite Z.lor_spec, shift_bit by lia. f_equal. apply Z.eqb_sym.
Qed.

(** ** Frames without effect *)
Lemma rcv_ignored opts c d index p received f payload now now2 :
  bytes f -> carries d index p received f -> 0 <= p < 6 -> 60 <= zlen f < 1518 -> proto_frame p f payload ->
  (forall n, In n (c_nfs c) -> nf_index n <> index)
  \/ (exists n, In n (c_nfs c) /\ nf_hwaddr n = firstn 6 (skipn 6 f))
  \/ (forall proto ttl attrs, ~ advert p f proto ttl attrs) ->
  child_queue opts c d now now2 = DOk (c, []).
Proof.
  intros Hb Hc Hp Hl Hf Hx. assert (Hl' : 60 <= zlen f <= 1518) by lia.
  destruct (Z.eq_dec now (-1)) as [->|Hnow].
  { unfold child_queue. cbv zeta. now destruct (negb _). }
  destruct Hx as [Hx|[(n & Hn & Ha)|Hx]].
  - apply (rcv_unknown opts c d index p received f now now2 Hc Hp Hl' Hnow).
    destruct (netif_byindex (c_nfs c) index) as [n|] eqn:E; [|reflexivity]. apply byindex_some in E as [Hi E]. now apply Hx in Hi.
  - destruct (netif_byaddr (c_nfs c) (firstn 6 (skipn 6 f))) as [m|] eqn:E.
    + exact (rcv_own opts c d index p received f now now2 Hc Hp Hl' Hnow m E).
    + exfalso. unfold netif_byaddr in E. apply (find_none _ _ E) in Hn. rewrite Ha, beq_refl in Hn. discriminate.
  - apply (rcv_bad opts c d index p received f payload now now2); try assumption. lia.
Qed.
