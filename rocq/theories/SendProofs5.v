(** Frames of the child are accepted by the parent (C09). *)
From Verif Require Import Base Types Tlv Msg Protos Wire Util Child Netif Parent Sysinfo Send Spec SpecRound SpecNet SpecChild SpecAdv SpecNetif SpecSend.
From Verif Require Import Lemmas VisProofs ChkProofs EncProofs EncProofs2 EncProofs3 EncProofs4 EncProps NetProofs ParentProofs TypesProofs ChildProofs4 NetifProofs1 NetifProofs2 NetifProofs5 SendProofs1 SendProofs2 SendProofs3 SendProofs4.

Lemma chk_bytes cisco a b : bytes (a ++ [0; 0] ++ b) -> bytes (chk_of cisco a b).
Proof.
  intros H. unfold chk_of. destruct (inet_sum_rep cisco _ H) as [R _]. apply bytes_U16. lia.
Qed.
Lemma small_lldp_bytes l : Forall small l -> bytes (flat_map lldp_bytes l).
Proof.
  intros H. rewrite Forall_forall in H. apply bytes_flat_map. intros x Hx. destruct (H x Hx) as (H1 & H2 & H3).
  unfold lldp_bytes. pose proof (zlen_nonneg _ (snd x)). byt.
Qed.
(** Lengths of lists of TLVs. *)
Lemma fm_app {A} (f : A -> list Z) a b : zlen (flat_map f (a ++ b)) = zlen (flat_map f a) + zlen (flat_map f b).
Proof. now rewrite flat_map_app, zlen_app. Qed.
Lemma fm_cons {A} (f : A -> list Z) x l : zlen (flat_map f (x :: l)) = zlen (f x) + zlen (flat_map f l).
Proof. cbn [flat_map]. now rewrite zlen_app. Qed.
Lemma cdp_len t v : zlen (cdp_bytes (t, v)) = 4 + zlen v.
Proof. unfold cdp_bytes, U16. cbn [fst snd]. zlia. Qed.
Lemma lldp_len t v : zlen (lldp_bytes (t, v)) = 2 + zlen v.
Proof. unfold lldp_bytes, U16. cbn [fst snd]. zlia. Qed.
Lemma edp_len m t v : zlen (edp_bytes (m, (t, v))) = 4 + zlen v.
Proof. unfold edp_bytes, U16. zlia. Qed.
Ltac some_len :=
  rewrite ?fm_app, ?fm_cons, ?cdp_len, ?lldp_len, ?edp_len;
  repeat match goal with |- context [zlen (flat_map ?a ?b)] =>
    let h := fresh in pose proof (zlen_nonneg _ (flat_map a b)) as h; revert h; generalize (zlen (flat_map a b)); intros end;
  unfold U16, U32; zl.
(** Shape of an advertisement: exchanging the source address keeps it a frame of
    its protocol. *)
Lemma snap_any dst src org pid pl : zlen dst = 6 -> zlen src = 6 -> 0 <= 8 + zlen pl < 33024 ->
  exists rest, snap dst src org pid pl = dst ++ src ++ rest /\ forall s, zlen s = 6 -> snap_frame dst org pid (dst ++ s ++ rest) pl.
Proof.
  intros D S L. unfold snap. eexists. split; [reflexivity|]. intros s Hs. apply snap_untagged; [assumption|lia|lia].
Qed.
Lemma advert_shape p opts count n par mgmt nfs si : 0 <= p < 6 -> inputs_ok count n par mgmt nfs si ->
  7 <= zlen (si_uts_str si) -> 4 <= zlen (si_platform si) ->
  let f := advert p opts count n par mgmt nfs si in zlen f <= 1518 ->
  bytes f /\ 60 <= zlen f /\ exists dst rest pl, f = dst ++ nf_hwaddr n ++ rest /\ zlen dst = 6
    /\ forall s, zlen s = 6 -> proto_frame p (dst ++ s ++ rest) pl.
Proof.
  intros Hr Hi HU HP f. subst f. pose proof (inputs_up _ _ _ _ _ _ Hi) as Hp. destruct Hi as (Hn & _ & Hm & Hv & Hs & Hc).
  assert (Hmg : netif_ok (SpecAdv.up (SpecAdv.up n par) mgmt)) by (destruct mgmt; [now apply Hm|easy]).
  destruct (ok_hw n Hn) as [Bh Lh]. assert (Lh' : zlen (si_hwaddr si) = 6) by apply Hs. assert (Bh' : bytes (si_hwaddr si)) by apply Hs.
  assert (Nn : 1 <= zlen (nf_name n)) by (apply len_nonempty, ok_name; assumption).
  assert (Bn : cstring 16 (nf_name n)) by apply Hn. pose proof (cstring_len _ _ Bn). pose proof (cstring_bytes _ _ Bn).
  assert (CH : forall c : bool, zlen (if c then nf_hwaddr n else si_hwaddr si) = 6 /\ bytes (if c then nf_hwaddr n else si_hwaddr si)) by (intros []; now split).
  assert (C : forall v, 0 <= v < 256 -> zlen (cdp_advert v n (SpecAdv.up n par) mgmt si) <= 1518 ->
     bytes (cdp_advert v n (SpecAdv.up n par) mgmt si) /\ 60 <= zlen (cdp_advert v n (SpecAdv.up n par) mgmt si)
     /\ exists dst rest pl, cdp_advert v n (SpecAdv.up n par) mgmt si = dst ++ nf_hwaddr n ++ rest /\ zlen dst = 6 /\ forall s, zlen s = 6 -> cdp_frame (dst ++ s ++ rest) pl).
  { intros v V L. pose proof (small_bytes _ (cdp_content_small n (SpecAdv.up n par) mgmt si Hn Hp Hm Hs)) as Bt.
    rewrite cdp_advert_len in * by assumption.
    split; [|split].
    - unfold cdp_advert. cbv zeta. set (t := flat_map _ _) in *. clearbody t. unfold snap.
      assert (bytes (chk_of true [v; 180] t)) by (apply chk_bytes; byt). assert (zlen (chk_of true [v; 180] t) = 2) by reflexivity.
      set (k := chk_of true [v; 180] t) in *. clearbody k. pose proof (zlen_nonneg _ t). byt.
    - clear -HU HP Nn. unfold cdp_content. pose proof (zlen_nonneg _ (si_hostname si)). some_len. lia.
    - unfold cdp_advert in *. cbv zeta in *. set (t := flat_map _ _) in *.
      destruct (snap_any [1; 0; 12; 204; 204; 204] (nf_hwaddr n) [0; 0; 12] 8192 ([v; 180] ++ chk_of true [v; 180] t ++ t)) as (rest & E & K); [reflexivity|assumption| |].
      { pose proof (zlen_nonneg _ t). unfold chk_of. zlia. }
      rewrite E. do 3 eexists. split; [reflexivity|]. split; [reflexivity|]. exact K. }
  assert (P : p = 0 \/ p = 1 \/ p = 2 \/ p = 3 \/ p = 4 \/ p = 5) by lia.
  destruct P as [-> | [-> | [-> | [-> | [-> | ->]]]]]; cbn [advert proto_frame]; intros L.
  - destruct (CH (Z.testbit opts 13)) as [CL CB]. unfold lldp_advert in *. cbv zeta in *.
    set (ch := if Z.testbit opts 13 then _ else _) in *. clearbody ch.
    pose proof (lldp_content_small opts n (SpecAdv.up n par) (SpecAdv.up (SpecAdv.up n par) mgmt) nfs si Hn Hp Hmg Hv Hs) as Bt. apply small_lldp_bytes in Bt.
    split; [|split].
    + rewrite !flat_map_app in *. set (t := flat_map lldp_bytes (lldp_content _ _ _ _ _ _)) in *. clearbody t.
      cbn [flat_map]. unfold lldp_bytes. cbn [fst snd]. rewrite !app_nil_r. byt.
    + assert (L6 : zlen (nf_hwaddr (SpecAdv.up (SpecAdv.up n par) mgmt)) = 6) by apply (ok_hw _ Hmg).
      clear -HU HP Nn Lh CL L6. unfold lldp_content, mgmt_tlv, org_tlv. cbv zeta. rewrite !zlen_app.
      pose proof (zlen_nonneg _ (si_hostname si)). some_len. lia.
    + do 3 eexists. split; [reflexivity|]. split; [reflexivity|]. intros s Hs6. now apply lldp_untagged.
  - apply C; [lia|assumption].
  - destruct (CH (Z.testbit opts 13)) as [CL CB]. unfold edp_advert in *. cbv zeta in *.
    pose proof (edp_sent_bytes _ (edp_content_small opts n (SpecAdv.up n par) nfs si Hn Hp Hv Hs)) as Hb.
    fold (edp_sent (edp_content opts n (SpecAdv.up n par) nfs si)) in *.
    assert (T : 30 <= zlen (edp_sent (edp_content opts n (SpecAdv.up n par) nfs si))).
    { clear. unfold edp_sent, edp_content. pose proof (zlen_nonneg _ (si_hostname si)).
      pose proof (zlen_nonneg _ (si_uts_rel si)). rewrite ?fm_app, ?fm_cons. cbv beta. some_len. lia. }
    set (tl := edp_sent _) in *. clearbody tl.
    set (ch := if Z.testbit opts 13 then _ else _) in *. clearbody ch.
    rewrite zlen_snap in L. set (k := chk_of false _ _) in *. assert (Lk : zlen k = 2) by reflexivity.
    assert (Bk : bytes k).
    { apply chk_bytes. assert (zlen tl <= 1480) by zlia. byt. }
    clearbody k. split; [|split].
    + unfold snap. assert (zlen tl <= 1480) by zlia. byt.
    + rewrite zlen_snap. zlia.
    + destruct (snap_any [0; 224; 43; 0; 0; 0] (nf_hwaddr n) [0; 224; 43] 187 (([1; 0] ++ U16 (16 + zlen tl)) ++ k ++ U16 count ++ [0; 0] ++ ch ++ tl)) as (rest & E & K); [reflexivity|assumption|zlia|].
      rewrite E. do 3 eexists. split; [reflexivity|]. split; [reflexivity|]. exact K.
  - pose proof (small_bytes _ (fdp_content_small n (SpecAdv.up (SpecAdv.up n par) mgmt) si Hn Hmg Hs)) as Bt.
    rewrite fdp_advert_len in * by assumption.
    split; [|split].
    + unfold fdp_advert. cbv zeta. set (t := flat_map _ _) in *. clearbody t. unfold snap.
      assert (bytes (chk_of false [1; 180] t)) by (apply chk_bytes; byt). assert (zlen (chk_of false [1; 180] t) = 2) by reflexivity.
      set (k := chk_of false [1; 180] t) in *. clearbody k. pose proof (zlen_nonneg _ t). byt.
    + unfold fdp_content. pose proof (zlen_nonneg _ (si_hostname si)).
      assert (4 <= zlen (if Z.testbit (si_cap_active si) 3 then bs "Router" else if Z.testbit (si_cap_active si) 4 then bs "Switch"
        else if Z.testbit (si_cap_active si) 1 then bs "Bridge" else bs "Host")) by (repeat match goal with |- context [if ?b then _ else _] => destruct b end; now compute).
      clear -HU HP Nn H1 H2. set (w := if Z.testbit _ 3 then _ else _) in *. clearbody w. some_len. lia.
    + unfold fdp_advert in *. cbv zeta in *. set (t := flat_map _ _) in *.
      destruct (snap_any [1; 224; 82; 204; 204; 204] (nf_hwaddr n) [0; 224; 82] 8192 ([1; 180] ++ chk_of false [1; 180] t ++ t)) as (rest & E & K); [reflexivity|assumption| |].
      { pose proof (zlen_nonneg _ t). unfold chk_of. zlia. }
      rewrite E. do 3 eexists. split; [reflexivity|]. split; [reflexivity|]. exact K.
  - destruct (ok_ip _ Hp) as (B4 & L4 & _). rewrite (ndp_advert_len _ _ _ Hn Hp). split; [|split; [lia|]].
    + unfold ndp_advert, snap. byt.
    + unfold ndp_advert.
      destruct (snap_any [1; 0; 129; 0; 1; 0] (nf_hwaddr n) [0; 0; 129] 418 (nf_ipaddr4 (SpecAdv.up n par) ++ [0; 0; nf_index n mod 256; 1; 12; 3; si_physif_count si mod 256] ++ repeat 0 31)) as (rest & E & K); [reflexivity|assumption|zlia|].
      rewrite E. do 3 eexists. split; [reflexivity|]. split; [reflexivity|]. exact K.
  - apply C; [lia|assumption].
Qed.

(** ** Every frame of a run *)
Lemma bytes_skipn k l : bytes l -> bytes (skipn k l).
Proof. intros H. rewrite <- (firstn_skipn k l) in H. now apply Forall_app in H. Qed.
Lemma bytes_firstn k l : bytes l -> bytes (firstn k l).
Proof. intros H. rewrite <- (firstn_skipn k l) in H. now apply Forall_app in H. Qed.
Definition good_frame (i p : Z) (f : list Z) : Prop :=
  0 <= i < 4294967296 /\ 0 <= p < 6 /\ bytes f /\ 60 <= zlen f <= 1518 /\ exists pl, proto_frame p f pl.
Lemma frame_due_good cfg os nfs si seq top sub p : well nfs -> sysinfo_ok si -> 7 <= zlen (si_uts_str si) -> 4 <= zlen (si_platform si) ->
  0 <= seq < 65536 -> In sub nfs -> 0 <= p < 6 -> zlen (frame_due cfg os nfs si seq (top, sub, p)) <= 1518 ->
  good_frame (nf_index sub) p (frame_due cfg os nfs si seq (top, sub, p)).
Proof.
  intros W S U P Q Hs Hp L. pose proof (well_in _ _ W Hs) as Ok.
  assert (Hat : forall o q, at_index nfs o = Some q -> netif_ok q).
  { intros [i|] q E; [|discriminate]. apply find_some in E as [E _]. now apply (well_in nfs). }
  assert (Hin : inputs_ok seq (netif_media os sub) (at_index nfs (nf_parent sub)) (at_index nfs (si_mnetif si)) nfs si).
  { split; [now apply ok_probed|]. split; [apply Hat|]. split; [apply Hat|]. split; [intros v; now apply well_in|]. now split. }
  assert (LA : 14 <= zlen (advert p (nc_opts (sc_net cfg)) seq (netif_media os sub) (at_index nfs (nf_parent sub)) (at_index nfs (si_mnetif si)) nfs si)) by (apply advert_len; now apply ok_probed).
  unfold frame_due in *. set (f := advert _ _ _ _ _ _ _ _) in *.
  assert (LF : zlen f <= 1518) by (destruct (_ && _); [rewrite blank_len in L by lia|]; exact L).
  destruct (advert_shape p _ seq _ _ _ nfs si Hp Hin U P LF) as (B & M & dst & rest & pl & E & Ld & K). fold f in B, M, E.
  assert (BL : blanked f = dst ++ [0; 0; 0; 0; 0; 0] ++ rest).
  { assert (L6 : zlen (nf_hwaddr (netif_media os sub)) = 6) by (apply ok_hw; now apply ok_probed).
    unfold blanked. rewrite E. f_equal; [|f_equal].
    - change 6%nat with (Z.to_nat 6). rewrite <- Ld. apply firstn_zlen_app.
    - rewrite app_assoc. replace 12%nat with (Z.to_nat (zlen (dst ++ nf_hwaddr (netif_media os sub)))) by (rewrite zlen_app; lia). apply skipn_zlen_app. }
  split; [now apply ok_idx|]. split; [assumption|].
  destruct (_ && _).
  - split; [|split].
    + unfold blanked. apply Forall_app. split; [now apply bytes_firstn|]. apply Forall_app. split; [apply (bytes_zeros 6)|now apply bytes_skipn].
    + rewrite blank_len by lia. lia.
    + exists pl. rewrite BL. now apply K.
  - split; [assumption|]. split; [lia|]. exists pl. rewrite E. apply K. apply ok_hw. now apply ok_probed.
Qed.
Lemma frames_due_good cfg os nfs si : well nfs -> sysinfo_ok si -> 7 <= zlen (si_uts_str si) -> 4 <= zlen (si_platform si) ->
  forall ds seq, 0 <= seq < 65536 -> (forall top sub p, In (top, sub, p) ds -> In sub nfs /\ 0 <= p < 6) ->
  forall i p f, In (i, p, f) (frames_due cfg os nfs si seq ds) -> good_frame i p f.
Proof.
  intros W S U P. induction ds as [|[[top sub] q] ds IH]; intros seq Q H i p f; cbn [frames_due]; [easy|]. cbn [fst snd].
  intros K. apply in_app_or in K as [K|K].
  - destruct (zlen _ <=? 1518) eqn:L; [|easy]. cbn [when] in K. destruct K as [K|[]]. injection K as <- <- <-.
    destruct (H top sub q (or_introl eq_refl)) as [H1 H2]. apply frame_due_good; try assumption. lia.
  - eapply IH; [|intros t s x Hx; apply (H t s x); now right|eassumption]. destruct (q =? 2); [apply Z.mod_pos_bound|]; lia.
Qed.
Lemma all_due_in cfg index nfs top sub p : In (top, sub, p) (all_due cfg index nfs) ->
  In top nfs /\ In sub (subif_each top nfs) /\ In sub nfs /\ 0 <= p < 6 /\ (index = NETIF_INDEX_MAX \/ index = nf_index sub) /\ opt cfg 1 = true.
Proof.
  unfold all_due. intros H. apply in_flat_map in H as (t & Ht & H). apply filter_In in Ht as [Ht _]. unfold whole in H.
  destruct (eligible cfg t); [|easy]. apply in_flat_map in H as (s & Hs & H). unfold on in H.
  destruct (hit index s && eligible cfg s && opt cfg 1) eqn:E; [|easy]. rewrite !andb_true_iff in E. destruct E as [[E1 E2] E3].
  apply in_map_iff in H as (q & H & Hq). injection H as <- <- <-. apply filter_In in Hq as [Hq _]. unfold hit in E1.
  split; [assumption|]. split; [assumption|]. split; [now apply (subif_incl nfs t)|]. split; [cbn in Hq; lia|]. split; [lia|assumption].
Qed.
Lemma core_good cfg os index st st1 eff : os_ok os -> inv st -> core cfg os index st st1 eff ->
  forall i p f, In (i, p, f) (frames eff) -> good_frame i p f.
Proof.
  intros O I C. destruct C as [F|ret nfs si gone eff FL F Z E|ret nfs si gone T eff FL F Z G W N S HT HL E]; intros i p f; [easy|rewrite E; easy|].
  pose proof (fetch_inv _ _ _ _ _ _ _ O I F) as [J1 J2 J3 J4 J5 J6 J7]. cbn [st_si st_edp] in *.
  rewrite E. apply frames_due_good; try assumption. intros top sub q H. apply all_due_in in H. tauto.
Qed.
