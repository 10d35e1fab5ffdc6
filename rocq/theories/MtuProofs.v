(** Proofs of C101 and C102. *)
From Verif Require Import Base Tlv Types Protos Util Netif Bsd Spec SpecAdv SpecNetif SpecBsd SpecMtu Lemmas VisProofs EncProofs EncProofs2
  EncProofs3 EncProofs4 EncProps TlvInj.

Lemma maxframe_app a b : maxframe (a ++ b) = maxframe a ++ maxframe b.
Proof. unfold maxframe. now rewrite filter_app, map_app. Qed.
Lemma maxframe_when b l : maxframe (when b l) = if b then maxframe l else [].
Proof. now destruct b. Qed.
Lemma maxframe_org a b c d body : [a; b; c; d] <> [0; 18; 15; 4] -> maxframe [org_tlv [a; b; c] d body] = [].
Proof. intros H. unfold maxframe, is_maxframe, org_tlv. cbn [filter fst snd firstn app Z.eqb Pos.eqb andb].
  destruct (list_eq_dec Z.eq_dec [a; b; c; d] [0; 18; 15; 4]); [contradiction|reflexivity]. Qed.
Lemma maxframe_vlans l (g : netif -> list Z) : maxframe (map (fun v => org_tlv [0; 128; 194] 3 (g v)) l) = [].
Proof. induction l as [|v l IH]; [reflexivity|]. cbn [map]. change (?x :: ?y) with ([x] ++ y). rewrite maxframe_app, IH, app_nil_r. now apply maxframe_org. Qed.
Lemma maxframe_content opts n p m nfs si : maxframe (lldp_content opts n p m nfs si)
  = if nf_mtu n =? 0 then [] else [U16 ((nf_mtu n + 22) mod 65536)].
Proof.
  unfold lldp_content. cbv zeta. rewrite !maxframe_app, !maxframe_when, maxframe_vlans.
  repeat match goal with
  | |- context [maxframe [org_tlv [0; 18; 187] ?d ?x]] => change (maxframe [org_tlv [0; 18; 187] d x]) with (@nil (list Z))
  | |- context [maxframe [org_tlv [0; 18; 15] 3 ?x]] => change (maxframe [org_tlv [0; 18; 15] 3 x]) with (@nil (list Z))
  | |- context [maxframe [org_tlv [0; 18; 15] 1 ?x]] => change (maxframe [org_tlv [0; 18; 15] 1 x]) with (@nil (list Z))
  | |- context [maxframe [(4, ?x)]] => change (maxframe [(4, x)]) with (@nil (list Z))
  end.
  repeat match goal with |- context [if ?b then @nil (list Z) else []] => replace (if b then @nil (list Z) else []) with (@nil (list Z)) by now destruct b end.
  cbn [app]. change (maxframe [mgmt_tlv 6 (nf_hwaddr m) (nf_index m)]) with (@nil (list Z)).
  change (maxframe [mgmt_tlv 1 (nf_ipaddr4 m) (nf_index m)]) with (@nil (list Z)).
  change (maxframe [mgmt_tlv 2 (nf_ipaddr6 m) (nf_index m)]) with (@nil (list Z)).
  match goal with |- context [maxframe ((5, ?a) :: ?b)] => change (maxframe ((5, a) :: b)) with (@nil (list Z)) end.
  repeat match goal with |- context [if ?b then @nil (list Z) else []] => replace (if b then @nil (list Z) else []) with (@nil (list Z)) by now destruct b end.
  cbn [app]. try rewrite app_nil_r. now destruct (nf_mtu n =? 0).
Qed.
Lemma lldp_mtu opts count n par mgmt nfs si f tlvs :
  inputs_ok count n par mgmt nfs si -> proto_build 0 opts count n par mgmt nfs si = Some f -> lldp_tlvs f tlvs ->
  maxframe tlvs = if nf_mtu n =? 0 then [] else [U16 ((nf_mtu n + 22) mod 65536)].
Proof.
  intros Hi Hb [Hf E]. apply build_advert in Hb as [-> _]; [|lia|assumption].
  rewrite (lldp_frame_tlvs _ _ _ _ _ _ _ _ _ Hi eq_refl Hf E). rewrite !maxframe_app, maxframe_content.
  match goal with |- context [maxframe [(1, ?a); ?b; ?c]] => change (maxframe [(1, a); b; c]) with (@nil (list Z)) end.
  change (maxframe [(0, [])]) with (@nil (list Z)). now rewrite app_nil_r.
Qed.

(** ** CDP *)
Lemma skip26 d s o pid v t c x : zlen d = 6 -> zlen s = 6 -> zlen o = 3 -> zlen c = 2 ->
  skipn 26 (snap d s o pid ([v; t] ++ c ++ x)) = x.
Proof.
  intros. unfold snap. rewrite !app_assoc. match goal with |- skipn _ (?a ++ x) = _ => replace 26%nat with (Z.to_nat (zlen a)) by (zl; lia) end.
  apply skipn_zlen_app.
Qed.
Lemma cdp_list_inj' l l' : Forall cdp_fits l -> Forall cdp_fits l' -> flat_map cdp_bytes l = flat_map cdp_bytes l' -> l = l'.
Proof. apply flat_map_inj; [now intros [t v]|apply cdp_bytes_inj]. Qed.
Lemma cdp_frame_tlvs p opts count n par mgmt nfs si f tlvs :
  p = 1 \/ p = 5 -> inputs_ok count n par mgmt nfs si -> proto_build p opts count n par mgmt nfs si = Some f -> cdp_tlvs f tlvs ->
  tlvs = cdp_content n (up n par) mgmt si.
Proof.
  intros Hp Hi Hb [Hf E]. apply build_advert in Hb as [-> _]; [|lia|assumption]. pose proof (inputs_up _ _ _ _ _ _ Hi) as Hu.
  destruct Hi as (Hn & _ & Hm & Hv & Hs & Hc). assert (Lh : zlen (nf_hwaddr n) = 6) by apply Hn.
  assert (K : flat_map cdp_bytes (cdp_content n (up n par) mgmt si) = flat_map cdp_bytes tlvs).
  { rewrite <- E. destruct Hp as [-> | ->]; cbn [advert]; unfold cdp_advert; cbv zeta; symmetry; apply skip26; easy. }
  symmetry. apply cdp_list_inj'; [|exact Hf|exact K]. now apply small_fits, cdp_content_small.
Qed.
Lemma values_app k a b : values k (a ++ b) = values k a ++ values k b.
Proof. unfold values. now rewrite filter_app, map_app. Qed.
Lemma values_when k b l : values k (when b l) = if b then values k l else [].
Proof. now destruct b. Qed.
Lemma values_addr k t n : t <> k -> values k (addr_tlv t n) = [].
Proof. intros H. unfold addr_tlv. destruct (ip_recs n); [reflexivity|]. unfold values. cbn [filter fst]. now replace (t =? k) with false by lia. Qed.
Lemma values_content n p mgmt si :
  values 17 (cdp_content n p mgmt si) = (if nf_mtu n =? 0 then [] else [U32 (nf_mtu n)])
  /\ values 11 (cdp_content n p mgmt si) = (if nf_duplex n =? -1 then [] else [[nf_duplex n mod 256]]).
Proof.
  unfold cdp_content. rewrite !values_app, !values_when, !values_addr by discriminate.
  destruct mgmt as [m|]; rewrite ?values_addr by discriminate;
    (split; [change (values 17 (?a :: ?b :: ?c :: ?d :: [(4, ?e)])) with (@nil (list Z))|]);
    destruct (nf_mtu n =? 0), (nf_duplex n =? -1), (0 <? zlen (si_location si)); reflexivity.
Qed.

(** ** The two systems *)
Lemma mtu_linux os n : nf_mtu (netif_media os n) = match no_mtu os (nf_name n) with Some m => m mod 65536 | None => nf_mtu n end.
Proof.
  unfold netif_media. cbv zeta. destruct (negb _); [reflexivity|]. destruct (no_ecmd os (nf_index n)) as [e|]; [|reflexivity].
  now destruct (has _ _).
Qed.
Lemma mtu_bsd b n : nf_mtu (bsd_media b n) = match bo_mtu b (nf_name n) with Some m => m mod 65536 | None => nf_mtu n end.
Proof.
  unfold bsd_media. cbv zeta. destruct (negb _); [reflexivity|]. destruct (bo_media b (nf_name n)) as [im|]; [|reflexivity].
  destruct (negb (im_ether im)); [reflexivity|]. destruct (negb (im_up im)); [reflexivity|]. destruct (im_count im =? 0); [reflexivity|].
  now destruct (im_list im).
Qed.
Lemma duplex_linux os n : nf_duplex (netif_media os n)
  = match (if nf_type n =? 0 then no_ecmd os (nf_index n) else None) with
    | Some e => if ec_duplex e =? 1 then 1 else 0
    | None => -1
    end.
Proof.
  unfold netif_media. cbv zeta. change NETIF_REGULAR with 0. destruct (nf_type n =? 0); cbn [negb]; [|reflexivity].
  destruct (no_ecmd os (nf_index n)) as [e|]; [|reflexivity]. now destruct (has _ _).
Qed.
Lemma duplex_bsd b n : nf_duplex (bsd_media b n) = match linked_media b n with Some (im, _) => if im_fdx im then 1 else 0 | None => -1 end.
Proof.
  unfold bsd_media, linked_media. cbv zeta. change NETIF_REGULAR with 0.
  destruct (nf_type n =? 0); cbn [negb andb].
  2:{ destruct (bo_media b (nf_name n)) as [im|]; [|reflexivity]. now destruct (im_list im). }
  destruct (bo_media b (nf_name n)) as [im|]; [|reflexivity].
  destruct (im_ether im); cbn [negb andb]; [|now destruct (im_list im)].
  destruct (im_up im); cbn [negb andb]; [|now destruct (im_list im)].
  destruct (im_count im =? 0); cbn [negb andb]; [now destruct (im_list im)|].
  now destruct (im_list im).
Qed.

Section both.
(** Either system: [medias n] is what it makes of [n], [mtu] its answer. *)
Variable medias : netif -> netif.
Variable mtu : option Z.
Variable n : netif.
Hypothesis H : nf_mtu (medias n) = match mtu with Some m => m mod 65536 | None => nf_mtu n end.
Lemma mtu_lldp opts count par mgmt nfs si f tlvs :
  inputs_ok count (medias n) par mgmt nfs si -> proto_build 0 opts count (medias n) par mgmt nfs si = Some f -> lldp_tlvs f tlvs ->
  (forall m, mtu = Some m -> 0 < m -> frame_size m < 65536 -> maxframe tlvs = [U16 (frame_size m)])
  /\ (mtu = None -> nf_mtu n = 0 -> maxframe tlvs = []).
Proof.
  intros Hi Hb Ht. rewrite (lldp_mtu _ _ _ _ _ _ _ _ _ Hi Hb Ht), H. split.
  - intros m -> H0 H1. unfold frame_size in *. rewrite (Z.mod_small m) by lia. replace (m =? 0) with false by lia.
    do 2 f_equal. rewrite Z.mod_small by lia. lia.
  - intros -> ->. reflexivity.
Qed.
Lemma mtu_cdp p opts count par mgmt nfs si f tlvs :
  p = 1 \/ p = 5 ->
  inputs_ok count (medias n) par mgmt nfs si -> proto_build p opts count (medias n) par mgmt nfs si = Some f -> cdp_tlvs f tlvs ->
  (forall m, mtu = Some m -> 0 < m < 65536 -> values 17 tlvs = [U32 m])
  /\ (mtu = None -> nf_mtu n = 0 -> values 17 tlvs = []).
Proof.
  intros Hp Hi Hb Ht. rewrite (cdp_frame_tlvs _ _ _ _ _ _ _ _ _ _ Hp Hi Hb Ht). rewrite (proj1 (values_content _ _ _ _)), H. split.
  - intros m -> H0. rewrite (Z.mod_small m) by lia. now replace (m =? 0) with false by lia.
  - intros -> ->. reflexivity.
Qed.
End both.
Lemma cdp_duplex p opts count n par mgmt nfs si f tlvs :
  p = 1 \/ p = 5 -> inputs_ok count n par mgmt nfs si -> proto_build p opts count n par mgmt nfs si = Some f -> cdp_tlvs f tlvs ->
  values 11 tlvs = if nf_duplex n =? -1 then [] else [[nf_duplex n mod 256]].
Proof.
  intros Hp Hi Hb Ht. rewrite (cdp_frame_tlvs _ _ _ _ _ _ _ _ _ _ Hp Hi Hb Ht). apply values_content.
Qed.
Lemma duplex_cdp_linux os p opts count n par mgmt nfs si f tlvs :
  p = 1 \/ p = 5 -> inputs_ok count (netif_media os n) par mgmt nfs si ->
  proto_build p opts count (netif_media os n) par mgmt nfs si = Some f -> cdp_tlvs f tlvs ->
  match (if nf_type n =? 0 then no_ecmd os (nf_index n) else None) with
  | Some e => ec_duplex e = 0 \/ ec_duplex e = 1 -> duplex_says e (values 11 tlvs)
  | None => values 11 tlvs = []
  end.
Proof.
  intros Hp Hi Hb Ht. rewrite (cdp_duplex _ _ _ _ _ _ _ _ _ _ Hp Hi Hb Ht), duplex_linux.
  destruct (if nf_type n =? 0 then _ else _) as [e|]; [|reflexivity]. unfold duplex_says. intros [-> | ->]; reflexivity.
Qed.
Lemma duplex_cdp_bsd b p opts count n par mgmt nfs si f tlvs :
  p = 1 \/ p = 5 -> inputs_ok count (bsd_media b n) par mgmt nfs si ->
  proto_build p opts count (bsd_media b n) par mgmt nfs si = Some f -> cdp_tlvs f tlvs ->
  values 11 tlvs = match linked_media b n with Some (im, _) => [[if im_fdx im then 1 else 0]] | None => [] end.
Proof.
  intros Hp Hi Hb Ht. rewrite (cdp_duplex _ _ _ _ _ _ _ _ _ _ Hp Hi Hb Ht), duplex_bsd.
  destruct (linked_media b n) as [[im l]|]; [|reflexivity]. now destruct (im_fdx im).
Qed.
(** For examples. *)
Lemma cdp_fits_b l : forallb (fun x : tlv => (0 <=? fst x) && (fst x <? 65536) && (4 + zlen (snd x) <? 65536)) l = true -> Forall cdp_fits l.
Proof.
  intros H0. apply Forall_forall. intros x Hx. rewrite forallb_forall in H0. specialize (H0 x Hx). unfold cdp_fits. lia.
Qed.
