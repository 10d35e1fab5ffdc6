(** Proofs of C139. *)
From Verif Require Import Base Tlv Types Protos Util Netif Child Sysinfo Send Bsd HostBsd BsdSend
  Spec SpecAdv SpecRound SpecNetif SpecChild SpecSend SpecMtu SpecTags SpecStd SpecE2E SpecBsd SpecHostBsd SpecBsdSend Lemmas ChildProofs ChildProofs2 ChildProofs4
  VisProofs EncProofs EncProofs2 EncProofs3 EncProofs4 EncProps TlvInj SendProofs1 SendProofs2 SendProofs3 SendProofs4 SendProofs5 SendProofs6 SysProofs1 SysProofs2 E2EProofs MtuProofs TagProofs2 StdProofs
  BsdSendProofs1 BsdSendProofs2 BsdE2EProofs.

Lemma b_running_consistent cfg pf st : b_running cfg pf st -> caps_consistent (st_si st).
Proof.
  induction 1 as [os country location A B C|st e st' eff R IH O H]; [apply b_boot_consistent|].
  apply b_running_inv in R. now apply (b_step_si _ _ _ _ _ _ R O H).
Qed.
Definition b_origin_names cfg (st st' : sstate) p f : Prop :=
  exists nos nfs si seq top sub, well nfs /\ sysinfo_ok si /\ caps_consistent si /\ 0 <= seq < 65536 /\ In sub nfs
    /\ f = b_frame_due cfg nos nfs si seq (top, sub, p) /\ map nf_name nfs = map nf_name (table st').
Lemma b_send_names cfg pf os index timeout now st st' eff i p f : b_ok os -> inv st -> caps_consistent (st_si st) ->
  bc_send cfg pf os index timeout now st = (st', eff) -> In (SFrame i p f) eff -> b_origin_names cfg st st' p f.
Proof.
  intros O Iv CS H K. apply in_frames in K. destruct (b_send_core _ _ _ _ _ _ _ _ _ O Iv H) as (st1 & eff1 & C & F & E1 & _ & E3). rewrite F in K.
  pose proof (proj2 (b_core_si _ _ _ _ _ _ _ O Iv C) CS) as CC.
  assert (E4 : map fixed (table st') = map fixed (table st1)) by (unfold table; destruct (_ && _); rewrite E3; [apply expire_fixed|reflexivity]).
  destruct C as [F1|ret nfs si gone eff1 FL F1 Z E5|ret nfs si gone T eff1 FL F1 Z G W N S HT HL E5]; [easy|rewrite E5 in K; easy|].
  rewrite E5 in K. destruct Iv as [_ _ _ _ _ _ Q]. cbn [st_si] in *.
  apply b_due_from in K; [|assumption]. destruct K as (top & sub & seq & Q' & X1 & X2 & X3 & X4). apply all_due_in in X1 as (X1 & _ & X5 & X6 & _).
  exists os, nfs, si, seq, top, sub. split; [assumption|]. split; [assumption|]. split; [assumption|]. split; [assumption|]. split; [assumption|]. split; [congruence|].
  pose proof (b_touches_bare _ _ _ HT) as B.
  assert (M1 : map nf_name nfs = map nf_name T).
  { assert (X : forall a b : list netif, map bare a = map bare b -> map nf_name a = map nf_name b); [|symmetry; now apply X].
    induction a as [|x a IH]; intros [|y b] E; try discriminate; [reflexivity|]. cbn [map] in E. apply cons_inj in E as [Ex Ea]. cbn [map].
    destruct (bare_fields _ _ Ex) as (_ & B2 & _). now rewrite B2, (IH _ Ea). }
  rewrite M1. change (table (mkSt (set_nfs (st_child st) T) si (after (st_edp st) (all_due cfg index nfs)))) with T in E4.
  apply (f_equal (map nf_name)) in E4. rewrite !map_map in E4. symmetry. exact E4.
Qed.
Lemma b_sent_names cfg pf st e st' eff i p f : b_running cfg pf st -> b_event_ok e -> bc_step cfg pf st e = DOk (st', eff) -> In (SFrame i p f) eff ->
  b_origin_names cfg st st' p f.
Proof.
  intros R O H K. pose proof (b_running_consistent _ _ _ R) as CS. apply b_running_inv in R. destruct e as [os now|os m now|e].
  - cbn in H. injection H as H. exact (b_send_names _ _ _ _ _ _ _ _ _ _ _ _ O R CS H K).
  - cbn in H. injection H as H. destruct O as [O _]. unfold bc_link in H. destruct (_ || _ || _); [injection H as <- <-; easy|].
    do 3 (destruct (negb _); [injection H as <- <-; easy|]).
    exact (b_send_names _ _ _ _ _ _ _ _ _ _ _ _ O R CS H K).
  - apply in_frames in K. destruct (child_frames _ _ _ _ _ R H) as (_ & E & _). rewrite E in K. easy.
Qed.
Lemma b_std_sent cfg pf st e st' eff i f : b_running cfg pf st -> b_event_ok e -> bc_step cfg pf st e = DOk (st', eff) -> In (SFrame i 0 f) eff ->
  exists tlvs, lldp_tlvs f tlvs /\ conforming tlvs /\ (NoDup (map nf_name (table st')) -> NoDup (vlan_names tlvs)).
Proof.
  intros R O H K. destruct (b_sent_names _ _ _ _ _ _ _ _ _ R O H K) as (nos & nfs & si & seq & top & sub & W & S & C & Q & Hs & E & N).
  assert (Hat : forall o q, at_index nfs o = Some q -> netif_ok q).
  { intros [j|] q X; [|discriminate]. apply find_some in X as [X _]. now apply (well_in nfs). }
  assert (Hi : inputs_ok seq (bsd_media nos sub) (at_index nfs (nf_parent sub)) (at_index nfs (si_mnetif si)) nfs si).
  { split; [apply ok_bmedia; now apply (well_in nfs)|]. split; [apply Hat|]. split; [apply Hat|]. split; [intros v; now apply well_in|]. now split. }
  unfold b_frame_due in E. set (n := bsd_media nos sub) in *. set (par := at_index nfs (nf_parent sub)) in *. set (mg := at_index nfs (si_mnetif si)) in *.
  set (opts := nc_opts (sc_net cfg)) in *.
  pose proof (inputs_up _ _ _ _ _ _ Hi) as Hp. destruct Hi as (Hn & _ & Hm & Hv & _ & _).
  assert (Hmg : netif_ok (SpecAdv.up (SpecAdv.up n par) mg)) by (destruct mg; [now apply Hm|easy]).
  assert (Lh : zlen (nf_hwaddr n) = 6) by apply Hn. assert (Lh' : zlen (si_hwaddr si) = 6) by apply S.
  set (chassis := if Z.testbit opts 13 then nf_hwaddr n else si_hwaddr si).
  assert (Lc : zlen chassis = 6) by (unfold chassis; now destruct (Z.testbit opts 13)).
  set (tlvs := [(1, 4 :: chassis); (2, 5 :: nf_name n); (3, U16 180)] ++ lldp_content opts n (SpecAdv.up n par) (SpecAdv.up (SpecAdv.up n par) mg) nfs si ++ [(0, [])]).
  exists tlvs. split; [|split].
  - assert (A : skipn 14 (SpecAdv.advert 0 opts seq n par mg nfs si) = flat_map lldp_bytes tlvs).
    { cbn [SpecAdv.advert]. unfold lldp_advert. cbv zeta. fold chassis. fold tlvs. set (T := flat_map lldp_bytes tlvs). rewrite !app_assoc.
      match goal with |- skipn 14 (?a ++ _) = _ => replace 14%nat with (Z.to_nat (zlen a)) by (rewrite !zlen_app, Lh; reflexivity) end.
      apply skipn_zlen_app. }
    split.
    + unfold tlvs. rewrite !Forall_app. split; [|split; [now apply small_lldp_fits, lldp_content_small|repeat constructor; cbn; lia]].
      assert (Ln : zlen (nf_name n) < 16) by (destruct Hn as (K1 & _); apply cstring_len in K1; lia).
      repeat (apply Forall_cons; [split; cbn [fst snd]; [lia|rewrite ?zlen_cons; try lia; reflexivity]|]). apply Forall_nil.
    + rewrite E. destruct (_ && _); [|exact A]. rewrite skip_blank; [exact A|lia|]. pose proof (advert_len nfs si 0 opts seq n par mg Hn) as La. lia.
  - now apply content_conforming.
  - intros ND. unfold tlvs, vlan_names. rewrite !ov_app.
    change ([(1, ?a); (2, ?b); (3, ?d)]) with ([(1, a)] ++ [(2, b)] ++ [(3, d)]). rewrite !ov_app, !ov_other by discriminate. cbn [app]. rewrite app_nil_r.
    rewrite (ov_content [0; 128; 194; 3] _ _ _ _ _ _ (or_introl eq_refl)). destruct (list_eq_dec _ _ _) as [_|X]; [|now destruct X].
    apply names_nodup; [now rewrite N|exact Hv].
Qed.
