(** Sequences of refreshes; the autonegotiation octet. *)
From Verif Require Import Base Types Tlv Protos Util Netif Spec SpecAdv SpecNetif.
From Verif Require Import Lemmas VisProofs VisProps EncProps TlvInj EncProofs EncProofs2 EncProofs3 EncProofs4
  ChildProofs ChildProofs4 NetifProofs1 NetifProofs2 NetifProofs3 NetifProofs4 NetifProofs5.

Lemma refreshed_inv cfg oss nfs si : refreshed cfg oss nfs si -> NoDup (indices nfs) /\ mgmt_in si nfs.
Proof.
  induction 1 as [si Hm|oss nfs nfs1 si os ret nfs' si' gone H [IH1 IH2] Hi F].
  - split; [constructor|]. intros m E. congruence.
  - assert (D1 : NoDup (indices nfs1)) by now rewrite Hi.
    assert (M1 : mgmt_in si nfs1) by (intros m E; rewrite Hi; now apply IH2).
    destruct (no_ifaddrs os) as [ias|] eqn:E.
    + destruct (fetch_exact _ _ _ _ _ _ _ _ _ E D1 F) as ((K & _) & _).
      split; [assumption|]. now apply (fetch_mgmt _ _ _ _ _ _ _ _ _ E D1 F).
    + unfold netif_fetch in F. rewrite E in F. injection F as <- <- <- <-. now split.
Qed.
Lemma refresh_exact cfg oss os nfs nfs1 si ret nfs' si' gone :
  refreshed cfg oss nfs si -> indices nfs1 = indices nfs -> no_ifaddrs os <> None ->
  netif_fetch cfg os nfs1 si = (ret, nfs', si', gone) ->
  table_exact os nfs' /\ (forall n, In n nfs' -> survives nfs1 n /\ nf_update n = 0)
  /\ (forall i, In i gone <-> In i (indices nfs1) /\ ~ usable os i)
  /\ mgmt_in si' nfs' /\ no_dangling nfs' /\ tagged os nfs' /\ (consistent os nfs' -> linked os nfs').
Proof.
  intros H Hi E F. destruct (refreshed_inv _ _ _ _ H) as [D M]. destruct (no_ifaddrs os) as [ias|] eqn:A; [|easy].
  assert (D1 : NoDup (indices nfs1)) by now rewrite Hi.
  assert (M1 : mgmt_in si nfs1) by (intros m Em; rewrite Hi; now apply M).
  destruct (fetch_exact _ _ _ _ _ _ _ _ _ A D1 F) as (X1 & X2 & X3).
  split; [assumption|]. split; [assumption|]. split; [assumption|].
  split; [exact (fetch_mgmt _ _ _ _ _ _ _ _ _ A D1 F M1)|].
  split; [exact (fetch_no_dangling _ _ _ _ _ _ _ _ _ A D1 F)|].
  split; [exact (fetch_tagged _ _ _ _ _ _ _ _ _ A D1 F)|].
  exact (fetch_linked _ _ _ _ _ _ _ _ _ A D1 F).
Qed.
Lemma refresh_failed cfg os nfs si : no_ifaddrs os = None -> netif_fetch cfg os nfs si = (0, nfs, si, []).
Proof. intros H. unfold netif_fetch. now rewrite H. Qed.

(** ** Autonegotiation *)
Lemma macphy_app a b : macphy (a ++ b) = macphy a ++ macphy b.
Proof. unfold macphy. now rewrite filter_app, map_app. Qed.
Lemma macphy_when b l : macphy (when b l) = if b then macphy l else [].
Proof. now destruct b. Qed.
Lemma macphy_other t v : t <> 127 -> macphy [(t, v)] = [].
Proof. intros H. unfold macphy, is_macphy. cbn. now replace (t =? 127) with false by lia. Qed.
Lemma macphy_org a b c d body : [a; b; c; d] <> [0; 18; 15; 1] -> macphy [org_tlv [a; b; c] d body] = [].
Proof. intros H. unfold macphy, is_macphy, org_tlv. cbn [filter fst snd firstn app Z.eqb Pos.eqb andb].
  destruct (list_eq_dec Z.eq_dec [a; b; c; d] [0; 18; 15; 1]); [contradiction|reflexivity]. Qed.
Lemma macphy_vlans l (g : netif -> list Z) : macphy (map (fun v => org_tlv [0; 128; 194] 3 (g v)) l) = [].
Proof. induction l as [|v l IH]; [reflexivity|]. cbn [map]. change (?x :: ?y) with ([x] ++ y). rewrite macphy_app, IH, app_nil_r. now apply macphy_org. Qed.
Lemma macphy_content opts n p m nfs si : macphy (lldp_content opts n p m nfs si)
  = if nf_autoneg_supported n =? -1 then []
    else [(nf_autoneg_supported n + 2 * nf_autoneg_enabled n) mod 256 :: U16 (nf_autoneg_pmd n) ++ U16 (nf_mau n)].
Proof.
  unfold lldp_content. cbv zeta. rewrite !macphy_app, !macphy_when, macphy_vlans.
  repeat match goal with
  | |- context [macphy [org_tlv [0; 18; 187] ?d ?x]] => change (macphy [org_tlv [0; 18; 187] d x]) with (@nil (list Z))
  | |- context [macphy [org_tlv [0; 18; 15] 3 ?x]] => change (macphy [org_tlv [0; 18; 15] 3 x]) with (@nil (list Z))
  | |- context [macphy [org_tlv [0; 18; 15] 4 ?x]] => change (macphy [org_tlv [0; 18; 15] 4 x]) with (@nil (list Z))
  | |- context [macphy [(4, ?x)]] => change (macphy [(4, x)]) with (@nil (list Z))
  end.
  repeat match goal with |- context [if ?b then @nil (list Z) else []] => replace (if b then @nil (list Z) else []) with (@nil (list Z)) by now destruct b end.
  cbn [app]. change (macphy [mgmt_tlv 6 (nf_hwaddr m) (nf_index m)]) with (@nil (list Z)).
  change (macphy [mgmt_tlv 1 (nf_ipaddr4 m) (nf_index m)]) with (@nil (list Z)).
  change (macphy [mgmt_tlv 2 (nf_ipaddr6 m) (nf_index m)]) with (@nil (list Z)).
  match goal with |- context [macphy ((5, ?a) :: ?b)] => change (macphy ((5, a) :: b)) with (@nil (list Z)) end.
  repeat match goal with |- context [if ?b then @nil (list Z) else []] => replace (if b then @nil (list Z) else []) with (@nil (list Z)) by now destruct b end.
  cbn [app]. rewrite app_nil_r. now destruct (_ =? -1).
Qed.
Lemma media_truth os opts count n par mgmt nfs si f tlvs :
  inputs_ok count (netif_media os n) par mgmt nfs si ->
  proto_build 0 opts count (netif_media os n) par mgmt nfs si = Some f -> Forall lldp_fits tlvs ->
  skipn 14 f = flat_map lldp_bytes tlvs ->
  match (if nf_type n =? 0 then no_ecmd os (nf_index n) else None) with
  | Some e => an_supported e = true -> exists octet r, macphy tlvs = [octet :: r] /\ truthful e octet
  | None => macphy tlvs = []
  end.
Proof.
  intros Hi Hb Hf E. rewrite proto_build_spec in Hb by (lia || assumption). cbv zeta in Hb.
  destruct (_ <=? 1518); [|discriminate]. injection Hb as <-.
  rewrite (lldp_frame_tlvs _ _ _ _ _ _ _ _ _ Hi eq_refl Hf E). rewrite !macphy_app, macphy_content.
  match goal with |- context [macphy [(1, ?a); ?b; ?c]] => change (macphy [(1, a); b; c]) with (@nil (list Z)) end.
  change (macphy [(0, [])]) with (@nil (list Z)). rewrite app_nil_r. cbn [app].
  unfold netif_media. change NETIF_REGULAR with 0. destruct (nf_type n =? 0); cbn [negb]; [|reflexivity].
  destruct (no_ecmd os (nf_index n)) as [e|]; [|reflexivity]. intros Hs.
  assert (B : has (ec_supported e) SUPPORTED_Autoneg = true).
  { rewrite <- Hs. change SUPPORTED_Autoneg with (2 ^ 6). apply has_bit. lia. }
  rewrite B. cbn [nf_autoneg_supported nf_autoneg_enabled set_media nf_autoneg_pmd nf_mau].
  eexists. eexists. split; [reflexivity|]. intros i H0. unfold an_enabled. rewrite Hs. cbn [andb].
  destruct (ec_autoneg e =? 1); cbn [Z.eqb].
  - change ((1 + 2 * 1) mod 256) with 3. destruct (i =? 0) eqn:E0; [replace i with 0 by lia; reflexivity|].
    destruct (i =? 1) eqn:E1; [replace i with 1 by lia; reflexivity|]. apply Z.bits_above_log2; [lia|]. cbn. lia.
  - change ((1 + 2 * 0) mod 256) with 1. destruct (i =? 0) eqn:E0; [replace i with 0 by lia; reflexivity|].
    replace (if i =? 1 then false else false) with false by now destruct (i =? 1). apply Z.bits_above_log2; [lia|]. cbn. lia.
Qed.
