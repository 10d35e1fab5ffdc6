(** C104 to C106: VLANs and link aggregation in advertisements. *)
From Verif Require Import Base Tlv Types Msg Protos Wire Util Child Netif Parent Sysinfo Send Spec SpecAdv SpecNetif SpecSend SpecMtu SpecTags
  Lemmas Conformance Cases5 Cases6 Cases8 Cases15 SendProofs6 TagProofs2.

(** ** C104 *)
(** The VLAN names of an LLDP frame are those of the VLANs configured on the
    interface or its aggregate, with their identifiers.  Two conditions are
    needed: no interfaces are named on the command line, and no VLAN interface is
    a member of an aggregate (missing: the other cases, refuted below). *)
Theorem C104_vlan_names_partial cfg os index timeout now st nfs si i f tlvs :
  running cfg st -> os_ok os -> refresh cfg os st nfs si -> consistent os nfs -> numbered nfs ->
  opt cfg 5 = false -> vlans_apart os nfs ->
  In (SFrame i 0 f) (snd (child_send cfg os index timeout now st)) -> lldp_tlvs f tlvs ->
  exists n, In n nfs /\ nf_index n = i /\ vlan_names tlvs = map (vlan_entry os) (vlans_at os nfs n).
Proof. intros R O F C N Op V. exact (lldp_vlans cfg os index timeout now st nfs si R O F C i f tlvs V N Op). Qed.
Print Assumptions C104_vlan_names_partial.
(** VLAN 5 on eth0, which is a port of a bridge. *)
Definition n_tab : list netif := Eval vm_compute in fst (n_next n_cfg (n_os [1] false)).
Definition n_si : sysinfo := Eval vm_compute in snd (n_next n_cfg (n_os [1] false)).
Definition n_frames : list (Z * Z * list Z) := Eval vm_compute in n_sent n_cfg (n_os [1] false).
Definition n_eth0 : netif := Eval vm_compute in nth 0 n_tab (fresh_netif 0 [] 0 [] 0 0 0 []).
Definition n_f1 : list Z := Eval vm_compute in snd (nth 4 n_frames (0, 0, [])).
Definition n_t1 : list tlv := Eval vm_compute in n_lldp n_f1.
Lemma n_frames_eq : n_sent n_cfg (n_os [1] false) = n_frames. Proof. vm_compute. reflexivity. Qed.
Lemma n_refresh1 : refresh n_cfg (n_os [1] false) w_st0 n_tab n_si.
Proof.
  replace n_tab with (fst (n_next n_cfg (n_os [1] false))) by (vm_compute; reflexivity).
  replace n_si with (snd (n_next n_cfg (n_os [1] false))) by (vm_compute; reflexivity).
  apply (n_refresh _ _ 6 []); [vm_compute; reflexivity|discriminate|vm_compute; reflexivity].
Qed.
Lemma n_cons1 : consistent (n_os [1] false) n_tab.
Proof.
  apply (n_cons _ _ [2; 3; 1]); [vm_compute; reflexivity|repeat constructor; cbn; intuition discriminate|].
  intros i m ports a. cbn [no_team n_os]. rewrite andb_false_r. discriminate.
Qed.
Lemma n_in1 : In (SFrame 1 0 n_f1) (snd (child_send n_cfg (n_os [1] false) 4294967295 true 1000 w_st0)).
Proof. apply n_in_sent. rewrite n_frames_eq. do 4 right. left. reflexivity. Qed.
Lemma n_t1_ok : lldp_tlvs n_f1 n_t1. Proof. apply n_lldp_ok; vm_compute; reflexivity. Qed.
Example C104_case :
  running n_cfg w_st0 /\ os_ok (n_os [1] false) /\ refresh n_cfg (n_os [1] false) w_st0 n_tab n_si /\ consistent (n_os [1] false) n_tab
  /\ numbered n_tab /\ opt n_cfg 5 = false /\ vlans_apart (n_os [1] false) n_tab
  /\ In (SFrame 1 0 n_f1) (snd (child_send n_cfg (n_os [1] false) 4294967295 true 1000 w_st0)) /\ lldp_tlvs n_f1 n_t1
  /\ map nf_name (vlans_at (n_os [1] false) n_tab n_eth0) = [bs "eth0.5"] /\ vlan_names n_t1 = [[0; 5; 6] ++ bs "eth0.5"].
Proof.
  split; [apply w_boot|]. split; [apply n_os_ok|]. split; [exact n_refresh1|]. split; [exact n_cons1|].
  split; [apply n_numbered; vm_compute; reflexivity|]. split; [reflexivity|]. split; [apply n_apart; vm_compute; reflexivity|].
  split; [exact n_in1|]. split; [exact n_t1_ok|]. split; vm_compute; reflexivity.
Qed.
(** With eth0 on the command line its VLAN is not advertised. *)
Definition n_tabl : list netif := Eval vm_compute in fst (n_next n_list (n_os [1] false)).
Definition n_fl : list Z := Eval vm_compute in snd (nth 0 (n_sent n_list (n_os [1] false)) (0, 0, [])).
Definition n_tl : list tlv := Eval vm_compute in n_lldp n_fl.
Theorem C104_listed_refuted :
  exists cfg os now st nfs si n f tlvs,
    running cfg st /\ os_ok os /\ refresh cfg os st nfs si /\ consistent os nfs /\ numbered nfs /\ vlans_apart os nfs
    /\ In n nfs /\ In (nf_name n) (nc_ifl (sc_net cfg)) /\ vlans_at os nfs n <> []
    /\ In (SFrame (nf_index n) 0 f) (snd (child_send cfg os NETIF_INDEX_MAX true now st)) /\ lldp_tlvs f tlvs /\ vlan_names tlvs = [].
Proof.
  exists n_list, (n_os [1] false), 1000, w_st0, n_tabl, (snd (n_next n_list (n_os [1] false))), (nth 0 n_tabl n_eth0), n_fl, n_tl.
  split; [apply w_boot|]. split; [apply n_os_ok|]. split.
  { replace n_tabl with (fst (n_next n_list (n_os [1] false))) by (vm_compute; reflexivity).
    apply (n_refresh _ _ 1 []); [vm_compute; reflexivity|discriminate|vm_compute; reflexivity]. }
  split.
  { apply (n_cons _ _ [2; 3; 1]); [vm_compute; reflexivity|repeat constructor; cbn; intuition discriminate|].
    intros i m ports a. cbn [no_team n_os]. rewrite andb_false_r. discriminate. }
  split; [apply n_numbered; vm_compute; reflexivity|]. split; [apply n_apart; vm_compute; reflexivity|]. split; [left; reflexivity|].
  split; [left; reflexivity|]. split; [discriminate|]. split.
  { apply n_in_sent.
    replace (n_sent n_list (n_os [1] false)) with [(1, 0, n_fl); nth 1 (n_sent n_list (n_os [1] false)) (0, 0, [])] by (vm_compute; reflexivity).
    left. reflexivity. }
  split; [apply n_lldp_ok; vm_compute; reflexivity|]. reflexivity.
Qed.
Print Assumptions C104_listed_refuted.
(** With the VLAN interface in a bridge it is not advertised on its interface. *)
Definition n_tabb : list netif := Eval vm_compute in fst (n_next n_cfg (n_os [5] false)).
Definition n_framesb : list (Z * Z * list Z) := Eval vm_compute in n_sent n_cfg (n_os [5] false).
Definition n_fb : list Z := Eval vm_compute in snd (nth 0 n_framesb (0, 0, [])).
Definition n_tb : list tlv := Eval vm_compute in n_lldp n_fb.
Theorem C104_bridged_refuted :
  exists cfg os now st nfs si n f tlvs,
    running cfg st /\ os_ok os /\ refresh cfg os st nfs si /\ consistent os nfs /\ numbered nfs /\ opt cfg 5 = false
    /\ In n nfs /\ vlans_at os nfs n <> []
    /\ In (SFrame (nf_index n) 0 f) (snd (child_send cfg os NETIF_INDEX_MAX true now st)) /\ lldp_tlvs f tlvs /\ vlan_names tlvs = [].
Proof.
  exists n_cfg, (n_os [5] false), 1000, w_st0, n_tabb, (snd (n_next n_cfg (n_os [5] false))), (nth 0 n_tabb n_eth0), n_fb, n_tb.
  split; [apply w_boot|]. split; [apply n_os_ok|]. split.
  { replace n_tabb with (fst (n_next n_cfg (n_os [5] false))) by (vm_compute; reflexivity).
    apply (n_refresh _ _ 6 []); [vm_compute; reflexivity|discriminate|vm_compute; reflexivity]. }
  split.
  { apply (n_cons _ _ [2; 3; 5]); [vm_compute; reflexivity|repeat constructor; cbn; intuition discriminate|].
    intros i m ports a. cbn [no_team n_os]. rewrite andb_false_r. discriminate. }
  split; [apply n_numbered; vm_compute; reflexivity|]. split; [reflexivity|]. split; [left; reflexivity|]. split; [discriminate|]. split.
  { apply n_in_sent.
    replace (n_sent n_cfg (n_os [5] false)) with n_framesb by (vm_compute; reflexivity). left. reflexivity. }
  split; [apply n_lldp_ok; vm_compute; reflexivity|]. reflexivity.
Qed.
Print Assumptions C104_bridged_refuted.

(** ** C105 *)
(** A frame on an interface that is no member of an LACP aggregate has no link
    aggregation TLV; one on a slave of an LACP bond carries the number of the
    slave, modulo 256 (missing: teams and larger numbers, refuted below). *)
Theorem C105_lacp_partial cfg os index timeout now st nfs si i f tlvs :
  running cfg st -> os_ok os -> refresh cfg os st nfs si -> consistent os nfs ->
  In (SFrame i 0 f) (snd (child_send cfg os index timeout now st)) -> lldp_tlvs f tlvs ->
  exists n, In n nfs /\ nf_index n = i
    /\ (forall p, In p (owners os nfs n) -> nf_type p = 12 -> mode_of os p = 1 ->
         exists s, slave_number os p n s /\ aggregation tlvs = [3 :: U32 (s mod 256)])
    /\ ((forall p, In p (owners os nfs n) -> mode_of os p <> 1) -> aggregation tlvs = []).
Proof. intros R O F C. exact (lldp_lacp cfg os index timeout now st nfs si R O F C i f tlvs). Qed.
Print Assumptions C105_lacp_partial.
(** eth2 is slave 1 of the bond. *)
Definition n_eth2 : netif := Eval vm_compute in nth 2 n_tab n_eth0.
Definition n_f3 : list Z := Eval vm_compute in snd (nth 2 n_frames (0, 0, [])).
Definition n_t3 : list tlv := Eval vm_compute in n_lldp n_f3.
Example C105_case :
  refresh n_cfg (n_os [1] false) w_st0 n_tab n_si /\ consistent (n_os [1] false) n_tab
  /\ In (SFrame 3 0 n_f3) (snd (child_send n_cfg (n_os [1] false) 4294967295 true 1000 w_st0)) /\ lldp_tlvs n_f3 n_t3
  /\ map (fun p => (nf_index p, nf_type p, mode_of (n_os [1] false) p)) (owners (n_os [1] false) n_tab n_eth2) = [(4, 12, 1)]
  /\ slave_number (n_os [1] false) (nth 3 n_tab n_eth0) n_eth2 1 /\ aggregation n_t3 = [3 :: U32 1]
  /\ aggregation n_t1 = [].
Proof.
  split; [exact n_refresh1|]. split; [exact n_cons1|]. split.
  { apply n_in_sent. rewrite n_frames_eq. right. right. left. reflexivity. }
  split; [apply n_lldp_ok; vm_compute; reflexivity|]. split; [vm_compute; reflexivity|]. split.
  { exists 4, 2, 1. split; [vm_compute; reflexivity|]. split; [lia|]. vm_compute. reflexivity. }
  split; vm_compute; reflexivity.
Qed.
(** The members of an LACP team are all advertised with number 0. *)
Definition n_tabt : list netif := Eval vm_compute in fst (n_next n_cfg (n_os [1] true)).
Definition n_framest : list (Z * Z * list Z) := Eval vm_compute in n_sent n_cfg (n_os [1] true).
Definition n_ft2 : list Z := Eval vm_compute in snd (nth 0 n_framest (0, 0, [])).
Definition n_ft3 : list Z := Eval vm_compute in snd (nth 2 n_framest (0, 0, [])).
Theorem C105_lacp_refuted :
  exists cfg os now st nfs si p m m' f f' tlvs tlvs',
    running cfg st /\ os_ok os /\ refresh cfg os st nfs si /\ consistent os nfs
    /\ In p nfs /\ mode_of os p = 1 /\ owners os nfs m = [p] /\ owners os nfs m' = [p] /\ nf_index m <> nf_index m'
    /\ In (SFrame (nf_index m) 0 f) (snd (child_send cfg os NETIF_INDEX_MAX true now st)) /\ lldp_tlvs f tlvs
    /\ In (SFrame (nf_index m') 0 f') (snd (child_send cfg os NETIF_INDEX_MAX true now st)) /\ lldp_tlvs f' tlvs'
    /\ aggregation tlvs = aggregation tlvs'.
Proof.
  exists n_cfg, (n_os [1] true), 1000, w_st0, n_tabt, (snd (n_next n_cfg (n_os [1] true))), (nth 3 n_tabt n_eth0), (nth 1 n_tabt n_eth0), (nth 2 n_tabt n_eth0),
    n_ft2, n_ft3, (n_lldp n_ft2), (n_lldp n_ft3).
  split; [apply w_boot|]. split; [apply n_os_ok|]. split.
  { replace n_tabt with (fst (n_next n_cfg (n_os [1] true))) by (vm_compute; reflexivity).
    apply (n_refresh _ _ 6 []); [vm_compute; reflexivity|discriminate|vm_compute; reflexivity]. }
  split.
  { apply (n_cons _ _ [2; 3; 1]); [vm_compute; reflexivity|repeat constructor; cbn; intuition discriminate|].
    intros i m ports a. cbn [no_team n_os]. destruct (_ && _); [|discriminate]. intros [= <- _ _]. discriminate. }
  split; [vm_compute; tauto|]. split; [vm_compute; reflexivity|]. split; [vm_compute; reflexivity|]. split; [vm_compute; reflexivity|].
  split; [discriminate|]. split.
  { apply n_in_sent. replace (n_sent n_cfg (n_os [1] true)) with n_framest by (vm_compute; reflexivity).
    left. reflexivity. }
  split; [apply n_lldp_ok; vm_compute; reflexivity|]. split.
  { apply n_in_sent. replace (n_sent n_cfg (n_os [1] true)) with n_framest by (vm_compute; reflexivity).
    right. right. left. reflexivity. }
  split; [apply n_lldp_ok; vm_compute; reflexivity|]. vm_compute. reflexivity.
Qed.
Print Assumptions C105_lacp_refuted.

(** ** C106 *)
(** An EDP frame lists the address of the interface or its aggregate, if there is
    one, and the VLANs of C104, each with its identifier and address, but with
    the name of the interface (missing: the name of the VLAN, refuted below). *)
Theorem C106_edp_vlans_partial cfg os index timeout now st nfs si i f tlvs :
  running cfg st -> os_ok os -> refresh cfg os st nfs si -> consistent os nfs -> numbered nfs ->
  opt cfg 5 = false -> vlans_apart os nfs ->
  In (SFrame i 2 f) (snd (child_send cfg os index timeout now st)) -> edp_tlvs f tlvs ->
  exists n, In n nfs /\ nf_index n = i
    /\ let a := nf_ipaddr4 (hd n (owners os nfs n)) in
       values 5 (map snd tlvs)
       = when (is_set a) [[128; 0; 0; 0; 0; 0; 0; 0] ++ a ++ nf_name n ++ [0]]
         ++ map (fun v => edp_entry os v (nf_name n)) (vlans_at os nfs n).
Proof. intros R O F C N Op V. exact (edp_vlans cfg os index timeout now st nfs si R O F C i f tlvs V N Op). Qed.
Print Assumptions C106_edp_vlans_partial.
Definition n_e1 : list Z := Eval vm_compute in snd (nth 5 n_frames (0, 0, [])).
Definition n_et1 : list (Z * tlv) := Eval vm_compute in n_edp n_e1.
Definition n_e2 : list Z := Eval vm_compute in snd (nth 1 n_frames (0, 0, [])).
Lemma n_ine1 : In (SFrame 1 2 n_e1) (snd (child_send n_cfg (n_os [1] false) 4294967295 true 1000 w_st0)).
Proof. apply n_in_sent. rewrite n_frames_eq. do 5 right. left. reflexivity. Qed.
Lemma n_et1_ok : edp_tlvs n_e1 n_et1. Proof. apply n_edp_ok; vm_compute; reflexivity. Qed.
Example C106_case :
  In (SFrame 1 2 n_e1) (snd (child_send n_cfg (n_os [1] false) 4294967295 true 1000 w_st0)) /\ edp_tlvs n_e1 n_et1
  /\ values 5 (map snd n_et1) = [[0; 0; 0; 5; 0; 0; 0; 0; 0; 0; 0; 0] ++ bs "eth0"]
  /\ In (SFrame 2 2 n_e2) (snd (child_send n_cfg (n_os [1] false) 4294967295 true 1000 w_st0)) /\ edp_tlvs n_e2 (n_edp n_e2)
  /\ values 5 (map snd (n_edp n_e2)) = [[128; 0; 0; 0; 0; 0; 0; 0; 10; 0; 0; 2] ++ bs "eth1" ++ [0]].
Proof.
  split; [exact n_ine1|]. split; [exact n_et1_ok|]. split; [vm_compute; reflexivity|]. split.
  { apply n_in_sent. rewrite n_frames_eq. right. left. reflexivity. }
  split; [apply n_edp_ok; vm_compute; reflexivity|]. vm_compute. reflexivity.
Qed.
(** No VLAN TLV carries the name of the VLAN. *)
Theorem C106_edp_vlans_refuted :
  exists cfg os now st nfs si n v f tlvs,
    running cfg st /\ os_ok os /\ refresh cfg os st nfs si /\ consistent os nfs /\ numbered nfs /\ opt cfg 5 = false /\ vlans_apart os nfs
    /\ In n nfs /\ In v (vlans_at os nfs n)
    /\ In (SFrame (nf_index n) 2 f) (snd (child_send cfg os NETIF_INDEX_MAX true now st)) /\ edp_tlvs f tlvs
    /\ forall x, In x (values 5 (map snd tlvs)) -> skipn 12 x <> nf_name v.
Proof.
  exists n_cfg, (n_os [1] false), 1000, w_st0, n_tab, n_si, n_eth0, (nth 4 n_tab n_eth0), n_e1, n_et1.
  split; [apply w_boot|]. split; [apply n_os_ok|]. split; [exact n_refresh1|]. split; [exact n_cons1|].
  split; [apply n_numbered; vm_compute; reflexivity|]. split; [reflexivity|]. split; [apply n_apart; vm_compute; reflexivity|].
  split; [left; reflexivity|]. split; [vm_compute; tauto|]. split; [exact n_ine1|]. split; [exact n_et1_ok|].
  intros x Hx. assert (E : values 5 (map snd n_et1) = [[0; 0; 0; 5; 0; 0; 0; 0; 0; 0; 0; 0] ++ bs "eth0"]) by (vm_compute; reflexivity).
  rewrite E in Hx. destruct Hx as [<-|[]]. discriminate.
Qed.
Print Assumptions C106_edp_vlans_refuted.
