(** Proofs for C113: the decoders, continued. *)
From Coq Require Import Permutation.
From Verif Require Import Base Vis Tlv Types Checks Msg Cdp Edp Fdp Ndp Lldp Protos Wire Util Child Heap SpecHeap HeapProofs.

Definition lossy (c : dctx) (n0 : Z) : bool * Z := (d_mode c =? DECODE_PRINT, n0).
Definition goodU (c : dctx) (m : HM unit) (m' : dst -> dres dst) : Prop :=
  forall n0 base s, ok (lossy c n0) base s -> resU (lossy c n0) base (m s) (m' (erase s)).
Definition goodV (c : dctx) (m : HM Z) (m' : dst -> dres (Z * dst)) : Prop :=
  forall n0 base s, ok (lossy c n0) base s -> resV (lossy c n0) base (m s) (m' (erase s)).
Ltac prs := repeat match goal with x : (_ * _)%type |- _ => destruct x end; cbn beta iota.
Ltac go := repeat (cbn beta iota zeta;
  match goal with
  | H : ok _ _ ?s |- resU _ _ (hlift DFail ?s) DFail => now apply U_fail
  | H : ok _ _ ?s |- resU _ _ (hlift DUB ?s) DUB => now apply U_ub
  | H : ok _ _ ?s |- resU _ _ (hlift DLoop ?s) DLoop => now apply U_loop
  | H : ok _ _ ?s |- resV _ _ (hlift DFail ?s) DFail => now apply V_fail
  | H : ok _ _ ?s |- resV _ _ (hlift DAbort ?s) DAbort => now apply V_abort
  | H : ok _ _ ?s |- resV _ _ (hlift DLoop ?s) DLoop => now apply V_loop
  | H : ok _ _ ?s |- resV _ _ (hlift DUB ?s) DUB => now apply V_ub
  | H : ok _ _ ?s |- resV _ _ (hret _ ?s) (DOk _) => now apply V_ret
  | H : ok _ _ ?s |- resU _ _ (hret tt ?s) (DOk (erase ?s)) => exact (U_tot _ _ _ _ _ (ret_tot _ _) H)
  | H : ok _ _ ?s |- resU _ _ (hbind (hlift _) _ ?s) (dbind _ _) => apply U_lift; [exact H|]; intros ?; prs
  | H : ok _ _ ?s |- resV _ _ (hbind (hlift _) _ ?s) (dbind _ _) => apply V_lift; [exact H|]; intros ?; prs
  | |- resU _ _ ((if ?b then _ else _) _) _ => destruct b
  | |- resV _ _ ((if ?b then _ else _) _) _ => destruct b
  | |- resU _ _ ((match ?b with None => _ | Some _ => _ end) _) _ => destruct b
  | |- resV _ _ ((match ?b with None => _ | Some _ => _ end) _) _ => destruct b
  end).
Ltac fit := unfold fits, PEER_HOSTNAME, PEER_PORTNAME, PEER_PORTDESCR, PEER_CAP, PEER_ADDR_INET4, PEER_ADDR_INET6, PEER_ADDR_802, PEER_VLAN_ID; lia.
Ltac sos := match goal with H : ok _ _ ?s |- _ => refine (U_tot _ _ _ _ _ (sos_ok _ _ _ _ _ _ _) H); fit end.
Ltac num := match goal with H : ok _ _ ?s |- _ => refine (U_tot _ _ _ _ _ (number_ok _ _ _ _ _ _ _) H); fit end.

(** ** CDP *)
Lemma holdtime_at c s : h_holdtime c s = (DOk (holdtime c (erase s)), s). Proof. reflexivity. Qed.
Lemma cdp_header_good c p l : goodU c (h_cdp_header_check c p l) (cdp_header_check c p l).
Proof.
  intros n0 base s Ho. unfold h_cdp_header_check, cdp_header_check. go.
  eapply bind_tot; [apply proto_ok|exact Ho|]. intros s1 Ho1 E1.
  eapply bind_tot; [apply ttl_ok|exact Ho1|]. intros s2 Ho2 E2.
  rewrite (bind_at _ _ _ _ _ (holdtime_at c s2)).
  rewrite E1 in E2. rewrite <- E2. destruct (d_mode c =? DECODE_PRINT).
  - exact (U_tot _ _ _ _ _ (print_ok _ _ _) Ho2).
  - exact (U_tot _ _ _ _ _ (ret_tot _ _) Ho2).
Qed.
Lemma cdp_system_name_good c p l t : goodU c (h_cdp_system_name c p l t) (cdp_system_name c p l t).
Proof. intros n0 base s Ho. unfold h_cdp_system_name, cdp_system_name. go. sos. Qed.
Lemma cdp_port_id_good c p l : goodU c (h_cdp_port_id c p l) (cdp_port_id c p l).
Proof. intros n0 base s Ho. unfold h_cdp_port_id, cdp_port_id. go. sos. Qed.
Lemma descr_good c n0 base label v s : existsb (beq (label ++ bs ":" ++ [10])) headings = true -> d_mode c =? DECODE_PRINT = true -> ok (lossy c n0) base s ->
  resU (lossy c n0) base (h_descr_print label v s) (DOk (descr_print (erase s) label v)).
Proof. intros Hh E. unfold lossy. rewrite E. intros Ho. exact (U_tot _ _ _ _ _ (descr_print_ok _ _ _ _ Hh) Ho). Qed.
Lemma cdp_system_cap_good c p l : goodU c (h_cdp_system_cap c p l) (cdp_system_cap c p l).
Proof. intros n0 base s Ho. unfold h_cdp_system_cap, cdp_system_cap. go. sos. Qed.
Lemma cdp_addr_loop_good c : forall fuel count k, goodU c (h_cdp_addr_loop fuel c count k) (cdp_addr_loop fuel c count k).
Proof.
  induction fuel as [|f IH]; intros count k n0 base s Ho; cbn [h_cdp_addr_loop cdp_addr_loop].
  { go. }
  apply U_lift; [exact Ho|]; intros [pt k1]; cbn beta iota. apply U_lift; [exact Ho|]; intros [pl k2]; cbn beta iota.
  destruct (len k2 <? pl + 2); [go|].
  (* the address family is a slot *)
  match goal with |- resU _ _ (hbind (hlift ?r) _ _) _ => set (R := r) end.
  assert (HR : forall af, R = DOk af -> af = 0 \/ af = PEER_ADDR_INET4 \/ af = PEER_ADDR_INET6).
  { unfold R. intros af. destruct (_ && _); [|destruct (_ && _)].
    - destruct (rdn _ _ _); cbn [dbind]; try discriminate. intros [= <-]. destruct (beq _ _); tauto.
    - destruct (rdn _ _ _); cbn [dbind]; try discriminate. intros [= <-]. destruct (beq _ _); tauto.
    - intros [= <-]. now left. }
  clearbody R. destruct R as [af| | | |]; try (split; [reflexivity|exact I || exact Ho]).
  specialize (HR af eq_refl). change (hbind (hlift (DOk af)) ?g s) with (g af s). cbn [dbind]. cbn beta.
  go. eapply U_bind.
  - destruct (af =? 0); go. refine (U_tot _ _ _ _ _ (sos_ok _ _ _ _ _ _ _) Ho).
    destruct HR as [->|[->| ->]]; fit.
  - intros s' Ho'. go. now apply IH.
Qed.
Lemma cdp_addr_good c p l t : goodU c (h_cdp_addr c p l t) (cdp_addr c p l t).
Proof.
  intros n0 base s Ho. unfold h_cdp_addr, cdp_addr. apply U_lift; [exact Ho|]; intros [count k]; cbn beta iota zeta.
  destruct (d_mode c =? DECODE_PRINT).
  - eapply bind_tot; [apply print_ok|exact Ho|]. intros s1 Ho1 E1. cbn beta in E1. rewrite <- E1. now apply cdp_addr_loop_good.
  - eapply bind_tot; [apply ret_tot|exact Ho|]. intros s1 Ho1 E1. cbn beta in E1. rewrite <- E1. now apply cdp_addr_loop_good.
Qed.
Lemma cdp_vlan_good c p l : goodU c (h_cdp_vlan c p l) (cdp_vlan c p l).
Proof. intros n0 base s Ho. unfold h_cdp_vlan, cdp_vlan. go. num. Qed.
Lemma cdp_vtp_good c p l : goodU c (h_cdp_vtp_print c p l) (cdp_vtp_print c p l).
Proof. intros n0 base s Ho. unfold h_cdp_vtp_print, cdp_vtp_print. go. exact (U_tot _ _ _ _ _ (show_ok _ _ _) Ho). Qed.
Lemma cdp_duplex_good c p l : goodU c (h_cdp_duplex_print c p l) (cdp_duplex_print c p l).
Proof. intros n0 base s Ho. unfold h_cdp_duplex_print, cdp_duplex_print. go. exact (U_tot _ _ _ _ _ (print_ok _ _ _) Ho). Qed.
Lemma cdp_dispatch_good c t p l : goodU c (h_cdp_dispatch c t p l) (cdp_tlv_dispatch c t p l).
Proof.
  intros n0 base s Ho. unfold h_cdp_dispatch, cdp_tlv_dispatch.
  destruct (_ || _); [now apply cdp_system_name_good|]. destruct (_ =? _); [now apply cdp_port_id_good|].
  destruct (_ =? _); [now apply cdp_system_cap_good|]. destruct (_ || _); [now apply cdp_addr_good|].
  destruct ((t =? CDP_TYPE_IOS_VERSION) || (t =? CDP_TYPE_PLATFORM)) eqn:Et.
  { destruct (d_mode c =? DECODE_PRINT) eqn:E; [|go]. unfold h_cdp_descr_print, cdp_descr_print. go.
    apply descr_good; [|exact E|exact Ho]. destruct (t =? CDP_TYPE_IOS_VERSION); [reflexivity|].
    destruct (t =? CDP_TYPE_PLATFORM); [reflexivity|discriminate Et]. }
  clear Et.
  destruct (t =? _); [destruct (d_mode c =? DECODE_PRINT); [now apply cdp_vtp_good|go]|].
  destruct (t =? _); [now apply cdp_vlan_good|].
  destruct (t =? _); [destruct (d_mode c =? DECODE_PRINT); [now apply cdp_duplex_good|go]|go].
Qed.
Lemma cdp_loop_good c : forall fuel k, goodV c (h_cdp_loop fuel c k) (cdp_loop fuel c k).
Proof.
  induction fuel as [|f IH]; intros k n0 base s Ho; cbn [h_cdp_loop cdp_loop]; go.
  eapply V_bind; [now apply cdp_dispatch_good|]. intros s' Ho'. go. now apply IH.
Qed.
Lemma cdp_good c : goodV c (h_cdp_decode c) (cdp_decode c).
Proof.
  intros n0 base s Ho. unfold h_cdp_decode, cdp_decode. go. eapply V_bind; [now apply cdp_header_good|].
  intros s' Ho'. now apply cdp_loop_good.
Qed.

(** ** EDP, FDP, NDP *)
Lemma V_string {A} c n0 base i l k s (f : cur -> HM A) g : fits i -> ok (lossy c n0) base s ->
  (forall k' s', ok (lossy c n0) base s' -> resV (lossy c n0) base (f k' s') (g (s_peer (erase s'), k') (erase s'))) ->
  (forall x p, g x (set_peer (erase s) p) = g x (erase s)) ->
  resV (lossy c n0) base (hbind (h_DECODE_STRING i l (d_buf c) k) f s)
    (let* x := DECODE_STRING (s_peer (erase s)) i l (d_buf c) k in g x (erase s)).
Proof.
  intros Hi Ho H Hg. unfold h_DECODE_STRING, DECODE_STRING. destruct (l <=? len k); [|now split].
  unfold tlv_value_str. unfold hbind at 1 2. rewrite slot_erase.
  destruct (pget (s_peer (erase s)) i) as [w|] eqn:E.
  - cbn. now apply H.
  - unfold hbind at 1 2. cbn [hlift]. destruct (tlv_value_vis (d_buf c) (pos k) l) as [v| | | |]; try (now split).
    cbn [dbind]. destruct (malloc_ok _ _ _ Ho) as (a & s1 & E1 & E2 & _ & Ho1). rewrite (bind_at _ _ _ _ _ E1).
    destruct (set_slot_ok _ _ i a v s1 Hi Ho1) as (s2 & E3 & E4 & Ho2); [now rewrite E2|]. rewrite E3. cbn [hret].
    rewrite E2 in E4. pose proof (H (mkCur (pos k + l) (len k - l)) s2 Ho2) as K. rewrite E4, Hg in K. exact K.
Qed.
Lemma V_string' c n0 base i l k s (f : cur -> HM Z) g : fits i -> ok (lossy c n0) base s ->
  (forall k' s', ok (lossy c n0) base s' -> resV (lossy c n0) base (f k' s') (g k' (erase s'))) ->
  resV (lossy c n0) base (hbind (h_DECODE_STRING i l (d_buf c) k) f s)
    (let* (p', k2) := DECODE_STRING (s_peer (erase s)) i l (d_buf c) k in g k2 (set_peer (erase s) p')).
Proof.
  intros Hi Ho H.
  assert (K : resV (lossy c n0) base (hbind (h_DECODE_STRING i l (d_buf c) k) f s)
    (let* x := DECODE_STRING (s_peer (erase s)) i l (d_buf c) k in g (snd x) (set_peer (erase s) (fst x)))).
  { apply (V_string c n0 base i l k s f (fun x d => g (snd x) (set_peer d (fst x))) Hi Ho); [|reflexivity].
    intros k' s' Ho'. cbn [fst snd]. replace (set_peer (erase s') (s_peer (erase s'))) with (erase s') by now destruct (erase s').
    now apply H. }
  destruct (DECODE_STRING _ _ _ _ _) as [[p' k2]| | | |]; exact K.
Qed.
Lemma edp_loop_good c : forall fuel k, goodV c (h_edp_loop fuel c k) (edp_loop fuel c k).
Proof.
  induction fuel as [|f IH]; intros k n0 base s Ho; cbn [h_edp_loop edp_loop]; go.
  - apply (V_string' c n0 base PEER_HOSTNAME _ _ s (h_edp_loop f c) (edp_loop f c)); [fit|exact Ho|]. intros k' s' Ho'. now apply IH.
  - now apply IH.
Qed.
Lemma edp_good c : goodV c (h_edp_decode c) (edp_decode c).
Proof.
  intros n0 base s Ho. unfold h_edp_decode, edp_decode. go.
  eapply bind_tot; [apply ttl_ok|exact Ho|]. intros s1 Ho1 E1. cbn beta in E1. rewrite <- E1. now apply edp_loop_good.
Qed.
Lemma cap_ok lost base cap s : ok lost base s ->
  exists s', h_value_cap cap s = (DOk tt, s') /\ erase s' = set_peer (erase s) (tlv_value_cap (s_peer (erase s)) cap) /\ ok lost base s'.
Proof.
  intros Ho. unfold h_value_cap, tlv_value_cap. unfold hbind at 1. rewrite slot_erase.
  destruct (pget (s_peer (erase s)) PEER_CAP) as [w|] eqn:E.
  - exists s. split; [reflexivity|]. split; [now destruct (erase s)|exact Ho].
  - destruct (malloc_ok _ _ _ Ho) as (a & s1 & E1 & E2 & _ & Ho1). rewrite (bind_at _ _ _ _ _ E1).
    destruct (set_slot_ok _ _ PEER_CAP a (tlv_str_cap cap) s1 ltac:(fit) Ho1) as (s2 & E3 & E4 & Ho2); [now rewrite E2|].
    exists s2. rewrite E2 in E4. now split.
Qed.
Lemma fdp_loop_good c : forall fuel cap k, goodV c (h_fdp_loop fuel c cap k) (fdp_loop fuel c cap k).
Proof.
  induction fuel as [|f IH]; intros cap k n0 base s Ho; cbn [h_fdp_loop fdp_loop]; go.
  - apply (V_string' c n0 base PEER_HOSTNAME _ _ s (h_fdp_loop f c cap) (fdp_loop f c cap)); [fit|exact Ho|]. intros k' s' Ho'. now apply IH.
  - apply (V_string' c n0 base PEER_PORTNAME _ _ s (h_fdp_loop f c cap) (fdp_loop f c cap)); [fit|exact Ho|]. intros k' s' Ho'. now apply IH.
  - destruct (malloc_ok _ _ _ Ho) as (a & s1 & E1 & E2 & _ & Ho1). rewrite (bind_at _ _ _ _ _ E1).
    match goal with |- context [h_value_cap ?x] => destruct (cap_ok _ _ x s1 Ho1) as (s2 & E3 & E4 & Ho2) end.
    rewrite (bind_at _ _ _ _ _ E3). destruct (free_ok _ _ _ _ Ho2) as (s3 & E5 & E6 & Ho3). rewrite (bind_at _ _ _ _ _ E5).
    rewrite E2 in E4. rewrite <- E4, <- E6. now apply IH.
  - now apply IH.
Qed.
Lemma fdp_good c : goodV c (h_fdp_decode c) (fdp_decode c).
Proof.
  intros n0 base s Ho. unfold h_fdp_decode, fdp_decode. go.
  eapply bind_tot; [apply ttl_ok|exact Ho|]. intros s1 Ho1 E1. cbn beta in E1. rewrite <- E1. now apply fdp_loop_good.
Qed.
Lemma ndp_good c : goodV c (h_ndp_decode c) (ndp_decode c).
Proof.
  intros n0 base s Ho. unfold h_ndp_decode, ndp_decode. go.
  eapply bind_tot; [apply ttl_ok|exact Ho|]. intros s1 Ho1 E1. cbn beta in E1. rewrite <- E1. now apply V_ret.
Qed.

(** ** LLDP *)
Lemma lldp_chassis_good c p l : goodU c (h_lldp_chassis_id c p l) (lldp_chassis_id c p l).
Proof.
  intros n0 base s Ho. unfold h_lldp_chassis_id, lldp_chassis_id. go.
  - exact (U_tot _ _ _ _ _ (show_ok _ _ _) Ho).
Qed.
Lemma lldp_port_id_good c p l : goodU c (h_lldp_port_id c p l) (lldp_port_id c p l).
Proof.
  intros n0 base s Ho. unfold h_lldp_port_id, lldp_port_id. go.
  - sos.
  - exact (U_tot _ _ _ _ _ (show_ok _ _ _) Ho).
Qed.
Lemma lldp_system_name_good c p l : goodU c (h_lldp_system_name c p l) (lldp_system_name c p l).
Proof.
  intros n0 base s Ho. unfold h_lldp_system_name, lldp_system_name. destruct (255 <? l); [go|].
  unfold hbind at 1. rewrite slot_erase. destruct (pget (s_peer (erase s)) PEER_HOSTNAME) as [w|] eqn:E; [go|].
  go. destruct (malloc_ok _ _ _ Ho) as (b & s1 & E1 & E2 & _ & Ho1). rewrite (bind_at _ _ _ _ _ E1).
  rewrite <- E2. destruct (d_mode c =? DECODE_PRINT).
  - destruct (print_ok _ _ (bs "System Name: " ++ a ++ [10]) _ Ho1) as (s2 & E3 & E4 & Ho2). rewrite (bind_at _ _ _ _ _ E3).
    destruct (PEER_STR_ok _ _ PEER_HOSTNAME b a _ ltac:(fit) Ho2) as (s3 & E5 & E6 & Ho3). rewrite E5.
    split; [|exact Ho3]. cbn [ran dbind]. now rewrite E6, E4.
  - change (hbind (hret tt) ?g s1) with (g tt s1). cbn beta.
    destruct (PEER_STR_ok _ _ PEER_HOSTNAME b a _ ltac:(fit) Ho1) as (s3 & E5 & E6 & Ho3). rewrite E5.
    split; [|exact Ho3]. cbn [ran dbind]. now rewrite E6.
Qed.
Lemma lldp_system_cap_good c p l : goodU c (h_lldp_system_cap c p l) (lldp_system_cap c p l).
Proof.
  intros n0 base s Ho. unfold h_lldp_system_cap, lldp_system_cap. destruct (negb (l =? 4)); [go|].
  apply U_lift; [exact Ho|]; intros [avail k]; cbn beta iota. apply U_lift; [exact Ho|]; intros [cap k1]; cbn beta iota.
  destruct (negb _); [go|]. destruct (_ && _); [go|]. cbn zeta.
  destruct (d_mode c =? DECODE_PRINT).
  - eapply bind_tot; [apply show_ok|exact Ho|]. intros s1 Ho1 E1. cbn beta in E1. rewrite <- E1. sos.
  - eapply bind_tot; [apply ret_tot|exact Ho|]. intros s1 Ho1 E1. cbn beta in E1. rewrite <- E1. sos.
Qed.
Lemma lldp_mgmt_addr_good c p l : goodU c (h_lldp_mgmt_addr c p l) (lldp_mgmt_addr c p l).
Proof.
  intros n0 base s Ho. unfold h_lldp_mgmt_addr, lldp_mgmt_addr.
  apply U_lift; [exact Ho|]; intros [afl k1]; cbn beta iota. apply U_lift; [exact Ho|]; intros [afnum k2]; cbn beta iota zeta.
  set (af := if afnum =? LLDP_AFNUM_INET then PEER_ADDR_INET4 else _).
  assert (Hf : fits af) by (unfold af; repeat (destruct (_ =? _)); fit). clearbody af.
  destruct (af =? 0); [go|]. destruct (negb _); [go|].
  unfold hbind at 1. rewrite slot_erase.
  destruct (_ && _); [go|]. go. refine (U_tot _ _ _ _ _ (sos_ok _ _ _ _ _ _ Hf) Ho).
Qed.
Lemma lldp_private_8021_good c k : goodU c (h_lldp_private_8021 c k) (lldp_private_8021 c k).
Proof. intros n0 base s Ho. unfold h_lldp_private_8021, lldp_private_8021. go. num. Qed.
Lemma lldp_private_good c p l : goodU c (h_lldp_private c p l) (lldp_private c p l).
Proof.
  intros n0 base s Ho. unfold h_lldp_private, lldp_private. apply U_lift; [exact Ho|]; intros [oui k]; cbn beta iota.
  destruct (malloc_ok _ _ _ Ho) as (a & s1 & E1 & E2 & _ & Ho1). rewrite (bind_at _ _ _ _ _ E1), <- E2.
  apply finally_ok. destruct (beq oui OUI_8021); [now apply lldp_private_8021_good|go].
Qed.
Lemma lldp_descr_good c t p l n0 base s : d_mode c =? DECODE_PRINT = true -> ok (lossy c n0) base s ->
  resU (lossy c n0) base (h_lldp_descr_print c t p l s) (lldp_descr_print c t p l (erase s)).
Proof. intros E Ho. unfold h_lldp_descr_print, lldp_descr_print. go. apply descr_good; [now destruct (t =? _)|exact E|exact Ho]. Qed.
Lemma lldp_dispatch_good c t p l : goodU c (h_lldp_dispatch c t p l) (lldp_tlv_dispatch c t p l).
Proof.
  intros n0 base s Ho. unfold h_lldp_dispatch, lldp_tlv_dispatch.
  destruct (t =? _); [now apply lldp_system_name_good|]. destruct (t =? _).
  { eapply U_bind.
    - destruct (d_mode c =? DECODE_STR); go. exact (U_tot _ _ _ _ _ (store_ok _ _ PEER_PORTDESCR _ ltac:(fit)) Ho).
    - intros s' Ho'. destruct (d_mode c =? DECODE_PRINT) eqn:E; [now apply lldp_descr_good|go]. }
  destruct (t =? _). { destruct (d_mode c =? DECODE_PRINT) eqn:E; [now apply lldp_descr_good|go]. }
  destruct (t =? _); [now apply lldp_system_cap_good|].
  destruct (t =? _); [now apply lldp_mgmt_addr_good|].
  destruct (t =? _); [now apply lldp_private_good|]. go.
Qed.
Lemma lldp_loop_good c : forall fuel last k, goodV c (h_lldp_loop fuel c last k) (lldp_loop fuel c last k).
Proof.
  induction fuel as [|f IH]; intros last k n0 base s Ho; cbn [h_lldp_loop lldp_loop]; go.
  eapply V_bind; [now apply lldp_dispatch_good|]. intros s' Ho'. go. now apply IH.
Qed.
Lemma lldp_good c : goodV c (h_lldp_decode c) (lldp_decode c).
Proof.
  intros n0 base s Ho. unfold h_lldp_decode, lldp_decode. go. eapply V_bind; [now apply lldp_chassis_good|].
  intros s1 Ho1. go. eapply V_bind; [now apply lldp_port_id_good|]. intros s2 Ho2. go.
  eapply bind_tot; [apply ttl_ok|exact Ho2|]. intros s3 Ho3 E3. cbn beta in E3. rewrite <- E3. cbn zeta.
  destruct (d_mode c =? DECODE_PRINT).
  - set (m := hbind (h_holdtime c) _).
    assert (Em : m s3 = h_print (bs "Time remaining: " ++ dec (holdtime c (erase s3)) ++ bs " seconds" ++ [10]) s3) by reflexivity.
    destruct (print_ok _ _ (bs "Time remaining: " ++ dec (holdtime c (erase s3)) ++ bs " seconds" ++ [10]) _ Ho3) as (s4 & E4 & E5 & Ho4).
    rewrite E4 in Em. rewrite (bind_at _ _ _ _ _ Em), <- E5. now apply lldp_loop_good.
  - change (hbind (hret tt) ?g s3) with (g tt s3). cbn beta. now apply lldp_loop_good.
Qed.
Lemma decode_good p c : goodV c (h_decode p c) (proto_decode p c).
Proof.
  intros n0 base s Ho. unfold h_decode, proto_decode.
  destruct (p =? _); [now apply lldp_good|]. destruct (p =? _); [now apply cdp_good|]. destruct (p =? _); [now apply edp_good|].
  destruct (p =? _); [now apply fdp_good|]. destruct (p =? _); [now apply ndp_good|]. destruct (p =? _); [now apply cdp_good|]. go.
Qed.
