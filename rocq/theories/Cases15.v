(** Hosts and frames for the examples of VLANs and link aggregation. *)
From Verif Require Import Base Tlv Types Msg Protos Wire Util Child Netif Parent Sysinfo Send Spec SpecAdv SpecNetif SpecSend SpecMtu SpecTags
  Lemmas Conformance Cases5 Cases6 Cases8 SendProofs6.

(** The host of Cases5, with these ports of its bridge, and its aggregate a bond
    (of mode LACP) or a team. *)
Definition n_os (ports : list Z) (team : bool) : nos :=
  mkNos (no_ifaddrs v_os1) (no_flags v_os1) (no_wireless v_os1) (no_device v_os1)
    (fun i => if (i =? 4) && team then Some (bs "team") else no_driver v_os1 i) (no_vlan v_os1) (no_vid v_os1)
    (no_alias v_os1) (no_device_id v_os1) (no_bond v_os1) (no_slave v_os1)
    (fun x => match no_bridge v_os1 x with Some _ => Some ports | None => None end)
    (fun i => if (i =? 4) && team then Some (1, [2; 3], 0) else None)
    (no_mtu v_os1) (no_ecmd v_os1).
Lemma n_os_ok ports team : os_ok (n_os ports team).
Proof. exact v_os1_ok. Qed.
(** LLDP and EDP. *)
Definition n_cfg : scfg := mkScfg (mkNcfg 14 [] None (repeat 0 4) (repeat 0 16)) [] (fun p => (p =? 0) || (p =? 2)).
Definition n_list : scfg := mkScfg (mkNcfg 46 [bs "eth0"] None (repeat 0 4) (repeat 0 16)) [] (fun p => (p =? 0) || (p =? 2)).
Definition n_next (cfg : scfg) (os : nos) : list netif * sysinfo := w_next cfg os w_st0.
Lemma n_refresh cfg os ret gone : fst (fst (fst (netif_fetch (sc_net cfg) os (table w_st0) (st_si w_st0)))) = ret -> ret <> 0 ->
  snd (netif_fetch (sc_net cfg) os (table w_st0) (st_si w_st0)) = gone ->
  refresh cfg os w_st0 (fst (n_next cfg os)) (snd (n_next cfg os)).
Proof.
  unfold n_next, w_next. destruct (netif_fetch (sc_net cfg) os (table w_st0) (st_si w_st0)) as [[[r a] b] g] eqn:E. cbn [fst snd].
  intros <- H <-. exists r, g. now split.
Qed.
Definition n_sent (cfg : scfg) (os : nos) : list (Z * Z * list Z) :=
  frames (snd (child_send cfg os NETIF_INDEX_MAX true 1000 w_st0)).
Lemma n_in_sent cfg os i p f : In (i, p, f) (n_sent cfg os) -> In (SFrame i p f) (snd (child_send cfg os NETIF_INDEX_MAX true 1000 w_st0)).
Proof. apply (proj2 (in_frames i p f _)). Qed.
(** Taking frames apart. *)
Fixpoint n_split (k : nat) (l : list Z) : list tlv :=
  match k, l with
  | S k', a :: b :: l' =>
      let n := (a * 256 + b) mod 512 in (a / 2, firstn (Z.to_nat n) l') :: n_split k' (skipn (Z.to_nat n) l')
  | _, _ => []
  end.
Definition n_lldp (f : list Z) : list tlv := n_split 40 (skipn 14 f).
Lemma n_lldp_ok f tlvs : forallb (fun x : tlv => (0 <=? fst x) && (fst x <? 128) && (zlen (snd x) <? 512)) tlvs = true ->
  beq (skipn 14 f) (flat_map lldp_bytes tlvs) = true -> lldp_tlvs f tlvs.
Proof.
  intros H E. split; [|now apply beq_true]. rewrite forallb_forall in H. apply Forall_forall. intros x Hx. apply H in Hx. unfold lldp_fits. lia.
Qed.
Fixpoint n_split_edp (k : nat) (l : list Z) : list (Z * tlv) :=
  match k, l with
  | S k', m :: t :: a :: b :: l' =>
      let n := a * 256 + b - 4 in (m, (t, firstn (Z.to_nat n) l')) :: n_split_edp k' (skipn (Z.to_nat n) l')
  | _, _ => []
  end.
Definition n_edp (f : list Z) : list (Z * tlv) := n_split_edp 40 (skipn 38 f).
Lemma n_edp_ok f tlvs : forallb (fun x : Z * tlv => (0 <=? fst x) && (fst x <? 256) && (0 <=? fst (snd x)) && (fst (snd x) <? 256) && (4 + zlen (snd (snd x)) <? 65536)) tlvs = true ->
  beq (skipn 38 f) (flat_map edp_bytes tlvs) = true -> edp_tlvs f tlvs.
Proof.
  intros H E. split; [|now apply beq_true]. rewrite forallb_forall in H. apply Forall_forall. intros x Hx. apply H in Hx. unfold edp_fits, byte. lia.
Qed.
Lemma n_cons os nfs l : flat_map (fun p => map fst (reported os nfs p)) nfs = l -> NoDup l ->
  (forall i m ports a, no_team os i = Some (m, ports, a) -> m <> 2) -> consistent os nfs.
Proof. intros E D T. split; [now rewrite E|]. intros p ports active _ _ H. now apply T in H. Qed.
Lemma n_numbered nfs : forallb (fun n => 0 <? nf_index n) nfs = true -> numbered nfs.
Proof. intros H n Hn. rewrite forallb_forall in H. apply H in Hn. lia. Qed.
Lemma n_apart os nfs : forallb (fun v => negb (nf_type v =? -1) || forallb (fun p => negb (existsb (fun r => fst r =? nf_index v) (reported os nfs p))) nfs) nfs = true ->
  vlans_apart os nfs.
Proof.
  intros H v p Hv Ht Hp K. rewrite forallb_forall in H. specialize (H v Hv). rewrite Ht in H. cbn [Z.eqb Pos.eqb negb orb] in H.
  rewrite forallb_forall in H. specialize (H p Hp). apply in_map_iff in K as (r & Er & Hr).
  assert (X : existsb (fun r => fst r =? nf_index v) (reported os nfs p) = true) by (apply existsb_exists; exists r; split; [assumption|lia]).
  rewrite X in H. discriminate.
Qed.
