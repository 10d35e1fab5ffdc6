(** Proofs of C147. *)
From Verif Require Import Base Types Tlv Msg Protos Wire Util Child Netif Sysinfo Send Bsd HostBsd BsdSend Opts Getopt Config
  Spec SpecChild SpecAdv SpecNetif SpecNetif2 SpecSend SpecSys SpecOpts SpecGetopt SpecCmd SpecCmd2 SpecFlow SpecBsd SpecHostBsd SpecBsdSend SpecBsdE2E SpecMtu.
From Verif Require Import Lemmas VisProofs TypesProofs EncProofs EncProofs2 EncProofs3 EncProofs4 EncProps TlvInj MtuProofs OptsProofs GetoptProofs ChildProofs4 NetifProofs6 NetifProofs8 NetifProofs9 SendProofs1 SendProofs2 SendProofs3 SendProofs4 SendProofs5 SendProofs6
  SysProofs1 SysProofs3 BsdProofs1 BsdProofs3 BsdSendProofs1 BsdSendProofs2 BsdSendProofs3 E2EProofs BsdE2EProofs CmdProofs CmdProofs2 CmdBsdProofs CmdProofs5.

(** ** What a frame is made of *)
Definition sent_as cfg (st' : sstate) i p f : Prop :=
  exists seq n par mgmt nfs (c : bool) port,
    inputs_ok seq n par mgmt nfs (st_si st') /\ netif_ok n
    /\ f = (let g := advert p (nc_opts (sc_net cfg)) seq n par mgmt nfs (st_si st') in if c then blanked g else g)
    /\ In port (table st') /\ nf_index port = i /\ keep n = keep port
    /\ option_map keep par = option_map keep (at_index (table st') (nf_parent port))
    /\ option_map keep mgmt = option_map keep (at_index (table st') (si_mnetif (st_si st'))).
Lemma l_sent cfg os st st' i p f : l_origin cfg os st st' i p f -> sent_as cfg st' i p f.
Proof.
  intros (ret & nfs & gone & seq & top & sub & _ & _ & W & D & Si & Hs & Ei & Q & Ef & KT).
  assert (Hat : forall o q, at_index nfs o = Some q -> netif_ok q).
  { intros [x|] q X; [|discriminate]. apply find_some in X as [X _]. now apply (well_in nfs). }
  pose proof (well_in _ _ W Hs) as Ok. assert (Hn : netif_ok (netif_media os sub)) by now apply ok_probed.
  destruct (keep_in nfs (table st') sub (eq_sym KT) Hs) as (port & Ip & Kp). destruct (keep_is _ _ Kp) as (P1 & _ & P3 & _).
  exists seq, (netif_media os sub), (at_index nfs (nf_parent sub)), (at_index nfs (si_mnetif (st_si st'))), nfs, ((nf_bonding_mode top =? 2) && negb (nf_child sub =? 1)), port.
  split; [split; [assumption|]; split; [apply Hat|]; split; [apply Hat|]; split; [intros v; now apply well_in|]; now split|].
  split; [assumption|]. split; [exact Ef|]. split; [assumption|]. split; [congruence|].
  split; [rewrite <- Kp; exact (f_equal fixed (media_bare os sub))|].
  split; [rewrite <- P3|]; now apply keep_at.
Qed.
Lemma bl_sent cfg pf os st st' i p f : bl_origin cfg pf os st st' i p f -> sent_as cfg st' i p f.
Proof.
  intros (ret & nfs & gone & seq & top & sub & _ & _ & W & D & Si & Hs & Ei & Q & Ef & KT).
  assert (Hat : forall o q, at_index nfs o = Some q -> netif_ok q).
  { intros [x|] q X; [|discriminate]. apply find_some in X as [X _]. now apply (well_in nfs). }
  pose proof (well_in _ _ W Hs) as Ok. assert (Hn : netif_ok (bsd_media os sub)) by now apply ok_bmedia.
  destruct (keep_in nfs (table st') sub (eq_sym KT) Hs) as (port & Ip & Kp). destruct (keep_is _ _ Kp) as (P1 & _ & P3 & _).
  exists seq, (bsd_media os sub), (at_index nfs (nf_parent sub)), (at_index nfs (si_mnetif (st_si st'))), nfs, ((nf_bonding_mode top =? 2) && negb (nf_child sub =? 1)), port.
  split; [split; [assumption|]; split; [apply Hat|]; split; [apply Hat|]; split; [intros v; now apply well_in|]; now split|].
  split; [assumption|]. split; [exact Ef|]. split; [assumption|]. split; [congruence|].
  split; [rewrite <- Kp; exact (f_equal fixed (bmedia_bare os sub))|].
  split; [rewrite <- P3|]; now apply keep_at.
Qed.

(** ** The content of CDP and FDP frames *)
Lemma skip_blanked k g : 14 <= zlen g -> (14 <= k)%nat -> skipn k (blanked g) = skipn k g.
Proof.
  intros LG Hk. replace k with (14 + (k - 14))%nat by lia. generalize (k - 14)%nat as j. intros j.
  assert (forall A a b (l : list A), skipn (a + b) l = skipn b (skipn a l)) as SS.
  { intros A a. induction a as [|a IH]; intros b l; [reflexivity|]. destruct l as [|x l]; [now rewrite !skipn_nil|]. cbn [Nat.add skipn]. apply IH. }
  rewrite !SS. f_equal. unfold blanked.
  assert (L : (14 <= length g)%nat) by (unfold zlen in LG; lia). clear LG.
  do 14 (destruct g as [|? g]; [exfalso; cbn [length] in L; lia|]). reflexivity.
Qed.
Lemma cdp_like p opts seq n par mgmt nfs si (c : bool) f tlvs :
  In p [1; 3; 5] -> inputs_ok seq n par mgmt nfs si -> netif_ok n ->
  f = (let g := advert p opts seq n par mgmt nfs si in if c then blanked g else g) -> cdp_tlvs f tlvs ->
  tlvs = if p =? 3 then fdp_content n (up (up n par) mgmt) si else cdp_content n (up n par) mgmt si.
Proof.
  intros Hp Hi Hn Ef [Hf E]. cbv zeta in Ef. set (g := advert p opts seq n par mgmt nfs si) in *.
  assert (LG : 14 <= zlen g) by (apply advert_len; exact Hn).
  assert (G : skipn 26 g = flat_map cdp_bytes tlvs) by (rewrite <- E, Ef; destruct c; [symmetry; apply skip_blanked; lia|reflexivity]).
  pose proof (inputs_up _ _ _ _ _ _ Hi) as Hu. destruct Hi as (_ & _ & Hm & Hv & Hs & Hc). assert (Lh : zlen (nf_hwaddr n) = 6) by apply Hn.
  assert (Hmg : netif_ok (up (up n par) mgmt)) by (destruct mgmt; [now apply Hm|easy]).
  symmetry. destruct Hp as [<-|[<-|[<-|[]]]]; cbn [Z.eqb Pos.eqb].
  - apply cdp_list_inj'; [now apply small_fits, cdp_content_small|exact Hf|]. rewrite <- G. symmetry. apply skip26; easy.
  - apply cdp_list_inj'; [now apply small_fits, fdp_content_small|exact Hf|]. rewrite <- G. symmetry. apply skip26; easy.
  - apply cdp_list_inj'; [now apply small_fits, cdp_content_small|exact Hf|]. rewrite <- G. symmetry. apply skip26; easy.
Qed.
Definition kind_is (k : Z) (t : tlv) : bool := fst t =? k.
Lemma addr_same t a b : keep a = keep b -> addr_tlv t a = addr_tlv t b.
Proof.
  intros E. unfold addr_tlv, ip_recs. pose proof (f_equal nf_ipaddr4 E) as E3. pose proof (f_equal nf_ipaddr6 E) as E4.
  change (nf_ipaddr4 a = nf_ipaddr4 b) in E3. change (nf_ipaddr6 a = nf_ipaddr6 b) in E4. now rewrite E3, E4.
Qed.
Lemma addr_kind k t n : filter (kind_is k) (addr_tlv t n) = if t =? k then addr_tlv t n else [].
Proof. unfold addr_tlv. destruct (ip_recs n); [destruct (t =? k); reflexivity|]. unfold kind_is. cbn [filter fst]. destruct (t =? k); reflexivity. Qed.
Lemma cdp_kinds n q mgmt si :
  filter (kind_is 2) (cdp_content n q mgmt si) = addr_tlv 2 q
  /\ filter (kind_is 22) (cdp_content n q mgmt si) = match mgmt with Some m => addr_tlv 22 m | None => [] end.
Proof.
  unfold cdp_content. destruct mgmt as [m|]; rewrite !filter_app, !addr_kind, !filter_when; cbn [filter kind_is fst Z.eqb Pos.eqb]; rewrite !when_nil, ?app_nil_r; cbn [app]; now rewrite ?app_nil_r.
Qed.
Lemma fdp_kinds n q si : filter (kind_is 2) (fdp_content n q si) = addr_tlv 2 q /\ filter (kind_is 22) (fdp_content n q si) = [].
Proof. unfold fdp_content. rewrite !filter_app, !addr_kind. now cbn [filter kind_is fst Z.eqb Pos.eqb app]. Qed.
Lemma up_same t n port par q : keep n = keep port -> option_map keep par = option_map keep q -> addr_tlv t (up n par) = addr_tlv t (up port q).
Proof.
  intros K E. destruct par as [a|], q as [b|]; try discriminate E; cbn [up]; [|now apply addr_same]. apply addr_same. exact (f_equal (fun o => match o with Some y => y | None => keep a end) E).
Qed.
Lemma sent_addresses cfg st' i p f tlvs : sent_as cfg st' i p f -> In p [1; 3; 5] -> cdp_tlvs f tlvs ->
  exists port, In port (table st') /\ nf_index port = i
    /\ (p <> 3 -> filter (kind_is 2) tlvs = addr_tlv 2 (up port (at_index (table st') (nf_parent port)))
        /\ filter (kind_is 22) tlvs = match at_index (table st') (si_mnetif (st_si st')) with Some m => addr_tlv 22 m | None => [] end)
    /\ (p = 3 -> filter (kind_is 2) tlvs = match at_index (table st') (si_mnetif (st_si st')) with
                                          | Some m => addr_tlv 2 m | None => addr_tlv 2 (up port (at_index (table st') (nf_parent port))) end
        /\ filter (kind_is 22) tlvs = []).
Proof.
  intros (seq & n & par & mgmt & nfs & c & port & Hi & Hn & Ef & Ip & Ei & Kn & Kp & Km) Hp Ht.
  exists port. split; [exact Ip|]. split; [exact Ei|]. pose proof (cdp_like _ _ _ _ _ _ _ _ _ _ _ Hp Hi Hn Ef Ht) as ->. split.
  - intros N. replace (p =? 3) with false by lia. destruct (cdp_kinds n (up n par) mgmt (st_si st')) as [-> ->]. split; [now apply up_same|].
    destruct mgmt as [m|], (at_index (table st') (si_mnetif (st_si st'))) as [m'|]; try discriminate Km; [|reflexivity].
    exact (up_same 22 m m' None None (f_equal (fun o => match o with Some y => y | None => keep m end) Km) eq_refl).
  - intros ->. cbn [Z.eqb Pos.eqb]. destruct (fdp_kinds n (up (up n par) mgmt) (st_si st')) as [-> ->]. split; [|reflexivity].
    destruct mgmt as [m|], (at_index (table st') (si_mnetif (st_si st'))) as [m'|]; try discriminate Km; cbn [up]; [|now apply up_same].
    exact (up_same 2 m m' None None (f_equal (fun o => match o with Some y => y | None => keep m end) Km) eq_refl).
Qed.

(** ** The command line *)
Definition own_or_parent (st' : sstate) (port : netif) : netif := up port (at_index (table st') (nf_parent port)).
Lemma l_chosen n o names s st e st' eff i p f l m : main_opts n o names = Some s ->
  running (conf_of s names) st -> event_ok e -> event_apart e ->
  send_step (conf_of s names) st e = DOk (st', eff) -> In (SFrame i p f) eff ->
  m_interfaces n o = l ++ [nf_name m] -> In m (table st') ->
  option_map keep (at_index (table st') (si_mnetif (st_si st'))) = Some (keep m).
Proof.
  intros M R Oe Ap H K G Hm. destruct (step_l_origin _ _ _ _ _ _ _ _ (running_inv _ _ R) Oe H K) as (os & Q & O & L).
  destruct L as (ret & nfs & gone & seq & top & sub & Fe & NZ & W & D & Si & _ & _ & _ & _ & KT).
  destruct (running_refreshed _ _ R) as (oss & nfs0 & R1 & R2).
  destruct (no_ifaddrs os) as [ias|] eqn:Ei; [|rewrite (SendProofs3.fetch_none _ _ _ _ Ei) in Fe; injection Fe as <- _ _ _; congruence].
  assert (NA : names_apart ias) by (destruct e; cbn in Q, Ap; [subst; now apply Ap|subst; now apply Ap|easy]).
  destruct (refresh_rest _ _ _ _ _ _ _ _ _ _ _ R1 R2 Ei O NA Fe) as (_ & _ & _ & _ & _ & _ & MI & _).
  destruct (keep_in (table st') nfs m KT Hm) as (k & Hk & Kk). destruct (keep_is _ _ Kk) as (K1 & K2 & _ & _).
  rewrite (MI k Hk); [|rewrite (opts_managed n o names s l _ M G); now rewrite K2].
  rewrite (keep_at _ _ (Some (nf_index k)) KT), (at_in nfs k D Hk). cbn. now rewrite Kk.
Qed.
Lemma b_chosen n o names s pf st e st' eff i p f l m : main_opts n o names = Some s ->
  b_running (conf_of s names) pf st -> b_event_ok e ->
  bc_step (conf_of s names) pf st e = DOk (st', eff) -> In (SFrame i p f) eff ->
  m_interfaces n o = l ++ [nf_name m] -> In m (table st') ->
  option_map keep (at_index (table st') (si_mnetif (st_si st'))) = Some (keep m).
Proof.
  intros M R Oe H K G Hm. destruct (step_bl_origin _ _ _ _ _ _ _ _ _ (b_running_inv _ _ _ R) Oe H K) as (os & _ & O & L).
  destruct L as (ret & nfs & gone & seq & top & sub & Fe & NZ & W & D & Si & _ & _ & _ & _ & KT).
  destruct (b_running_refreshed _ _ _ R) as (nfs0 & R1 & R2).
  destruct (bo_ifaddrs os) as [ias|] eqn:Ei; [|rewrite (b_fetch_none _ _ _ _ _ Ei) in Fe; injection Fe as <- _ _ _; congruence].
  destruct (b_rest _ _ _ _ _ _ _ _ _ _ _ R1 R2 Ei O Fe) as (_ & _ & _ & _ & _ & _ & MI & _).
  destruct (keep_in (table st') nfs m KT Hm) as (k & Hk & Kk). destruct (keep_is _ _ Kk) as (K1 & K2 & _ & _).
  rewrite (MI k Hk); [|rewrite (opts_managed n o names s l _ M G); now rewrite K2].
  rewrite (keep_at _ _ (Some (nf_index k)) KT), (at_in nfs k D Hk). cbn. now rewrite Kk.
Qed.
Lemma named_from cfg st' i p f tlvs m : sent_as cfg st' i p f -> In p [1; 3; 5] -> cdp_tlvs f tlvs ->
  option_map keep (at_index (table st') (si_mnetif (st_si st'))) = Some (keep m) ->
  filter (kind_is (if p =? 3 then 2 else 22)) tlvs = addr_tlv (if p =? 3 then 2 else 22) m
  /\ (p <> 3 -> exists port, In port (table st') /\ nf_index port = i /\ filter (kind_is 2) tlvs = addr_tlv 2 (own_or_parent st' port)).
Proof.
  intros X Hp Ht Km. destruct (sent_addresses _ _ _ _ _ _ X Hp Ht) as (port & P1 & P2 & P3 & P4).
  destruct (at_index (table st') (si_mnetif (st_si st'))) as [m'|]; [|discriminate Km].
  assert (K : keep m' = keep m) by exact (f_equal (fun o => match o with Some y => y | None => keep m end) Km).
  split; [|intros N; exists port; now destruct (P3 N) as [P3' _]].
  destruct (p =? 3) eqn:E3; [destruct (P4 ltac:(lia)) as [-> _]|destruct (P3 ltac:(lia)) as [_ ->]]; now apply addr_same.
Qed.
Lemma cmd_cisco n perm words s names o st e st' eff i p f tlvs l m :
  main_argv n perm words = Some (s, names) -> says perm daemon_letters words o names ->
  running (conf_of s names) st -> event_ok e -> event_apart e ->
  send_step (conf_of s names) st e = DOk (st', eff) -> In (SFrame i p f) eff -> In p [1; 3; 5] -> cdp_tlvs f tlvs ->
  m_interfaces n o = l ++ [nf_name m] -> In m (table st') ->
  let k := if p =? 3 then 2 else 22 in
  filter (fun t => fst t =? k) tlvs = addr_tlv k m
  /\ (p <> 3 -> exists port, In port (table st') /\ nf_index port = i
      /\ filter (fun t => fst t =? 2) tlvs = addr_tlv 2 (up port (at_index (table st') (nf_parent port)))).
Proof.
  intros A Y R Oe Ap H K Hp Ht G Hm. apply daemon_iff in A as (o' & Y' & M). destruct (says_unique _ _ _ _ _ _ _ (or_introl eq_refl) Y Y') as [<- _]. clear Y'.
  destruct (step_l_origin _ _ _ _ _ _ _ _ (running_inv _ _ R) Oe H K) as (os & _ & _ & L).
  exact (named_from _ _ _ _ _ _ m (l_sent _ _ _ _ _ _ _ L) Hp Ht (l_chosen _ _ _ _ _ _ _ _ _ _ _ l m M R Oe Ap H K G Hm)).
Qed.
Lemma b_cmd_cisco n perm words s names o pf st e st' eff i p f tlvs l m :
  main_argv n perm words = Some (s, names) -> says perm daemon_letters words o names ->
  b_running (conf_of s names) pf st -> b_event_ok e ->
  bc_step (conf_of s names) pf st e = DOk (st', eff) -> In (SFrame i p f) eff -> In p [1; 3; 5] -> cdp_tlvs f tlvs ->
  m_interfaces n o = l ++ [nf_name m] -> In m (table st') ->
  let k := if p =? 3 then 2 else 22 in
  filter (fun t => fst t =? k) tlvs = addr_tlv k m
  /\ (p <> 3 -> exists port, In port (table st') /\ nf_index port = i
      /\ filter (fun t => fst t =? 2) tlvs = addr_tlv 2 (up port (at_index (table st') (nf_parent port)))).
Proof.
  intros A Y R Oe H K Hp Ht G Hm. apply daemon_iff in A as (o' & Y' & M). destruct (says_unique _ _ _ _ _ _ _ (or_introl eq_refl) Y Y') as [<- _]. clear Y'.
  destruct (step_bl_origin _ _ _ _ _ _ _ _ _ (b_running_inv _ _ _ R) Oe H K) as (os & _ & _ & L).
  exact (named_from _ _ _ _ _ _ m (bl_sent _ _ _ _ _ _ _ _ L) Hp Ht (b_chosen _ _ _ _ _ _ _ _ _ _ _ _ l m M R Oe H K G Hm)).
Qed.
Lemma default_from cfg st' i p f tlvs : sent_as cfg st' i p f -> In p [1; 3; 5] -> cdp_tlvs f tlvs -> si_mnetif (st_si st') = None ->
  exists port, In port (table st') /\ nf_index port = i
    /\ filter (kind_is 2) tlvs = addr_tlv 2 (own_or_parent st' port) /\ filter (kind_is 22) tlvs = [].
Proof.
  intros X Hp Ht U. destruct (sent_addresses _ _ _ _ _ _ X Hp Ht) as (port & P1 & P2 & P3 & P4). exists port. split; [assumption|]. split; [assumption|].
  rewrite U in P3, P4. cbn [at_index] in P3, P4. destruct (Z.eq_dec p 3) as [E|E]; [exact (P4 E)|exact (P3 E)].
Qed.
Lemma cmd_cisco_default n perm words s names o st e st' eff i p f tlvs :
  main_argv n perm words = Some (s, names) -> says perm daemon_letters words o names ->
  running (conf_of s names) st -> event_ok e ->
  send_step (conf_of s names) st e = DOk (st', eff) -> In (SFrame i p f) eff -> In p [1; 3; 5] -> cdp_tlvs f tlvs ->
  given (bs "m") o = false ->
  exists port, In port (table st') /\ nf_index port = i
    /\ filter (fun t => fst t =? 2) tlvs = addr_tlv 2 (up port (at_index (table st') (nf_parent port))) /\ filter (fun t => fst t =? 22) tlvs = [].
Proof.
  intros A Y R Oe H K Hp Ht G. apply daemon_iff in A as (o' & Y' & M). destruct (says_unique _ _ _ _ _ _ _ (or_introl eq_refl) Y Y') as [<- _]. clear Y'.
  destruct (step_l_origin _ _ _ _ _ _ _ _ (running_inv _ _ R) Oe H K) as (os & _ & _ & L).
  exact (default_from _ _ _ _ _ _ (l_sent _ _ _ _ _ _ _ L) Hp Ht (running_unmanaged _ _ (opts_unmanaged n o names s M G) (run_event _ _ _ _ _ R Oe H))).
Qed.
Lemma b_cmd_cisco_default n perm words s names o pf st e st' eff i p f tlvs :
  main_argv n perm words = Some (s, names) -> says perm daemon_letters words o names ->
  b_running (conf_of s names) pf st -> b_event_ok e ->
  bc_step (conf_of s names) pf st e = DOk (st', eff) -> In (SFrame i p f) eff -> In p [1; 3; 5] -> cdp_tlvs f tlvs ->
  given (bs "m") o = false ->
  exists port, In port (table st') /\ nf_index port = i
    /\ filter (fun t => fst t =? 2) tlvs = addr_tlv 2 (up port (at_index (table st') (nf_parent port))) /\ filter (fun t => fst t =? 22) tlvs = [].
Proof.
  intros A Y R Oe H K Hp Ht G. apply daemon_iff in A as (o' & Y' & M). destruct (says_unique _ _ _ _ _ _ _ (or_introl eq_refl) Y Y') as [<- _]. clear Y'.
  destruct (step_bl_origin _ _ _ _ _ _ _ _ _ (b_running_inv _ _ _ R) Oe H K) as (os & _ & _ & L).
  exact (default_from _ _ _ _ _ _ (bl_sent _ _ _ _ _ _ _ _ L) Hp Ht (b_running_unmanaged _ _ _ (opts_unmanaged n o names s M G) (brun_event _ _ _ _ _ _ R Oe H))).
Qed.
