(** Requests to the privileged process, multicast memberships. *)
From Verif Require Import Base Types Tlv Checks Wire Parent Spec SpecAdv SpecRound SpecNet
  Lemmas NetProofs WireProofs ParentProofs.

(** ** Requests *)
Lemma pr_len_range d : bytes d -> -9223372036854775808 <= pr_len (req_mem d) < 9223372036854775808.
Proof.
  intros Hb. unfold pr_len, sgn64. pose proof (unle_bound (slice (req_mem d) 24 8)) as B.
  rewrite zlen_slice in B by (rewrite ?zlen_req_mem; lia).
  change (256 ^ 8) with 18446744073709551616 in B. specialize (B (bytes_slice _ _ _ (bytes_req_mem _ Hb))).
  destruct (_ <? _) eqn:E; lia.
Qed.
Lemma req_size_iff d : bytes d ->
  req_size_ok (Z.min (zlen d) PARENT_REQ_MAX) (req_mem d) = true <-> request_size d.
Proof.
  intros Hb. pose proof (pr_len_range d Hb) as B. pose proof (zlen_nonneg _ d) as N.
  unfold req_size_ok, request_size, PARENT_REQ_MIN, PARENT_REQ_MAX.
  revert B N. generalize (pr_len (req_mem d)) (zlen d). intros a b B N.
  rewrite andb_true_iff, Z.leb_le, Z.eqb_eq. split.
  - intros [H1 H2]. split; [lia|].
    destruct (Z_lt_le_dec (32 + a) 0).
    + rewrite <- (Z.mod_add (32 + a) 1), Z.mod_small in H2; lia.
    + rewrite Z.mod_small in H2; lia.
  - intros [H1 H2]. split; [lia|]. rewrite Z.mod_small; lia.
Qed.
Lemma pr_op_range d : bytes d -> 0 <= pr_op (req_mem d) < 256.
Proof.
  intros H. unfold pr_op. apply bytes_req_mem in H. unfold bytes, byte in H. rewrite Forall_forall in H.
  apply H. apply nth_In. apply Nat2Z.inj_lt. change (Z.of_nat (length (req_mem d))) with (zlen (req_mem d)).
  rewrite zlen_req_mem. lia.
Qed.
Lemma check_legal cfg op len : 0 <= op -> len <= 512 ->
  parent_check cfg op len = Some true <-> legal_request (pc_team cfg) (pc_pci cfg) op len.
Proof.
  intros Ho Hl. unfold parent_check, ETHER_MAX_LEN, PARENT_MAX.
  replace (len <=? 1518) with true by lia. cbn [negb].
  destruct (op <? 9) eqn:E; cbn [negb].
  - assert (C : op = 0 \/ op = 1 \/ op = 2 \/ op = 3 \/ op = 4 \/ op = 5 \/ op = 6 \/ op = 7 \/ op = 8) by lia.
    destruct C as [-> | [-> | [-> | [-> | [-> | [-> | [-> | [-> | ->]]]]]]]]; cbn [legal_request].
    all: try (split; [now intros _|reflexivity]).
    + change (parent_check cfg 2 len) with (if len <=? 64 then Some true else None).
      cbn -[Z.leb]. unfold IFDESCRSIZE. destruct (len <=? 64) eqn:K; split; try easy; lia.
    + cbn. destruct (pc_pci cfg); split; easy.
    + cbn -[Z.eqb]. unfold ETHTOOL_CMD_SIZE. cbn [Z.eqb]. destruct (len =? 44) eqn:K; split; try easy; lia.
    + cbn -[Z.eqb]. unfold ETHTOOL_DRVINFO_SIZE. destruct (len =? 196) eqn:K; split; try easy; lia.
    + cbn. destruct (pc_team cfg); split; easy.
  - split; [discriminate|]. unfold legal_request.
    destruct op as [|op|op]; try lia.
    do 4 (destruct op as [op|op|]; try lia; try easy).
Qed.

Lemma cstr_le l : zlen (cstr l) <= zlen l.
Proof. induction l as [|b l IH]; cbn [cstr]; [lia|]. destruct (b =? 0); zlia. Qed.
Lemma cstr_cut a b : zlen (cstr (a ++ 0 :: b)) <= zlen a.
Proof. induction a as [|x a IH]; cbn [cstr app]; [zlia|]. destruct (x =? 0); zlia. Qed.
Lemma upto_nl_le l : zlen (upto_nl l) <= zlen l.
Proof. induction l as [|b l IH]; cbn [upto_nl]; [lia|]. destruct (b =? 10); zlia. Qed.
Lemma zlen_firstn_le A n (l : list A) : zlen (firstn n l) <= Z.of_nat n.
Proof. unfold zlen. rewrite firstn_length. lia. Qed.
Lemma read_line_le l : zlen (read_line l IFDESCRSIZE) <= 63.
Proof.
  unfold read_line, IFDESCRSIZE. etransitivity; [apply cstr_le|]. etransitivity; [apply upto_nl_le|].
  etransitivity; [apply zlen_firstn_le|]. lia.
Qed.
Lemma put0_len buf : zlen buf = 512 -> zlen (put0 buf 64) = 512.
Proof.
  intros H. unfold put0, zlen in *. rewrite !app_length, firstn_length, skipn_length. cbn [length]. lia.
Qed.
Lemma put0_str buf : zlen (cstr (put0 buf 64)) <= 64.
Proof.
  unfold put0. cbn [app]. etransitivity; [apply cstr_cut|]. etransitivity; [apply zlen_firstn_le|]. lia.
Qed.
Lemma put_str_len s buf : zlen s <= 511 -> zlen buf = 512 -> zlen (put_str s buf) = 512.
Proof.
  intros H1 H. unfold put_str, zlen in *. rewrite !app_length, skipn_length. cbn [length]. lia.
Qed.
Lemma overlay_len n d buf : 0 <= n <= 512 -> zlen buf = 512 ->
  zlen (firstn (Z.to_nat n) (d ++ zeros n) ++ skipn (Z.to_nat n) buf) = 512.
Proof.
  intros Hn H. unfold zlen in *. rewrite app_length, firstn_length, skipn_length, app_length.
  unfold zeros. rewrite repeat_length. lia.
Qed.
Lemma answer_ok cfg op index name buf os n buf' eff : zlen buf = 512 -> 2 <= op <= 8 ->
  req_answer cfg op name buf os = (n, buf', eff) ->
  0 <= n <= 512 /\ zlen buf' = 512 /\ Forall (req_about index name op) eff.
Proof.
  intros Hb Ho. unfold req_answer, PARENT_DESCR, PARENT_ALIAS, PARENT_ETHTOOL_GSET, PARENT_ETHTOOL_GDRV,
    PARENT_DEVICE, PARENT_DEVICE_ID. change IFDESCRSIZE with 64. cbv zeta.
  destruct ((op =? 2) || (op =? 3)) eqn:E1.
  { destruct (os_stat os); cbn [negb].
    2:{ intros [= <- <- <-]. split; [lia|]. split; [now apply put0_len|constructor]. }
    pose proof (put0_str buf) as P. pose proof (zlen_nonneg _ (cstr (put0 buf 64))) as P0.
    destruct (op =? 2) eqn:E2.
    - intros [= <- <- <-]. split; [destruct (0 <? _) eqn:E; lia|]. split; [now apply put0_len|].
      constructor; [|constructor]. cbn [req_about]. split; [lia|]. split; [reflexivity|exact P].
    - intros [= <- <- <-]. pose proof (read_line_le (os_alias os)) as R. unfold IFDESCRSIZE in R.
      pose proof (zlen_nonneg _ (read_line (os_alias os) 64)).
      split; [lia|]. split; [apply put_str_len; [lia|now apply put0_len]|constructor]. }
  destruct ((op =? 6) || (op =? 7)).
  { destruct (os_ethtool os) as [d|]; intros [= <- <- <-].
    - unfold ETHTOOL_CMD_SIZE, ETHTOOL_DRVINFO_SIZE. destruct (op =? 6);
        (split; [lia|]); (split; [apply overlay_len; [lia|assumption]|constructor]).
    - split; [lia|]. split; [assumption|constructor]. }
  destruct (op =? 4).
  { intros [= <- <- <-]. split; [destruct (os_stat os); lia|]. split; [assumption|constructor]. }
  destruct (op =? 5).
  { pose proof (zlen_firstn_le _ 511 (cstr (os_device_id os))) as K.
    revert K. generalize (firstn 511 (cstr (os_device_id os))) as s. intros s K [= <- <- <-].
    pose proof (zlen_nonneg _ s).
    split; [lia|]. split; [apply put_str_len; [lia|assumption]|constructor]. }
  unfold TEAM_INFO_SIZE. destruct (os_team os) as [d|]; intros [= <- <- <-].
  - split; [lia|]. split; [|constructor]. apply (overlay_len 136); [lia|assumption].
  - split; [lia|]. split; [assumption|constructor].
Qed.
Lemma multi_req_about cfg index name op op' : op = 0 \/ op = 1 ->
  Forall (req_about index name op) (parent_multi cfg index op').
Proof.
  intros Ho. unfold parent_multi. destruct (has _ _); [constructor|].
  generalize 0 as p. generalize (pc_enabled cfg) as en. clear -Ho. intros en. revert op'.
  induction en as [|e en IH]; intros op' p; cbn [multi_loop]; [constructor|].
  destruct (_ && _); [apply IH|]. constructor; [|apply IH]. now split.
Qed.
Lemma zlen_pr_buf d : zlen (pr_buf (req_mem d)) = 512.
Proof. unfold pr_buf. apply zlen_slice; rewrite ?zlen_req_mem; lia. Qed.

(** Everything about one request. *)
Lemma req_cases cfg fds d os : bytes d ->
  let r := parent_req cfg fds d os in
  let op := pr_op (req_mem d) in
  let index := pr_index (req_mem d) in
  (~ request_size d -> r = mkRes fds [] false)
  /\ (request_size d -> os_name os = None ->
      r_fds r = fds /\ r_eff r = [EReply op index 0 []])
  /\ (forall name, request_size d -> os_name os = Some name ->
      ~ legal_request (pc_team cfg) (pc_pci cfg) op (pr_len (req_mem d)) -> r = mkRes fds [] false)
  /\ (forall name, request_size d -> os_name os = Some name -> Forall (req_about index name op) (r_eff r)).
Proof.
  intros Hb. cbv zeta. unfold parent_req. cbv zeta. pose proof (req_size_iff d Hb) as S.
  split; [|split; [|split]].
  - intros H. destruct (req_size_ok _ _); [now contradiction (H (proj1 S eq_refl))|reflexivity].
  - intros H Hn. rewrite (proj2 S H), Hn. cbn [negb]. split; [reflexivity|].
    cbn [r_eff app]. now rewrite firstn_O.
  - intros name H Hn Hl. rewrite (proj2 S H), Hn. cbn [negb].
    destruct H as [H1 H2]. pose proof (pr_op_range d Hb).
    pose proof (check_legal cfg (pr_op (req_mem d)) (pr_len (req_mem d)) ltac:(lia) ltac:(lia)) as L.
    destruct (parent_check _ _ _) as [[]|]; try reflexivity. now contradiction (Hl (proj1 L eq_refl)).
  - intros name H Hn. rewrite (proj2 S H), Hn. cbn [negb].
    destruct H as [H1 H2]. pose proof (pr_op_range d Hb).
    pose proof (check_legal cfg (pr_op (req_mem d)) (pr_len (req_mem d)) ltac:(lia) ltac:(lia)) as L.
    destruct (parent_check _ _ _) as [[]|]; try constructor. apply proj1 in L. specialize (L eq_refl).
    pose proof (zlen_pr_buf d) as Lb. unfold PARENT_OPEN, PARENT_CLOSE.
    assert (R : req_about (pr_index (req_mem d)) name (pr_op (req_mem d))
      (EReply (pr_op (req_mem d)) (pr_index (req_mem d)) (pr_len (req_mem d))
        (firstn (Z.to_nat (pr_len (req_mem d))) (pr_buf (req_mem d))))).
    { cbn [req_about]. split; [reflexivity|]. split; [reflexivity|]. split; [lia|]. apply zlen_firstn. lia. }
    destruct (pr_op (req_mem d) =? 0) eqn:E0.
    { destruct (rfd_byindex _ _); [repeat constructor; apply R|].
      destruct (parent_open _ _ _ _ _) as [[[fds1 eff] ok]|] eqn:Eo; [|constructor].
      cbn [r_eff]. apply Forall_app. split; [|constructor; [apply R|constructor]].
      unfold parent_open in Eo. destruct (os_sock os); [|injection Eo as <- <- <-; constructor|discriminate].
      destruct (_ <? 0); injection Eo as <- <- <-; [constructor|].
      constructor; [cbn [req_about]; split; [lia|now split]|].
      destruct (_ || _); [constructor|]. apply multi_req_about. lia. }
    destruct (pr_op (req_mem d) =? 1) eqn:E1.
    { destruct (rfd_byindex _ _) as [q|] eqn:Eb; [|repeat constructor; apply R].
      apply byindex_index in Eb as [Ei _]. unfold parent_close. cbn [r_eff]. rewrite Ei.
      apply Forall_app. split; [|constructor; [apply R|constructor]].
      apply Forall_app. split.
      - destruct (_ && _); [|constructor]. apply multi_req_about. lia.
      - constructor; [|constructor]. cbn [req_about]. split; [lia|reflexivity]. }
    assert (O : 2 <= pr_op (req_mem d) <= 8).
    { clear -L E0 E1 H. split; [lia|]. destruct (pr_op (req_mem d)) as [|op|op]; try lia.
      do 4 (destruct op as [op|op|]; try lia; try easy). }
    destruct (req_answer _ _ _ _ _) as [[n buf'] eff] eqn:Ea.
    apply (answer_ok _ _ (pr_index (req_mem d))) in Ea as (A1 & A2 & A3); [|assumption|assumption].
    cbn [r_eff]. apply Forall_app. split; [assumption|]. constructor; [|constructor].
    cbn [req_about]. split; [reflexivity|]. split; [reflexivity|]. split; [assumption|].
    apply zlen_firstn. lia.
Qed.

(** Open and close requests. *)
Lemma req_open_again cfg fds d os name r : bytes d -> request_size d -> os_name os = Some name ->
  pr_op (req_mem d) = 0 -> In r fds -> rf_index r = pr_index (req_mem d) ->
  r_fds (parent_req cfg fds d os) = fds
  /\ exists len data, r_eff (parent_req cfg fds d os) = [EReply 0 (pr_index (req_mem d)) len data].
Proof.
  intros Hb Hs Hn Ho Hr Hi. pose proof Hs as [H1 H2].
  unfold parent_req. cbv zeta. rewrite (proj2 (req_size_iff d Hb) Hs), Hn, Ho. cbn [negb].
  rewrite (proj2 (check_legal cfg 0 (pr_len (req_mem d)) ltac:(lia) ltac:(lia)) I). cbn [Z.eqb].
  change (0 =? PARENT_OPEN) with true. cbn [Z.eqb].
  destruct (rfd_byindex fds _) as [q|] eqn:E.
  - split; [reflexivity|]. do 2 eexists. reflexivity.
  - apply byindex_none in E. contradiction E. apply in_map_iff. now exists r.
Qed.
Lemma req_close cfg fds d os name : one_each fds -> bytes d -> request_size d -> os_name os = Some name ->
  pr_op (req_mem d) = 1 ->
  ~ In (pr_index (req_mem d)) (map rf_index (r_fds (parent_req cfg fds d os)))
  /\ forall r, In r fds -> rf_index r <> pr_index (req_mem d) -> In r (r_fds (parent_req cfg fds d os)).
Proof.
  intros Ho Hb Hs Hn Hop. pose proof Hs as [H1 H2].
  unfold parent_req. cbv zeta. rewrite (proj2 (req_size_iff d Hb) Hs), Hn, Hop. cbn [negb].
  rewrite (proj2 (check_legal cfg 1 (pr_len (req_mem d)) ltac:(lia) ltac:(lia)) I).
  change (1 =? PARENT_OPEN) with false. change (1 =? PARENT_CLOSE) with true.
  destruct (rfd_byindex fds _) as [q|] eqn:E.
  - apply byindex_index in E as [Ei _]. unfold parent_close. cbn [r_fds]. rewrite Ei.
    split; [now apply remove_one|].
    intros r Hr Hne. clear -Hr Hne. induction fds as [|x fds IH]; [easy|]. cbn [rfd_remove].
    destruct (rf_index x =? pr_index (req_mem d)) eqn:E.
    + destruct Hr as [<-|Hr]; [lia|assumption].
    + destruct Hr as [<-|Hr]; [now left|right; now apply IH].
  - apply byindex_none in E. split; [exact E|]. now intros.
Qed.

(** ** Memberships *)
(** The addresses of the enabled protocols, from protocol [p] on. *)
Fixpoint wanted (auto : bool) (p : Z) (en : list bool) : list (list Z) :=
  match en with
  | [] => []
  | e :: en' => if e || auto then proto_dst p :: wanted auto (p + 1) en' else wanted auto (p + 1) en'
  end.
Lemma adds cfg index en : forall p op, op <> 0 -> forall have,
  memberships have (multi_loop cfg index p en op) =
  rev (wanted (has (pc_opts cfg) OPT_AUTO) p en) ++ have.
Proof.
  induction en as [|e en IH]; intros p op Hop have; cbn [multi_loop wanted]; [reflexivity|].
  rewrite <- negb_orb. destruct (e || has (pc_opts cfg) OPT_AUTO); cbn [negb].
  - replace (op =? 0) with false by lia. cbn [negb].
    transitivity (memberships (proto_dst p :: have) (multi_loop cfg index (p + 1) en 1)); [reflexivity|].
    rewrite IH by discriminate. cbn [rev]. now rewrite <- app_assoc.
  - now apply IH.
Qed.
Lemma drops cfg index en : forall p have,
  memberships have (multi_loop cfg index p en 0) =
  match wanted (has (pc_opts cfg) OPT_AUTO) p en with
  | [] => have
  | a :: more => rev more ++ drop_one a have
  end.
Proof.
  induction en as [|e en IH]; intros p have; cbn [multi_loop wanted]; [reflexivity|].
  rewrite <- negb_orb. destruct (e || has (pc_opts cfg) OPT_AUTO); cbn [negb]; [|apply IH].
  change (0 =? 0) with true. cbn [negb].
  transitivity (memberships (drop_one (proto_dst p) have) (multi_loop cfg index (p + 1) en 2)); [reflexivity|].
  now rewrite adds.
Qed.
Lemma memberships_app a b have : memberships have (a ++ b) = memberships (memberships have a) b.
Proof.
  revert have. induction a as [|e a IH]; intros have; [reflexivity|]. cbn [app memberships].
  destruct e; try apply IH. destruct op as [|q|q]; try apply IH.
  destruct q as [q|q|]; try apply IH. destruct q; apply IH.
Qed.
(** What is left after opening and closing: nothing for at most one protocol,
    else every protocol but the first one twice. *)
Lemma open_close_left cfg index : has (pc_opts cfg) OPT_DEBUG = false ->
  memberships [] (parent_multi cfg index 1 ++ parent_multi cfg index 0) =
  match wanted (has (pc_opts cfg) OPT_AUTO) 0 (pc_enabled cfg) with
  | [] => []
  | a :: more => rev more ++ drop_one a (rev more ++ [a])
  end.
Proof.
  intros Hd. unfold parent_multi. rewrite Hd, memberships_app, drops, adds by discriminate.
  rewrite app_nil_r. now destruct (wanted _ _ _).
Qed.
Lemma wanted_len auto en : forall p, (length (wanted auto p en) = length (filter (fun e => e || auto) en))%nat.
Proof.
  induction en as [|e en IH]; intros p; cbn [wanted filter]; [reflexivity|].
  destruct (e || auto); cbn [length]; now rewrite IH.
Qed.
Lemma one_left cfg index : has (pc_opts cfg) OPT_DEBUG = false ->
  (length (filter (fun e => e || has (pc_opts cfg) OPT_AUTO) (pc_enabled cfg)) <= 1)%nat ->
  memberships [] (parent_multi cfg index 1 ++ parent_multi cfg index 0) = [].
Proof.
  intros Hd H. rewrite open_close_left by assumption. rewrite <- (wanted_len _ _ 0) in H.
  destruct (wanted _ _ _) as [|a [|b l]]; [reflexivity| |cbn in H; lia].
  cbn. now rewrite beq_refl.
Qed.
Lemma open_close_one cfg fds index name os fds1 eff1 r fds2 eff2 :
  has (pc_opts cfg) OPT_DEBUG = false ->
  (length (filter (fun e => e || has (pc_opts cfg) OPT_AUTO) (pc_enabled cfg)) <= 1)%nat ->
  parent_open cfg fds index name os = Some (fds1, eff1, true) -> rf_index r = index ->
  parent_close cfg fds1 r = (fds2, eff2) ->
  memberships [] (eff1 ++ eff2) = [].
Proof.
  intros Hd Hl Ho Hr Hc. pose proof (one_left cfg index Hd Hl) as K. rewrite memberships_app in K.
  unfold parent_open in Ho. destruct (os_sock os); try discriminate. destruct (_ <? 0); [discriminate|].
  injection Ho as <- <-. unfold parent_close in Hc. injection Hc as <- <-. rewrite Hd, Hr.
  rewrite orb_false_r, andb_true_r. rewrite memberships_app. cbn [memberships].
  destruct (has (pc_opts cfg) OPT_RECV); cbn [negb]; [|reflexivity].
  now rewrite memberships_app, K.
Qed.
(** A failed transmission on a vanished device releases the socket. *)
Lemma send_gone cfg fds d os index p received f payload name :
  one_each fds -> bytes f -> carries d index p received f -> bytes d -> 0 <= p < 6 -> 60 <= zlen f <= 1518 ->
  proto_frame p f payload -> os_name os = Some name -> has (pc_opts cfg) OPT_DEBUG = false ->
  os_rawlen os = -1 -> os_gone os = true -> os_sock os <> SockFatal ->
  ~ In index (map rf_index (r_fds (parent_send cfg fds d os))).
Proof.
  intros Ho Hf (L & Ei & Ep & Er & El & Em) Hb Hp Hl Hpf Hn Hd Hw Hg Hs.
  unfold parent_send. cbv zeta. rewrite Hn, Ei, Ep, El, Em, Hd, Hw, Hg.
  assert (Es : msg_size_ok (Z.min (zlen d) PARENT_MSG_MAX) (msg_mem d) = true).
  { unfold msg_size_ok, PARENT_MSG_MIN, PARENT_MSG_MAX. rewrite El, L, Z.mod_small by lia. lia. }
  rewrite Es. cbn [negb]. replace (60 <=? zlen f) with true by lia.
  replace (p <? PROTO_MAX) with true by (unfold PROTO_MAX; lia). cbn [negb].
  assert (Hin : DecProofs.in_buffer (Msg.mkCtx (f ++ repeat 0 (Z.to_nat (1518 - zlen f))) (zlen f) 1 [] 0 0) f).
  { exists (repeat 0 (Z.to_nat (1518 - zlen f))). cbn [Msg.d_buf Msg.d_len]. split; [reflexivity|].
    split; [zl; lia|]. split; [reflexivity|]. split; assumption. }
  destruct (proj2 (check_frame p _ _ Hp Hin) (ex_intro _ _ Hpf)) as [o Eo]. cbn [Msg.d_buf Msg.d_len] in Eo.
  rewrite Eo. change ((-1 =? -1) && true) with true. cbv iota.
  assert (G : forall fds1 eff1, one_each fds1 -> ~ In index (map rf_index (r_fds
      match rfd_byindex fds1 index with
      | None => mkRes fds1 eff1 false
      | Some r => let '(fds3, eff3) := parent_close cfg fds1 r in
         mkRes fds3 ((eff1 ++ [EFrame (rf_index r) (rf_fd r) (firstn (Z.to_nat (zlen f)) (f ++ repeat 0 (Z.to_nat (1518 - zlen f))))]) ++ eff3) true
      end))).
  { intros fds1 eff1 H1. destruct (rfd_byindex fds1 index) as [r|] eqn:E.
    - apply byindex_index in E as [E _]. unfold parent_close. cbn [r_fds]. rewrite E. now apply remove_one.
    - now apply byindex_none. }
  destruct (rfd_byindex fds index) as [r|] eqn:Eb; [exact (G fds [] Ho)|].
  destruct (parent_open cfg fds index name os) as [[[fds1 eff1] ok]|] eqn:Ek.
  - destruct ok; [apply G; now apply open_one in Ek|].
    unfold parent_open in Ek. destruct (os_sock os); try discriminate.
    + destruct (_ <? 0); [|discriminate]. injection Ek as <- <-. now apply byindex_none.
    + injection Ek as <- <-. now apply byindex_none.
  - now apply byindex_none.
Qed.
