(** Requests on BSD (C109). *)
From Verif Require Import Base Types Tlv Checks Wire Util Child Parent Mreq Netif Sysinfo Bsd HostBsd Spec SpecNet SpecSys SpecMreq SpecHostBsd
  Lemmas NetProofs WireProofs ParentProofs ParentProofs2 ChildProofs3 CliProofs4 MreqProofs.

Definition b_legal (q : preq) : Prop := rq_op q = 0 \/ rq_op q = 1 \/ rq_op q = 2 /\ rq_len q <= 64.
Lemma b_check q : request q -> b_legal q -> bsd_check (rq_op q) (rq_len q) = Some true.
Proof.
  intros (_ & L & _) H. unfold bsd_check, ETHER_MAX_LEN, PARENT_MAX, PARENT_OPEN, PARENT_CLOSE, PARENT_DESCR, IFDESCRSIZE.
  replace (rq_len q <=? 1518) with true by lia. cbn [negb].
  destruct H as [->|[->|[-> H]]]; cbn; try reflexivity. now replace (rq_len q <=? 64) with true by lia.
Qed.
Lemma put0_len b : zlen b = 512 -> zlen (put0 b 64) = 512.
Proof. intros H. unfold put0. zl. unfold zlen in *. rewrite firstn_length, skipn_length. lia. Qed.
Lemma b_req_last cfg fds q os : request q -> br_alive (bsd_req cfg fds (mreq_out q) os) = true ->
  exists eff len data, br_eff (bsd_req cfg fds (mreq_out q) os) = eff ++ [BSys (EReply (rq_op q) (rq_index q) len data)]
    /\ 0 <= len <= 512 /\ zlen data = len.
Proof.
  intros Hq. destruct (out_fields q Hq) as (S & F1 & F2 & F3 & F4). unfold bsd_req. cbv zeta. rewrite S, F1, F2, F3, F4. cbn [negb].
  assert (Lp : zlen (payload q ++ zeros (512 - rq_len q)) = 512).
  { destruct Hq as (_ & Hl & Hb). zl. rewrite zlen_zeros by lia. unfold payload. rewrite zlen_firstn by lia. lia. }
  set (b := payload q ++ zeros (512 - rq_len q)) in *.
  destruct Hq as (Hi & Hl & Hb). assert (Z : zlen (firstn (Z.to_nat (rq_len q)) b) = rq_len q) by (apply zlen_firstn; lia).
  destruct (os_name os) as [name|]; [|intros _; exists [], 0, []; split; [reflexivity|]; split; [lia|reflexivity]].
  destruct (bsd_check _ _) as [[|]|]; try discriminate. unfold PARENT_OPEN, PARENT_CLOSE. destruct (rq_op q =? 0).
  { destruct (rfd_byindex _ _); [intros _; exists []; do 2 eexists; split; [reflexivity|]; split; [exact Hl|exact Z]|].
    destruct (bsd_open _ _ _ _ _) as [[[f1 e1] ok]|]; [|discriminate]. intros _. exists e1. do 2 eexists. split; [reflexivity|]. split; [exact Hl|exact Z]. }
  destruct (rq_op q =? 1).
  { destruct (rfd_byindex _ _); [|intros _; exists []; do 2 eexists; split; [reflexivity|]; split; [exact Hl|exact Z]].
    destruct (bsd_close _ _ _) as [f1 e1]. intros _. exists e1. do 2 eexists. split; [reflexivity|]. split; [exact Hl|exact Z]. }
  destruct (0 <=? os_written os); intros _.
  - exists [BDescr (firstn 15 name) (rq_len q) (put0 b IFDESCRSIZE)]. do 2 eexists.
    split; [reflexivity|]. split; [exact Hl|]. apply zlen_firstn. pose proof (put0_len b Lp). unfold IFDESCRSIZE. lia.
  - exists [], 0, []. split; [reflexivity|]. split; [lia|reflexivity].
Qed.
Lemma b_exchange_ok cfg fds q os : request q -> br_alive (bsd_req cfg fds (mreq_out q) os) = true ->
  exists name len data, bsd_exchange cfg fds q os
    = (bsd_req cfg fds (mreq_out q) os, DOk (mkPreq (rq_op q) (rq_index q) name len (data ++ zeros (512 - len))))
    /\ 0 <= len <= 512 /\ zlen data = len.
Proof.
  intros Hq A. destruct (b_req_last cfg fds q os Hq A) as (eff & len & data & E & L & D).
  unfold bsd_exchange. cbv zeta. unfold bsd_reply. rewrite A, E. rewrite rev_app_distr. cbn [rev app].
  rewrite my_mreq_ok; try assumption; [|apply Hq]. do 3 eexists. split; [reflexivity|]. split; assumption.
Qed.
Lemma b_exchange_request cfg fds q os r a : request q -> bsd_exchange cfg fds q os = (r, DOk a) -> request a.
Proof.
  intros Hq E. destruct (br_alive (bsd_req cfg fds (mreq_out q) os)) eqn:A.
  - destruct (b_exchange_ok cfg fds q os Hq A) as (name & len & data & K & L & D). rewrite E in K.
    assert (Ea : a = mkPreq (rq_op q) (rq_index q) name len (data ++ zeros (512 - len)))
      by (apply (f_equal (fun x => match snd x with DOk y => y | _ => a end)) in K; exact K).
    subst a. split; [apply Hq|]. cbn [rq_len rq_buf]. split; [exact L|]. rewrite zlen_app, D, zlen_zeros; lia.
  - unfold bsd_exchange in E. cbv zeta in E. unfold bsd_reply in E. rewrite A in E. rewrite my_mreq_none in E by exact Hq.
    apply (f_equal snd) in E. discriminate E.
Qed.
Lemma b_reused_request cfg q : b_reused cfg q -> request q.
Proof.
  induction 1 as [|q i fds os r a _ IH Hi E]; [now apply (new_request 0 0 0)|]. eapply b_exchange_request; [|exact E]. now apply close_request.
Qed.
Lemma b_asked_ok cfg q : b_asked cfg q -> 0 <= rq_index q < 4294967296 -> request q /\ b_legal q.
Proof.
  intros [i|p i R|opts n queue t E] Hi; cbn [rq_index q_open q_close q_descr] in Hi.
  - split; [now apply (new_request PARENT_OPEN i 0)|now left].
  - split; [apply close_request; [now apply b_reused_request in R|exact Hi]|right; now left].
  - unfold netif_descr in E. destruct (beq _ _); [discriminate|]. injection E as <-.
    pose proof (descr_short (descr_scan opts (nf_index n) queue)) as L.
    split; [now apply descr_request|]. right. right. split; [reflexivity|]. cbn [rq_len q_descr]. lia.
Qed.
Lemma b_asked_alive cfg fds q os : b_asked cfg q -> 0 <= rq_index q < 4294967296 -> os_sock os <> SockFatal -> os_reply os = true ->
  exists r a, bsd_exchange cfg fds q os = (r, DOk a) /\ br_alive r = true.
Proof.
  intros A Hi Hs Hr. destruct (b_asked_ok cfg q A Hi) as (Hq & HL).
  assert (L : br_alive (bsd_req cfg fds (mreq_out q) os) = true).
  { destruct (out_fields q Hq) as (S & F1 & F2 & F3 & F4). unfold bsd_req. cbv zeta. rewrite S, F1, F2, F3, Hr. cbn [negb].
    destruct (os_name os); [|reflexivity]. rewrite (b_check q Hq HL). destruct (rq_op q =? PARENT_OPEN).
    - destruct (rfd_byindex _ _); [reflexivity|]. unfold bsd_open. destruct (os_sock os) as [fd| |]; [|reflexivity|contradiction].
      destruct (fd <? 0); reflexivity.
    - destruct (rq_op q =? PARENT_CLOSE); [destruct (rfd_byindex _ _); [destruct (bsd_close _ _ _)|]; reflexivity|].
      destruct (0 <=? os_written os); reflexivity. }
  destruct (b_exchange_ok cfg fds q os Hq L) as (name & len & data & E & _). do 2 eexists. split; [exact E|exact L].
Qed.

(** ** The description *)
Lemma nul_stop t r : ~ In 0 t -> before_nul (t ++ 0 :: r) = t.
Proof.
  induction t as [|b t IH]; intros H; cbn [app before_nul]; [reflexivity|]. destruct (Z.eq_dec b 0) as [->|N]; [contradiction H; now left|].
  f_equal. apply IH. intros K. apply H. now right.
Qed.
Lemma nul_self t : ~ In 0 t -> before_nul t = t.
Proof.
  induction t as [|b t IH]; intros H; cbn [before_nul]; [reflexivity|]. destruct (Z.eq_dec b 0) as [->|N]; [contradiction H; now left|].
  f_equal. apply IH. intros K. apply H. now right.
Qed.
Lemma put0_text t : zlen t <= 63 -> exists r, put0 (t ++ zeros (512 - zlen t)) 64 = t ++ 0 :: r.
Proof.
  intros H. unfold put0. change (Z.to_nat 64) with 64%nat. rewrite firstn_app, firstn_all2 by (unfold zlen in H; lia).
  assert (X : exists m, firstn (64 - length t) (zeros (512 - zlen t)) = 0 :: m).
  { unfold zeros, zlen in *. destruct (Z.to_nat (512 - Z.of_nat (length t))) as [|k] eqn:E1; [lia|]. destruct (64 - length t)%nat as [|j] eqn:E2; [lia|].
    cbn [repeat firstn]. eexists. reflexivity. }
  destruct X as (m & ->). rewrite <- !app_assoc. cbn [app]. eexists. reflexivity.
Qed.
Lemma b_descr_set pf cfg fds i t os name old : 0 <= i < 4294967296 -> ~ In 0 t -> zlen t <= 63 -> os_reply os = true ->
  os_name os = Some name -> zlen name <= 15 ->
  descr_after pf name old (br_eff (fst (bsd_exchange cfg fds (q_descr i t) os))) = if 0 <=? os_written os then t else old.
Proof.
  intros Hi H0 Ht Hr Hn Hl. pose proof (descr_request i t Hi Ht) as Hq. destruct (out_fields _ Hq) as (S & F1 & F2 & F3 & F4).
  unfold bsd_exchange. cbv zeta. cbn [fst]. unfold bsd_req. cbv zeta. rewrite S, F1, F2, F3, F4, Hn. cbn [negb].
  rewrite (b_check _ Hq) by (right; right; split; [reflexivity|cbn [rq_len q_descr]; lia]). cbn [rq_op q_descr].
  change (PARENT_DESCR =? PARENT_OPEN) with false. change (PARENT_DESCR =? PARENT_CLOSE) with false.
  rewrite descr_payload by exact Ht. destruct (0 <=? os_written os); [|reflexivity]. cbn [br_eff app descr_after].
  rewrite firstn_all2 by (unfold zlen in Hl; lia). rewrite beq_refl. destruct (put0_text t Ht) as (r & E). change IFDESCRSIZE with 64. rewrite E.
  destruct pf; unfold kernel_descr; cbn [rq_len q_descr].
  - replace (zlen t + 1 - 1) with (zlen t) by lia. rewrite firstn_zlen_app. now apply nul_self.
  - replace (existsb _ _) with true; [now apply nul_stop|]. symmetry. apply existsb_exists. exists 0. split; [|reflexivity].
    rewrite firstn_app. apply in_or_app. right. unfold zlen in Ht. destruct (64 - length t)%nat eqn:K; [lia|]. now left.
Qed.
