(** Proofs about the requests of the unprivileged process (C92, C93). *)
From Verif Require Import Base Types Tlv Checks Wire Parent Netif Mreq Util Child Spec SpecNet SpecSys SpecMreq
  Lemmas NetProofs WireProofs ParentProofs ParentProofs2 PsockProofs CliProofs4 SysProofs1 ChildProofs3.

(** ** The datagram *)
Section written.
Variables (op index : Z) (name : list Z) (len : Z) (buf : list Z).
Hypothesis Hi : 0 <= index < 4294967296.
Hypothesis Hl : 0 <= len <= 512.
Hypothesis Hb : zlen buf >= len.
Let d := req_bytes op index name len buf.
Let nm := firstn 16 (name ++ zeros 16).
Let f := firstn (Z.to_nat len) buf.
Lemma v_nmlen : zlen nm = 16.
Proof. unfold nm, zlen. rewrite firstn_length, app_length. unfold zeros. rewrite repeat_length. lia. Qed.
Lemma v_flen : zlen f = len.
Proof. unfold f. apply zlen_firstn. lia. Qed.
Lemma v_deq : d = [op; 0; 0; 0] ++ le 4 index ++ nm ++ le 8 len ++ f.
Proof. reflexivity. Qed.
Lemma v_dlen : zlen d = 32 + len.
Proof. rewrite v_deq. zl. rewrite !zlen_le, v_nmlen, v_flen. lia. Qed.
Lemma v_mem : req_mem d = d ++ zeros (512 - len).
Proof.
  unfold req_mem. rewrite firstn_all2 by (pose proof v_dlen; unfold zlen in *; lia).
  rewrite v_dlen. f_equal. f_equal. lia.
Qed.
Lemma v_op : pr_op (req_mem d) = op.
Proof. unfold pr_op. rewrite v_mem, v_deq. reflexivity. Qed.
Lemma v_index : pr_index (req_mem d) = index.
Proof.
  unfold pr_index. rewrite v_mem, v_deq, <- !app_assoc.
  rewrite slice_mid; [|reflexivity|now rewrite zlen_le]. apply unle_le. exact Hi.
Qed.
Lemma v_len : pr_len (req_mem d) = len.
Proof.
  unfold pr_len. rewrite v_mem, v_deq, <- !app_assoc.
  rewrite (app_assoc [_; _; _; _]), (app_assoc (_ ++ le 4 index)).
  rewrite slice_mid; [|zl; rewrite zlen_le, v_nmlen; reflexivity|now rewrite zlen_le].
  rewrite unle_le by lia. unfold sgn64. replace (_ <? _) with true by lia. reflexivity.
Qed.
Lemma v_buf : pr_buf (req_mem d) = f ++ zeros (512 - len).
Proof.
  unfold pr_buf. rewrite v_mem, v_deq, <- !app_assoc.
  rewrite (app_assoc [_; _; _; _]), (app_assoc (_ ++ le 4 index)), (app_assoc (_ ++ nm)).
  rewrite <- (app_nil_r (_ ++ f ++ zeros _)), <- (app_assoc _ (f ++ zeros _)).
  apply slice_mid; [zl; rewrite !zlen_le, v_nmlen; reflexivity|]. zl. rewrite v_flen, zlen_zeros; lia.
Qed.
Lemma v_size : req_size_ok (Z.min (zlen d) PARENT_REQ_MAX) (req_mem d) = true.
Proof.
  unfold req_size_ok, PARENT_REQ_MIN, PARENT_REQ_MAX. rewrite v_len, v_dlen.
  rewrite Z.mod_small by lia. lia.
Qed.
Lemma v_name : ~ In 0 name -> zlen name <= 15 -> cstr (slice (req_mem d) 8 16) = name.
Proof.
  intros N L. rewrite v_mem, v_deq, <- !app_assoc. rewrite (app_assoc [_; _; _; _]).
  rewrite slice_mid; [|zl; rewrite zlen_le; reflexivity|apply v_nmlen].
  unfold nm. rewrite firstn_app, firstn_all2 by (unfold zlen in L; lia).
  unfold zeros. change (Z.to_nat 16) with 16%nat. pose proof (zlen_nonneg _ name) as K.
  replace (firstn (16 - length name) (repeat 0 16)) with (repeat 0 (S (15 - length name))).
  - now apply cstr_padded.
  - assert (X : forall n m : nat, (n <= m)%nat -> repeat 0 n = firstn n (repeat 0 m)).
    { induction n as [|n IH]; intros [|m] Hm; try reflexivity; [lia|]. cbn [repeat firstn]. f_equal. apply IH. lia. }
    replace (16 - length name)%nat with (S (15 - length name)) by (unfold zlen in L; lia). apply X. lia.
Qed.
End written.

Lemma out_fields q : request q ->
  let m := req_mem (mreq_out q) in
  req_size_ok (Z.min (zlen (mreq_out q)) PARENT_REQ_MAX) m = true
  /\ pr_op m = rq_op q /\ pr_index m = rq_index q /\ pr_len m = rq_len q
  /\ pr_buf m = payload q ++ zeros (512 - rq_len q).
Proof.
  intros (Hi & Hl & Hb). cbv zeta. unfold mreq_out, payload.
  split; [apply v_size; lia|]. split; [apply v_op; lia|]. split; [apply v_index; lia|].
  split; [apply v_len; lia|]. apply v_buf; lia.
Qed.

(** ** The answer *)
Lemma req_last cfg fds d os :
  req_size_ok (Z.min (zlen d) PARENT_REQ_MAX) (req_mem d) = true -> 0 <= pr_len (req_mem d) <= 512 ->
  0 <= pr_op (req_mem d) ->
  r_alive (parent_req cfg fds d os) = true ->
  exists eff len data, r_eff (parent_req cfg fds d os) = eff ++ [EReply (pr_op (req_mem d)) (pr_index (req_mem d)) len data]
    /\ 0 <= len <= 512 /\ zlen data = len.
Proof.
  intros S Hl Ho. unfold parent_req. cbv zeta. rewrite S. cbn [negb].
  pose proof (zlen_pr_buf d) as Lb.
  destruct (os_name os) as [name|].
  2:{ cbn [r_alive r_eff]. intros _. exists [], 0, []. rewrite firstn_O. repeat split; lia. }
  pose proof (check_legal cfg (pr_op (req_mem d)) (pr_len (req_mem d)) Ho ltac:(lia)) as L.
  destruct (parent_check _ _ _) as [[]|]; try discriminate. apply proj1 in L. specialize (L eq_refl).
  assert (Z : zlen (firstn (Z.to_nat (pr_len (req_mem d))) (pr_buf (req_mem d))) = pr_len (req_mem d))
    by (apply zlen_firstn; lia).
  destruct (pr_op (req_mem d) =? PARENT_OPEN) eqn:E0.
  { destruct (rfd_byindex _ _).
    - intros _. exists []. do 2 eexists. split; [reflexivity|]. split; assumption.
    - destruct (parent_open _ _ _ _ _) as [[[fds1 eff] ok]|]; [|discriminate].
      intros _. exists eff. do 2 eexists. split; [reflexivity|]. split; assumption. }
  destruct (pr_op (req_mem d) =? PARENT_CLOSE) eqn:E1.
  { destruct (rfd_byindex _ _).
    - destruct (parent_close _ _ _) as [fds1 eff]. intros _. exists eff. do 2 eexists.
      split; [reflexivity|]. split; assumption.
    - intros _. exists []. do 2 eexists. split; [reflexivity|]. split; assumption. }
  unfold PARENT_OPEN, PARENT_CLOSE in *.
  assert (O : 2 <= pr_op (req_mem d) <= 8).
  { clear -L E0 E1 Ho. split; [lia|]. destruct (pr_op (req_mem d)) as [|op|op]; try lia.
    do 4 (destruct op as [op|op|]; try lia; try easy). }
  destruct (req_answer _ _ _ _ _) as [[n buf'] eff] eqn:Ea.
  apply (answer_ok _ _ (pr_index (req_mem d))) in Ea as (A1 & A2 & _); [|assumption|assumption].
  intros _. exists eff, n, (firstn (Z.to_nat n) buf'). split; [reflexivity|]. split; [assumption|].
  apply zlen_firstn. lia.
Qed.

Lemma my_mreq_ok q op index name len data : request q -> 0 <= index < 4294967296 -> 0 <= len <= 512 -> zlen data = len ->
  my_mreq q (Some (req_bytes op index name len data))
  = DOk (mkPreq op index (cstr (slice (req_mem (req_bytes op index name len data)) 8 16)) len (data ++ zeros (512 - len))).
Proof.
  intros (Hi & Hl & Hb) Hi' Hl' Hd. unfold my_mreq.
  replace (rq_len q <? 0) with false by lia. replace (512 <? rq_len q) with false by lia.
  rewrite v_size by lia. cbn [negb]. unfold mreq_in.
  assert (F : firstn (Z.to_nat len) data = data) by (rewrite <- Hd; apply firstn_all_z).
  rewrite v_op, v_index, v_len, v_buf, F by lia. reflexivity.
Qed.
Lemma my_mreq_none q : request q -> my_mreq q None = DAbort.
Proof.
  intros (Hi & Hl & Hb). unfold my_mreq.
  replace (rq_len q <? 0) with false by lia. replace (512 <? rq_len q) with false by lia. reflexivity.
Qed.
Lemma reply_last d os r eff op index len data : r_alive r = true -> r_eff r = eff ++ [EReply op index len data] ->
  exists name, parent_reply d os r = Some (req_bytes op index name len data).
Proof. intros A E. unfold parent_reply. rewrite A, E, rev_app_distr. cbn [rev app]. eexists. reflexivity. Qed.

(** Every exchange. *)
Lemma exchange_ok cfg fds q os : request q -> 0 <= rq_op q ->
  let r := parent_req cfg fds (mreq_out q) os in
  if r_alive r then
    exists eff len data name,
      r_eff r = eff ++ [EReply (rq_op q) (rq_index q) len data]
      /\ 0 <= len <= 512 /\ zlen data = len
      /\ exchange cfg fds q os = (r, DOk (mkPreq (rq_op q) (rq_index q) name len (data ++ zeros (512 - len))))
  else exchange cfg fds q os = (r, DAbort).
Proof.
  intros Hq Ho. cbv zeta. destruct (out_fields q Hq) as (S & F1 & F2 & F3 & F4).
  destruct (r_alive _) eqn:A.
  - destruct (req_last cfg fds (mreq_out q) os S) as (eff & len & data & E & L & D).
    + rewrite F3. apply Hq.
    + now rewrite F1.
    + exact A.
    + rewrite F1, F2 in E. destruct (reply_last (mreq_out q) os _ _ _ _ _ _ A E) as (name & R).
      exists eff, len, data. eexists. split; [exact E|]. split; [exact L|]. split; [exact D|].
      unfold exchange. cbv zeta. rewrite R. f_equal. apply my_mreq_ok; try assumption. apply Hq.
  - unfold exchange. cbv zeta. f_equal. unfold parent_reply. rewrite A. now apply my_mreq_none.
Qed.

(** The name in the answer. *)
Lemma exchange_name cfg fds q os r a : request q -> 0 <= rq_op q ->
  ~ In 0 (rq_name q) -> zlen (rq_name q) <= 15 ->
  match os_name os with Some n => ~ In 0 n /\ zlen n <= 15 | None => True end ->
  exchange cfg fds q os = (r, DOk a) ->
  rq_name a = match os_name os with Some n => n | None => rq_name q end.
Proof.
  intros Hq Ho N0 N1 Hn E. destruct (out_fields q Hq) as (S & F1 & F2 & F3 & F4).
  unfold exchange in E. cbv zeta in E.
  assert (Er : r = parent_req cfg fds (mreq_out q) os) by (symmetry; exact (f_equal fst E)).
  assert (Ea : my_mreq q (parent_reply (mreq_out q) os (parent_req cfg fds (mreq_out q) os)) = DOk a)
    by exact (f_equal snd E). clear E Er.
  destruct (r_alive (parent_req cfg fds (mreq_out q) os)) eqn:A.
  2:{ unfold parent_reply in Ea. rewrite A, my_mreq_none in Ea by exact Hq. discriminate. }
  destruct (req_last cfg fds (mreq_out q) os S) as (eff & len & data & E & L & D).
  - rewrite F3. apply Hq.
  - now rewrite F1.
  - exact A.
  - rewrite F1, F2 in E. unfold parent_reply in Ea. rewrite A, E, rev_app_distr in Ea. cbn [rev app] in Ea.
    rewrite my_mreq_ok in Ea by (assumption || apply Hq).
    apply (f_equal (fun x => match x with DOk y => rq_name y | _ => [] end)) in Ea. cbn [rq_name] in Ea. rewrite <- Ea.
    assert (Q : cstr (slice (req_mem (mreq_out q)) 8 16) = rq_name q) by (apply v_name; try assumption; destruct Hq as (? & ? & ?); lia).
    rewrite Q. apply v_name; try lia; destruct (os_name os); tauto.
Qed.

(** The requests with an answer of their own. *)
Lemma req_two_to_eight cfg fds q os name : request q -> 2 <= rq_op q <= 8 -> os_name os = Some name ->
  legal_request (pc_team cfg) (pc_pci cfg) (rq_op q) (rq_len q) ->
  parent_req cfg fds (mreq_out q) os =
  (let '(n, buf, eff) := req_answer cfg (rq_op q) name (payload q ++ zeros (512 - rq_len q)) os in
   mkRes fds (eff ++ [EReply (rq_op q) (rq_index q) n (firstn (Z.to_nat n) buf)]) (os_reply os)).
Proof.
  intros Hq Ho Hn HL. destruct (out_fields q Hq) as (S & F1 & F2 & F3 & F4).
  unfold parent_req. cbv zeta. rewrite S, Hn, F1, F2, F3, F4. cbn [negb].
  rewrite (proj2 (check_legal cfg (rq_op q) (rq_len q) ltac:(lia) ltac:(apply Hq)) HL).
  unfold PARENT_OPEN, PARENT_CLOSE.
  replace (rq_op q =? 0) with false by lia. replace (rq_op q =? 1) with false by lia.
  destruct (req_answer _ _ _ _ _) as [[n buf] eff]. reflexivity.
Qed.
Lemma req_unnamed cfg fds q os : request q -> os_name os = None ->
  parent_req cfg fds (mreq_out q) os = mkRes fds [EReply (rq_op q) (rq_index q) 0 []] (os_reply os).
Proof.
  intros Hq Hn. destruct (out_fields q Hq) as (S & F1 & F2 & F3 & F4).
  unfold parent_req. cbv zeta. rewrite S, Hn, F1, F2. cbn [negb app]. now rewrite firstn_O.
Qed.

Lemma exchange_named cfg fds q os name n buf eff : request q -> 2 <= rq_op q <= 8 -> os_name os = Some name ->
  legal_request (pc_team cfg) (pc_pci cfg) (rq_op q) (rq_len q) -> os_reply os = true ->
  req_answer cfg (rq_op q) name (payload q ++ zeros (512 - rq_len q)) os = (n, buf, eff) ->
  exists name', exchange cfg fds q os
    = (mkRes fds (eff ++ [EReply (rq_op q) (rq_index q) n (firstn (Z.to_nat n) buf)]) true,
       DOk (mkPreq (rq_op q) (rq_index q) name' n (firstn (Z.to_nat n) buf ++ zeros (512 - n))))
  /\ 0 <= n <= 512 /\ zlen buf = 512.
Proof.
  intros Hq Ho Hn HL Hr Ha. pose proof (req_two_to_eight cfg fds q os name Hq Ho Hn HL) as E. rewrite Ha, Hr in E.
  assert (Lp : zlen (payload q ++ zeros (512 - rq_len q)) = 512).
  { destruct Hq as (_ & Hl & Hb). zl. rewrite zlen_zeros by lia. unfold payload. rewrite zlen_firstn by lia. lia. }
  pose proof Ha as Ha'. apply (answer_ok _ _ (rq_index q)) in Ha' as (A1 & A2 & _); [|assumption|assumption].
  unfold exchange. cbv zeta. rewrite E.
  destruct (reply_last (mreq_out q) os (mkRes fds (eff ++ [EReply (rq_op q) (rq_index q) n (firstn (Z.to_nat n) buf)]) true)
              eff _ _ _ _ eq_refl eq_refl) as (nm & R).
  rewrite R. eexists. split; [|split; assumption].
  f_equal. apply my_mreq_ok; try assumption; [apply Hq|]. apply zlen_firstn. lia.
Qed.
Lemma exchange_unnamed cfg fds q os : request q -> os_name os = None -> os_reply os = true ->
  exists name', exchange cfg fds q os
    = (mkRes fds [EReply (rq_op q) (rq_index q) 0 []] true,
       DOk (mkPreq (rq_op q) (rq_index q) name' 0 (zeros 512))).
Proof.
  intros Hq Hn Hr. unfold exchange. cbv zeta. rewrite (req_unnamed cfg fds q os Hq Hn), Hr.
  destruct (reply_last (mreq_out q) os (mkRes fds [EReply (rq_op q) (rq_index q) 0 []] true) [] _ _ _ _ eq_refl eq_refl) as (nm & R).
  rewrite R. eexists. f_equal. rewrite my_mreq_ok; try assumption; try reflexivity; [apply Hq|lia].
Qed.

(** ** The single requests *)
Lemma zeros_split n : 0 <= n <= 512 -> zeros n ++ zeros (512 - n) = zeros 512.
Proof. intros H. unfold zeros. rewrite <- repeat_app. f_equal. lia. Qed.
Lemma new_request op i len : 0 <= i < 4294967296 -> 0 <= len <= 512 -> request (mkPreq op i [] len (zeros 512)).
Proof. intros Hi Hl. split; [exact Hi|]. split; [exact Hl|]. cbn [rq_buf]. now apply zlen_zeros. Qed.
Lemma new_payload op i len : 0 <= len <= 512 ->
  payload (mkPreq op i [] len (zeros 512)) ++ zeros (512 - len) = zeros 512.
Proof.
  intros H. unfold payload. cbn [rq_len rq_buf]. rewrite <- (zeros_split len H) at 1.
  rewrite <- (zlen_zeros len) at 1 by lia. rewrite firstn_zlen_app. now apply zeros_split.
Qed.
(** A text and the cleared rest of the buffer. *)
Lemma cstr_reply t n : ~ In 0 t -> 0 <= n -> zlen t + n = 512 -> zlen t <= 511 -> cstr (t ++ zeros n) = t.
Proof.
  intros H Hn E L. unfold zeros. replace (Z.to_nat n) with (S (Z.to_nat n - 1)) by lia. now apply cstr_padded.
Qed.
Lemma cstr_no0 s : ~ In 0 (cstr s).
Proof. induction s as [|b s IH]; cbn [cstr]; [easy|]. destruct (b =? 0) eqn:E; [easy|]. intros [H|H]; [lia|easy]. Qed.
Lemma put_str_head s buf : firstn (Z.to_nat (zlen s)) (put_str s buf) = s.
Proof. unfold put_str. apply firstn_zlen_app. Qed.

Lemma payload_head n (b c : list Z) : 0 <= n <= zlen b -> firstn (Z.to_nat n) (firstn (Z.to_nat n) b ++ c) = firstn (Z.to_nat n) b.
Proof.
  intros H. rewrite firstn_app, firstn_firstn, Nat.min_id, firstn_length_le by (unfold zlen in H; lia).
  now rewrite Nat.sub_diag, firstn_O, app_nil_r.
Qed.
Lemma answered_named cfg fds q os name n buf : request q -> 2 <= rq_op q <= 8 -> os_name os = Some name ->
  legal_request (pc_team cfg) (pc_pci cfg) (rq_op q) (rq_len q) -> os_reply os = true ->
  req_answer cfg (rq_op q) name (payload q ++ zeros (512 - rq_len q)) os = (n, buf, []) ->
  exists a, answered cfg fds q os a /\ rq_len a = n /\ rq_buf a = firstn (Z.to_nat n) buf ++ zeros (512 - n)
    /\ 0 <= n <= 512 /\ zlen buf = 512.
Proof.
  intros Hq Ho Hn HL Hr Ha. destruct (exchange_named cfg fds q os name n buf [] Hq Ho Hn HL Hr Ha) as (nm & E & N & B).
  exists (mkPreq (rq_op q) (rq_index q) nm n (firstn (Z.to_nat n) buf ++ zeros (512 - n))).
  split; [|split; [reflexivity|split; [reflexivity|split; assumption]]].
  - unfold answered, payload. cbn [rq_len rq_buf]. rewrite E. cbn [app].
    do 4 f_equal. rewrite firstn_app, firstn_firstn, Nat.min_id.
    rewrite firstn_length_le by (unfold zlen in B; lia). now rewrite Nat.sub_diag, firstn_O, app_nil_r.
Qed.
Lemma answered_unnamed cfg fds q os : request q -> os_name os = None -> os_reply os = true ->
  exists a, answered cfg fds q os a /\ rq_len a = 0 /\ rq_buf a = zeros 512.
Proof.
  intros Hq Hn Hr. destruct (exchange_unnamed cfg fds q os Hq Hn Hr) as (nm & E).
  exists (mkPreq (rq_op q) (rq_index q) nm 0 (zeros 512)). split; [|split; reflexivity].
  unfold answered, payload. cbn [rq_len rq_buf]. now rewrite E, firstn_O.
Qed.

Lemma device_answer cfg fds i os : 0 <= i < 4294967296 -> os_reply os = true ->
  exists a, answered cfg fds (q_device i) os a
    /\ (a_device a = true <-> os_name os <> None /\ os_stat os = true).
Proof.
  intros Hi Hr. pose proof (new_request PARENT_DEVICE i 0 Hi ltac:(lia)) as Hq.
  destruct (os_name os) as [name|] eqn:Hn.
  - destruct (answered_named cfg fds (q_device i) os name (if os_stat os then 1 else 0) (zeros 512) Hq) as (a & A & L & _).
    + unfold q_device, PARENT_DEVICE. cbn [rq_op]. lia.
    + exact Hn.
    + exact I.
    + exact Hr.
    + change (rq_len (q_device i)) with 0. unfold q_device. rewrite (new_payload PARENT_DEVICE i 0) by lia. reflexivity.
    + exists a. split; [exact A|]. unfold a_device. rewrite L. destruct (os_stat os); cbn; split; intros H; easy.
  - destruct (answered_unnamed cfg fds (q_device i) os Hq Hn Hr) as (a & A & L & _).
    exists a. split; [exact A|]. unfold a_device. rewrite L. cbn. split; [easy|]. intros [H _]. easy.
Qed.

Lemma array_cstr n s field : in_array n s field -> cstr field = s.
Proof.
  intros (_ & H & rest & ->). induction s as [|b s IH]; cbn [app cstr]; [reflexivity|].
  inversion_clear H. destruct (b =? 0) eqn:E; [lia|]. f_equal. now apply IH.
Qed.
(** The answer to a query of the driver. *)
Lemma overlay n (d buf : list Z) : zlen d = n ->
  firstn (Z.to_nat n) (firstn (Z.to_nat n) (d ++ zeros n) ++ skipn (Z.to_nat n) buf) = d.
Proof. intros <-. now rewrite (firstn_zlen_app _ d (zeros (zlen d))), firstn_zlen_app. Qed.

Lemma driver_answer cfg fds i os : 0 <= i < 4294967296 -> os_reply os = true ->
  exists a, answered cfg fds (q_driver i) os a
    /\ (os_name os = None \/ os_ethtool os = None -> a_driver a = None)
    /\ (forall d driver, os_name os <> None -> os_ethtool os = Some d -> drvinfo d driver -> a_driver a = Some driver).
Proof.
  intros Hi Hr. pose proof (new_request PARENT_ETHTOOL_GDRV i 196 Hi ltac:(lia)) as Hq. fold (q_driver i) in Hq.
  destruct (os_name os) as [name|] eqn:Hn.
  2:{ destruct (answered_unnamed cfg fds (q_driver i) os Hq Hn Hr) as (a & A & L & _).
      exists a. split; [exact A|]. unfold a_driver. rewrite L. split; [reflexivity|]. intros d driver H. easy. }
  assert (P : payload (q_driver i) ++ zeros (512 - rq_len (q_driver i)) = zeros 512)
    by (apply (new_payload PARENT_ETHTOOL_GDRV i 196); lia).
  destruct (os_ethtool os) as [d|] eqn:Hd.
  - destruct (answered_named cfg fds (q_driver i) os name 196
        (firstn (Z.to_nat 196) (d ++ zeros 196) ++ skipn (Z.to_nat 196) (zeros 512)) Hq) as (a & A & L & B & _).
    + change (2 <= 7 <= 8). lia.
    + exact Hn.
    + reflexivity.
    + exact Hr.
    + rewrite P. change (rq_op (q_driver i)) with PARENT_ETHTOOL_GDRV. unfold req_answer. rewrite Hd. reflexivity.
    + exists a. split; [exact A|]. unfold a_driver. rewrite L, B. change (negb (196 =? ETHTOOL_DRVINFO_SIZE)) with false. cbv iota.
      split; [intros [H|H]; easy|]. intros d' driver _ [= <-] (cmd & field & rest & -> & L1 & F & L3).
      f_equal. rewrite overlay by (destruct F as (L2 & _); zl; lia). rewrite <- !app_assoc.
      rewrite slice_mid; [now apply array_cstr in F|assumption|apply F].
  - destruct (answered_named cfg fds (q_driver i) os name 0 (zeros 512) Hq) as (a & A & L & B & _).
    + change (2 <= 7 <= 8). lia.
    + exact Hn.
    + reflexivity.
    + exact Hr.
    + rewrite P. change (rq_op (q_driver i)) with PARENT_ETHTOOL_GDRV. unfold req_answer. rewrite Hd. reflexivity.
    + exists a. split; [exact A|]. unfold a_driver. rewrite L. split; [reflexivity|]. intros d driver _ H. easy.
Qed.

Lemma word4_le v : 0 <= v -> word4 v = le 4 v.
Proof.
  intros H. unfold word4. cbn [le]. rewrite !Z.div_div by lia. reflexivity.
Qed.
Lemma word2_le v : 0 <= v -> word2 v = le 2 v.
Proof. intros H. reflexivity. Qed.
Lemma zlen_word4 v : zlen (word4 v) = 4. Proof. reflexivity. Qed.
Lemma zlen_word2 v : zlen (word2 v) = 2. Proof. reflexivity. Qed.
Lemma unle_word4 v : 0 <= v < 4294967296 -> unle (word4 v) = v.
Proof. intros H. rewrite word4_le by lia. now apply unle_le. Qed.
Lemma unle_word2 v : 0 <= v < 65536 -> unle (word2 v) = v.
Proof. intros H. rewrite word2_le by lia. now apply unle_le. Qed.

Lemma settings_answer cfg fds i os : 0 <= i < 4294967296 -> os_reply os = true ->
  exists a, answered cfg fds (q_settings i) os a
    /\ (os_name os = None \/ os_ethtool os = None -> a_settings a = None)
    /\ (forall d e, os_name os <> None -> os_ethtool os = Some d -> ethcmd d e -> a_settings a = Some e).
Proof.
  intros Hi Hr. pose proof (new_request PARENT_ETHTOOL_GSET i 44 Hi ltac:(lia)) as Hq. fold (q_settings i) in Hq.
  destruct (os_name os) as [name|] eqn:Hn.
  2:{ destruct (answered_unnamed cfg fds (q_settings i) os Hq Hn Hr) as (a & A & L & _).
      exists a. split; [exact A|]. unfold a_settings. rewrite L. split; [reflexivity|]. intros d e H. easy. }
  assert (P : payload (q_settings i) ++ zeros (512 - rq_len (q_settings i)) = zeros 512)
    by (apply (new_payload PARENT_ETHTOOL_GSET i 44); lia).
  destruct (os_ethtool os) as [d|] eqn:Hd.
  - destruct (answered_named cfg fds (q_settings i) os name 44
        (firstn (Z.to_nat 44) (d ++ zeros 44) ++ skipn (Z.to_nat 44) (zeros 512)) Hq) as (a & A & L & B & _).
    + change (2 <= 6 <= 8). lia.
    + exact Hn.
    + reflexivity.
    + exact Hr.
    + rewrite P. change (rq_op (q_settings i)) with PARENT_ETHTOOL_GSET. unfold req_answer. rewrite Hd. reflexivity.
    + exists a. split; [exact A|]. unfold a_settings. rewrite L. change (negb (44 =? ETHTOOL_CMD_SIZE)) with false. cbv iota zeta.
      split; [intros [H|H]; easy|]. intros d' [sup adv spd dup prt aut] _ [= <-] (cmd & phy & tr & rest & E & L1 & L2 & R1 & R2 & R3).
      cbn [ec_supported ec_advertising ec_speed ec_duplex ec_port ec_autoneg] in *.
      rewrite B, overlay by (rewrite E; zl; rewrite !zlen_word4, zlen_word2; lia).
      assert (C : exists c0 c1 c2 c3, cmd = [c0; c1; c2; c3]).
      { unfold zlen in L1. destruct cmd as [|c0 [|c1 [|c2 [|c3 [|c4 cmd]]]]]; cbn in L1; try lia. now exists c0, c1, c2, c3. }
      destruct C as (c0 & c1 & c2 & c3 & ->). rewrite E. f_equal. f_equal.
      * etransitivity; [apply f_equal; reflexivity|apply unle_word4; exact R1].
      * etransitivity; [apply f_equal; reflexivity|apply unle_word4; exact R2].
      * etransitivity; [apply f_equal; reflexivity|apply unle_word2; exact R3].
  - destruct (answered_named cfg fds (q_settings i) os name 0 (zeros 512) Hq) as (a & A & L & B & _).
    + change (2 <= 6 <= 8). lia.
    + exact Hn.
    + reflexivity.
    + exact Hr.
    + rewrite P. change (rq_op (q_settings i)) with PARENT_ETHTOOL_GSET. unfold req_answer. rewrite Hd. reflexivity.
    + exists a. split; [exact A|]. unfold a_settings. rewrite L. split; [reflexivity|]. intros d e _ H. easy.
Qed.

Lemma device_id_answer cfg fds i os : 0 <= i < 4294967296 -> pc_pci cfg = true -> os_reply os = true ->
  exists a, answered cfg fds (q_device_id i) os a
    /\ (os_name os = None -> a_device_id a = [])
    /\ (os_name os <> None -> ~ In 0 (os_device_id os) -> zlen (os_device_id os) <= 511 -> a_device_id a = os_device_id os).
Proof.
  intros Hi Hc Hr. pose proof (new_request PARENT_DEVICE_ID i 0 Hi ltac:(lia)) as Hq. fold (q_device_id i) in Hq.
  destruct (os_name os) as [name|] eqn:Hn.
  2:{ destruct (answered_unnamed cfg fds (q_device_id i) os Hq Hn Hr) as (a & A & L & _).
      exists a. split; [exact A|]. unfold a_device_id. rewrite L. split; [reflexivity|]. intros H. easy. }
  assert (P : payload (q_device_id i) ++ zeros (512 - rq_len (q_device_id i)) = zeros 512)
    by (apply (new_payload PARENT_DEVICE_ID i 0); lia).
  destruct (answered_named cfg fds (q_device_id i) os name (zlen (firstn 511 (cstr (os_device_id os))))
              (put_str (firstn 511 (cstr (os_device_id os))) (zeros 512)) Hq) as (a & A & L & B & _).
  - change (2 <= 5 <= 8). lia.
  - exact Hn.
  - exact Hc.
  - exact Hr.
  - rewrite P. reflexivity.
  - exists a. split; [exact A|]. split; [easy|]. intros _ H0 H1. unfold a_device_id. rewrite L, B, put_str_head.
    rewrite (cstr_id _ H0), firstn_all2 by (unfold zlen in H1; lia).
    destruct (zlen (os_device_id os) =? 0) eqn:E.
    + apply Z.eqb_eq in E. destruct (os_device_id os); [reflexivity|]. rewrite zlen_cons in E. pose proof (zlen_nonneg _ l). lia.
    + apply cstr_reply; [assumption|lia|lia|assumption].
Qed.

(** The members of a team. *)
Lemma ports_slices ports : Forall (fun i => 0 <= i < 4294967296) ports -> forall pre post,
  map (fun k => unle (slice (pre ++ concat (map word4 ports) ++ post) (zlen pre + 4 * Z.of_nat k) 4)) (seq 0 (length ports)) = ports.
Proof.
  induction 1 as [|p ports Hp H IH]; intros pre post; [reflexivity|].
  cbn [length seq map concat]. f_equal.
  - rewrite <- app_assoc, slice_mid; [now apply unle_word4|lia|reflexivity].
  - rewrite <- seq_shift, map_map. rewrite <- (IH (pre ++ word4 p) post) at 2. apply map_ext. intros k.
    rewrite <- !app_assoc. zl. rewrite zlen_word4. do 2 f_equal. lia.
Qed.
Lemma zlen_words ports : zlen (concat (map word4 ports)) = 4 * zlen ports.
Proof. induction ports as [|p ports IH]; cbn [map concat]; [reflexivity|]. zl. rewrite zlen_word4, IH. lia. Qed.

Lemma team_answer cfg fds i os : 0 <= i < 4294967296 -> pc_team cfg = true -> os_reply os = true ->
  exists a, answered cfg fds (q_team i) os a
    /\ (os_name os = None -> a_team a = DOk None)
    /\ (os_name os <> None -> os_team os = None -> a_team a = DOk (Some (0, [], 0)))
    /\ (forall d mode ports active, os_name os <> None -> os_team os = Some d -> teaminfo d mode ports active ->
         a_team a = DOk (Some (mode, ports, active))).
Proof.
  intros Hi Hc Hr. pose proof (new_request PARENT_TEAMNL i 0 Hi ltac:(lia)) as Hq. fold (q_team i) in Hq.
  destruct (os_name os) as [name|] eqn:Hn.
  2:{ destruct (answered_unnamed cfg fds (q_team i) os Hq Hn Hr) as (a & A & L & _).
      exists a. split; [exact A|]. unfold a_team. rewrite L. split; [reflexivity|]. split; intros; easy. }
  assert (P : payload (q_team i) ++ zeros (512 - rq_len (q_team i)) = zeros 512)
    by (apply (new_payload PARENT_TEAMNL i 0); lia).
  destruct (os_team os) as [d|] eqn:Hd.
  - destruct (answered_named cfg fds (q_team i) os name 136
        (firstn (Z.to_nat 136) (d ++ zeros 136) ++ skipn (Z.to_nat 136) (zeros 512)) Hq) as (a & A & L & B & _).
    + change (2 <= 8 <= 8). lia.
    + exact Hn.
    + exact Hc.
    + exact Hr.
    + rewrite P. change (rq_op (q_team i)) with PARENT_TEAMNL. unfold req_answer. rewrite Hd. reflexivity.
    + exists a. split; [exact A|]. split; [easy|]. split; [easy|].
      intros d' mode ports active _ [= <-] (pad & E & L1 & L2 & R1 & R2).
      assert (Ld : zlen d = 136).
      { rewrite E. zl. rewrite zlen_words, zlen_word4, L1. pose proof (zlen_nonneg _ ports).
        assert (Q : zlen (repeat 0 (Z.to_nat (4 * (32 - zlen ports)))) = 4 * (32 - zlen ports)) by (apply zlen_zeros; lia). lia. }
      unfold a_team. rewrite L. change (136 =? 0) with false. change (negb (0 <=? 136) || (TEAM_INFO_SIZE <? 136)) with false.
      cbv iota zeta. rewrite B, overlay by exact Ld.
      assert (F : firstn (Z.to_nat 136) (d ++ zeros (512 - 136)) ++ zeros (TEAM_INFO_SIZE - 136) = d).
      { rewrite <- Ld, firstn_zlen_app. change (zeros (TEAM_INFO_SIZE - 136)) with (@nil Z). rewrite Ld. apply app_nil_r. }
      rewrite F.
      assert (C : exists c0 c1, pad = [c0; c1]).
      { unfold zlen in L1. destruct pad as [|c0 [|c1 [|c2 pad]]]; cbn in L1; try lia. now exists c0, c1. }
      destruct C as (c0 & c1 & ->).
      assert (N0 : nth 0 d 0 = mode) by (rewrite E; reflexivity).
      assert (N1 : nth 1 d 0 = zlen ports) by (rewrite E; reflexivity).
      rewrite N0, N1. replace (32 <? zlen ports) with false by lia. do 2 f_equal. f_equal; [f_equal|].
      * unfold zlen. rewrite Nat2Z.id. rewrite E.
        change ([mode; zlen ports] ++ [c0; c1] ++ concat (map word4 ports) ++ repeat 0 (Z.to_nat (4 * (32 - zlen ports))) ++ word4 active)
          with ([mode; zlen ports; c0; c1] ++ concat (map word4 ports) ++ repeat 0 (Z.to_nat (4 * (32 - zlen ports))) ++ word4 active).
        apply (ports_slices ports R1 [mode; zlen ports; c0; c1]).
      * rewrite E, !app_assoc. rewrite <- (app_nil_r (_ ++ word4 active)), <- app_assoc.
        rewrite slice_mid; [now apply unle_word4| |reflexivity].
        zl. rewrite zlen_words. pose proof (zlen_nonneg _ ports).
        assert (Q : zlen (repeat 0 (Z.to_nat (4 * (32 - zlen ports)))) = 4 * (32 - zlen ports)) by (apply zlen_zeros; lia). lia.
  - destruct (answered_named cfg fds (q_team i) os name 136 (zeros 512) Hq) as (a & A & L & B & _).
    + change (2 <= 8 <= 8). lia.
    + exact Hn.
    + exact Hc.
    + exact Hr.
    + rewrite P. change (rq_op (q_team i)) with PARENT_TEAMNL. unfold req_answer. rewrite Hd. reflexivity.
    + exists a. split; [exact A|]. split; [easy|]. split; [|easy]. intros _ _. unfold a_team. rewrite L, B. reflexivity.
Qed.

(** ** Descriptions *)
Lemma descr_request i t : 0 <= i < 4294967296 -> zlen t <= 63 -> request (q_descr i t).
Proof.
  intros Hi Ht. pose proof (zlen_nonneg _ t). split; [exact Hi|]. cbn [rq_len rq_buf q_descr]. split; [lia|].
  zl. rewrite zlen_zeros; lia.
Qed.
Lemma descr_payload i t : zlen t <= 63 -> payload (q_descr i t) ++ zeros (512 - rq_len (q_descr i t)) = t ++ zeros (512 - zlen t).
Proof.
  intros Ht. pose proof (zlen_nonneg _ t). unfold payload. cbn [rq_len rq_buf q_descr].
  replace (t ++ zeros (512 - zlen t)) with ((t ++ [0]) ++ zeros (511 - zlen t)).
  - replace (zlen t + 1) with (zlen (t ++ [0])) by (zl; lia). rewrite firstn_zlen_app. do 2 f_equal. zl. lia.
  - rewrite <- app_assoc. f_equal. unfold zeros. replace (Z.to_nat (512 - zlen t)) with (S (Z.to_nat (511 - zlen t))) by lia. reflexivity.
Qed.
Lemma cstr_stop t r : ~ In 0 t -> cstr (t ++ 0 :: r) = t.
Proof.
  induction t as [|b t IH]; intros H; cbn [app cstr]; [reflexivity|].
  destruct (b =? 0) eqn:E; [contradiction H; left; lia|]. f_equal. apply IH. intros K. apply H. now right.
Qed.
Lemma put0_text t : ~ In 0 t -> zlen t <= 63 -> cstr (put0 (t ++ zeros (512 - zlen t)) 64) = t.
Proof.
  intros H Ht. pose proof (zlen_nonneg _ t). unfold put0. rewrite firstn_app.
  rewrite firstn_all2 by (unfold zlen in Ht; lia). rewrite <- app_assoc.
  unfold zeros. replace (Z.to_nat (512 - zlen t)) with (S (Z.to_nat (511 - zlen t))) by lia.
  replace (Z.to_nat 64 - length t)%nat with (S (63 - length t)) by (unfold zlen in Ht; lia).
  cbn [repeat firstn app]. now apply cstr_stop.
Qed.
Lemma descr_answer cfg fds i t os : 0 <= i < 4294967296 -> ~ In 0 t -> zlen t <= 63 -> os_reply os = true ->
  exists a, exchange cfg fds (q_descr i t) os
    = (mkRes fds ((match os_name os with Some name => if os_stat os then [EAlias name t] else [] | None => [] end)
                    ++ [EReply PARENT_DESCR i (rq_len a) (payload a)]) true, DOk a).
Proof.
  intros Hi H0 Ht Hr. pose proof (descr_request i t Hi Ht) as Hq.
  destruct (os_name os) as [name|] eqn:Hn.
  2:{ destruct (answered_unnamed cfg fds _ os Hq Hn Hr) as (a & A & _). exists a. exact A. }
  destruct (os_stat os) eqn:Hs.
  - set (n := if 0 <? Z.min (os_written os) (zlen t) then Z.min (os_written os) (zlen t) else 0).
    destruct (exchange_named cfg fds (q_descr i t) os name n (put0 (t ++ zeros (512 - zlen t)) 64) [EAlias name t] Hq)
      as (nm & E & N & B).
    + change (2 <= 2 <= 8). lia.
    + exact Hn.
    + cbn. lia.
    + exact Hr.
    + rewrite descr_payload by assumption. change (rq_op (q_descr i t)) with PARENT_DESCR. unfold req_answer.
      change ((PARENT_DESCR =? PARENT_DESCR) || (PARENT_DESCR =? PARENT_ALIAS)) with true. cbv iota zeta. rewrite Hs. cbn [negb].
      change (PARENT_DESCR =? PARENT_DESCR) with true. cbv iota. change IFDESCRSIZE with 64. rewrite put0_text by assumption.
      reflexivity.
    + exists (mkPreq PARENT_DESCR i nm n (firstn (Z.to_nat n) (put0 (t ++ zeros (512 - zlen t)) 64) ++ zeros (512 - n))).
      rewrite E. unfold payload. cbn [rq_len rq_buf rq_op rq_index q_descr app]. rewrite payload_head by lia. reflexivity.
  - destruct (answered_named cfg fds (q_descr i t) os name 0 (put0 (t ++ zeros (512 - zlen t)) 64) Hq) as (a & A & _).
    + change (2 <= 2 <= 8). lia.
    + exact Hn.
    + cbn. lia.
    + exact Hr.
    + rewrite descr_payload by assumption. change (rq_op (q_descr i t)) with PARENT_DESCR. unfold req_answer.
      change ((PARENT_DESCR =? PARENT_DESCR) || (PARENT_DESCR =? PARENT_ALIAS)) with true. cbv iota zeta. now rewrite Hs.
    + exists a. exact A.
Qed.

(** ** Aliases *)
Lemma upto_in s x : In x (upto_nl s) -> In x s /\ x <> 10.
Proof.
  induction s as [|b s IH]; cbn [upto_nl]; [easy|]. destruct (b =? 10) eqn:E; [easy|].
  intros [H|H]; [subst; split; [now left|lia]|]. apply IH in H as [H K]. split; [now right|assumption].
Qed.
Lemma upto_rest s : exists rest, s = upto_nl s ++ rest /\ (rest = [] \/ exists r, rest = 10 :: r).
Proof.
  induction s as [|b s (rest & E & K)]; cbn [upto_nl]; [exists []; split; [reflexivity|now left]|]. destruct (b =? 10) eqn:B.
  - exists (b :: s). split; [reflexivity|]. right. exists s. apply Z.eqb_eq in B. now subst.
  - exists rest. split; [cbn; now rewrite <- E|assumption].
Qed.
Lemma line_is file : first_line 63 file (read_line file IFDESCRSIZE).
Proof.
  unfold read_line. change (Z.to_nat (IFDESCRSIZE - 1)) with 63%nat. set (F := firstn 63 file).
  destruct (upto_rest F) as (r1 & E1 & K1). destruct (cstr_prefix (upto_nl F)) as (r2 & E2 & K2).
  exists (r2 ++ r1 ++ skipn 63 file).
  assert (L : zlen (cstr (upto_nl F)) <= 63).
  { pose proof (cstr_le (upto_nl F)). pose proof (upto_nl_le F). pose proof (zlen_firstn_le _ 63 file). fold F in H1. lia. }
  split; [|split; [|split; [|split]]].
  - rewrite !app_assoc, <- E2, <- E1. unfold F. symmetry. apply firstn_skipn.
  - intros H. assert (K : In 10 (upto_nl F)) by (rewrite E2; apply in_or_app; now left). apply upto_in in K. now destruct K.
  - apply cstr_no0.
  - exact L.
  - destruct K2 as [->|(r & ->)]; [|right; right; cbn; eauto]. destruct K1 as [->|(r & ->)]; [|right; right; cbn; eauto].
    rewrite app_nil_r in E1, E2. cbn [app].
    destruct (Nat.le_gt_cases 63 (length file)) as [G|G].
    + left. rewrite <- E2, <- E1. unfold F, zlen. rewrite firstn_length. lia.
    + right. left. apply skipn_all2. lia.
Qed.
Lemma alias_request q i : request q -> 0 <= i < 4294967296 -> request (q_alias q i).
Proof. intros (_ & H) Hi. split; assumption. Qed.
Lemma close_request q i : request q -> 0 <= i < 4294967296 -> request (q_close q i).
Proof. intros (_ & H) Hi. split; assumption. Qed.
Lemma exchange_request cfg fds q os r a : request q -> 0 <= rq_op q -> exchange cfg fds q os = (r, DOk a) -> request a.
Proof.
  intros Hq Ho E. pose proof (exchange_ok cfg fds q os Hq Ho) as X. cbv zeta in X. rewrite E in X.
  destruct (r_alive _); [|discriminate].
  destruct X as (eff & len & data & name & _ & L & D & K).
  assert (Ea : a = mkPreq (rq_op q) (rq_index q) name len (data ++ zeros (512 - len)))
    by (apply (f_equal (fun x => match snd x with DOk y => y | _ => a end)) in K; exact K).
  clear K E. subst a. split; [apply Hq|]. cbn [rq_len rq_buf]. split; [exact L|]. rewrite zlen_app, D, zlen_zeros; lia.
Qed.
Lemma alias_answer cfg fds q i os : request q -> 0 <= i < 4294967296 -> os_reply os = true ->
  exists a, answered cfg fds (q_alias q i) os a /\ alias_is os (a_alias a).
Proof.
  intros Hq0 Hi Hr. pose proof (alias_request q i Hq0 Hi) as Hq. unfold alias_is.
  destruct (os_name os) as [name|] eqn:Hn.
  2:{ destruct (answered_unnamed cfg fds _ os Hq Hn Hr) as (a & A & L & _). exists a. split; [exact A|].
      unfold a_alias. now rewrite L. }
  set (B := payload (q_alias q i) ++ zeros (512 - rq_len (q_alias q i))).
  destruct (os_stat os) eqn:Hs.
  - set (t := read_line (os_alias os) IFDESCRSIZE).
    destruct (answered_named cfg fds (q_alias q i) os name (zlen t) (put_str t (put0 B IFDESCRSIZE)) Hq) as (a & A & L & Bf & _).
    + change (2 <= 3 <= 8). lia.
    + exact Hn.
    + exact I.
    + exact Hr.
    + fold B. change (rq_op (q_alias q i)) with PARENT_ALIAS. unfold req_answer.
      change ((PARENT_ALIAS =? PARENT_DESCR) || (PARENT_ALIAS =? PARENT_ALIAS)) with true. cbv iota zeta. rewrite Hs. reflexivity.
    + exists a. split; [exact A|].
      pose proof (read_line_le (os_alias os)) as R. fold t in R.
      assert (T0 : ~ In 0 t) by apply cstr_no0. pose proof (zlen_nonneg _ t) as N.
      assert (E : a_alias a = t).
      { unfold a_alias. rewrite L, Bf, put_str_head. destruct (zlen t =? 0) eqn:Z0.
        - apply Z.eqb_eq in Z0. destruct t as [|b t']; [reflexivity|]. rewrite zlen_cons in Z0. pose proof (zlen_nonneg _ t'). lia.
        - rewrite cstr_reply by (assumption || lia). apply firstn_all2. unfold zlen in R. lia. }
      rewrite E. apply line_is.
  - destruct (answered_named cfg fds (q_alias q i) os name 0 (put0 B IFDESCRSIZE) Hq) as (a & A & L & _).
    + change (2 <= 3 <= 8). lia.
    + exact Hn.
    + exact I.
    + exact Hr.
    + fold B. change (rq_op (q_alias q i)) with PARENT_ALIAS. unfold req_answer.
      change ((PARENT_ALIAS =? PARENT_DESCR) || (PARENT_ALIAS =? PARENT_ALIAS)) with true. cbv iota zeta. rewrite Hs. reflexivity.
    + exists a. split; [exact A|]. unfold a_alias. now rewrite L.
Qed.
Lemma aliases_answer cfg fds l : forall q, request q -> Forall (fun x => 0 <= fst x < 4294967296 /\ os_reply (snd x) = true) l ->
  exists ds q', ask_aliases cfg fds q l = DOk (ds, q') /\ Forall2 (fun x d => alias_is (snd x) d) l ds /\ request q'.
Proof.
  induction l as [|[i os] l IH]; intros q Hq H.
  - exists [], q. split; [reflexivity|]. split; [constructor|assumption].
  - inversion_clear H as [|? ? [Hi Hr] Hl]. cbn [fst snd] in *.
    destruct (alias_answer cfg fds q i os Hq Hi Hr) as (a & A & D). unfold answered in A.
    pose proof (exchange_request _ _ _ _ _ _ (alias_request q i Hq Hi) ltac:(cbn; unfold PARENT_ALIAS; lia) A) as Ha.
    destruct (IH a Ha Hl) as (ds & q' & E & F & G).
    exists (a_alias a :: ds), q'. cbn [ask_aliases]. rewrite A. cbn [dbind r_fds]. rewrite E. cbn [dbind fst snd].
    split; [reflexivity|]. split; [constructor; assumption|assumption].
Qed.
Lemma preq0_request : request preq0.
Proof. split; [cbn; lia|]. split; [cbn; lia|]. now apply zlen_zeros. Qed.

(** ** No request ends the parent *)
Lemma reused_request cfg q : reused cfg q -> request q.
Proof.
  induction 1 as [|q i fds os r a R IH Hi E|q i fds os r a R IH Hi E].
  - apply preq0_request.
  - eapply exchange_request; [apply (alias_request q i IH Hi)| |exact E]. cbn. unfold PARENT_ALIAS. lia.
  - eapply exchange_request; [apply (close_request q i IH Hi)| |exact E]. cbn. unfold PARENT_CLOSE. lia.
Qed.
Lemma asked_ok cfg q : asked cfg q -> 0 <= rq_index q < 4294967296 ->
  request q /\ 0 <= rq_op q <= 8 /\ legal_request (pc_team cfg) (pc_pci cfg) (rq_op q) (rq_len q).
Proof.
  intros A Hi. destruct A as [i|q i R|q i R|i|i|i|i C|i C|opts n queue t E].
  - split; [now apply (new_request PARENT_OPEN i 0)|]. cbn. unfold PARENT_OPEN. split; [lia|exact I].
  - apply reused_request in R. split; [now apply close_request|]. cbn. unfold PARENT_CLOSE. split; [lia|exact I].
  - apply reused_request in R. split; [now apply alias_request|]. cbn. unfold PARENT_ALIAS. split; [lia|exact I].
  - split; [now apply (new_request PARENT_DEVICE i 0)|]. cbn. unfold PARENT_DEVICE. split; [lia|exact I].
  - split; [now apply (new_request PARENT_ETHTOOL_GDRV i 196)|]. cbn. unfold PARENT_ETHTOOL_GDRV. split; [lia|reflexivity].
  - split; [now apply (new_request PARENT_ETHTOOL_GSET i 44)|]. cbn. unfold PARENT_ETHTOOL_GSET. split; [lia|reflexivity].
  - split; [now apply (new_request PARENT_DEVICE_ID i 0)|]. cbn. unfold PARENT_DEVICE_ID. split; [lia|exact C].
  - split; [now apply (new_request PARENT_TEAMNL i 0)|]. cbn. unfold PARENT_TEAMNL. split; [lia|exact C].
  - unfold netif_descr in E. destruct (beq _ _); [discriminate|]. injection E as <-.
    pose proof (descr_short (descr_scan opts (nf_index n) queue)) as L.
    split; [now apply descr_request|]. cbn [rq_op rq_len q_descr]. unfold PARENT_DESCR. split; [lia|]. cbn. lia.
Qed.
Lemma asked_alive cfg fds q os : asked cfg q -> 0 <= rq_index q < 4294967296 -> os_sock os <> SockFatal -> os_reply os = true ->
  exists r a, exchange cfg fds q os = (r, DOk a) /\ r_alive r = true.
Proof.
  intros A Hi Hs Hr. destruct (asked_ok cfg q A Hi) as (Hq & Ho & HL).
  assert (L : r_alive (parent_req cfg fds (mreq_out q) os) = true).
  { destruct (os_name os) as [name|] eqn:Hn; [|now rewrite (req_unnamed cfg fds q os Hq Hn)].
    destruct (Z.le_gt_cases 2 (rq_op q)) as [G|G].
    - rewrite (req_two_to_eight cfg fds q os name Hq ltac:(lia) Hn HL). destruct (req_answer _ _ _ _ _) as [[n b] e]. exact Hr.
    - destruct (out_fields q Hq) as (S & F1 & F2 & F3 & F4).
      unfold parent_req. cbv zeta. rewrite S, Hn, F1, F2, F3. cbn [negb].
      rewrite (proj2 (check_legal cfg (rq_op q) (rq_len q) ltac:(lia) ltac:(apply Hq)) HL).
      unfold PARENT_OPEN, PARENT_CLOSE. destruct (rq_op q =? 0) eqn:E0.
      + destruct (rfd_byindex _ _); [exact Hr|]. unfold parent_open. destruct (os_sock os); try easy. destruct (_ <? 0); exact Hr.
      + replace (rq_op q =? 1) with true by lia. destruct (rfd_byindex _ _); [|exact Hr].
        destruct (parent_close _ _ _). exact Hr. }
  pose proof (exchange_ok cfg fds q os Hq ltac:(lia)) as X. cbv zeta in X. rewrite L in X.
  destruct X as (eff & len & data & nm & _ & _ & _ & E). do 2 eexists. split; [exact E|exact L].
Qed.

(** ** What becomes of a description *)
Lemma alias_set cfg fds i t os name old : 0 <= i < 4294967296 -> ~ In 0 t -> zlen t <= 63 -> t <> [] -> os_reply os = true ->
  os_name os = Some name -> os_stat os = true ->
  alias_after name old (r_eff (fst (exchange cfg fds (q_descr i t) os))) = t.
Proof.
  intros Hi H0 Ht Hne Hr Hn Hs. destruct (descr_answer cfg fds i t os Hi H0 Ht Hr) as (a & E). rewrite E, Hn, Hs.
  cbn [fst r_eff app alias_after]. rewrite beq_refl. now destruct t.
Qed.
