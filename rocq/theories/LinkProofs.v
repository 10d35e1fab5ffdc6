(** Reading link messages. *)
From Verif Require Import Base Types Tlv Util Child Netif Imsg Sysinfo Send Bsd Link Spec SpecSend SpecLink.
From Verif Require Import Lemmas ImsgProofs.

Lemma LE2 v : 0 <= v < 65536 -> dle16 (LE 2 v) = v.
Proof. intros H. apply (dle16_le16 v H). Qed.
Lemma LE4 v : 0 <= v < 4294967296 -> LE 4 v = le32 v.
Proof.
  intros H. unfold le32. cbn [LE]. rewrite !Z.div_div by lia. change (256 * 256) with 65536. change (65536 * 256) with 16777216. reflexivity.
Qed.
Lemma LE4_val v : 0 <= v < 4294967296 -> dle32 (LE 4 v) = v.
Proof. intros H. rewrite LE4 by assumption. now apply dle32_le32. Qed.

(** Where the message lies in the buffer. *)
Definition head (m : linkmsg) : list Z := LE 4 (32 + zlen (lm_attrs m)) ++ LE 2 (lm_kind m) ++ [0; 0] ++ LE 4 (lm_seq m) ++ LE 4 (lm_pid m).
Definition info (m : linkmsg) : list Z := [lm_family m; 0] ++ LE 2 (lm_type m) ++ LE 4 (lm_index m) ++ LE 4 (lm_flags m) ++ LE 4 (lm_change m).
Definition tail (m : linkmsg) : list Z := lm_attrs m ++ repeat 0 (Z.to_nat ((- zlen (lm_attrs m)) mod 4)).
Lemma parts m : link_bytes m = head m ++ info m ++ tail m.
Proof. unfold link_bytes, head, info, tail. now rewrite <- !app_assoc. Qed.
Lemma head_len m : zlen (head m) = 16. Proof. reflexivity. Qed.
Lemma info_len m : zlen (info m) = 16. Proof. reflexivity. Qed.
Lemma tail_len m : zlen (tail m) = (zlen (lm_attrs m) + 3) / 4 * 4.
Proof.
  unfold tail. rewrite zlen_app. set (a := zlen (lm_attrs m)). pose proof (zlen_nonneg _ (lm_attrs m)) as A. fold a in A.
  pose proof (Z.mod_pos_bound (-a) 4 ltac:(lia)). unfold zlen at 1. rewrite repeat_length, Z2Nat.id by lia. 
  pose proof (Z.div_mod (-a) 4 ltac:(lia)). pose proof (Z.div_mod (a + 3) 4 ltac:(lia)). pose proof (Z.mod_pos_bound (a+3) 4 ltac:(lia)). lia.
Qed.
Lemma bytes_len m : zlen (link_bytes m) = 32 + (zlen (lm_attrs m) + 3) / 4 * 4.
Proof. rewrite parts, !zlen_app, head_len, info_len, tail_len. lia. Qed.
Lemma head_fields m : link_ok m ->
  dle32 (slice (head m) 0 4) = 32 + zlen (lm_attrs m) /\ dle16 (slice (head m) 4 2) = lm_kind m /\ dle16 (slice (head m) 6 2) = 0.
Proof.
  intros (K & _ & _ & _ & _ & _ & _ & _ & A). pose proof (zlen_nonneg _ (lm_attrs m)).
  change (slice (head m) 0 4) with (LE 4 (32 + zlen (lm_attrs m))). change (slice (head m) 4 2) with (LE 2 (lm_kind m)). change (slice (head m) 6 2) with [0; 0].
  split; [apply LE4_val; lia|split; [apply LE2; lia|reflexivity]].
Qed.
Lemma info_fields m : link_ok m ->
  dle16 (slice (info m) 2 2) = lm_type m /\ dle32 (slice (info m) 8 4) = lm_flags m /\ dle32 (slice (info m) 4 4) = lm_index m.
Proof.
  intros (_ & _ & _ & _ & T & I & F & _ & _).
  change (slice (info m) 2 2) with (LE 2 (lm_type m)). change (slice (info m) 8 4) with (LE 4 (lm_flags m)). change (slice (info m) 4 4) with (LE 4 (lm_index m)).
  split; [apply LE2; lia|split; apply LE4_val; lia].
Qed.

Definition seen (m : linkmsg) : Z * Z * Z := (lm_type m, lm_flags m, lm_index m).
Lemma run_all buf : forall ms fuel p, Forall link_ok ms -> view buf p (datagram ms) -> (length ms < fuel)%nat ->
  nl_run fuel buf p (zlen (datagram ms)) = DOk (map seen ms, 1).
Proof.
  induction ms as [|m ms IH]; intros fuel p OK V F.
  - destruct fuel as [|fuel]; [inversion F|]. reflexivity.
  - destruct fuel as [|fuel]; [inversion F|]. inversion OK as [|? ? O1 O2]; subst.
    unfold datagram in *. cbn [flat_map] in *. fold (datagram ms) in *. cbn [nl_run].
    pose proof (zlen_nonneg _ (lm_attrs m)) as A0. pose proof (zlen_nonneg _ (datagram ms)) as D0.
    pose proof (Z.div_mod (zlen (lm_attrs m) + 3) 4 ltac:(lia)). pose proof (Z.mod_pos_bound (zlen (lm_attrs m) + 3) 4 ltac:(lia)).
    rewrite zlen_app, bytes_len. 
    match goal with |- context [?x <? 16] => replace (x <? 16) with false by lia end.
    pose proof V as V0. rewrite parts, <- !app_assoc in V0.
    rewrite <- (head_len m) at 1. rewrite (rdn_view_pre _ _ _ _ V0). cbn [dbind].
    destruct (head_fields m O1) as (H1 & H2 & H3). rewrite H1, H2, H3.
    assert (K : lm_kind m = 16 \/ lm_kind m = 17) by (destruct O1 as [K _]; exact K).
    match goal with |- context [(?x <? 16) || (?y <? ?z)] => replace ((x <? 16) || (y <? z)) with false by lia end.
    change (has 0 16) with false. cbv iota.
    replace (lm_kind m =? 2) with false by lia. replace (lm_kind m =? 3) with false by lia. replace (lm_kind m <? 16) with false by lia.
    unfold nl_ifinfo. pose proof (view_app_r _ _ _ _ V0) as V1. rewrite head_len in V1.
    replace (rdn buf (p + 16) 16) with (DOk (info m)) by (symmetry; rewrite <- (info_len m) at 2; exact (rdn_view_pre _ _ _ _ V1)). cbn [dbind].
    destruct (info_fields m O1) as (I1 & I2 & I3). rewrite I1, I2, I3.
    pose proof (view_app_r _ _ _ _ V) as V2. rewrite bytes_len in V2.
    replace ((32 + zlen (lm_attrs m) + 3) / 4 * 4) with (32 + (zlen (lm_attrs m) + 3) / 4 * 4).
    2:{ replace (32 + zlen (lm_attrs m) + 3) with (zlen (lm_attrs m) + 3 + 8 * 4) by lia. rewrite Z.div_add by lia. lia. }
    match goal with |- context [nl_run fuel buf ?q ?l] => replace l with (zlen (datagram ms)) by lia end.
    rewrite (IH fuel _ O2 V2) by (cbn in F; lia). reflexivity.
Qed.
Lemma length_datagram ms : (length ms <= length (datagram ms))%nat.
Proof.
  induction ms as [|m ms IH]; [apply le_n|]. unfold datagram in *. cbn [flat_map length]. rewrite app_length.
  pose proof (bytes_len m) as B. pose proof (zlen_nonneg _ (lm_attrs m)). pose proof (Z.div_pos (zlen (lm_attrs m) + 3) 4). unfold zlen in *. lia.
Qed.
Lemma loop_all : forall dss buf, Forall (fun ms => ms <> [] /\ Forall link_ok ms /\ zlen (datagram ms) <= zlen buf) dss ->
  nl_loop buf (map datagram dss) = DOk (map seen (concat dss), []).
Proof.
  induction dss as [|ms dss IH]; intros buf F; [reflexivity|]. inversion F as [|? ? (N & O & L) F']; subst. cbn [map nl_loop concat].
  assert (P : 0 < zlen (datagram ms)).
  { pose proof (length_datagram ms). destruct ms; [easy|]. unfold zlen. cbn [length] in *. lia. }
  unfold nl_recv. replace ((0 <? zlen (datagram ms)) && (zlen (datagram ms) <=? zlen buf)) with true by lia.
  rewrite (run_all _ ms); [|assumption| |pose proof (length_datagram ms); lia].
  2:{ apply view_self. }
  cbn [dbind]. change (1 <=? 0) with false. cbv iota. rewrite IH; [cbn [dbind]; now rewrite map_app|].
  apply Forall_forall. intros x Hx. rewrite Forall_forall in F'. destruct (F' x Hx) as (A & B & C). split; [assumption|split; [assumption|]].
  rewrite zlen_app. unfold zlen in *. rewrite skipn_length. lia.
Qed.
Lemma cbs_run cfg world : forall ms k st, send_run cfg st (link_events world k ms) = DOk (link_cbs cfg world k (map seen ms) st).
Proof.
  induction ms as [|m ms IH]; intros k st; [reflexivity|]. cbn [link_events send_run map link_cbs seen]. cbn [send_step dbind].
  destruct (child_link cfg _ _ _ _ _ st) as [st1 eff]. cbn [dbind]. rewrite IH. cbn [dbind].
  destruct (link_cbs cfg world (S k) (map seen ms) st1) as [st2 effs]. reflexivity.
Qed.

(** ** Whatever arrives *)
Lemma dle32_pos l : Forall (fun b => 0 <= b < 256) l -> 0 <= dle32 l.
Proof.
  intros H. unfold dle32. destruct l as [|a [|b [|c [|d [|]]]]]; try lia.
  inversion H as [|? ? A H1]; subst. inversion H1 as [|? ? B H2]; subst. inversion H2 as [|? ? C H3]; subst. inversion H3 as [|? ? D _]; subst. lia.
Qed.
Lemma run_ok buf end_ : end_ + 16 <= zlen buf -> forall fuel p len, 0 <= p -> p + len <= end_ -> len < 16 * Z.of_nat fuel -> (0 < fuel)%nat ->
  exists ms ret, nl_run fuel buf p len = DOk (ms, ret).
Proof.
  intros E. induction fuel as [|fuel IH]; intros p len P L F F0; [inversion F0|]. cbn [nl_run].
  destruct (len <? 16) eqn:L16; [do 2 eexists; reflexivity|]. rewrite rdn_ok by lia. cbn [dbind]. set (h := slice buf p 16).
  set (mlen := dle32 (slice h 0 4)). destruct ((mlen <? 16) || (len <? mlen)) eqn:M; [do 2 eexists; reflexivity|].
  destruct (has _ 16); [do 2 eexists; reflexivity|]. destruct (_ =? 2); [do 2 eexists; reflexivity|]. destruct (_ =? 3); [do 2 eexists; reflexivity|].
  pose proof (Z.div_mod (mlen + 3) 4 ltac:(lia)). pose proof (Z.mod_pos_bound (mlen + 3) 4 ltac:(lia)).
  assert (NXT : forall q, exists ms ret, nl_run fuel buf (p + q) (len - q) = DOk (ms, ret) \/ q < 16).
  { intros q. destruct (Z_lt_ge_dec q 16) as [Q|Q]; [exists [], 0; now right|].
    destruct fuel as [|f]; [cbn in F; lia|]. destruct (IH (p + q) (len - q)) as (ms & ret & R); [lia|lia|lia|lia|].
    exists ms, ret. now left. }
  destruct (NXT ((mlen + 3) / 4 * 4)) as (ms & ret & [R|R]); [|lia].
  destruct (dle16 (slice h 4 2) <? 16); [exists ms, ret; exact R|]. unfold nl_ifinfo. rewrite rdn_ok by lia. cbn [dbind]. rewrite R. cbn [dbind]. do 2 eexists. reflexivity.
Qed.
Lemma loop_ok : forall ds buf, Forall (fun d => zlen d + 16 <= zlen buf) ds -> exists ms rest, nl_loop buf ds = DOk (ms, rest).
Proof.
  induction ds as [|d ds IH]; intros buf F; [cbn; eauto|]. inversion F as [|? ? L F']; subst. cbn [nl_loop]. unfold nl_recv.
  destruct ((0 <? zlen d) && (zlen d <=? zlen buf)) eqn:C; [|eauto].
  set (buf' := d ++ skipn (length d) buf).
  assert (B : zlen buf' = zlen buf). { unfold buf'. rewrite zlen_app. unfold zlen in *. rewrite skipn_length. lia. }
  destruct (run_ok buf' (zlen d)) with (fuel := S (length d)) (p := 0) (len := zlen d) as (ms & ret & R); try lia.
  { unfold zlen. lia. }
  rewrite R. cbn [dbind]. destruct (ret <=? 0); [eauto|].
  destruct (IH buf') as (ms' & rest & R'). { now rewrite B. } rewrite R'. cbn [dbind]. eauto.
Qed.
