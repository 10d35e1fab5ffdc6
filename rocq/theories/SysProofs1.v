(** What a running child keeps of its system information, and lines of files. *)
From Verif Require Import Base Types Tlv Msg Protos Wire Util Child Netif Sysinfo Send Spec SpecChild SpecAdv SpecNetif SpecNetif2 SpecSend SpecSys.
From Verif Require Import Lemmas VisProofs TypesProofs ChildProofs4 NetifProofs1 NetifProofs2 NetifProofs5 NetifProofs9 SendProofs1 SendProofs2 SendProofs3 SendProofs4 SendProofs5 SendProofs6.

(** ** Running *)
Lemma on_running cfg os country location st : running_on cfg os country location st -> running cfg st.
Proof. induction 1 as [A B C|st e st' eff R IH O H]; [now apply run_boot|eapply run_event; eassumption]. Qed.
(** Bits 2 and 3 of the capabilities do not change. *)
Definition same_caps (a b : sysinfo) : Prop :=
  forall i, i = 2 \/ i = 3 -> Z.testbit (si_cap b) i = Z.testbit (si_cap a) i /\ Z.testbit (si_cap_active b) i = Z.testbit (si_cap_active a) i.
Lemma fetch_same cfg os nfs si ret nfs' si' gone : NoDup (indices nfs) -> netif_fetch cfg os nfs si = (ret, nfs', si', gone) -> same_caps si si'.
Proof.
  intros D H. destruct (no_ifaddrs os) as [ias|] eqn:A.
  - destruct (fetch_caps _ _ _ _ _ _ _ _ _ A D H) as (C1 & C2 & _). intros i Hi.
    specialize (C1 i ltac:(lia)). specialize (C2 i ltac:(lia)).
    destruct Hi as [-> | ->]; cbn in C1, C2; now split.
  - rewrite (fetch_none _ _ _ _ A) in H. injection H as _ _ <- _. intros i _. now split.
Qed.
Lemma core_keeps cfg os index st st1 eff : os_ok os -> inv st -> core cfg os index st st1 eff ->
  si_keeps (st_si st) (st_si st1) /\ same_caps (st_si st) (st_si st1).
Proof.
  intros O I C. destruct C as [F|ret nfs si gone eff FL F Z E|ret nfs si gone T eff FL F Z G W N S HT HL E].
  - split; [apply keeps_refl|]. intros i _. now split.
  - destruct I as [I1 I2 I3 I4 I5 I6 I7]. destruct (fetch_well _ _ _ _ _ _ _ _ O I1 I4 F) as (_ & _ & K). split; [exact K|exact (fetch_same _ _ _ _ _ _ _ _ I2 F)].
  - destruct I as [I1 I2 I3 I4 I5 I6 I7]. destruct (fetch_well _ _ _ _ _ _ _ _ O I1 I4 F) as (_ & _ & K). split; [exact K|exact (fetch_same _ _ _ _ _ _ _ _ I2 F)].
Qed.
Lemma send_keeps cfg os index timeout now st st' eff : os_ok os -> inv st -> child_send cfg os index timeout now st = (st', eff) ->
  si_keeps (st_si st) (st_si st') /\ same_caps (st_si st) (st_si st').
Proof.
  intros O I H. destruct (send_core _ _ _ _ _ _ _ _ O I H) as (st1 & eff1 & C & _ & E & _). rewrite E. now apply (core_keeps cfg os index st st1 eff1).
Qed.
Lemma step_keeps cfg st e st' eff : inv st -> event_ok e -> send_step cfg st e = DOk (st', eff) ->
  si_keeps (st_si st) (st_si st') /\ same_caps (st_si st) (st_si st').
Proof.
  assert (Same : forall x : sysinfo, si_keeps x x /\ same_caps x x) by (intros x; split; [apply keeps_refl|]; intros i _; now split).
  intros I O H. destruct e as [os now|os hatype flags index now|e].
  - cbn in H. injection H as H. exact (send_keeps _ _ _ _ _ _ _ _ O I H).
  - cbn in H. injection H as H. unfold child_link in H. destruct (negb _); [injection H as <- <-; apply Same|]. destruct (negb _); [injection H as <- <-; apply Same|].
    exact (send_keeps _ _ _ _ _ _ _ _ O I H).
  - assert (K : st_si st' = st_si st); [|rewrite K; apply Same].
    clear -H. destruct e; cbn [send_step] in H; try (injection H as <- _; reflexivity);
      (match type of H with context [child_step ?a ?b ?c] => destruct (child_step a b c) as [[c' x]| | | |] end; try discriminate; cbn in H; injection H as <- _; reflexivity).
Qed.
Lemma on_keeps cfg os country location st : running_on cfg os country location st ->
  sios_ok os /\ cstring 3 country /\ cstring 256 location
  /\ si_keeps (sysinfo_fetch os country location) (st_si st) /\ same_caps (sysinfo_fetch os country location) (st_si st).
Proof.
  induction 1 as [A B C|st e st' eff R IH O H].
  - split; [assumption|]. split; [assumption|]. split; [assumption|]. split; [apply keeps_refl|]. intros i _. now split.
  - destruct IH as (A & B & C & K & S). pose proof (on_running _ _ _ _ _ R) as R'. apply running_inv in R'.
    destruct (step_keeps _ _ _ _ _ R' O H) as [K' S']. split; [assumption|]. split; [assumption|]. split; [assumption|].
    split; [eapply keeps_trans; eassumption|]. intros i Hi. destruct (S i Hi), (S' i Hi). split; congruence.
Qed.
(** Where a frame comes from. *)
Lemma due_from cfg os nfs si : forall ds seq i p f, 0 <= seq < 65536 -> In (i, p, f) (frames_due cfg os nfs si seq ds) ->
  exists top sub seq', 0 <= seq' < 65536 /\ In (top, sub, p) ds /\ i = nf_index sub /\ f = frame_due cfg os nfs si seq' (top, sub, p) /\ zlen f <= 1518.
Proof.
  induction ds as [|[[top sub] q] ds IH]; intros seq i p f Q; cbn [frames_due]; [easy|]. cbn [fst snd].
  intros K. apply in_app_or in K as [K|K].
  - destruct (zlen _ <=? 1518) eqn:L; [|easy]. cbn [when] in K. destruct K as [K|[]]. injection K as <- <- <-.
    exists top, sub, seq. split; [assumption|]. split; [now left|]. split; [reflexivity|]. split; [reflexivity|now apply Z.leb_le].
  - apply IH in K; [|destruct (q =? 2); [apply Z.mod_pos_bound; lia|lia]]. destruct K as (t & s & x & X1 & X2 & X3).
    exists t, s, x. split; [assumption|]. split; [now right|assumption].
Qed.
Lemma sent_frame cfg st e st' eff i p f : running cfg st -> event_ok e -> send_step cfg st e = DOk (st', eff) -> In (SFrame i p f) eff ->
  exists os nfs si seq top sub, well nfs /\ sysinfo_ok si /\ si_keeps (st_si st) si /\ same_caps (st_si st) si
    /\ In top nfs /\ In sub nfs /\ i = nf_index sub /\ 0 <= p < 6 /\ 0 <= seq < 65536
    /\ f = frame_due cfg os nfs si seq (top, sub, p) /\ zlen f <= 1518.
Proof.
  intros R O H K. apply running_inv in R. apply in_frames in K.
  destruct (step_core _ _ _ _ _ R O H) as [E|(os & index & st1 & eff1 & Oo & C & E)]; rewrite E in K; [easy|].
  pose proof (core_keeps _ _ _ _ _ _ Oo R C) as [K1 K2].
  destruct C as [F|ret nfs si gone eff1 FL F Z E1|ret nfs si gone T eff1 FL F Z G W N S HT HL E1]; [easy|rewrite E1 in K; easy|].
  rewrite E1 in K. destruct R as [I1 I2 I3 I4 I5 I6 I7].
  apply due_from in K; [|assumption]. destruct K as (top & sub & seq & Q & X1 & X2 & X3 & X4). apply all_due_in in X1 as (X1 & _ & X5 & X6 & _).
  exists os, nfs, si, seq, top, sub. cbn [st_si] in K1, K2. intuition.
Qed.

(** ** Lines *)
Lemma fgets_prefix : forall n l, exists rest, l = fgets n l ++ rest
  /\ (zlen (fgets n l) = Z.of_nat n \/ rest = [] \/ exists a, fgets n l = a ++ [10]).
Proof.
  induction n as [|n IH]; intros [|b l]; cbn [fgets].
  - exists []. split; [reflexivity|now left].
  - exists (b :: l). split; [reflexivity|now left].
  - exists []. split; [reflexivity|right; now left].
  - destruct (b =? 10) eqn:B.
    + exists l. split; [reflexivity|]. right. right. exists []. apply Z.eqb_eq in B. now subst.
    + destruct (IH l) as (rest & E & K). exists rest. split; [cbn; now rewrite <- E|]. destruct K as [K|[K|(a & K)]].
      * left. rewrite zlen_cons, K. lia.
      * right. now left.
      * right. right. exists (b :: a). now rewrite K.
Qed.
Lemma cstr_prefix s : exists rest, s = cstr s ++ rest /\ (rest = [] \/ exists r, rest = 0 :: r).
Proof.
  induction s as [|b s (rest & E & K)]; cbn [cstr]; [exists []; split; [reflexivity|now left]|]. destruct (b =? 0) eqn:B.
  - exists (b :: s). split; [reflexivity|]. right. exists s. apply Z.eqb_eq in B. now subst.
  - exists rest. split; [cbn; now rewrite <- E|assumption].
Qed.
Lemma upto_prefix s : exists rest, s = upto_nl s ++ rest /\ ~ In 10 (upto_nl s) /\ (rest = [] \/ exists r, rest = 10 :: r).
Proof.
  induction s as [|b s (rest & E & N & K)]; cbn [upto_nl]; [exists []; split; [reflexivity|]; split; [easy|now left]|]. destruct (b =? 10) eqn:B.
  - exists (b :: s). split; [reflexivity|]. split; [easy|]. right. exists s. apply Z.eqb_eq in B. now subst.
  - exists rest. split; [cbn; now rewrite <- E|]. split; [|assumption]. intros [H|H]; [lia|now apply N].
Qed.
Lemma line_first n text : first_line (Z.of_nat n) text (upto_nl (cstr (fgets n text))).
Proof.
  destruct (fgets_prefix n text) as (r1 & E1 & K1). destruct (cstr_prefix (fgets n text)) as (r2 & E2 & K2).
  destruct (upto_prefix (cstr (fgets n text))) as (r3 & E3 & N3 & K3).
  pose proof (len_fgets n text) as L1. set (F := fgets n text) in *. set (C := cstr F) in *. set (U := upto_nl C) in *.
  exists (r3 ++ r2 ++ r1). split; [|split; [assumption|split; [|split]]].
  - rewrite !app_assoc, <- E3, <- E2. exact E1.
  - intros H. apply in_upto in H. now apply cstr_sub in H.
  - pose proof (len_cstr F) as X1. pose proof (len_upto C) as X2. fold C in X1. fold U in X2. lia.
  - destruct K3 as [->|(r & ->)]; [|right; right; cbn; eauto]. destruct K2 as [->|(r & ->)]; [|right; right; cbn; eauto].
    rewrite app_nil_r in E2, E3. cbn [app]. destruct K1 as [K1|[->|(a & Ka)]].
    + left. now rewrite <- E3, <- E2.
    + right. now left.
    + destruct N3. rewrite <- E3, <- E2, Ka. apply in_or_app. right. now left.
Qed.
Lemma line_unique n text a b : first_line n text a -> first_line n text b -> a = b.
Proof.
  intros (r & -> & A1 & A2 & A3 & A4) (s & E & B1 & B2 & B3 & B4). revert n b s E A3 A4 B1 B2 B3 B4.
  induction a as [|x a IH]; intros n b s E A3 A4 B1 B2 B3 B4.
  - destruct b as [|y b]; [reflexivity|]. rewrite zlen_nil in *. rewrite zlen_cons in *. pose proof (zlen_nonneg _ b). cbn in E.
    destruct A4 as [A4|[->|(c & t & -> & A4)]]; [lia|discriminate|]. injection E as -> _. destruct A4 as [-> | ->]; [destruct B1|destruct B2]; now left.
  - destruct b as [|y b].
    + rewrite zlen_nil in *. rewrite zlen_cons in *. pose proof (zlen_nonneg _ a). cbn in E.
      destruct B4 as [B4|[->|(c & t & -> & B4)]]; [lia|discriminate|]. injection E as -> _. destruct B4 as [-> | ->]; [destruct A1|destruct A2]; now left.
    + cbn in E. injection E as <- E. f_equal. rewrite zlen_cons in *.
      apply (IH ltac:(intros H; apply A1; now right) ltac:(intros H; apply A2; now right) (n - 1) b s E); try lia; try (intros H; first [apply B1; now right|apply B2; now right]).
      * destruct A4 as [A4|A4]; [left; lia|now right].
      * destruct B4 as [B4|B4]; [left; lia|now right].
Qed.
Lemma read_first os path n s : read_line os path n = Some s -> file_line (Z.of_nat n) os path s.
Proof.
  unfold read_line, file_line. destruct (so_file os path) as [c|]; [|discriminate]. destruct c as [|b c]; [discriminate|].
  intros H. injection H as <-. apply line_first.
Qed.
Lemma read_none os path n : read_line os path n = None -> file_line (Z.of_nat n) os path [].
Proof.
  unfold read_line, file_line. destruct (so_file os path) as [c|]; [|reflexivity]. destruct c as [|b c]; [|discriminate].
  intros _. exists []. split; [reflexivity|]. split; [easy|]. split; [easy|]. split; [rewrite zlen_nil; lia|]. right. now left.
Qed.
Lemma read_default os path n : file_line (Z.of_nat n) os path (match read_line os path n with Some s => s | None => [] end).
Proof. destruct (read_line os path n) eqn:E; [now apply read_first|now apply read_none]. Qed.

(** ** Names *)
Lemma last_snoc (l : list Z) x d : last (l ++ [x]) d = x.
Proof. induction l as [|y l IH]; [reflexivity|]. cbn [app last]. rewrite IH. now destruct (l ++ [x]) eqn:E; [apply app_eq_nil in E as [_ E]|]. Qed.
Lemma lsb_distribution os : match lsb_descr os with
  | Some d => exists t, d = t ++ [32] /\ distribution os (Some t)
  | None => distribution os None
  end.
Proof.
  unfold lsb_descr. destruct (so_lsb os) as [|b out] eqn:L; [apply dist_none; now right|]. cbv zeta.
  pose proof (line_first 511 (b :: out)) as F. rewrite <- L in F at 1. set (buf := upto_nl _) in *. change (Z.of_nat 511) with 511 in F.
  destruct (so_lsb_ok os) eqn:O; [|apply dist_none; now left].
  assert (NE : so_lsb os <> []) by (rewrite L; discriminate).
  eexists. split; [reflexivity|].
  destruct ((hd 0 buf =? 34) && (last buf 0 =? 34)) eqn:Q.
  - apply andb_true_iff in Q as [Q1 Q2]. clearbody buf. destruct buf as [|x buf]; [discriminate|]. cbn [hd] in Q1. apply Z.eqb_eq in Q1. subst x.
    destruct (exists_last (l := 34 :: buf) ltac:(discriminate)) as (m & z & E). rewrite E in Q2. rewrite last_snoc in Q2. apply Z.eqb_eq in Q2. subst z.
    rewrite E, removelast_last. destruct m as [|y m]; [cbn; apply dist_quote; [assumption|]|].
    + cbn in E. now rewrite <- E.
    + cbn in E. injection E as <- E. cbn [tl]. apply dist_quoted; [assumption|]. cbn. now rewrite <- E.
  - apply dist_plain; try assumption.
    + intros E. rewrite E in Q. discriminate.
    + intros t E. rewrite E, app_assoc, last_snoc in Q. discriminate.
Qed.
Lemma spaced_cons w x l : spaced (w :: x :: l) = w ++ [32] ++ spaced (x :: l). Proof. reflexivity. Qed.
Lemma beq_eq a b : beq a b = true <-> a = b.
Proof.
  revert b. induction a as [|x a IH]; intros [|y b]; cbn; try easy. rewrite andb_true_iff, IH, Z.eqb_eq. split; [intros [-> ->]; reflexivity|intros H; now injection H].
Qed.
Lemma boot_described os country location : described os (sysinfo_fetch os country location).
Proof.
  pose proof (lsb_distribution os) as D. unfold described, sysinfo_fetch. cbv zeta. destruct (sysinfo_forwarding os CAP_HOST CAP_HOST) as [cap act].
  cbn [si_uts_str si_platform]. unfold snprintf256. destruct (lsb_descr os) as [d|].
  - destruct D as (t & -> & D). exists (Some t). split; [assumption|]. cbn [app]. rewrite !spaced_cons. cbn [spaced]. split; f_equal; rewrite <- ?app_assoc; reflexivity.
  - exists None. split; [assumption|]. cbn [app]. rewrite !spaced_cons. cbn [spaced]. now split.
Qed.
Lemma boot_named os country location : named os (sysinfo_fetch os country location).
Proof.
  unfold named, sysinfo_fetch. cbv zeta. destruct (sysinfo_forwarding os CAP_HOST CAP_HOST) as [cap act]. cbn [si_hostname].
  destruct (so_host os) as [h|]; [|right; split; [now left|reflexivity]]. destruct (beq h (bs "localhost")) eqn:B.
  - apply beq_eq in B. subst h. right. split; [now right|reflexivity].
  - left. exists h. split; [reflexivity|]. split; [|reflexivity]. intros ->. now rewrite (proj2 (beq_eq _ _) eq_refl) in B.
Qed.
Lemma boot_inventoried os country location : inventoried os (si_hinv (sysinfo_fetch os country location)).
Proof.
  unfold inventoried, sysinfo_fetch. cbv zeta. destruct (sysinfo_forwarding os CAP_HOST CAP_HOST) as [cap act]. cbn [si_hinv hi_hw hi_fw hi_sw hi_serial hi_manuf hi_model hi_asset].
  repeat match goal with |- _ /\ _ => split end; try reflexivity; apply (read_default os _ 32).
Qed.
