(** The start of the daemon and where advertisements are sent. *)
From Verif Require Import Base Types Tlv Msg Protos Wire Util Child Netif Sysinfo Send Spec SpecChild SpecAdv SpecNetif SpecSend.
From Verif Require Import Lemmas VisProofs TypesProofs ChildProofs4 NetifProofs1 NetifProofs2 NetifProofs5 SendProofs1 SendProofs2 SendProofs3.

(** ** sysinfo_fetch *)
Lemma in_fgets x : forall n l, In x (fgets n l) -> In x l.
Proof. induction n as [|n IH]; intros [|b l]; cbn; try easy. destruct (b =? 10); [|intros [<-|H]; [now left|right; now apply IH]]. intros [<-|[]]. now left. Qed.
Lemma in_upto x : forall l, In x (upto_nl l) -> In x l.
Proof. induction l as [|b l IH]; cbn; [easy|]. destruct (b =? 10); [easy|]. intros [<-|H]; [now left|right; now apply IH]. Qed.
Lemma len_fgets : forall n l, zlen (fgets n l) <= Z.of_nat n.
Proof.
  induction n as [|n IH]; intros [|b l]; cbn [fgets]; try (unfold zlen; cbn [length]; lia).
  destruct (b =? 10); [change (zlen [b]) with 1; lia|]. specialize (IH l). zl. lia.
Qed.
Lemma len_upto : forall l, zlen (upto_nl l) <= zlen l.
Proof. induction l as [|b l IH]; cbn [upto_nl]; [lia|]. destruct (b =? 10); zl; pose proof (zlen_nonneg _ l); lia. Qed.
Lemma len_cstr l : zlen (cstr l) <= zlen l.
Proof. induction l as [|b l IH]; cbn [cstr]; [lia|]. destruct (b =? 0); zl; pose proof (zlen_nonneg _ l); lia. Qed.
Lemma line_ok os path n s m : (forall p c, so_file os p = Some c -> bytes c) -> Z.of_nat n < m -> read_line os path n = Some s -> cstring m s.
Proof.
  intros F L. unfold read_line. destruct (so_file os path) as [c|] eqn:E; [|discriminate]. pose proof (F _ _ E) as B.
  assert (K : cstring m (upto_nl (cstr (fgets n c)))).
  { split; [|split].
    - apply (bytes_sub _ c); [|assumption]. intros x H. apply in_upto in H. apply cstr_sub in H as [H _]. now apply in_fgets in H.
    - intros H. apply in_upto in H. now apply cstr_sub in H.
    - pose proof (len_upto (cstr (fgets n c))). pose proof (len_cstr (fgets n c)). pose proof (len_fgets n c). lia. }
  destruct c as [|b c]; [discriminate|]. intros H. now injection H as <-.
Qed.
Lemma cstring_parts n s : cstring n s -> bytes s /\ ~ In 0 s. Proof. now intros (A & B & _). Qed.
Lemma clean_app a b : (bytes a /\ ~ In 0 a) -> (bytes b /\ ~ In 0 b) -> bytes (a ++ b) /\ ~ In 0 (a ++ b).
Proof. intros [A1 A2] [B1 B2]. split; [now apply Forall_app|]. intros H. apply in_app_or in H as [H|H]; auto. Qed.
Lemma clean_space : bytes [32] /\ ~ In 0 [32].
Proof. split; [constructor; [unfold byte; lia|constructor]|]. intros [H|[]]. discriminate. Qed.
Lemma clean_nil : bytes [] /\ ~ In 0 [].
Proof. split; [constructor|easy]. Qed.
Lemma clean_cut k n s : bytes s /\ ~ In 0 s -> Z.of_nat k < n -> cstring n (firstn k s).
Proof. intros [A B]. now apply cstring_firstn. Qed.
Ltac clean := repeat first [assumption | apply clean_nil | apply clean_app].
Lemma in_removelast {A} (x : A) l : In x (removelast l) -> In x l.
Proof. induction l as [|y l IH]; [easy|]. destruct l as [|z l]; [easy|]. intros [<-|H]; [now left|right; now apply IH]. Qed.
Lemma lsb_clean os d : bytes (so_lsb os) -> lsb_descr os = Some d -> (bytes d /\ ~ In 0 d) /\ 1 <= zlen d.
Proof.
  intros B. unfold lsb_descr. destruct (so_lsb os) as [|b out] eqn:E; [discriminate|]. cbv zeta. set (buf := upto_nl _).
  assert (K : forall x, In x buf -> In x (b :: out) /\ x <> 0).
  { intros x H. apply in_upto in H. apply cstr_sub in H as [H1 H2]. apply in_fgets in H1. now split. }
  match goal with |- context [Some (?t ++ [32])] => set (text := t) end.
  assert (T : forall x, In x text -> In x (b :: out) /\ x <> 0).
  { intros x H. apply K. subst text. destruct (_ && _); [|assumption]. apply in_removelast. destruct (removelast buf); [easy|now right]. }
  destruct (so_lsb_ok os); [|discriminate]. intros H. injection H as <-. split; [|zl; pose proof (zlen_nonneg _ text); lia].
  apply clean_app; [|apply clean_space]. split; [|intros H; now apply T in H]. apply (bytes_sub _ (b :: out)); [|assumption]. intros x H. now apply T in H.
Qed.
Lemma rel_bytes : forall f r i, bytes (rel_loop f r i).
Proof.
  induction f as [|f IH]; intros r i; cbn [rel_loop]; [constructor|]. destruct r as [|c r]; [constructor|]. destruct i as [|i]; [constructor|].
  destruct (strtol (c :: r)) as [v [|k]]; [apply IH|]. constructor; [|apply IH]. unfold byte. apply Z.mod_pos_bound. lia.
Qed.
Lemma uts_rel_ok r : bytes (uts_rel r) /\ zlen (uts_rel r) = 3.
Proof.
  unfold uts_rel. split.
  - apply (bytes_sub _ (rel_loop (S (length r)) r 3 ++ [0; 0; 0])); [intros x; apply in_firstn|]. apply Forall_app. split; [apply rel_bytes|]. apply (bytes_zeros 3).
  - unfold zlen. rewrite firstn_length, app_length. cbn [length]. lia.
Qed.
Lemma forwarding_ok os a b : 0 <= a < 65536 -> 0 <= b < 65536 ->
  0 <= fst (sysinfo_forwarding os a b) < 65536 /\ 0 <= snd (sysinfo_forwarding os a b) < 65536.
Proof.
  intros A B. unfold sysinfo_forwarding.
  assert (C : 0 <= CAP_ROUTER < 65536) by (unfold CAP_ROUTER; lia).
  destruct (read_line os PROCFS_FORWARD_IPV4 255) as [l|]; [destruct (zlen l =? 0); [|destruct (atoi l =? 1)]|];
    try (destruct (read_line os PROCFS_FORWARD_IPV6 255) as [l'|]; [destruct (zlen l' =? 0); [|destruct (atoi l' =? 1)]|]);
    cbn [fst snd]; split; repeat (apply lor16); lia.
Qed.
Lemma len_nonempty {A} (l : list A) : l <> [] -> 1 <= zlen l.
Proof. destruct l as [|x l]; [easy|]. zl. pose proof (zlen_nonneg _ l). lia. Qed.
Lemma len_cut (l : list Z) k : 0 <= k <= 255 -> k <= zlen l -> k <= zlen (snprintf256 l).
Proof. intros. unfold snprintf256, zlen in *. rewrite firstn_length. lia. Qed.
Lemma boot_ok os country location : sios_ok os -> cstring 3 country -> cstring 256 location ->
  let si := sysinfo_fetch os country location in
  sysinfo_ok si /\ 7 <= zlen (si_uts_str si) /\ 4 <= zlen (si_platform si) /\ si_mnetif si = None.
Proof.
  intros (U & N & L & H & F) CC CL. cbv zeta.
  inversion U as [|? ? [S1 S2] U1]; subst. inversion U1 as [|? ? [R1 R2] U2]; subst. inversion U2 as [|? ? [V1 V2] U3]; subst. inversion U3 as [|? ? [M1 M2] _]; subst. clear U U1 U2 U3.
  apply cstring_parts in S1, R1, V1, M1. pose proof clean_space as SP.
  apply len_nonempty in S2, R2, V2, M2.
  unfold sysinfo_fetch. cbv zeta.
  set (uts_str := snprintf256 (_ ++ ut_sysname (so_uts os) ++ _)).
  set (plat := snprintf256 (match lsb_descr os with Some _ => _ | None => _ end)).
  set (host := firstn 255 _).
  assert (XU : cstring 256 uts_str /\ 7 <= zlen uts_str).
  { subst uts_str. destruct (lsb_descr os) as [d|] eqn:D; [apply lsb_clean in D as [D1 D2]; [|assumption]|].
    - split; [apply (clean_cut 255); [clean|lia]|].
      apply len_cut; [lia|]. rewrite !zlen_app. change (zlen [32]) with 1. lia.
    - split; [apply (clean_cut 255); [clean|lia]|].
      apply len_cut; [lia|]. rewrite !zlen_app. change (zlen [32]) with 1. pose proof (zlen_nonneg _ (@nil Z)). lia. }
  assert (XP : cstring 256 plat /\ 4 <= zlen plat).
  { subst plat. destruct (lsb_descr os) as [d|] eqn:D; [apply lsb_clean in D as [D1 D2]; [|assumption]|].
    - split; [apply (clean_cut 255); [clean|lia]|].
      apply len_cut; [lia|]. rewrite !zlen_app. change (zlen [32]) with 1. lia.
    - split; [apply (clean_cut 255); [clean|lia]|].
      apply len_cut; [lia|]. rewrite !zlen_app. change (zlen [32]) with 1. lia. }
  assert (XH : cstring 256 host).
  { subst host. apply cstring_parts in N. destruct (so_host os) as [h|]; [destruct (beq h _)|]; (apply (cstring_firstn 255); [..|lia]); try apply N; now apply (H h). }
  set (file := fun path => match read_line os path 32 with Some s => s | None => [] end).
  assert (XF : forall p, cstring 33 (file p)).
  { intros p. subst file. cbn beta. destruct (read_line os p 32) as [s|] eqn:E; [apply (line_ok os p 32); [assumption|lia|assumption]|].
    split; [constructor|]. split; [easy|unfold zlen; cbn [length]; lia]. }
  assert (XE : cstring 33 []) by (split; [constructor|]; split; [easy|unfold zlen; cbn [length]; lia]).
  pose proof (forwarding_ok os CAP_HOST CAP_HOST ltac:(unfold CAP_HOST; lia) ltac:(unfold CAP_HOST; lia)) as [FW1 FW2].
  destruct (sysinfo_forwarding os CAP_HOST CAP_HOST) as [cap act]. cbn [fst snd] in FW1, FW2.
  set (med := Z.lor _ _).
  assert (XM : 0 <= med < 65536).
  { subst med. apply lor16; [apply lor16; [lia|]|]; match goal with |- context [if ?b then _ else _] => destruct b end; lia. }
  cbn [si_uts_str si_platform si_mnetif]. destruct (uts_rel_ok (ut_release (so_uts os))) as [RB RL].
  split; [|split; [apply XU|split; [apply XP|reflexivity]]].
  unfold sysinfo_ok, hinv_ok. cbn.
  assert (SW : cstring 33 (firstn 32 (ut_release (so_uts os)))) by (apply (cstring_firstn 32); [apply R1|apply R1|lia]).
  destruct XU as [XU _]. destruct XP as [XP _]. pose proof (bytes_zeros 6) as Z6.
  repeat match goal with |- _ /\ _ => split end; try assumption; try apply XF; try lia; try reflexivity.
Qed.
