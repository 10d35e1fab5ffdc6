(** Frames, and sockets opened and closed, do not depend on neighbours and clients. *)
From Verif Require Import Base Types Tlv Msg Protos Wire Lldp Cdp Edp Fdp Ndp Util Child Netif Send SpecSend SpecFlow.
From Verif Require Import Lemmas ChildProofs7 FlowProofs1.

Section Flow.
(** [b]: protocols enabled by what was heard are left aside. *)
Context (b : bool) (cfg : scfg).
Notation shs := (map (sh b false false)).
Definition seen (e : seff) : bool :=
  match e with SChild _ => false | SFrame _ p _ => negb b || sc_enabled cfg p | SOpen _ => negb b | SClose _ => true end.
Definition counts : Prop := b = false \/ sc_enabled cfg PROTO_EDP = true.
Definition seq_like (a c : Z) : Prop := counts -> a = c.
Definition eff_like (x y : list seff) : Prop := filter seen x = filter seen y.

Lemma eff_app a c a' c' : eff_like a a' -> eff_like c c' -> eff_like (a ++ c) (a' ++ c').
Proof. unfold eff_like. intros H1 H2. now rewrite !filter_app, H1, H2. Qed.
Lemma eff_refl x : eff_like x x. Proof. reflexivity. Qed.
Lemma like_field {A} (f : netif -> A) n m : (forall x, f (sh b false false x) = f x) -> sh b false false n = sh b false false m -> f n = f m.
Proof. intros H E. rewrite <- (H n), <- (H m). now rewrite E. Qed.
Lemma like_protos n m : b = false -> sh b false false n = sh b false false m -> nf_protos n = nf_protos m.
Proof. intros B E. apply (f_equal nf_protos) in E. revert E. unfold sh. rewrite B. auto. Qed.
Lemma like_byindex T T' i : shs T = shs T' -> option_map (sh b false false) (netif_byindex T i) = option_map (sh b false false) (netif_byindex T' i).
Proof. intros E. now rewrite <- !(sh_byindex b false false), E. Qed.
Lemma like_some (o o' : option netif) : option_map (sh b false false) o = option_map (sh b false false) o' ->
  (o = None /\ o' = None) \/ exists n n', o = Some n /\ o' = Some n' /\ sh b false false n = sh b false false n'.
Proof. destruct o as [n|], o' as [n'|]; cbn; intros E; try discriminate; [right; exists n, n'; repeat split; congruence|now left]. Qed.
Lemma like_assign f i T T' : commutes b false false f -> shs T = shs T' -> shs (nf_assign f i T) = shs (nf_assign f i T').
Proof. intros H E. rewrite <- !sh_assign by assumption. now rewrite E. Qed.
Lemma media_commutes os : commutes b false false (netif_media os).
Proof.
  intros n. unfold netif_media. change (nf_type (sh b false false n)) with (nf_type n). change (nf_name (sh b false false n)) with (nf_name n).
  change (nf_index (sh b false false n)) with (nf_index n). change (nf_mtu (sh b false false n)) with (nf_mtu n). cbv zeta.
  destruct (negb _); [reflexivity|]. destruct (no_ecmd os (nf_index n)); [|reflexivity].
  destruct (has (ec_supported e) SUPPORTED_Autoneg); reflexivity.
Qed.
Lemma build_seq p opts c c' n par mgmt nfs si : (p = PROTO_EDP -> c = c') ->
  proto_build p opts c n par mgmt nfs si = proto_build p opts c' n par mgmt nfs si.
Proof.
  intros H. unfold proto_build. destruct (Z.eqb_spec p PROTO_EDP) as [E|E]; [|reflexivity]. now rewrite (H E).
Qed.
Lemma build_like p opts c c' n n' par par' mgmt mgmt' T T' si : (p = PROTO_EDP -> c = c') -> sh b false false n = sh b false false n' ->
  option_map (sh b false false) par = option_map (sh b false false) par' -> option_map (sh b false false) mgmt = option_map (sh b false false) mgmt' -> shs T = shs T' ->
  proto_build p opts c n par mgmt T si = proto_build p opts c' n' par' mgmt' T' si.
Proof.
  intros H E1 E2 E3 E4. rewrite <- (sh_build b false false p opts c) by reflexivity; rewrite <- (sh_build b false false p opts c') by reflexivity. rewrite E1, E2, E3, E4. now apply build_seq.
Qed.

Lemma proto_like T T' si t t' s s' c c' e e' p : shs T = shs T' -> sh b false false t = sh b false false t' -> sh b false false s = sh b false false s' ->
  seq_like c c' -> eff_like e e' ->
  let '(c1, e1) := send_proto cfg T si t s (c, e) p in let '(c2, e2) := send_proto cfg T' si t' s' (c', e') p in
  seq_like c1 c2 /\ eff_like e1 e2.
Proof.
  intros ET Et Es Hc He. unfold send_proto.
  set (deref := fun (T : list netif) (o : option Z) => match o with Some i => netif_byindex T i | None => None end).
  assert (DE : forall o, option_map (sh b false false) (deref T o) = option_map (sh b false false) (deref T' o)).
  { intros [i|]; [|reflexivity]. now apply like_byindex. }
  change (match nf_parent s with Some i => netif_byindex T i | None => None end) with (deref T (nf_parent s)).
  change (match nf_parent s' with Some i => netif_byindex T' i | None => None end) with (deref T' (nf_parent s')).
  change (match si_mnetif si with Some i => netif_byindex T i | None => None end) with (deref T (si_mnetif si)).
  change (match si_mnetif si with Some i => netif_byindex T' i | None => None end) with (deref T' (si_mnetif si)).
  rewrite <- (like_field nf_parent s s' (fun _ => eq_refl) Es).
  rewrite <- (like_field nf_bonding_mode t t' (fun _ => eq_refl) Et).
  rewrite <- (like_field nf_child s s' (fun _ => eq_refl) Es).
  rewrite <- (like_field nf_index s s' (fun _ => eq_refl) Es).
  cbv zeta.
  set (q := negb (sc_enabled cfg p) && negb (has (nf_protos t) (Z.shiftl 1 p))).
  set (q' := negb (sc_enabled cfg p) && negb (has (nf_protos t') (Z.shiftl 1 p))).
  set (bl := (nf_bonding_mode t =? NETIF_BONDING_FAILOVER) && negb (nf_child s =? NETIF_CHILD_ACTIVE)).
  destruct (sc_enabled cfg p) eqn:EN.
  - change q with false. change q' with false. cbn [negb andb].
    assert (Hs : p = PROTO_EDP -> c = c') by (intros ->; apply Hc; now right).
    assert (Hs2 : seq_like (if p =? PROTO_EDP then (c + 1) mod 65536 else c) (if p =? PROTO_EDP then (c' + 1) mod 65536 else c')).
    { intros K. rewrite (Hc K). reflexivity. }
    rewrite <- (build_like p (sc_opts cfg) c c' s s' (deref T (nf_parent s)) (deref T' (nf_parent s)) (deref T (si_mnetif si)) (deref T' (si_mnetif si)) T T' si Hs Es (DE _) (DE _) ET).
    destruct (proto_build p _ c s _ _ T si) as [f|]; (split; [exact Hs2|]); [|exact He]. apply eff_app; [exact He|reflexivity].
  - unfold q, q'. cbn [negb andb]. assert (BB : b = true \/ b = false) by (destruct b; auto). destruct BB as [B|B].
    + assert (Hn : forall f, seen (SFrame (nf_index s) p f) = false) by (intros f; cbn; now rewrite EN, B).
      assert (Hc' : forall x y, seq_like (if p =? PROTO_EDP then x else c) (if p =? PROTO_EDP then y else c')
        /\ seq_like c (if p =? PROTO_EDP then y else c') /\ seq_like (if p =? PROTO_EDP then x else c) c').
      { intros x y. destruct (Z.eqb_spec p PROTO_EDP) as [->|]; [|now repeat split].
        assert (K : forall u v, seq_like u v) by (intros u v [K|K]; congruence). repeat split; apply K. }
      assert (Ha : forall x f, filter seen (x ++ [SFrame (nf_index s) p f]) = filter seen x).
      { intros x f. rewrite filter_app. cbn [filter]. rewrite Hn. apply app_nil_r. }
      destruct (Hc' ((c + 1) mod 65536) ((c' + 1) mod 65536)) as (K1 & K2 & K3).
      destruct (negb (has (nf_protos t) _)), (negb (has (nf_protos t') _)); repeat match goal with |- context [proto_build ?a ?b ?c ?d ?e ?f ?g ?h] => destruct (proto_build a b c d e f g h) end;
        split; try assumption; unfold eff_like in *; now rewrite ?Ha.
    + pose proof (like_protos t t' B Et) as EP.
      rewrite <- EP. destruct (negb (has (nf_protos t) _)); [now split|].
      assert (Hs : p = PROTO_EDP -> c = c') by (intros _; apply Hc; now left).
      rewrite <- (build_like p (sc_opts cfg) c c' s s' (deref T (nf_parent s)) (deref T' (nf_parent s)) (deref T (si_mnetif si)) (deref T' (si_mnetif si)) T T' si Hs Es (DE _) (DE _) ET).
      assert (Hs2 : seq_like (if p =? PROTO_EDP then (c + 1) mod 65536 else c) (if p =? PROTO_EDP then (c' + 1) mod 65536 else c')).
      { intros K. rewrite (Hc K). reflexivity. }
      destruct (proto_build p _ c s _ _ T si) as [f|]; (split; [exact Hs2|]); [|exact He]. apply eff_app; [exact He|reflexivity].
Qed.
Lemma protos_like T T' si t t' s s' : shs T = shs T' -> sh b false false t = sh b false false t' -> sh b false false s = sh b false false s' ->
  forall ps c c' e e', seq_like c c' -> eff_like e e' ->
  let '(c1, e1) := fold_left (send_proto cfg T si t s) ps (c, e) in let '(c2, e2) := fold_left (send_proto cfg T' si t' s') ps (c', e') in
  seq_like c1 c2 /\ eff_like e1 e2.
Proof.
  intros ET Et Es. induction ps as [|p ps IH]; intros c c' e e' Hc He; [now split|]. cbn [fold_left].
  pose proof (proto_like T T' si t t' s s' c c' e e' p ET Et Es Hc He) as K.
  destruct (send_proto cfg T si t s (c, e) p) as [c1 e1], (send_proto cfg T' si t' s' (c', e') p) as [c2 e2].
  destruct K as [K1 K2]. now apply IH.
Qed.

Definition like3 (x y : list netif * Z * list seff) : Prop :=
  let '(T, c, e) := x in let '(T', c', e') := y in shs T = shs T' /\ seq_like c c' /\ eff_like e e'.
Lemma skip_like n m : sh b false false n = sh b false false m -> send_skip cfg n = send_skip cfg m.
Proof. now apply like_field. Qed.
Lemma sub_like os si index top x y i : like3 x y -> like3 (send_sub cfg os si index top x i) (send_sub cfg os si index top y i).
Proof.
  destruct x as [[T c] e], y as [[T' c'] e']. intros (ET & Hc & He). unfold send_sub.
  destruct (negb (index =? NETIF_INDEX_MAX) && negb (index =? i)); [now split|].
  destruct (like_some _ _ (like_byindex T T' i ET)) as [[-> ->]|(s & s' & -> & -> & Es)]; [now split|].
  rewrite <- (like_field nf_link_event s s' (fun _ => eq_refl) Es). cbv zeta. rewrite <- (skip_like s s' Es).
  match goal with |- context [set_link_event ?v] => set (ev := v) end.
  assert (E1 : shs (nf_assign (set_link_event ev) i T) = shs (nf_assign (set_link_event ev) i T')) by now apply like_assign.
  destruct (send_skip cfg s); [now split|].
  assert (E2 : shs (nf_assign (netif_media os) i (nf_assign (set_link_event ev) i T)) = shs (nf_assign (netif_media os) i (nf_assign (set_link_event ev) i T')))
    by (apply like_assign; [apply media_commutes|assumption]).
  set (T2 := nf_assign (netif_media os) i (nf_assign (set_link_event ev) i T)) in *.
  set (T2' := nf_assign (netif_media os) i (nf_assign (set_link_event ev) i T')) in *.
  set (o := if has (sc_opts cfg) OPT_RECV && (nf_protos s =? 0) then [SOpen i] else []).
  set (o' := if has (sc_opts cfg) OPT_RECV && (nf_protos s' =? 0) then [SOpen i] else []).
  assert (Eo : eff_like o o').
  { unfold o, o', eff_like. assert (BB : b = true \/ b = false) by (destruct b; auto). destruct BB as [B|B].
    - destruct (_ && (nf_protos s =? 0)), (_ && (nf_protos s' =? 0)); cbn [filter seen]; rewrite ?B; reflexivity.
    - pose proof (like_protos s s' B Es) as EP.
      now rewrite EP. }
  destruct (negb (has (sc_opts cfg) OPT_SEND)); [split; [assumption|split; [assumption|now apply eff_app]]|].
  destruct (like_some _ _ (like_byindex T2 T2' i E2)) as [[-> ->]|(u & u' & -> & -> & Eu)];
    [split; [assumption|split; [assumption|now apply eff_app]]|].
  destruct (like_some _ _ (like_byindex T2 T2' top E2)) as [[-> ->]|(t & t' & -> & -> & Et)];
    [split; [assumption|split; [assumption|now apply eff_app]]|].
  pose proof (protos_like T2 T2' si t t' u u' E2 Et Eu [0; 1; 2; 3; 4; 5] c c' [] [] Hc (eff_refl [])) as K.
  destruct (fold_left (send_proto cfg T2 si t u) _ (c, [])) as [c1 e1], (fold_left (send_proto cfg T2' si t' u') _ (c', [])) as [c2 e2].
  destruct K as [K1 K2]. split; [assumption|split; [assumption|]]. apply eff_app; [assumption|now apply eff_app].
Qed.
Lemma subs_like os si index top : forall l x y, like3 x y ->
  like3 (fold_left (send_sub cfg os si index top) l x) (fold_left (send_sub cfg os si index top) l y).
Proof. induction l as [|i l IH]; intros x y H; [exact H|]. cbn [fold_left]. apply IH. now apply sub_like. Qed.
Lemma subif_like n n' T T' : shs T = shs T' -> sh b false false n = sh b false false n' -> map nf_index (subif_each n T) = map nf_index (subif_each n' T').
Proof.
  intros ET En. rewrite <- (sh_index b false false (subif_each n T)), <- (sh_index b false false (subif_each n' T')).
  now rewrite <- !sh_subifs, ET, En.
Qed.
Lemma top_like os si index T T' n n' x y : shs T = shs T' -> sh b false false n = sh b false false n' -> like3 x y ->
  like3 (send_top cfg os si index T x n) (send_top cfg os si index T' y n').
Proof.
  intros ET En H. unfold send_top. rewrite <- (skip_like n n' En). destruct (send_skip cfg n); [exact H|].
  rewrite <- (subif_like n n' T T' ET En), <- (like_field nf_index n n' (fun _ => eq_refl) En). now apply subs_like.
Qed.
Lemma cons_like {A} (x y : A) l l' : x :: l = y :: l' -> x = y /\ l = l'.
Proof. intros E. now injection E. Qed.
Lemma tops_like os si index T T' : shs T = shs T' -> forall l l' x y, shs l = shs l' -> like3 x y ->
  like3 (fold_left (send_top cfg os si index T) l x) (fold_left (send_top cfg os si index T') l' y).
Proof.
  intros ET. induction l as [|n l IH]; intros [|n' l'] x y El H; try discriminate; [exact H|].
  apply cons_like in El. destruct El as [En El]. cbn [fold_left]. apply IH; [exact El|]. now apply top_like.
Qed.
Lemma loop_like os index T T' si c c' : shs T = shs T' -> seq_like c c' ->
  like3 (send_loop cfg os index T si c) (send_loop cfg os index T' si c').
Proof.
  intros ET Hc. unfold send_loop. apply tops_like; [exact ET| |now split]. now rewrite <- !sh_each, ET.
Qed.

(** ** Events *)
Definition like (x y : sstate) : Prop :=
  shs (table x) = shs (table y) /\ st_si x = st_si y /\ seq_like (st_edp x) (st_edp y).
Definition kept (x y : sstate) : Prop := shs (table y) = shs (table x) /\ st_si y = st_si x /\ st_edp y = st_edp x.
Definition heard_only : Prop := b = true \/ has (sc_opts cfg) OPT_AUTO = false.

Lemma still_assign f i T : (forall n, sh b false false (f n) = sh b false false n) -> shs (nf_assign f i T) = shs T.
Proof.
  intros H. induction T as [|n T IH]; [reflexivity|]. cbn [nf_assign]. destruct (nf_index n =? i); cbn [map]; [now rewrite H|now rewrite IH].
Qed.
Lemma expire_still now : forall q T, shs (snd (expire_loop now q T)) = shs T.
Proof.
  induction q as [|e q IH]; intros T; [reflexivity|]. cbn [expire_loop]. destruct (keeps now e).
  - specialize (IH T). destruct (expire_loop now q T) as [r T']. exact IH.
  - rewrite IH. now apply still_assign.
Qed.
Lemma update_still q : heard_only -> forall l T eff, shs (fst (fold_left (update_one (sc_opts cfg) q) l (T, eff))) = shs T.
Proof.
  intros HB. induction l as [|i l IH]; intros T eff; [reflexivity|]. cbn [fold_left]. unfold update_one at 2.
  destruct (netif_byindex T i) as [s|]; [|apply IH]. destruct (nf_update s =? 0); [apply IH|]. rewrite IH.
  rewrite still_assign by easy. destruct HB as [HB|HB].
  - destruct (has (sc_opts cfg) OPT_AUTO); [|reflexivity]. apply still_assign. intros n. unfold sh. rewrite HB. reflexivity.
  - now rewrite HB.
Qed.
Lemma child_expire_still now c : heard_only -> shs (c_nfs (fst (child_expire (sc_opts cfg) now c))) = shs (c_nfs c).
Proof.
  intros HB. unfold child_expire. destruct (now =? -1); [reflexivity|].
  pose proof (expire_still now (c_queue c) (c_nfs c)) as K. destruct (expire_loop now (c_queue c) (c_nfs c)) as [q T]. cbn [snd] in K.
  pose proof (update_still q HB (map nf_index T) T []) as K2. unfold update_loop. destruct (fold_left _ _ (T, [])) as [T2 e2]. cbn in *. congruence.
Qed.
Lemma event_still c e c' eff : heard_only -> (forall n, e <> CFetch n) -> child_step (sc_opts cfg) c e = DOk (c', eff) ->
  shs (c_nfs c') = shs (c_nfs c).
Proof.
  intros HB HF. destruct e as [d now now2|now|nfs|sid|sid ws|sid]; cbn [child_step].
  - unfold child_queue. destruct (negb (msg_size_ok _ _)); [intros E; now injection E as <- _|].
    destruct (now =? -1); [intros E; now injection E as <- _|]. destruct (negb (pm_proto _ <? _)); [discriminate|].
    destruct (negb (pm_len _ <=? _)); [discriminate|]. destruct (netif_byindex (c_nfs c) _) as [sub|]; [|intros E; now injection E as <- _].
    destruct (netif_byaddr (c_nfs c) _); [intros E; now injection E as <- _|].
    destruct (proto_decode _ _ _) as [[n s]| | | |]; [|intros E; now injection E as <- _|discriminate|discriminate|discriminate].
    destruct (n =? 0); [intros E; now injection E as <- _|]. cbv zeta.
    destruct (queue_put _ (c_queue c) (c_next c)) as [q fresh]. destruct (s_ttl s =? 0).
    + intros E. injection E as E. pose proof (child_expire_still now2 (mkChild (c_nfs c) q (c_sess c) fresh) HB) as K.
      rewrite E in K. exact K.
    + destruct (negb (has (sc_opts cfg) OPT_AUTO) || _) eqn:EA; [intros E; now injection E as <- _|].
      destruct (has (sc_opts cfg) OPT_ARGV && _ && _); [intros E; now injection E as <- _|].
      intros E. injection E as <- _. cbn. apply still_assign. intros m. unfold sh. destruct HB as [-> | HB]; [reflexivity|].
      now rewrite HB in EA.
  - intros E. injection E as E. pose proof (child_expire_still now c HB) as K. now rewrite E in K.
  - now destruct (HF nfs).
  - destruct (existsb _ (c_sess c)); intros E; now injection E as <- _.
  - unfold child_cli_write. destruct (find _ (c_sess c)) as [s|]; [|intros E; now injection E as <- _].
    destruct (ss_msg s) as [i|].
    + cbn zeta. destruct (queue_from i (add_lock i (-1) (c_queue c))) as [l|]; cbn [dbind]; [|discriminate].
      destruct (write_loop sid l ws) as [e1 [r|]]; intros E; now injection E as <- _.
    + cbn [dbind]. destruct (write_loop sid (c_queue c) ws) as [e1 [r|]]; intros E; now injection E as <- _.
  - unfold child_cli_write. destruct (find _ (c_sess c)) as [s|]; intros E; now injection E as <- _.
Qed.

Lemma all_child l : filter seen (map SChild l) = [].
Proof. induction l as [|x l IH]; [reflexivity|exact IH]. Qed.
Lemma child_kept st e st' eff : heard_only -> send_step cfg st (EvChild e) = DOk (st', eff) -> kept st st' /\ filter seen eff = [].
Proof.
  intros HB H.
  assert (K : (st', eff) = (st, []) \/ exists c' ef, (forall n, e <> CFetch n) /\ child_step (sc_opts cfg) (st_child st) e = DOk (c', ef) /\ (st', eff) = (mkSt c' (st_si st) (st_edp st), map SChild ef)).
  { destruct e; cbn [send_step] in H; try (left; injection H as <- <-; reflexivity);
      (right; apply dbind_ok in H; destruct H as ([c' ef] & H1 & H2); injection H2 as <- <-; exists c', ef; split; [discriminate|now split]). }
  destruct K as [K|(c' & ef & HF & Hs & K)]; injection K as -> ->; [now split|].
  split; [|apply all_child]. split; [exact (event_still _ _ _ _ HB HF Hs)|now split].
Qed.
Lemma send_like os index timeout now timeout' now' st st' : heard_only -> timeout = timeout' -> like st st' ->
  let '(st1, e1) := child_send cfg os index timeout now st in let '(st2, e2) := child_send cfg os index timeout' now' st' in
  like st1 st2 /\ eff_like e1 e2.
Proof.
  intros HB <- (ET & Es & Hc). unfold table in ET. unfold child_send.
  assert (EF : match netif_byindex (c_nfs (st_child st)) index with Some n => 3 <? nf_link_event n | None => false end
             = match netif_byindex (c_nfs (st_child st')) index with Some n => 3 <? nf_link_event n | None => false end).
  { destruct (like_some _ _ (like_byindex _ _ index ET)) as [[-> ->]|(n & n' & -> & -> & En)]; [reflexivity|].
    now rewrite (like_field nf_link_event n n' (fun _ => eq_refl) En). }
  rewrite EF. cbv zeta.
  set (fl := negb (index =? NETIF_INDEX_MAX) && match netif_byindex (c_nfs (st_child st')) index with Some n => 3 <? nf_link_event n | None => false end).
  match goal with |- context [if fl then (st, []) else ?x] => set (a1 := if fl then (st, []) else x) end.
  match goal with |- context [if fl then (st', []) else ?x] => set (a2 := if fl then (st', []) else x) end.
  assert (K : like (fst a1) (fst a2) /\ eff_like (snd a1) (snd a2)).
  { unfold a1, a2. clear a1 a2. destruct fl; [now split|].
    pose proof (sh_fetch b false false (sc_net cfg) os (c_nfs (st_child st)) (st_si st) eq_refl) as F1.
    pose proof (sh_fetch b false false (sc_net cfg) os (c_nfs (st_child st')) (st_si st') eq_refl) as F2.
    rewrite ET, Es, F2 in F1.
    destruct (netif_fetch (sc_net cfg) os (c_nfs (st_child st)) (st_si st)) as [[[r1 T1] s1] g1] eqn:G1.
    destruct (netif_fetch (sc_net cfg) os (c_nfs (st_child st')) (st_si st')) as [[[r2 T2] s2] g2] eqn:G2.
    rewrite <- Es, G1 in F1. injection F1 as -> F1 -> ->. symmetry in F1.
    assert (EI : match netif_byindex T1 index with Some _ => false | None => true end = match netif_byindex T2 index with Some _ => false | None => true end).
    { destruct (like_some _ _ (like_byindex _ _ index F1)) as [[-> ->]|(n & n' & -> & -> & En)]; reflexivity. }
    rewrite EI. destruct (r1 =? 0); [now repeat split|].
    destruct (negb (index =? NETIF_INDEX_MAX) && _); [now repeat split|].
    pose proof (loop_like os index T1 T2 s1 (st_edp st) (st_edp st') F1 Hc) as L.
    destruct (send_loop cfg os index T1 s1 (st_edp st)) as [[T1' c1] e1], (send_loop cfg os index T2 s1 (st_edp st')) as [[T2' c2] e2].
    destruct L as (L1 & L2 & L3). cbn [fst snd]. split; [now repeat split|]. now apply eff_app. }
  destruct a1 as [st1 e1], a2 as [st2 e2]. cbn [fst snd] in K. destruct K as [K1 K2].
  destruct (timeout && has (sc_opts cfg) OPT_RECV); [|now split].
  pose proof (child_expire_still now (st_child st1) HB) as X1. pose proof (child_expire_still now' (st_child st2) HB) as X2.
  destruct (child_expire (sc_opts cfg) now (st_child st1)) as [c1 f1], (child_expire (sc_opts cfg) now' (st_child st2)) as [c2 f2].
  cbn [fst] in X1, X2. destruct K1 as (K1 & K3 & K4). split; [split; [|now split]|].
  - unfold table in *. cbn [st_child c_nfs]. congruence.
  - unfold eff_like. rewrite !filter_app, !all_child, !app_nil_r. exact K2.
Qed.
Lemma like_kept st st1 st' : like st st' -> kept st st1 -> like st1 st'.
Proof. intros (H1 & H2 & H3) (K1 & K2 & K3). split; [congruence|split; [congruence|now rewrite K3]]. Qed.
Lemma like_sym st st' : like st st' -> like st' st.
Proof. intros (H1 & H2 & H3). split; [congruence|split; [congruence|intros K; symmetry; now apply H3]]. Qed.

(** Child events before the next event of the machine. *)
Lemma run_step st e es st' effs : send_run cfg st (e :: es) = DOk (st', effs) ->
  exists st1 f fs, send_step cfg st e = DOk (st1, f) /\ send_run cfg st1 es = DOk (st', fs) /\ effs = f :: fs.
Proof.
  cbn [send_run]. intros H. apply dbind_ok in H. destruct H as ([st1 f] & H1 & H). apply dbind_ok in H. destruct H as ([st2 fs] & H2 & H).
  injection H as <- <-. now exists st1, f, fs.
Qed.
Lemma quiet_run : heard_only -> forall es st st' effs, host_parts es = [] -> send_run cfg st es = DOk (st', effs) ->
  kept st st' /\ filter seen (concat effs) = [].
Proof.
  intros HB. induction es as [|e es IH]; intros st st' effs HH H.
  - injection H as <- <-. now repeat split.
  - apply run_step in H. destruct H as (st1 & f & fs & H1 & H2 & ->).
    destruct e as [os now|os h fl i now|e]; [discriminate HH|discriminate HH|].
    destruct (child_kept st e st1 f HB H1) as [(K1 & K2 & K3) K4]. destruct (IH st1 st' fs HH H2) as [(L1 & L2 & L3) L4].
    split; [split; [congruence|split; congruence]|]. cbn [concat]. now rewrite filter_app, K4, L4.
Qed.
(** A history up to and including its first event of the machine. *)
Lemma first_host : heard_only -> forall es st st' effs h hs, host_parts es = h :: hs -> send_run cfg st es = DOk (st', effs) ->
  exists e es' st1 st2 f fs, host_part e = [h] /\ host_parts es' = hs /\ kept st st1
    /\ send_step cfg st1 e = DOk (st2, f) /\ send_run cfg st2 es' = DOk (st', fs)
    /\ filter seen (concat effs) = filter seen f ++ filter seen (concat fs).
Proof.
  intros HB. induction es as [|e es IH]; intros st st' effs h hs HH H; [discriminate HH|].
  apply run_step in H. destruct H as (st1 & f & fs & H1 & H2 & ->).
  assert (D : (exists x, e = EvChild x) \/ exists k, host_part e = [k]).
  { destruct e; [right; eexists; reflexivity|right; eexists; reflexivity|left; eexists; reflexivity]. }
  destruct D as [(x & ->)|(k & Hk)].
  - destruct (child_kept st x st1 f HB H1) as [(K1 & K2 & K3) K4].
    destruct (IH st1 st' fs h hs HH H2) as (e & es' & s1 & s2 & g & gs & G1 & G2 & (L1 & L2 & L3) & G3 & G4 & G5).
    exists e, es', s1, s2, g, gs. split; [exact G1|]. split; [exact G2|]. split; [split; [congruence|split; congruence]|].
    split; [exact G3|]. split; [exact G4|]. cbn [concat]. now rewrite filter_app, K4.
  - unfold host_parts in HH. cbn [flat_map] in HH. rewrite Hk in HH. apply cons_like in HH. destruct HH as [-> HH].
    exists e, es, st, st1, f, fs. split; [exact Hk|]. split; [exact HH|]. split; [now repeat split|]. split; [exact H1|]. split; [exact H2|].
    cbn [concat]. apply filter_app.
Qed.
Lemma step_like h e e' st st' st1 st1' f f' : heard_only -> host_part e = [h] -> host_part e' = [h] -> like st st' ->
  send_step cfg st e = DOk (st1, f) -> send_step cfg st' e' = DOk (st1', f') -> like st1 st1' /\ eff_like f f'.
Proof.
  intros HB He He' HL. destruct e as [os now|os ht fl i now|]; [| |discriminate He];
    destruct e' as [os' now'|os' ht' fl' i' now'|]; try discriminate He';
    cbn [host_part] in He, He'; rewrite <- He' in He; try discriminate He.
  - injection He as ->. cbn [send_step]. intros E E'.
    pose proof (send_like os' NETIF_INDEX_MAX true now true now' st st' HB eq_refl HL) as K.
    injection E as E. injection E' as E'. rewrite E, E' in K. exact K.
  - injection He as -> -> -> ->. cbn [send_step]. intros E E'. injection E as E. injection E' as E'. unfold child_link in E, E'.
    destruct (negb (ht' =? ARPHRD_ETHER)); [injection E as <- <-; injection E' as <- <-; now split|].
    destruct (negb (Z.land fl' LINK_FLAGS =? LINK_FLAGS)); [injection E as <- <-; injection E' as <- <-; now split|].
    pose proof (send_like os' (i' mod 4294967296) false now false now' st st' HB eq_refl HL) as K. rewrite E, E' in K. exact K.
Qed.
Lemma runs_like : heard_only -> forall hs es es' st st' z z' effs effs', host_parts es = hs -> host_parts es' = hs -> like st st' ->
  send_run cfg st es = DOk (z, effs) -> send_run cfg st' es' = DOk (z', effs') -> eff_like (concat effs) (concat effs').
Proof.
  intros HB. induction hs as [|h hs IH]; intros es es' st st' z z' effs effs' Hh Hh' HL H H'.
  - destruct (quiet_run HB es st z effs Hh H) as [_ K]. destruct (quiet_run HB es' st' z' effs' Hh' H') as [_ K']. unfold eff_like. congruence.
  - destruct (first_host HB es st z effs h hs Hh H) as (e & r & s1 & s2 & f & fs & G1 & G2 & G3 & G4 & G5 & G6).
    destruct (first_host HB es' st' z' effs' h hs Hh' H') as (e' & r' & s1' & s2' & f' & fs' & G1' & G2' & G3' & G4' & G5' & G6').
    assert (L1 : like s1 s1') by (apply (like_kept st); [|exact G3]; apply like_sym, (like_kept st'); [|exact G3']; now apply like_sym).
    destruct (step_like h e e' s1 s1' s2 s2' f f' HB G1 G1' L1 G4 G4') as [L2 K].
    unfold eff_like in *. rewrite G6, G6', K. f_equal. exact (IH r r' s2 s2' z z' fs fs' G2 G2' L2 G5 G5').
Qed.
End Flow.

(** ** The statements *)
Lemma filter_seen_out cfg l : filter (seen false cfg) l = filter (fun e => match e with SChild _ => false | _ => true end) l.
Proof. apply filter_ext. now intros []. Qed.
Lemma filter_seen_frames cfg l : filter (fun x => sc_enabled cfg (snd (fst x))) (frames (filter (seen true cfg) l))
  = filter (fun x => sc_enabled cfg (snd (fst x))) (frames l).
Proof.
  induction l as [|[i|i|i p f|x] l IH]; [reflexivity|exact IH|exact IH| |exact IH].
  cbn [filter seen negb orb]. destruct (sc_enabled cfg p) eqn:E; cbn [frames flat_map app filter fst snd]; rewrite E; [f_equal|]; exact IH.
Qed.
Lemma filter_seen_closed b cfg l : flat_map (fun e => match e with SClose i => [i] | _ => [] end) (filter (seen b cfg) l)
  = flat_map (fun e => match e with SClose i => [i] | _ => [] end) l.
Proof.
  induction l as [|[i|i|i p f|x] l IH]; [reflexivity| | | |exact IH].
  - cbn [filter seen]. destruct (negb b); exact IH.
  - cbn [filter seen flat_map]. cbn [app]. f_equal. exact IH.
  - cbn [filter seen]. destruct (_ || _); exact IH.
Qed.
Lemma alike_like b cfg st st' : alike st st' -> like b cfg st st'.
Proof. intros (H1 & H2 & H3). split; [now rewrite H1|split; [exact H2|intros _; exact H3]]. Qed.

Lemma auto_off cfg : opt cfg 3 = false -> has (sc_opts cfg) OPT_AUTO = false.
Proof. intros H. now rewrite has_auto. Qed.
Lemma flow_outgoing cfg es es' st st' z z' effs effs' : opt cfg 3 = false -> alike st st' -> host_parts es = host_parts es' ->
  send_run cfg st es = DOk (z, effs) -> send_run cfg st' es' = DOk (z', effs') -> outgoing effs = outgoing effs'.
Proof.
  intros HO HA HH H H'. unfold outgoing. rewrite <- !(filter_seen_out cfg).
  exact (runs_like false cfg (or_intror (auto_off cfg HO)) _ es es' st st' z z' effs effs' HH eq_refl (alike_like false cfg st st' HA) H H').
Qed.
Lemma flow_configured cfg es es' st st' z z' effs effs' : alike st st' -> host_parts es = host_parts es' ->
  send_run cfg st es = DOk (z, effs) -> send_run cfg st' es' = DOk (z', effs') ->
  configured cfg effs = configured cfg effs' /\ closed effs = closed effs'.
Proof.
  intros HA HH H H'.
  pose proof (runs_like true cfg (or_introl eq_refl) _ es es' st st' z z' effs effs' HH eq_refl (alike_like true cfg st st' HA) H H') as K.
  split.
  - unfold configured. rewrite <- (filter_seen_frames cfg (concat effs)), <- (filter_seen_frames cfg (concat effs')). now rewrite K.
  - unfold closed. rewrite <- (filter_seen_closed true cfg (concat effs)), <- (filter_seen_closed true cfg (concat effs')). now rewrite K.
Qed.
