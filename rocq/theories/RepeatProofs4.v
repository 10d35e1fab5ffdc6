(** Runs while the kernel answers the same. *)
From Verif Require SendProofs3 SendProofs6.
From Verif Require Import Base Types Tlv Msg Protos Wire Lldp Cdp Edp Fdp Ndp Util Child Netif Send SpecSend SpecFlow SpecRepeat SpecNetif.
From Verif Require Import Lemmas ChildProofs7 NetifProofs1 NetifProofs2 FlowProofs1 FlowProofs2 RepeatProofs1 RepeatProofs2 RepeatProofs3.

Section Repeat.
Context (cfg : scfg).
Notation s3 := (sh true true false).
Notation shs := (map s3).
Definition conf (l : list seff) : list (Z * Z * list Z) := filter (fun x => sc_enabled cfg (snd (fst x))) (frames l).
Definition same (l l' : list seff) : Prop := Forall2 same_frame (conf l) (conf l').
Lemma conf_app a b : conf (a ++ b) = conf a ++ conf b.
Proof. unfold conf, frames. now rewrite flat_map_app, filter_app. Qed.
Lemma same_app a b a' b' : same a a' -> same b b' -> same (a ++ b) (a' ++ b').
Proof. unfold same. rewrite !conf_app. apply Forall2_app. Qed.
Lemma same_quiet a b : conf a = [] -> conf b = [] -> same a b.
Proof. unfold same. intros -> ->. constructor. Qed.
Lemma field3 {A} (f : netif -> A) n m : (forall x, f (s3 x) = f x) -> s3 n = s3 m -> f n = f m.
Proof. intros H E. rewrite <- (H n), <- (H m). now rewrite E. Qed.
Lemma byindex3 T T' i : shs T = shs T' -> (netif_byindex T i = None /\ netif_byindex T' i = None)
  \/ exists n n', netif_byindex T i = Some n /\ netif_byindex T' i = Some n' /\ s3 n = s3 n'.
Proof.
  intros E. pose proof (sh_byindex true true false T i) as H1. pose proof (sh_byindex true true false T' i) as H2. rewrite E, H2 in H1.
  destruct (netif_byindex T i) as [n|], (netif_byindex T' i) as [n'|]; cbn [option_map] in H1; try discriminate; [right|now left].
  exists n, n'. repeat split. congruence.
Qed.
Lemma option3 T T' i : shs T = shs T' -> option_map s3 (netif_byindex T i) = option_map s3 (netif_byindex T' i).
Proof. intros E. now rewrite <- !(sh_byindex true true false), E. Qed.
Lemma assign3 f i T T' : commutes true true false f -> shs T = shs T' -> shs (nf_assign f i T) = shs (nf_assign f i T').
Proof. intros H E. rewrite <- !sh_assign by assumption. now rewrite E. Qed.
Lemma media3 os : commutes true true false (netif_media os).
Proof.
  intros n. unfold netif_media. change (nf_type (s3 n)) with (nf_type n). change (nf_name (s3 n)) with (nf_name n).
  change (nf_index (s3 n)) with (nf_index n). change (nf_mtu (s3 n)) with (nf_mtu n). cbv zeta.
  destruct (negb _); [reflexivity|]. destruct (no_ecmd os (nf_index n)); [|reflexivity].
  destruct (has (ec_supported e) SUPPORTED_Autoneg); reflexivity.
Qed.
Lemma build3 p opts c c' n n' par par' mgmt mgmt' T T' si : s3 n = s3 n' ->
  option_map s3 par = option_map s3 par' -> option_map s3 mgmt = option_map s3 mgmt' -> shs T = shs T' ->
  like_build p (proto_build p opts c n par mgmt T si) (proto_build p opts c' n' par' mgmt' T' si).
Proof.
  intros E1 E2 E3 E4. rewrite <- (sh_build true true false p opts c) by reflexivity. rewrite <- (sh_build true true false p opts c') by reflexivity.
  rewrite E1, E2, E3, E4. apply builds_near.
Qed.
Lemma like_same i p f g : like_frame p f g -> same_frame (i, p, f) (i, p, g).
Proof.
  unfold like_frame, same_frame. cbn [fst snd]. destruct (Z.eqb_spec p PROTO_EDP) as [->|NE].
  - intros [L H]. split; [reflexivity|]. split; [exact L|]. intros k K. apply H. now apply K.
  - intros ->. now repeat split.
Qed.
Lemma like_blank p f g : like_frame p f g -> like_frame p (blank_src f) (blank_src g).
Proof. unfold like_frame. destruct (p =? PROTO_EDP); [apply near_blank|now intros ->]. Qed.

Lemma proto3 T T' si t t' s s' c c' e e' p : shs T = shs T' -> s3 t = s3 t' -> s3 s = s3 s' -> same e e' ->
  same (snd (send_proto cfg T si t s (c, e) p)) (snd (send_proto cfg T' si t' s' (c', e') p)).
Proof.
  intros ET Et Es He. unfold send_proto.
  set (deref := fun (T : list netif) (o : option Z) => match o with Some i => netif_byindex T i | None => None end).
  assert (DE : forall o, option_map s3 (deref T o) = option_map s3 (deref T' o)).
  { intros [i|]; [|reflexivity]. now apply option3. }
  change (match nf_parent s with Some i => netif_byindex T i | None => None end) with (deref T (nf_parent s)).
  change (match nf_parent s' with Some i => netif_byindex T' i | None => None end) with (deref T' (nf_parent s')).
  change (match si_mnetif si with Some i => netif_byindex T i | None => None end) with (deref T (si_mnetif si)).
  change (match si_mnetif si with Some i => netif_byindex T' i | None => None end) with (deref T' (si_mnetif si)).
  rewrite <- (field3 nf_parent s s' (fun _ => eq_refl) Es). rewrite <- (field3 nf_bonding_mode t t' (fun _ => eq_refl) Et).
  rewrite <- (field3 nf_child s s' (fun _ => eq_refl) Es). rewrite <- (field3 nf_index s s' (fun _ => eq_refl) Es). cbv zeta.
  destruct (sc_enabled cfg p) eqn:EN; cbn [negb andb].
  - pose proof (build3 p (sc_opts cfg) c c' s s' (deref T (nf_parent s)) (deref T' (nf_parent s)) (deref T (si_mnetif si)) (deref T' (si_mnetif si)) T T' si Es (DE _) (DE _) ET) as K.
    destruct (proto_build p (sc_opts cfg) c s _ _ T si) as [f|], (proto_build p (sc_opts cfg) c' s' _ _ T' si) as [g|]; try destruct K; [|exact He].
    cbn [snd]. apply same_app; [exact He|]. unfold same, conf, frames. cbn [flat_map app filter fst snd]. rewrite EN. constructor; [|constructor].
    apply like_same. destruct (_ && _); [now apply like_blank|exact K].
  - assert (Q : forall x f, conf (x ++ [SFrame (nf_index s) p f]) = conf x).
    { intros x f. rewrite conf_app. unfold conf at 2, frames. cbn [flat_map app filter fst snd]. rewrite EN. apply app_nil_r. }
    destruct (negb (has (nf_protos t) _)), (negb (has (nf_protos t') _)); repeat match goal with |- context [proto_build ?a ?b ?c ?d ?e ?f ?g ?h] => destruct (proto_build a b c d e f g h) end;
      unfold same in *; cbn [snd]; rewrite ?Q; exact He.
Qed.
Lemma protos3 T T' si t t' s s' : shs T = shs T' -> s3 t = s3 t' -> s3 s = s3 s' -> forall ps x x', same (snd x) (snd x') ->
  same (snd (fold_left (send_proto cfg T si t s) ps x)) (snd (fold_left (send_proto cfg T' si t' s') ps x')).
Proof.
  intros ET Et Es. induction ps as [|p ps IH]; intros [c e] [c' e'] H; [exact H|]. cbn [fold_left]. apply IH. now apply proto3.
Qed.
Definition rel3 (x y : list netif * Z * list seff) : Prop := shs (fst (fst x)) = shs (fst (fst y)) /\ same (snd x) (snd y).
Lemma skip3 n m : s3 n = s3 m -> send_skip cfg n = send_skip cfg m.
Proof. now apply field3. Qed.
Lemma sub3 os si top x y i : rel3 x y -> rel3 (send_sub cfg os si NETIF_INDEX_MAX top x i) (send_sub cfg os si NETIF_INDEX_MAX top y i).
Proof.
  destruct x as [[T c] e], y as [[T' c'] e']. intros [ET He]. cbn [fst snd] in ET, He. unfold send_sub. rewrite Z.eqb_refl. cbn [negb andb].
  destruct (byindex3 T T' i ET) as [[-> ->]|(s & s' & -> & -> & Es)]; [now split|]. cbv zeta. rewrite <- (skip3 s s' Es).
  assert (E1 : shs (nf_assign (set_link_event 0) i T) = shs (nf_assign (set_link_event 0) i T')) by now apply assign3.
  destruct (send_skip cfg s); [now split|].
  assert (E2 : shs (nf_assign (netif_media os) i (nf_assign (set_link_event 0) i T)) = shs (nf_assign (netif_media os) i (nf_assign (set_link_event 0) i T')))
    by (apply assign3; [apply media3|assumption]).
  set (T2 := nf_assign (netif_media os) i (nf_assign (set_link_event 0) i T)) in *.
  set (T2' := nf_assign (netif_media os) i (nf_assign (set_link_event 0) i T')) in *.
  set (o := if has (sc_opts cfg) OPT_RECV && (nf_protos s =? 0) then [SOpen i] else []).
  set (o' := if has (sc_opts cfg) OPT_RECV && (nf_protos s' =? 0) then [SOpen i] else []).
  assert (QO : forall x : bool, conf (if x then [SOpen i] else []) = []) by (now intros []).
  assert (Eo : same o o') by (apply same_quiet; apply QO).
  destruct (negb (has (sc_opts cfg) OPT_SEND)); [split; [assumption|now apply same_app]|].
  destruct (byindex3 T2 T2' i E2) as [[-> ->]|(u & u' & -> & -> & Eu)]; [split; [assumption|now apply same_app]|].
  destruct (byindex3 T2 T2' top E2) as [[-> ->]|(t & t' & -> & -> & Et)]; [split; [assumption|now apply same_app]|].
  pose proof (protos3 T2 T2' si t t' u u' E2 Et Eu [0; 1; 2; 3; 4; 5] (c, []) (c', []) (same_quiet [] [] eq_refl eq_refl)) as K.
  destruct (fold_left (send_proto cfg T2 si t u) _ (c, [])) as [c1 e1], (fold_left (send_proto cfg T2' si t' u') _ (c', [])) as [c2 e2].
  split; [assumption|]. cbn [snd]. apply same_app; [assumption|now apply same_app].
Qed.
Lemma subs3 os si top : forall l x y, rel3 x y ->
  rel3 (fold_left (send_sub cfg os si NETIF_INDEX_MAX top) l x) (fold_left (send_sub cfg os si NETIF_INDEX_MAX top) l y).
Proof. induction l as [|i l IH]; intros x y H; [exact H|]. cbn [fold_left]. apply IH. now apply sub3. Qed.
Lemma subif3 n n' T T' : shs T = shs T' -> s3 n = s3 n' -> map nf_index (subif_each n T) = map nf_index (subif_each n' T').
Proof.
  intros ET En. rewrite <- (sh_index true true false (subif_each n T)), <- (sh_index true true false (subif_each n' T')).
  now rewrite <- !sh_subifs, ET, En.
Qed.
Lemma top3 os si T T' n n' x y : shs T = shs T' -> s3 n = s3 n' -> rel3 x y ->
  rel3 (send_top cfg os si NETIF_INDEX_MAX T x n) (send_top cfg os si NETIF_INDEX_MAX T' y n').
Proof.
  intros ET En H. unfold send_top. rewrite <- (skip3 n n' En). destruct (send_skip cfg n); [exact H|].
  rewrite <- (subif3 n n' T T' ET En), <- (field3 nf_index n n' (fun _ => eq_refl) En). now apply subs3.
Qed.
Lemma tops3 os si T T' : shs T = shs T' -> forall l l' x y, shs l = shs l' -> rel3 x y ->
  rel3 (fold_left (send_top cfg os si NETIF_INDEX_MAX T) l x) (fold_left (send_top cfg os si NETIF_INDEX_MAX T') l' y).
Proof.
  intros ET. induction l as [|n l IH]; intros [|n' l'] x y El H; try discriminate; [exact H|].
  apply cons_like in El. destruct El as [En El]. cbn [fold_left]. apply IH; [exact El|]. now apply top3.
Qed.
Lemma loop3 os T T' si c c' : shs T = shs T' ->
  same (snd (send_loop cfg os NETIF_INDEX_MAX T si c)) (snd (send_loop cfg os NETIF_INDEX_MAX T' si c')).
Proof.
  intros ET. unfold send_loop. apply (tops3 os si T T' ET); [now rewrite <- !sh_each, ET|]. split; [exact ET|]. now apply same_quiet.
Qed.

(** ** Between the runs *)
Lemma base_assign f i T : (forall n, base (f n) = base n) -> map base (nf_assign f i T) = map base T.
Proof. intros H. apply assign_keeps. intros n _. apply H. Qed.
Lemma media_base os n : base (netif_media os n) = base n.
Proof. unfold netif_media. cbv zeta. destruct (negb _); [reflexivity|]. destruct (no_ecmd os (nf_index n)); [|reflexivity]. now destruct (has _ _). Qed.
Lemma sub_base os si index top x i : map base (fst (fst (send_sub cfg os si index top x i))) = map base (fst (fst x)).
Proof.
  destruct x as [[T c] e]. unfold send_sub. destruct (_ && _); [reflexivity|]. destruct (netif_byindex T i) as [s|]; [|reflexivity]. cbv zeta.
  destruct (send_skip cfg s); [now apply base_assign|].
  match goal with |- context [nf_assign (netif_media os) i ?X] => set (T2 := nf_assign (netif_media os) i X); assert (K : map base T2 = map base T) end.
  { unfold T2. rewrite base_assign by apply media_base. now apply base_assign. }
  destruct (negb _); [exact K|]. destruct (netif_byindex T2 i) as [u|]; [|exact K]. destruct (netif_byindex T2 top) as [t|]; [|exact K].
  destruct (fold_left (send_proto cfg T2 si t u) _ (c, [])). exact K.
Qed.
Lemma subs_base os si index top : forall l x, map base (fst (fst (fold_left (send_sub cfg os si index top) l x))) = map base (fst (fst x)).
Proof. induction l as [|i l IH]; intros x; [reflexivity|]. cbn [fold_left]. rewrite IH. apply sub_base. Qed.
Lemma loop_base os index T si c : map base (fst (fst (send_loop cfg os index T si c))) = map base T.
Proof.
  unfold send_loop. generalize (netif_each (sc_opts cfg) T) as l. intros l.
  assert (K : forall l x, map base (fst (fst (fold_left (send_top cfg os si index T) l x))) = map base (fst (fst x))).
  { clear l. induction l as [|n l IH]; intros x; [reflexivity|]. cbn [fold_left]. rewrite IH. unfold send_top. destruct (send_skip cfg n); [reflexivity|]. apply subs_base. }
  apply K.
Qed.
Lemma base_of_sh d b T T' : map (sh b d false) T = map (sh b d false) T' -> map base T = map base T'.
Proof. intros H. apply (f_equal (map base)) in H. rewrite !map_map in H. exact H. Qed.

(** What is the same at all times behind the first run. *)
Context (os : nos) (ias : list ifaddr) (HI : no_ifaddrs os = Some ias).
Context (S0 : list netif) (si0 : sysinfo) (ret : Z) (T0 : list netif) (si1 : sysinfo) (gone : list Z).
Context (HD : NoDup (indices S0)) (H0 : netif_fetch (sc_net cfg) os S0 si0 = (ret, T0, si1, gone)).
Definition settled (st : sstate) : Prop := map base (table st) = map base T0 /\ st_si st = si1.
Definition closes (l : list seff) : list Z := flat_map (fun e => match e with SClose i => [i] | _ => [] end) l.
Lemma expire_base now st : map base (c_nfs (fst (child_expire (sc_opts cfg) now (st_child st)))) = map base (table st).
Proof. apply (base_of_sh false true). apply (child_expire_still true). now left. Qed.
Lemma closes_app a b : closes (a ++ b) = closes a ++ closes b.
Proof. apply flat_map_app. Qed.
Lemma closes_child l : closes (map SChild l) = []. Proof. induction l as [|x l IH]; [reflexivity|exact IH]. Qed.
Lemma conf_child l : conf (map SChild l) = []. Proof. induction l as [|x l IH]; [reflexivity|exact IH]. Qed.
Lemma conf_closes l : conf (map SClose l) = []. Proof. induction l as [|x l IH]; [reflexivity|exact IH]. Qed.
Lemma proto_closes T si t s c e p : closes (snd (send_proto cfg T si t s (c, e) p)) = closes e.
Proof.
  unfold send_proto. destruct (_ && _); [reflexivity|]. cbv zeta. destruct (proto_build _ _ _ _ _ _ _ _); [|reflexivity]. cbn [snd]. rewrite closes_app. apply app_nil_r.
Qed.
Lemma protos_closes T si t s : forall ps x, closes (snd (fold_left (send_proto cfg T si t s) ps x)) = closes (snd x).
Proof. induction ps as [|p ps IH]; intros [c e]; [reflexivity|]. cbn [fold_left]. rewrite IH. apply proto_closes. Qed.
Lemma loop_closes index T si c : closes (snd (send_loop cfg os index T si c)) = [].
Proof.
  unfold send_loop. enough (K : forall l x, closes (snd (fold_left (send_top cfg os si index T) l x)) = closes (snd x)) by apply K.
  induction l as [|n l IH]; intros x; [reflexivity|]. cbn [fold_left]. rewrite IH. unfold send_top. destruct (send_skip cfg n); [reflexivity|].
  generalize (map nf_index (subif_each n T)) as is. intros is. revert x. induction is as [|i is IH2]; intros x; [reflexivity|]. cbn [fold_left]. rewrite IH2. clear.
  destruct x as [[U c] e]. unfold send_sub. destruct (_ && _); [reflexivity|]. destruct (netif_byindex U i) as [s|]; [|reflexivity]. cbv zeta.
  destruct (send_skip cfg s); [reflexivity|]. set (T2 := nf_assign (netif_media os) i _).
  set (o := if has (sc_opts cfg) OPT_RECV && (nf_protos s =? 0) then [SOpen i] else []). assert (O : closes o = []) by (unfold o; now destruct (_ && _)).
  assert (Q : closes (e ++ o) = closes e) by (rewrite closes_app, O; apply app_nil_r).
  destruct (negb _); [exact Q|]. destruct (netif_byindex T2 i) as [u|]; [|exact Q]. destruct (netif_byindex T2 (nf_index n)) as [t|]; [|exact Q].
  pose proof (protos_closes T2 si t u [0; 1; 2; 3; 4; 5] (c, [])) as K. destruct (fold_left (send_proto cfg T2 si t u) _ (c, [])) as [c1 e1]. cbn [snd] in *.
  rewrite !closes_app, O, K. apply app_nil_r.
Qed.
Lemma send_settled index timeout now st st' eff : settled st -> child_send cfg os index timeout now st = (st', eff) -> settled st' /\ closes eff = [].
Proof.
  intros [HB HS] H. unfold child_send in H.
  destruct (fetch_again (sc_net cfg) os ias S0 si0 ret T0 si1 gone (table st) HI HD H0 HB) as (T' & F & E).
  unfold table in F. rewrite HS, F in H. cbv zeta in H.
  assert (B' : map base T' = map base T0) by exact (base_of_sh true true _ _ E).
  match type of H with (let '(_, _) := ?x in _) = _ => set (y := x) in H; assert (K : settled (fst y) /\ closes (snd y) = []) end.
  { unfold y. destruct (_ && _); [now split|]. destruct (ret =? 0); [now split|]. destruct (_ && _); [now split|].
    pose proof (loop_base os index T' si1 (st_edp st)) as LB. pose proof (loop_closes index T' si1 (st_edp st)) as LC.
    destruct (send_loop cfg os index T' si1 (st_edp st)) as [[T2 c2] e2]. cbn [fst snd] in *. split; [|exact LC]. split; [|reflexivity]. unfold table. cbn. congruence. }
  destruct y as [s1 e1]. cbn [fst snd] in K. destruct K as [[K1 K2] K3]. destruct (timeout && has (sc_opts cfg) OPT_RECV); [|injection H as <- <-; now split].
  pose proof (expire_base now s1) as X. destruct (child_expire (sc_opts cfg) now (st_child s1)) as [c1 f1]. injection H as <- <-. cbn [fst] in X. split.
  - split; [unfold table; cbn; congruence|exact K2].
  - rewrite closes_app, K3. apply closes_child.
Qed.
Lemma step_settled st e st' eff : settled st -> (forall h, In h (host_part e) -> h = HRun os \/ exists a b c, h = HLink os a b c) ->
  send_step cfg st e = DOk (st', eff) -> settled st' /\ closes eff = [].
Proof.
  intros HS HE H. destruct e as [os' now|os' ht fl i now|e].
  - destruct (HE (HRun os') (or_introl eq_refl)) as [K|(a & b & c & K)]; [injection K as ->|discriminate K]. cbn [send_step] in H. injection H as H. exact (send_settled _ _ _ _ _ _ HS H).
  - destruct (HE (HLink os' ht fl i) (or_introl eq_refl)) as [K|(a & b & c & K)]; [discriminate K|injection K as -> -> -> ->]. cbn [send_step] in H. injection H as H. unfold child_link in H.
    destruct (negb _); [injection H as <- <-; now split|]. destruct (negb _); [injection H as <- <-; now split|]. exact (send_settled _ _ _ _ _ _ HS H).
  - destruct (child_kept true cfg st e st' eff (or_introl eq_refl) H) as [(K1 & K2 & K3) K4]. destruct HS as [HB HS]. split.
    + split; [|congruence]. rewrite <- HB. exact (base_of_sh false true _ _ K1).
    + clear - K4. induction eff as [|[|i|i p f|x] eff IH]; [reflexivity|apply IH; exact K4|discriminate K4| |apply IH; exact K4].
      apply IH. cbn [filter FlowProofs2.seen] in K4. now destruct (negb true || sc_enabled cfg p).
Qed.
Lemma run_settled : forall es st st' effs, settled st -> steady os es -> send_run cfg st es = DOk (st', effs) -> settled st' /\ closes (concat effs) = [].
Proof.
  induction es as [|e es IH]; intros st st' effs HS HE H; [injection H as <- <-; now split|].
  apply run_step in H. destruct H as (st1 & f & fs & H1 & H2 & ->).
  destruct (step_settled st e st1 f HS (fun h Hh => HE h (in_or_app (host_part e) (host_parts es) h (or_introl Hh))) H1) as [S1 C1].
  destruct (IH st1 st' fs S1 (fun h Hh => HE h (in_or_app (host_part e) (host_parts es) h (or_intror Hh))) H2) as [S2 C2].
  split; [exact S2|]. cbn [concat]. now rewrite closes_app, C1, C2.
Qed.
(** The frames of a run from a settled state. *)
Definition first_frames (c : Z) : list seff := if ret =? 0 then [] else snd (send_loop cfg os NETIF_INDEX_MAX T0 si1 c).
Lemma run_frames now st st' eff c : settled st -> child_send cfg os NETIF_INDEX_MAX true now st = (st', eff) -> same (first_frames c) eff.
Proof.
  intros [HB HS] H. unfold child_send in H.
  destruct (fetch_again (sc_net cfg) os ias S0 si0 ret T0 si1 gone (table st) HI HD H0 HB) as (T' & F & E).
  unfold table in F. rewrite HS, F in H. cbv zeta in H. rewrite Z.eqb_refl in H. cbn [negb andb] in H. unfold first_frames.
  destruct (ret =? 0).
  - destruct (has (sc_opts cfg) OPT_RECV).
    + destruct (child_expire _ _ _) as [c1 f1]. injection H as _ <-. apply same_quiet; [reflexivity|]. exact (conf_child f1).
    + injection H as _ <-. now apply same_quiet.
  - pose proof (loop3 os T0 T' si1 c (st_edp st) (eq_sym E)) as L. destruct (send_loop cfg os NETIF_INDEX_MAX T' si1 (st_edp st)) as [[T2 c2] e2].
    cbn [snd map app] in *. destruct (has (sc_opts cfg) OPT_RECV).
    + destruct (child_expire _ _ _) as [c1 f1]. injection H as _ <-. unfold same in *. rewrite conf_app, conf_child, app_nil_r. exact L.
    + injection H as _ <-. exact L.
Qed.
End Repeat.

Lemma same_frame_refl x : same_frame x x. Proof. now repeat split. Qed.
Lemma same_frames_refl l : Forall2 same_frame l l. Proof. induction l; constructor; [apply same_frame_refl|assumption]. Qed.
Lemma fetch_none cfg os index timeout now st st' eff : no_ifaddrs os = None -> child_send cfg os index timeout now st = (st', eff) ->
  conf cfg eff = [] /\ closes eff = [].
Proof.
  intros HN H. unfold child_send in H. unfold netif_fetch in H. rewrite HN in H. cbv zeta in H.
  match type of H with (let '(_, _) := ?x in _) = _ => assert (K : snd x = []) end. { destruct (_ && _); [reflexivity|]. reflexivity. }
  match type of H with (let '(_, _) := ?x in _) = _ => destruct x as [s1 e1] end. cbn [snd] in K. subst e1.
  destruct (timeout && _); [|injection H as _ <-; now split]. destruct (child_expire _ _ _) as [c1 f1]. injection H as _ <-.
  split; [apply conf_child|apply closes_child].
Qed.
Lemma run_none cfg os : no_ifaddrs os = None -> forall es st st' effs, steady os es -> send_run cfg st es = DOk (st', effs) -> closes (concat effs) = [].
Proof.
  intros HN. induction es as [|e es IH]; intros st st' effs HE H; [now injection H as <- <-|].
  apply run_step in H. destruct H as (st1 & f & fs & H1 & H2 & ->). cbn [concat]. rewrite closes_app.
  rewrite (IH st1 st' fs (fun h Hh => HE h (in_or_app (host_part e) (host_parts es) h (or_intror Hh))) H2), app_nil_r.
  destruct e as [os' now|os' ht fl i now|e].
  - destruct (HE (HRun os') (or_introl eq_refl)) as [K|(a & b & c & K)]; [injection K as ->|discriminate K]. cbn [send_step] in H1. injection H1 as H1. exact (proj2 (fetch_none _ _ _ _ _ _ _ _ HN H1)).
  - destruct (HE (HLink os' ht fl i) (or_introl eq_refl)) as [K|(a & b & c & K)]; [discriminate K|injection K as -> -> -> ->]. cbn [send_step] in H1. injection H1 as H1. unfold child_link in H1.
    destruct (negb _); [now injection H1 as <- <-|]. destruct (negb _); [now injection H1 as <- <-|]. exact (proj2 (fetch_none _ _ _ _ _ _ _ _ HN H1)).
  - destruct (child_kept true cfg st e st1 f (or_introl eq_refl) H1) as [_ K4].
    clear - K4. induction f as [|[|i|i p x|x] f IH]; [reflexivity|apply IH; exact K4|discriminate K4| |apply IH; exact K4].
    apply IH. cbn [filter FlowProofs2.seen] in K4. now destruct (negb true || sc_enabled cfg p).
Qed.
Lemma repeat_frames cfg os t t' st st1 st2 st3 first effs again es : NoDup (indices (table st)) -> steady os es ->
  send_step cfg st (EvRun os t) = DOk (st1, first) -> send_run cfg st1 es = DOk (st2, effs) -> send_step cfg st2 (EvRun os t') = DOk (st3, again) ->
  Forall2 same_frame (configured cfg [first]) (configured cfg [again]) /\ closed effs = [] /\ closed [again] = [].
Proof.
  intros HD HE H1 H2 H3. cbn [send_step] in H1, H3. injection H1 as H1. injection H3 as H3.
  unfold configured, closed. cbn [concat]. rewrite !app_nil_r. change (Forall2 same_frame (conf cfg first) (conf cfg again) /\ closes (concat effs) = [] /\ closes again = []).
  destruct (no_ifaddrs os) as [ias|] eqn:EI.
  2: { destruct (fetch_none _ _ _ _ _ _ _ _ EI H1) as [K1 _]. destruct (fetch_none _ _ _ _ _ _ _ _ EI H3) as [K2 K3]. rewrite K1, K2, K3.
       split; [constructor|]. split; [exact (run_none cfg os EI es st1 st2 effs HE H2)|reflexivity]. }
  destruct (netif_fetch (sc_net cfg) os (table st) (st_si st)) as [[[ret T0] si1] gone] eqn:F.
  assert (K : settled T0 si1 st1 /\ conf cfg first = conf cfg (first_frames cfg os ret T0 si1 (st_edp st))).
  { unfold child_send in H1. unfold table in F. rewrite F in H1. cbv zeta in H1. rewrite Z.eqb_refl in H1. cbn [negb andb] in H1. unfold first_frames.
    match type of H1 with (let '(_, _) := ?x in _) = _ => set (y := x) in H1; assert (K : settled T0 si1 (fst y) /\ conf cfg (snd y) = conf cfg (if ret =? 0 then [] else snd (send_loop cfg os NETIF_INDEX_MAX T0 si1 (st_edp st)))) end.
    { unfold y. destruct (ret =? 0); [split; [now split|apply conf_closes]|]. pose proof (loop_base cfg os NETIF_INDEX_MAX T0 si1 (st_edp st)) as LB.
      destruct (send_loop cfg os NETIF_INDEX_MAX T0 si1 (st_edp st)) as [[T2 c2] e2]. cbn [fst snd] in *. split; [now split|]. now rewrite conf_app, conf_closes. }
    destruct y as [s1 e1]. cbn [fst snd] in K. destruct K as [[K1 K2] K3]. destruct (has (sc_opts cfg) OPT_RECV); [|injection H1 as <- <-; now split].
    pose proof (expire_base cfg t s1) as X. destruct (child_expire (sc_opts cfg) t (st_child s1)) as [c1 f1]. injection H1 as <- <-. cbn [fst] in X. split.
    - split; [unfold table; cbn; congruence|exact K2].
    - now rewrite conf_app, conf_child, app_nil_r. }
  destruct K as [KS KF]. rewrite KF.
  destruct (run_settled cfg os ias EI (table st) (st_si st) ret T0 si1 gone HD F es st1 st2 effs KS HE H2) as [K2 K3].
  split; [exact (run_frames cfg os ias EI (table st) (st_si st) ret T0 si1 gone HD F t' st2 st3 again (st_edp st) K2 H3)|]. split; [exact K3|].
  exact (proj2 (send_settled cfg os ias EI (table st) (st_si st) ret T0 si1 gone HD F _ _ _ _ _ _ K2 H3)).
Qed.

(** The same from any state the daemon reaches. *)
Lemma repeat_running cfg os t t' st st1 st2 st3 first effs again es :
  SpecSend.running cfg st -> steady os es ->
  send_step cfg st (EvRun os t) = DOk (st1, first) ->
  send_run cfg st1 es = DOk (st2, effs) ->
  send_step cfg st2 (EvRun os t') = DOk (st3, again) ->
  Forall2 same_frame (configured cfg [first]) (configured cfg [again]) /\ closed effs = [] /\ closed [again] = [].
Proof.
  intros R. apply (repeat_frames cfg os t t' st st1 st2 st3 first effs again es). exact (SendProofs3.inv_nodup _ (SendProofs6.running_inv _ _ R)).
Qed.
