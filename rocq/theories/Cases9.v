(** Surroundings and checks for the examples about captures and posts. *)
From Verif Require Import Base Tlv Types Msg Protos Parent Wire Util Child Cli Post Spec SpecAdv SpecRound SpecNet SpecChild SpecCli SpecPost
  Lemmas Cases2 Cases3 Cases4 Cases7 PostProofs2.

(** A client started at time 150 with its output in a file. *)
Definition y_http : http_os := mkHttp (Some 80) true (Some (bs "me")) (Some (bs "me.example.org")).
Definition y_env : client_env :=
  mkCEnv x_ifindex 150 None false false (fun n => Some (150, 7 * Z.of_nat n)) y_http percent [Some 200; Some 204].
Lemma y_clock : clock_ok (fun n => if (n <? 100)%nat then Some (150, 7 * Z.of_nat n) else None).
Proof. intros n s u. destruct (Nat.ltb_spec n 100); [|discriminate]. intros H'.
  assert (s = 150) by congruence. assert (u = 7 * Z.of_nat n) by congruence. subst s u. lia.
Qed.
Lemma y_connected : connected y_http 80 (bs "me.example.org").
Proof.
  split; [reflexivity|]. split; [reflexivity|]. exists (bs "me"). split; [reflexivity|]. split.
  - intros [H|H]; discriminate H.
  - now intros f [= <-].
Qed.
(** Boolean checks. *)
Definition y_once (ls : list Z) : bool := (length (filter (Z.eqb 112) ls) <=? 1)%nat.
Lemma y_usable ls names : forallb (fun x => existsb (Z.eqb x) (bs "LCEFNbdfpov")) ls && y_once ls
  && forallb (fun n => negb (x_ifindex n =? 0)) names = true -> usable ls names x_ifindex.
Proof.
  intros H. apply andb_true_iff in H as [H H3]. apply andb_true_iff in H as [H1 H2]. rewrite forallb_forall in H1, H3.
  split; [|split].
  - intros x Hx. apply H1 in Hx. apply existsb_exists in Hx as (y & Hy & E). apply Z.eqb_eq in E. now subst y.
  - intros a b. destruct (in_dec Z.eq_dec 112 b) as [K|K]; [|now right]. left. intros ->. unfold y_once in H2. apply Nat.leb_le in H2.
    rewrite filter_app, app_length in H2. cbn [filter Z.eqb Pos.eqb length] in H2.
    assert (In 112 (filter (Z.eqb 112) b)) by (apply filter_In; now split).
    destruct (filter (Z.eqb 112) b); [easy|]. cbn [length] in H2. lia.
  - intros n Hn. apply H3 in Hn. lia.
Qed.
Fixpoint y_last (ls : list Z) (m : Z) : Z :=
  match ls with [] => m | x :: ls' => y_last ls' (if existsb (Z.eqb x) (bs "bdfp") then x else m) end.
Lemma y_last_way ls : forall m, (y_last ls m = m /\ forall x, In x ls -> ~ In x (bs "bdfp")) \/ way ls (y_last ls m).
Proof.
  induction ls as [|x ls IH]; intros m; cbn [y_last]; [left; easy|].
  destruct (existsb (Z.eqb x) (bs "bdfp")) eqn:E.
  - assert (Hx : In x (bs "bdfp")) by (apply existsb_exists in E as (y & Hy & E); apply Z.eqb_eq in E; now subst y).
    right. destruct (IH x) as [[K1 K2]|[(a & b & K1 & K2 & K3)|[K1 K2]]].
    + rewrite K1. left. exists [], ls. now repeat split.
    + left. exists (x :: a), b. cbn [app]. repeat split; try assumption. now f_equal.
    + left. assert (y_last ls x = x). { clear -K2. induction ls as [|z ls IH]; [reflexivity|]. cbn [y_last].
        replace (existsb _ _) with false; [apply IH; intros y Hy; apply K2; now right|]. symmetry. apply not_true_iff_false. intros K.
        apply existsb_exists in K as (y & Hy & K). apply Z.eqb_eq in K. subst y. apply (K2 z); [now left|assumption]. }
      rewrite H. exists [], ls. now repeat split.
  - assert (Hx : ~ In x (bs "bdfp")).
    { intros K. rewrite (proj2 (existsb_exists _ _)) in E; [discriminate|]. exists x. split; [assumption|apply Z.eqb_refl]. }
    destruct (IH m) as [[K1 K2]|[(a & b & K1 & K2 & K3)|[K1 K2]]].
    + left. split; [assumption|]. intros y [<-|Hy]; auto.
    + right. left. exists (x :: a), b. cbn [app]. repeat split; try assumption. now f_equal.
    + right. right. split; [assumption|]. intros y [<-|Hy]; auto.
Qed.
Lemma y_way ls m : y_last ls 0 = m -> way ls m.
Proof. intros <-. destruct (y_last_way ls 0) as [[-> H]|H]; [right; now split|assumption]. Qed.
Lemma y_names reads : forallb (fun m => forallb (fun b => (32 <=? b) && (b <=? 126)) (pm_name m)) reads = true ->
  forall m, In m reads -> plain (pm_name m).
Proof. intros H m Hm b Hb. rewrite forallb_forall in H. apply H in Hm. rewrite forallb_forall in Hm. apply Hm in Hb. lia. Qed.
Lemma y_absent x l : existsb (Z.eqb x) l = false -> ~ In x l.
Proof. intros H K. rewrite (proj2 (existsb_exists _ _)) in H; [discriminate|]. exists x. split; [assumption|apply Z.eqb_refl]. Qed.
Ltac y_out := apply y_absent; reflexivity.
Lemma y_run (A : Type) (e : dres A) (P : A -> Prop) r : match e with DOk r => P r | _ => False end -> e = DOk r -> P r.
Proof. now intros H ->. Qed.
(** The client in the other modes. *)
Definition y_file : client_env :=
  mkCEnv x_ifindex 150 None false false (fun n => if (n <? 100)%nat then Some (150, 7 * Z.of_nat n) else None) y_http percent [].
Definition y_answers (l : list (option Z)) : client_env :=
  mkCEnv x_ifindex 150 None false false (fun _ => None) y_http percent l.
