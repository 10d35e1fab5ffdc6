(** Advertising at regular times: vocabulary of C115. *)
From Verif Require Import Base Types Wire Util Child Netif Send Timer.

(** The times of the periodic runs in a history. *)
Definition rounds (h : list (Z * sevent)) : list Z :=
  flat_map (fun x => match snd x with EvRun _ _ => [fst x] | _ => [] end) h.
(** The clock does not go back, from [t] on. *)
Fixpoint forward (t : Z) (times : list Z) : Prop :=
  match times with
  | [] => True
  | u :: r => t <= u /\ forward u r
  end.
(** Nothing happens later than [late] seconds after the timer was due: it is
    served by then. *)
Fixpoint prompt (cfg : scfg) (late : Z) (ts : tstate) (h : list (Z * sevent)) : Prop :=
  match h with
  | [] => True
  | (t, e) :: h' =>
      (forall d, tt_due ts = Some d -> t <= d + late)
      /\ (forall ts' eff, timed_step cfg t ts e = DOk (ts', eff) -> prompt cfg late ts' h')
  end.
(** Consecutive elements at least [gap] apart. *)
Fixpoint spaced (gap : Z) (l : list Z) : Prop :=
  match l with
  | a :: ((b :: _) as r) => a + gap <= b /\ spaced gap r
  | _ => True
  end.
