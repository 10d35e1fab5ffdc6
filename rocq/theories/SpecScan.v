(** Client sessions while the table changes: vocabulary of C123. *)
From Verif Require Import Base Types Wire Util Child Spec SpecNet SpecChild.

(** A history from [c] with [t] sessions thrown out before (see [calm]) to [c']: each
    event is considerate, there are at most 255 sessions (counting those thrown out),
    and every state on the way satisfies [P]. *)
Inductive calm_run (opts : Z) (P : child -> Prop) : child -> Z -> list cevent -> child -> list ceff -> Prop :=
| calm_run_nil c t : P c -> calm_run opts P c t [] c []
| calm_run_cons c t e c1 eff1 es c' eff :
    P c -> considerate c e -> child_step opts c e = DOk (c1, eff1) ->
    zlen (c_sess c1) + (t + expelled c e) <= 255 -> calm_run opts P c1 (t + expelled c e) es c' eff ->
    calm_run opts P c t (e :: es) c' (eff1 ++ eff).
(** Among some neighbours [W], those in the table are the same as in [c0]. *)
Definition same_neighbours (W : Z * Z * list Z -> bool) (c0 c : child) : Prop :=
  forall w, W w = true -> (In w (map who (c_queue c)) <-> In w (map who (c_queue c0))).
