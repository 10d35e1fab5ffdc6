(** Lists: vocabulary of C111. *)
From Verif Require Import Base Types Util Child Queue.

(** A list and the elements allocated. *)
Definition lstate : Type := list Z * list Z.
(** The element behind [p]. *)
Fixpoint behind (p e : Z) (l : list Z) : list Z :=
  match l with
  | [] => []
  | x :: l' => if x =? p then x :: e :: l' else x :: behind p e l'
  end.
Definition without (e : Z) (l : list Z) : list Z := filter (fun x => negb (x =? e)) l.
Definition inb (e : Z) (l : list Z) : bool := existsb (Z.eqb e) l.
(** Operations on lists; [None] is a wrong use: only elements that are allocated and
    not in the list may be inserted, only those in it removed, only those not in
    it freed. *)
Definition lstep (o : tqop) (s : lstate) : option lstate :=
  let '(l, a) := s in
  match o with
  | TNew e => if negb (e =? 0) && negb (inb e a) then Some (l, e :: a) else None
  | TTail e => if inb e a && negb (inb e l) then Some (l ++ [e], a) else None
  | TAfter p e => if inb p l && inb e a && negb (inb e l) then Some (behind p e l, a) else None
  | TRemove e => if inb e l then Some (without e l, a) else None
  | TFree e => if inb e a && negb (inb e l) then Some (l, without e a) else None
  end.
Fixpoint lrun (ops : list tqop) (s : lstate) : option lstate :=
  match ops with
  | [] => Some s
  | o :: ops' => match lstep o s with Some s' => lrun ops' s' | None => None end
  end.
(** The memory holds the list [l], and exactly the elements [a] are allocated. *)
Definition holds (q : tailq) (l a : list Z) : Prop :=
  exists ops, lrun ops ([], []) = Some (l, a) /\ tq_run ops tq_init = DOk q.
(** Walking the queue finds the list. *)
Definition shows (q : tailq) (l : list Z) : Prop :=
  forall fuel, (length l < fuel)%nat -> foreach fuel (tq_first q) q = DOk l.
Definition allocated (q : tailq) (a : list Z) : Prop := forall e, tq_live q e = inb e a.

(** The table as a list, by the functions of C25 to C35; [None]: malloc(3) returned
    an address that is in use. *)
Fixpoint tables (ops : list mop) (t : list entry) : option (list entry) :=
  match ops with
  | [] => Some t
  | MPut new fresh :: ops' =>
      if (fresh =? 0) || inb fresh (map q_id t) then None else tables ops' (fst (queue_put new t fresh))
  | MExpire now :: ops' => tables ops' (filter (fun e => (now <=? q_received e + q_ttl e) || negb (q_lock e =? 0)) t)
  end.
