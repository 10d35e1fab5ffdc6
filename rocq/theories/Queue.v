(** Tail queues in memory: the macros of /repo/src/compat/sys-queue.h and the loops
    that use them. *)
From Verif Require Import Base Types Util Child.

(** A "struct type **": NULL, the address of tqh_first of the head, or of tqe_next
    of an element (sys-queue.h 391-404).  Elements are named by their address; 0
    is NULL. *)
Inductive pslot := SNull | SHead | SNext (e : Z).
(** A head (sys-queue.h 391-395), the TAILQ_ENTRY of each element (400-404) and the
    addresses that are allocated. *)
Record tailq := mkTq {
  tq_first : Z;
  tq_last : pslot;
  tq_next : Z -> Z;
  tq_prev : Z -> pslot;
  tq_live : Z -> bool
}.
(** A function changed in one place. Helper without a counterpart in the C code. *)
Definition upd {A} (f : Z -> A) (e : Z) (v : A) : Z -> A := fun x => if x =? e then v else f x.

(** TAILQ_INIT, sys-queue.h 433-436 (child.c 68-69, parent.c 92, main.c 60). *)
Definition tq_init : tailq := mkTq 0 SHead (fun _ => 0) (fun _ => SNull) (fun _ => false).
(** my_malloc of an element at the address [e], util.c 80-87. *)
Definition tq_new (e : Z) (q : tailq) : dres tailq :=
  if (e =? 0) || tq_live q e then DFail
  else DOk (mkTq (tq_first q) (tq_last q) (upd (tq_next q) e 0) (upd (tq_prev q) e SNull) (upd (tq_live q) e true)).
(** free(3) of an element, child.c 438, netif.c 250, parent.c 404. *)
Definition tq_free (e : Z) (q : tailq) : dres tailq :=
  if tq_live q e then DOk (mkTq (tq_first q) (tq_last q) (tq_next q) (tq_prev q) (upd (tq_live q) e false)) else DUB.

(** Reading and writing fields of elements: (elm)->field.tqe_next and tqe_prev,
    sys-queue.h 400-404. *)
Definition get_next (e : Z) (q : tailq) : dres Z := if tq_live q e then DOk (tq_next q e) else DUB.
(** Helper, as above. *)
Definition get_prev (e : Z) (q : tailq) : dres pslot := if tq_live q e then DOk (tq_prev q e) else DUB.
(** Helper, as above. *)
Definition put_next (e v : Z) (q : tailq) : dres tailq :=
  if tq_live q e then DOk (mkTq (tq_first q) (tq_last q) (upd (tq_next q) e v) (tq_prev q) (tq_live q)) else DUB.
(** Helper, as above. *)
Definition put_prev (e : Z) (v : pslot) (q : tailq) : dres tailq :=
  if tq_live q e then DOk (mkTq (tq_first q) (tq_last q) (tq_next q) (upd (tq_prev q) e v) (tq_live q)) else DUB.
(** "*slot = v", sys-queue.h 451, 478. *)
Definition store (s : pslot) (v : Z) (q : tailq) : dres tailq :=
  match s with
  | SNull => DUB
  | SHead => DOk (mkTq v (tq_last q) (tq_next q) (tq_prev q) (tq_live q))
  | SNext e => put_next e v q
  end.
(** "(head)->tqh_last = s", sys-queue.h 452, 460, 477. *)
Definition put_last (s : pslot) (q : tailq) : tailq := mkTq (tq_first q) s (tq_next q) (tq_prev q) (tq_live q).

(** TAILQ_INSERT_TAIL, sys-queue.h 448-453. *)
Definition insert_tail (e : Z) (q : tailq) : dres tailq :=
  let* q := put_next e 0 q in
  let* q := put_prev e (tq_last q) q in
  let* q := store (tq_last q) e q in
  DOk (put_last (SNext e) q).
(** TAILQ_INSERT_AFTER, sys-queue.h 455-463. *)
Definition tq_after (p e : Z) (q : tailq) : dres tailq :=
  let* n := get_next p q in
  let* q := put_next e n q in
  let* n := get_next e q in
  let* q := (if negb (n =? 0) then put_prev n (SNext e) q else DOk (put_last (SNext e) q)) in
  let* q := put_next p e q in
  put_prev e (SNext p) q.
(** TAILQ_REMOVE, sys-queue.h 472-481. *)
Definition tq_remove (e : Z) (q : tailq) : dres tailq :=
  let* n := get_next e q in
  let* p := get_prev e q in
  let* q := (if negb (n =? 0) then put_prev n p q else DOk (put_last p q)) in
  let* p := get_prev e q in
  let* n := get_next e q in
  store p n q.

(** TAILQ_FOREACH from [cur] on, sys-queue.h 420-423: the elements visited. *)
Fixpoint foreach (fuel : nat) (cur : Z) (q : tailq) : dres (list Z) :=
  match fuel with
  | O => DLoop
  | S fuel' =>
      if cur =? 0 then DOk []
      else
        let* n := get_next cur q in
        let* l := foreach fuel' n q in
        DOk (cur :: l)
  end.
(** TAILQ_FOREACH_SAFE, /repo/src/compat/compat.h 45-48, around TAILQ_REMOVE and free
    of the elements that [gone] tells: child.c 421-439 and 467-471, netif.c
    237-251.  The elements visited and the memory. *)
Fixpoint removing (fuel : nat) (gone : Z -> bool) (cur : Z) (q : tailq) : dres (list Z * tailq) :=
  match fuel with
  | O => DLoop
  | S fuel' =>
      if cur =? 0 then DOk ([], q)
      else
        let* next := get_next cur q in
        let* q := (if gone cur then let* q := tq_remove cur q in tq_free cur q else DOk q) in
        let* (l, q) := removing fuel' gone next q in
        DOk (cur :: l, q)
  end.

(** What a program may do with a queue. *)
Inductive tqop := TNew (e : Z) | TTail (e : Z) | TAfter (p e : Z) | TRemove (e : Z) | TFree (e : Z).
(** One of these, sys-queue.h 448-481. *)
Definition tq_step (o : tqop) (q : tailq) : dres tailq :=
  match o with
  | TNew e => tq_new e q
  | TTail e => insert_tail e q
  | TAfter p e => tq_after p e q
  | TRemove e => tq_remove e q
  | TFree e => tq_free e q
  end.
(** Any number of these. *)
Fixpoint tq_run (ops : list tqop) (q : tailq) : dres tailq :=
  match ops with
  | [] => DOk q
  | o :: ops' => let* q := tq_step o q in tq_run ops' q
  end.

(** child_queue on the memory, child.c 345-384: [val] is what the elements hold; a
    message not in the queue yet goes to the address [fresh]. *)
Fixpoint mem_find (fuel : nat) (val : Z -> entry) (index proto : Z) (hdr : list Z) (cur pmsg : Z) (q : tailq) : dres (Z * Z) :=
  match fuel with
  | O => DLoop
  | S fuel' =>
      if cur =? 0 then DOk (0, pmsg)
      else
        let* next := get_next cur q in
        let e := val cur in
        if negb (index =? q_index e) then mem_find fuel' val index proto hdr next pmsg q
        else
          let pmsg := if beq (slice hdr 6 6) (q_src e) then cur else pmsg in
          if negb (proto =? q_proto e) then mem_find fuel' val index proto hdr next pmsg q
          else if negb (beq hdr (slice (q_msg e) 0 12)) then mem_find fuel' val index proto hdr next pmsg q
          else DOk (cur, pmsg)
  end.
(** child.c 364-379. *)
Definition mem_put (fuel : nat) (new : entry) (fresh : Z) (val : Z -> entry) (q : tailq) : dres ((Z -> entry) * tailq) :=
  let* (msg, pmsg) := mem_find fuel val (q_index new) (q_proto new) (slice (q_msg new) 0 12) (tq_first q) 0 q in
  if negb (msg =? 0) then DOk (upd val msg (with_id msg new), q)
  else
    let* q := tq_new fresh q in
    let val := upd val fresh (with_id fresh new) in
    let* q := (if negb (pmsg =? 0) then tq_after pmsg fresh q else insert_tail fresh q) in
    DOk (val, q).
(** The loop of child_expire on the memory, child.c 421-439; [fst] of [expire_loop]
    is the same on lists. *)
Definition mem_expire (fuel : nat) (now : Z) (val : Z -> entry) (q : tailq) : dres tailq :=
  let* (visited, q) := removing fuel (fun e => negb (keeps now (val e))) (tq_first q) q in
  DOk q.
(** child_free on the memory, child.c 464-472. *)
Definition mem_free (fuel : nat) (q : tailq) : dres tailq :=
  let* (visited, q) := removing fuel (fun _ => true) (tq_first q) q in
  DOk q.
(** What happens to the table: a message (child.c 345-379) with the address malloc
    returns if needed, and child_expire (411-462). *)
Inductive mop := MPut (new : entry) (fresh : Z) | MExpire (now : Z).
(** Any number of these. *)
Fixpoint mem_run (fuel : nat) (ops : list mop) (val : Z -> entry) (q : tailq) : dres ((Z -> entry) * tailq) :=
  match ops with
  | [] => DOk (val, q)
  | MPut new fresh :: ops' => let* (val, q) := mem_put fuel new fresh val q in mem_run fuel ops' val q
  | MExpire now :: ops' => let* q := mem_expire fuel now val q in mem_run fuel ops' val q
  end.
