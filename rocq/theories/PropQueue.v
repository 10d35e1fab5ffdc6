(** Linked lists and the order of the neighbour table: C111 and C112. *)
From Verif Require Import Base Types Tlv Msg Protos Parent Wire Util Child Queue
  Spec SpecAdv SpecRound SpecNet SpecChild SpecQueue SpecOrder Cases2 Cases3 Cases4.
From Verif Require Import Lemmas QueueProofs QueueProofs2 OrderProofs PropChild.

(** C111.  Any correct use of the queue macros ([lrun] is the same on lists): no
    memory but that of live elements is touched, walking finds exactly the list,
    and exactly the elements not freed are live. *)
Theorem C111_lists ops l a : lrun ops ([], []) = Some (l, a) ->
  exists q, tq_run ops tq_init = DOk q /\ shows q l /\ allocated q a.
Proof. exact (lists ops l a). Qed.
Print Assumptions C111_lists.
(** The loops that remove and free while walking visit every element once, in
    order, and leave the others as they are; what they leave is a queue again. *)
Theorem C111_removing gone q l a fuel : holds q l a -> (length l < fuel)%nat ->
  exists q', removing fuel gone (tq_first q) q = DOk (l, q')
  /\ holds q' (filter (fun e => negb (gone e)) l) (filter (fun e => negb (inb e l && gone e)) a).
Proof. exact (removing_all gone q l a fuel). Qed.
Print Assumptions C111_removing.
(** The table in memory is the list that C25 to C35 speak of: after any messages
    and expiry runs nothing but live entries was touched, a walk finds the entries
    of the list in order, and no other entry is allocated. *)
Theorem C111_message_queue ops fuel val t : tables ops [] = Some t -> (length ops < fuel)%nat ->
  exists val' q l, mem_run fuel ops val tq_init = DOk (val', q) /\ shows q l /\ allocated q l /\ map val' l = t.
Proof. exact (message_queue ops fuel val t). Qed.
Print Assumptions C111_message_queue.
(** child_free frees every entry. *)
Theorem C111_free ops fuel val t : tables ops [] = Some t -> (length ops < fuel)%nat ->
  exists val' q q', mem_run fuel ops val tq_init = DOk (val', q) /\ mem_free fuel q = DOk q'
  /\ shows q' [] /\ forall e, tq_live q' e = false.
Proof. exact (free_all ops fuel val t). Qed.
Print Assumptions C111_free.
(** Insertion at the end and behind elements, removal of the first, a middle and the
    last one, and an address used again. *)
Definition j_ops : list tqop :=
  [TNew 10; TTail 10; TNew 20; TTail 20; TNew 30; TAfter 10 30; TNew 40; TAfter 20 40; TRemove 10; TFree 10;
   TRemove 40; TNew 10; TTail 10; TAfter 30 40; TRemove 20].
Definition j_walk (r : dres tailq) : dres (list Z) := let* q := r in foreach 9 (tq_first q) q.
Definition j_rest (gone : Z -> bool) : dres (list Z * list Z * list bool) :=
  let* q := tq_run j_ops tq_init in
  let* (v, q) := removing 9 gone (tq_first q) q in
  let* l := foreach 9 (tq_first q) q in
  DOk (v, l, map (tq_live q) [10; 20; 30; 40]).
(** A loop without the saved successor reads an element that was freed. *)
Fixpoint j_unsafe (fuel : nat) (cur : Z) (q : tailq) : dres tailq :=
  match fuel with
  | O => DLoop
  | S fuel' =>
      if cur =? 0 then DOk q
      else
        let* q := tq_remove cur q in
        let* q := tq_free cur q in
        let* next := get_next cur q in
        j_unsafe fuel' next q
  end.
Definition j_entry (index src proto received ttl : Z) : entry :=
  mkEnt 0 index (bs "eth0") proto received 60 ([1; 128; 194; 0; 0; 14] ++ [2; 0; 0; 0; 0; src] ++ repeat 0 48) ttl no_peers 0.
Definition j_msgs : list mop :=
  [MPut (j_entry 1 5 0 100 60) 16; MPut (j_entry 2 5 0 101 120) 32; MPut (j_entry 1 5 1 102 120) 48; MPut (j_entry 1 5 0 110 60) 64;
   MExpire 175; MPut (j_entry 1 6 0 180 60) 16].
Definition j_table : list (Z * Z * Z * Z * Z) :=
  [(48, 1, 5, 1, 102); (32, 2, 5, 0, 101); (16, 1, 6, 0, 180)].
Definition j_shown (e : entry) : Z * Z * Z * Z * Z := (q_id e, q_index e, nth 11 (q_msg e) 0, q_proto e, q_received e).
Example C111_case :
  lrun j_ops ([], []) = Some ([30; 40; 10], [10; 40; 30; 20])
  /\ j_walk (tq_run j_ops tq_init) = DOk [30; 40; 10]
  /\ j_rest (fun e => negb (e =? 40)) = DOk ([30; 40; 10], [40], [false; true; false; true])
  /\ j_rest (fun _ => true) = DOk ([30; 40; 10], [], [false; true; false; false])
  /\ (let* q := tq_run j_ops tq_init in j_unsafe 9 (tq_first q) q) = DUB
  /\ lrun [TNew 10; TTail 10; TFree 10] ([], []) = None /\ j_walk (tq_run [TNew 10; TTail 10; TFree 10] tq_init) = DUB
  /\ option_map (map j_shown) (tables j_msgs []) = Some j_table
  /\ (let* (val, q) := mem_run 9 j_msgs (fun _ => j_entry 0 0 0 0 0) tq_init in
      let* l := foreach 9 (tq_first q) q in DOk (map (fun e => j_shown (val e)) l)) = DOk j_table.
Proof. repeat split; vm_compute; reflexivity. Qed.

(** C112.  After any history all messages of a neighbour stand together. *)
Theorem C112_together opts es c eff l1 a l2 b l3 : reached opts es c eff ->
  c_queue c = l1 ++ a :: l2 ++ b :: l3 -> neighbour a = neighbour b -> Forall (fun e => neighbour e = neighbour a) l2.
Proof. exact (together opts es c eff l1 a l2 b l3). Qed.
Print Assumptions C112_together.
(** Entries that stay keep their order, whatever happens. *)
Theorem C112_stable opts es c eff0 ev c' eff x y : reached opts es c eff0 -> child_step opts c ev = DOk (c', eff) ->
  before x y (map who (c_queue c)) -> In x (map who (c_queue c')) -> In y (map who (c_queue c')) ->
  before x y (map who (c_queue c')).
Proof. exact (stable opts es c eff0 ev c' eff x y). Qed.
Print Assumptions C112_stable.
(** A neighbour not heard before goes behind all others. *)
Theorem C112_arrival opts es c eff0 ev c' eff e n : reached opts es c eff0 -> child_step opts c ev = DOk (c', eff) ->
  In (who e) (map who (c_queue c)) -> In (who e) (map who (c_queue c')) ->
  In n (c_queue c') -> ~ In (neighbour n) (map neighbour (c_queue c)) ->
  before (who e) (who n) (map who (c_queue c')).
Proof. exact (arrival opts es c eff0 ev c' eff e n). Qed.
Print Assumptions C112_arrival.
(** Two switches; the first one also speaks CDP, later; then the second
    one falls silent and a third one comes. *)
Definition j_sw2 : list Z :=
  snap [1; 0; 12; 204; 204; 204] (u_src 1) [0; 0; 12] 8192 ([2; 180; 0; 0] ++ flat_map cdp_bytes [(1, bs "sw.example.org"); (3, bs "GigabitEthernet0/1")]).
Definition j_events : list cevent :=
  [CFetch u_nfs; CRecv (u_in 1 (u_sw 1 120)) 100 100; CRecv (u_in 1 (u_sw 2 90)) 101 101; CRecv (u_in 3 (u_sw 1 200)) 102 102;
   CRecv (u_in 1 j_sw2) 103 103; CRecv (u_in 1 (u_sw 1 120)) 104 104; CTick 200; CRecv (u_in 1 (u_sw 2 90)) 205 205].
Definition j_state (n : nat) : child :=
  match child_run 2060 child_start (firstn n j_events) with DOk (c, _) => c | _ => child_start end.
Definition j_order (c : child) : list (Z * Z * Z * Z) :=
  map (fun e => (q_index e, nth 5 (source e) 0, nth 5 (q_msg e) 0, q_received e)) (c_queue c).
Example C112_case :
  (exists eff, reached 2060 (firstn 6 j_events) (j_state 6) eff) /\ (exists eff, reached 2060 j_events (j_state 8) eff)
  /\ j_order (j_state 6) = [(1, 1, 14, 104); (1, 1, 204, 103); (1, 2, 14, 101); (3, 1, 14, 102)]
  /\ j_order (j_state 7) = [(1, 1, 14, 104); (1, 1, 204, 103); (3, 1, 14, 102)]
  /\ j_order (j_state 8) = [(1, 1, 14, 104); (1, 1, 204, 103); (3, 1, 14, 102); (1, 2, 14, 205)].
Proof. split; [eexists; vm_compute; reflexivity|]. split; [eexists; vm_compute; reflexivity|]. repeat split; vm_compute; reflexivity. Qed.
