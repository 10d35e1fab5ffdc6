(** C53: message framing is independent of how the stream is chunked. *)
From Verif Require Import Base Imsg SpecImsg ImsgProofs2.

(** Whatever is composed, written, read and fetched in whatever order and portions:
    the messages fetched are the first of those asked for, unmodified, each once;
    fetching never fails; and when nothing is under way any more, they are all there. *)
Theorem C53_once_in_order : forall own ops, u32 own -> Forall legal ops ->
  let y := sys_run own ops in
  (exists rest, asked own ops = messages (y_out y) ++ rest) /\ ~ In GotBad (y_out y)
  /\ (y_queue y = [] -> y_stream y = [] -> snd (imsg_get (y_reader y)) = GotNone -> messages (y_out y) = asked own ops).
Proof. intros own ops Ho H y. destruct (channel own ops Ho H) as (H1 & H2 & H3 & _). exact (conj H1 (conj H2 H3)). Qed.
Print Assumptions C53_once_in_order.

(** A sender with something queued can always send, and a receiver that has fetched
    what is complete always has room to read. *)
Theorem C53_never_stuck : forall own ops, u32 own -> Forall legal ops ->
  let y := sys_run own ops in
  (y_queue y <> [] -> msgbuf_write (y_queue y) 1 <> None)
  /\ (y_stream y <> [] -> snd (imsg_get (y_reader y)) = GotNone -> imsg_read (y_reader y) (y_stream y) 1 <> None).
Proof. exact unstuck. Qed.
Print Assumptions C53_never_stuck.

(** A header announcing fewer bytes than a header or more than the limit is an error. *)
Theorem C53_illegal_size : forall r t0 t1 t2 t3 lo hi tl, r_buf r = t0 :: t1 :: t2 :: t3 :: lo :: hi :: tl -> 16 <= zlen (r_buf r) ->
  0 <= lo < 256 -> 0 <= hi < 256 -> lo + 256 * hi < 16 \/ lo + 256 * hi > 16384 -> imsg_get r = (r, GotBad).
Proof. exact bad_header. Qed.
Print Assumptions C53_illegal_size.

(** Whatever the bytes are: a message comes with no descriptor, or with the first of those
    received, which is then taken. *)
Theorem C53_descriptor r r' m : imsg_get r = (r', Got m) ->
  (i_fd m = -1 /\ r_fds r' = r_fds r) \/ r_fds r = i_fd m :: r_fds r'.
Proof. exact (descriptor r r' m). Qed.
Print Assumptions C53_descriptor.

(** A message given in pieces is the message of the pieces together.  Missing: pieces
    of 65536 bytes or more, for which this fails, see below. *)
Theorem C53_pieces_partial : forall own type peerid pid fd iov, Forall (fun v => zlen v < 65536) iov ->
  imsg_composev own type peerid pid fd iov
  = if zlen (concat iov) <=? 16368 then imsg_compose own type peerid pid fd (concat iov) (zlen (concat iov)) else None.
Proof. exact composev_spec. Qed.
Print Assumptions C53_pieces_partial.

(** Lengths go through 16 bits: a piece of 65540 bytes is accepted and sent as its
    first 4. *)
Theorem C53_pieces_refuted : exists own type peerid pid fd piece b, zlen piece = 65540
  /\ imsg_composev own type peerid pid fd [piece] = Some b /\ zlen (b_data b) = 20.
Proof.
  exists 42, 7, 0, 0, (-1), (repeat 65 (Z.to_nat 65540)).
  eexists. split; [vm_compute; reflexivity|]. split; [vm_compute; reflexivity|]. vm_compute. reflexivity.
Qed.
Print Assumptions C53_pieces_refuted.

(** Three messages, the second with a descriptor, in awkward portions. *)
Definition run1 : list op :=
  [Compose 1 2 0 (-1) [10; 20]; Compose 3 0 99 5 []; Write 20; Read 3; Get; Compose 4 1 0 6 [30];
   Write 14; Read 17; Read 14; Get; Get; Get; Write 1; Write 16; Read 17; Get; Get].
Example run1_legal : Forall legal run1.
Proof. repeat constructor; cbn; unfold u32; try lia. Qed.
Example run1_asked : asked 77 run1 = [mkImsg 1 2 77 (-1) [10; 20]; mkImsg 3 0 99 5 []; mkImsg 4 1 77 6 [30]].
Proof. vm_compute. reflexivity. Qed.
Example run1_out : y_out (sys_run 77 run1)
  = [GotNone; Got (mkImsg 1 2 77 (-1) [10; 20]); Got (mkImsg 3 0 99 5 []); GotNone; Got (mkImsg 4 1 77 6 [30]); GotNone].
Proof. vm_compute. reflexivity. Qed.
Example run1_quiet : y_queue (sys_run 77 run1) = [] /\ y_stream (sys_run 77 run1) = [] /\ snd (imsg_get (y_reader (sys_run 77 run1))) = GotNone.
Proof. vm_compute. repeat split. Qed.
Example stuck1 : let y := sys_run 77 (firstn 3 run1) in y_queue y <> [] /\ y_stream y <> [] /\ snd (imsg_get (y_reader y)) = GotNone.
Proof. vm_compute. repeat split; discriminate. Qed.
Example illegal1 : imsg_get (mkReader [1;0;0;0;15;0;0;0;0;0;0;0;0;0;0;0] []) = (mkReader [1;0;0;0;15;0;0;0;0;0;0;0;0;0;0;0] [], GotBad).
Proof. exact (C53_illegal_size (mkReader [1;0;0;0;15;0;0;0;0;0;0;0;0;0;0;0] []) 1 0 0 0 15 0 _ eq_refl ltac:(vm_compute; discriminate) ltac:(lia) ltac:(lia) ltac:(lia)). Qed.
Example pieces1 : Forall (fun v => zlen v < 65536) [[1]; []; [2; 3]] /\ imsg_composev 42 7 0 0 (-1) [[1]; []; [2; 3]] <> None.
Proof. split; [repeat constructor|vm_compute; discriminate]. Qed.
(** A header that announces a descriptor, with one received and with none. *)
Example descriptor1 :
  let b := [1;0;0;0;16;0;1;0;0;0;0;0;0;0;0;0] in
  imsg_get (mkReader b [5; 6]) = (mkReader [] [6], Got (mkImsg 1 0 0 5 [])) /\ imsg_get (mkReader b []) = (mkReader [] [], Got (mkImsg 1 0 0 (-1) [])).
Proof. split; vm_compute; reflexivity. Qed.
