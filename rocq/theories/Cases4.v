(** Interfaces, frames and datagrams for the neighbour table examples. *)
From Verif Require Import Base Tlv Types Msg Protos Parent Wire Util Child Spec SpecAdv SpecRound SpecNet SpecChild Cases2 Cases3
  Lemmas DecProofs ChildProofs2.

(** An interface; [type] 0 is a physical one, 16 and up an aggregate. *)
Definition u_if (i : Z) (name descr : list Z) (type argv : Z) (parent subif : option Z) : netif :=
  mkNetif i name descr [2; 16; 0; 0; 0; i] 1500 1 0 0 0 0 (repeat 0 4) (repeat 0 16)
    argv type (match parent with Some _ => 1 | None => 0 end) 0 0 0 0 0 0 parent subif 0 0 [].
(** A physical interface and a bond with one member. *)
Definition u_eth : netif := u_if 1 (bs "eth0") [] 0 0 None None.
Definition u_bond : netif := u_if 2 (bs "bond0") [] 16 0 None (Some 3).
Definition u_slave : netif := u_if 3 (bs "eth1") [] 0 0 (Some 2) None.
Definition u_nfs : list netif := [u_eth; u_bond; u_slave].

(** An LLDP advertisement: source address, hold time, host name, port name. *)
Definition u_frame (src : list Z) (ttl : Z) (host port : list Z) : list Z :=
  let f := [1; 128; 194; 0; 0; 14] ++ src ++ [136; 204]
    ++ [2; 7; 4] ++ [2; 0; 0; 0; 0; 9] ++ [4; 1 + zlen port; 5] ++ port ++ [6; 2; 0; ttl] ++ [10; zlen host] ++ host ++ [0; 0] in
  f ++ repeat 0 (Z.to_nat (60 - zlen f)).
Definition u_src (k : Z) : list Z := [2; 32; 0; 0; 0; k].
(** What the parent hands to the child for a frame on an interface. *)
Definition u_in (i : Z) (f : list Z) : list Z :=
  match parent_recv_one i f with RForward d => d | _ => [] end.
Definition u_sw (k ttl : Z) : list Z := u_frame (u_src k) ttl (bs "sw.example.org") (bs "GigabitEthernet0/1").


(** A concrete advertisement is one if it decodes. *)
Lemma u_advert p f payload n s : bytes f -> 60 <= zlen f <= 1518 -> 0 <= p < 6 -> proto_frame p f payload ->
  proto_decode p (t_ctx 0 1 f) (mkDst no_peers 0 p []) = DOk (n, s) ->
  exists attrs, advert p f (s_proto s) (s_ttl s) attrs /\ report attrs = s_peer s.
Proof.
  intros Hb Hl Hp Hf H.
  assert (Hin : in_buffer (t_ctx 0 1 f) f).
  { apply t_in_buffer. rewrite !andb_true_iff. repeat split; try lia. apply forallb_forall. intros x Hx.
    unfold bytes in Hb. rewrite Forall_forall in Hb. apply Hb in Hx. unfold byte in Hx. lia. }
  destruct (decode_advert p _ f payload (mkDst no_peers 0 p []) n s Hp Hin eq_refl eq_refl eq_refl eq_refl Hf H) as (proto & ttl & attrs & A & ->).
  now exists attrs.
Qed.

(** Following a history step by step. *)
Definition u_next (opts : Z) (c : child) (e : cevent) : child :=
  match child_step opts c e with DOk (c', _) => c' | _ => c end.
Definition u_good (opts : Z) (c : child) (e : cevent) : bool :=
  match child_step opts c e with DOk _ => true | _ => false end.
Lemma u_calm opts c t e : calm opts c t -> considerate c e ->
  u_good opts c e && (zlen (c_sess (u_next opts c e)) + t <=? 255) && (expelled c e =? 0) = true ->
  calm opts (u_next opts c e) t.
Proof.
  intros Hc He H. rewrite !andb_true_iff in H. destruct H as ((H1 & H2) & H3). unfold u_good, u_next in *.
  destruct (child_step opts c e) as [[c' eff]| | | |] eqn:E; try discriminate.
  replace t with (t + expelled c e) by lia. eapply calm_step; try eassumption. lia.
Qed.
