(** One daemon listed by another over time: vocabulary of C117. *)
From Verif Require Import Base Types Wire Parent Util Child Netif Send Timer Spec SpecChild SpecHold SpecTimer.

(** A daemon started at time [t] in state [st] (with the interfaces [os] at its
    first run) sends the frame [f] of protocol [p] on its port [i] in the periodic
    run at time [r] of its history [h]. *)
Definition says (cfg : scfg) (t : Z) (os : nos) (now : Z) (st : sstate) (h : list (Z * sevent)) (r i p : Z) (f : list Z) : Prop :=
  (r = t /\ In (SFrame i p f) (snd (timed_boot cfg t os now st)))
  \/ exists h1 os' now' h2 ts effs ts' eff,
     h = h1 ++ (r, EvRun os' now') :: h2 /\ timed_run cfg (fst (timed_boot cfg t os now st)) h1 = DOk (ts, effs)
     /\ timed_step cfg r ts (EvRun os' now') = DOk (ts', eff) /\ In (SFrame i p f) eff.

(** The frame [f] reaches another daemon with history [es] on its interface
    [index] at time [a]: the daemon knows the interface, has no interface with the
    source address of the frame, and its privileged process hands over the
    datagram for it. *)
Definition arrives_at (opts : Z) (es : list cevent) (index : Z) (f : list Z) (a : Z) : Prop :=
  exists es1 d a2 es2 c eff, es = es1 ++ CRecv d a a2 :: es2 /\ reached opts es1 c eff
  /\ parent_recv index [f] = [d]
  /\ netif_byindex (c_nfs c) index <> None /\ netif_byaddr (c_nfs c) (firstn 6 (skipn 6 f)) = None.

(** Whatever the history [es] says about the neighbour [k] has a hold time of at
    least [ttl]. *)
Definition holds_for (opts : Z) (es : list cevent) (k : Z * Z * list Z) (ttl : Z) : Prop :=
  forall es1 e es2 c eff x, es = es1 ++ e :: es2 -> reached opts es1 c eff -> news c e x -> who x = k -> ttl <= q_ttl x.
