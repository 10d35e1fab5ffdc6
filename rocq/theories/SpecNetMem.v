(** Vocabulary for C114: the interfaces in memory. *)
From Verif Require Import Base Types Tlv Util Netif NetMem SpecNetif.

(** What is stored in the blocks at these addresses. *)
Definition blocks (l : list Z) (m : mem) : list netif :=
  flat_map (fun a => match m a with Some n => [n] | None => [] end) l.
(** Reading the table without pointers: each pointer is replaced by the index of the
    interface it refers to. *)
Definition index_at (m : mem) (o : option Z) : option Z :=
  match o with Some a => option_map nf_index (m a) | None => None end.
Definition shown (m : mem) (n : netif) : netif :=
  set_subif (index_at m (nf_subif n))
    (set_child (nf_child n) (nf_lacp_index n) (index_at m (nf_parent n)) n).
Definition table_of (st : nst) : list netif := map (shown (ns_mem st)) (blocks (ns_list st) (ns_mem st)).
Definition sysinfo_of (st : nst) : sysinfo := set_mnetif (index_at (ns_mem st) (si_mnetif (ns_si st))) (ns_si st).

(** One block in use for each interface listed and no others, every pointer refers to a
    listed interface, and no two interfaces have the same index. *)
Record sound (st : nst) : Prop := mkSound {
  so_once : NoDup (ns_list st);
  so_live : forall a, ns_mem st a <> None <-> In a (ns_list st);
  so_new : forall a, In a (ns_list st) -> a < ns_next st;
  so_index : NoDup (map nf_index (blocks (ns_list st) (ns_mem st)));
  so_parent : forall a n p, ns_mem st a = Some n -> nf_parent n = Some p -> In p (ns_list st);
  so_subif : forall a n p, ns_mem st a = Some n -> nf_subif n = Some p -> In p (ns_list st);
  so_mgmt : forall p, si_mnetif (ns_si st) = Some p -> In p (ns_list st)
}.

(** What happens between two refreshes: any change of the interfaces but of index and pointers. *)
Definition changed (st st' : nst) : Prop :=
  ns_list st' = ns_list st /\ ns_next st' = ns_next st /\ si_mnetif (ns_si st') = si_mnetif (ns_si st)
  /\ forall a, match ns_mem st a, ns_mem st' a with
     | Some n, Some n' => nf_index n' = nf_index n /\ nf_parent n' = nf_parent n /\ nf_subif n' = nf_subif n
     | None, None => True
     | _, _ => False
     end.
(** The states a run goes through; no state if a block not in use is touched. *)
Inductive visited (cfg : ncfg) : list nos -> nst -> Prop :=
| vis_start si next : si_mnetif si = None -> visited cfg [] (mkNst [] (fun _ => None) next si)
| vis_change oss st st' : visited cfg oss st -> changed st st' -> visited cfg oss st'
| vis_fetch oss os st st' ret gone : visited cfg oss st -> m_fetch cfg os st = Some (ret, st', gone) ->
    visited cfg (oss ++ [os]) st'.

(** Call number [k], counted from 0, of subif_iter in a loop over the members of the
    interface at [a]; the outer [None] is an access to a block not in use. *)
Fixpoint m_call (k : nat) (a : Z) (m : mem) : option (option Z) :=
  match k with
  | O => m_subif_iter None a m
  | S j => match m_call j a m with
           | Some (Some s) => m_subif_iter (Some s) a m
           | r => r
           end
  end.
