(** The interface table in memory: /repo/src/netif.c, netif_linux.c and the
    iterators of util.c with pointers.  Each struct netif is a block obtained from
    my_malloc; [parent], [subif] (common.h 140-141) and mnetif (common.h 188) hold
    addresses of blocks, or NULL ([None]).  An access to a block that is not in use
    has no result ([None] of the functions below).  The queue of interfaces is the
    list of addresses of its elements (C111 justifies that). *)
From Verif Require Import Base Types Tlv Util Netif.

(** The blocks, common.h 113-149: what is stored at an address, if it is in use.  In a
    [netif] stored here nf_parent and nf_subif are addresses. *)
Definition mem := Z -> option netif.
(** The memory with one block changed, allocated or (with [None]) freed; netif.c 199, 250. *)
Definition poke (m : mem) (a : Z) (n : option netif) : mem := fun b => if b =? a then n else m b.
(** What netif_fetch works on, netif.c 75-77: the queue, the memory, an address never
    handed out (allocation takes the next one: simplified, addresses are not used
    again), and the system information, whose mnetif is an address. *)
Record nst := mkNst { ns_list : list Z; ns_mem : mem; ns_next : Z; ns_si : sysinfo }.
(** Changing the memory or the system information only, netif.c 75-317; helper. *)
Definition with_mem (st : nst) (m : mem) : nst := mkNst (ns_list st) m (ns_next st) (ns_si st).
(** As above. *)
Definition with_si (st : nst) (si : sysinfo) : nst := mkNst (ns_list st) (ns_mem st) (ns_next st) si.

(** "netif->field = ..." through a pointer, for instance netif.c 207-209. *)
Definition m_store (f : netif -> netif) (a : Z) (m : mem) : option mem :=
  let? n := m a in Some (poke m a (Some (f n))).
(** A TAILQ_FOREACH with an assignment, netif.c 109-111. *)
Fixpoint m_all (f : netif -> netif) (l : list Z) (m : mem) : option mem :=
  match l with
  | [] => Some m
  | a :: l' => let? m1 := m_store f a m in m_all f l' m1
  end.
(** netif_byindex and netif_byname, util.h 63-87: the element, or NULL. *)
Fixpoint m_find (p : netif -> bool) (l : list Z) (m : mem) : option (option Z) :=
  match l with
  | [] => Some None
  | a :: l' => let? n := m a in if p n then Some (Some a) else m_find p l' m
  end.
(** netif_byindex, util.h 63-74. *)
Definition m_byindex (l : list Z) (m : mem) (i : Z) := m_find (fun n => nf_index n =? i) l m.
(** netif_byname, util.h 76-87. *)
Definition m_byname (l : list Z) (m : mem) (x : list Z) := m_find (fun n => beq (nf_name n) x) l m.

(** One AF_PACKET entry, netif.c 116-234. *)
Definition m_fetch_one (cfg : ncfg) (os : nos) (stc : nst * Z) (ia : ifaddr) : option (nst * Z) :=
  let '(st, count) := stc in
  match ia_addr ia with
  | Some (SALink hatype index _) =>
      if negb (hatype =? ARPHRD_ETHER) then Some stc
      else
        let name := ia_name ia in
        let up := match no_flags os (firstn 15 name) with Some f => has f IFF_UP | None => false end in
        let ty := netif_type os index name in
        let st := with_si st (count_type ty up (ns_si st)) in
        if ty =? NETIF_INVALID then Some (st, count)
        else if negb up then Some (st, count)
        else
          let alias := no_alias os index in
          let? found := m_byindex (ns_list st) (ns_mem st) index in
          (* netif.c 198-206 *)
          let? (a, st) :=
            match found with
            | None =>
                let a := ns_next st in
                Some (a, mkNst (ns_list st ++ [a])
                           (poke (ns_mem st) a (Some (fresh_netif index name ty alias 0 0 0 [])))
                           (a + 1) (ns_si st))
            | Some a =>
                let? m := m_store (fun o => fresh_netif index name ty alias (nf_protos o)
                             (nf_link_event o) (nf_device_identified o) (nf_device_name o)) a (ns_mem st) in
                Some (a, with_mem st m)
            end in
          (* netif.c 229-230 *)
          let si := match nc_mifname cfg with
                    | Some x => if beq (firstn 15 name) x then set_mnetif (Some a) (ns_si st) else ns_si st
                    | None => ns_si st
                    end in
          Some (with_si st si, count + 1)
  | _ => Some stc
  end.
(** The loop over getifaddrs, netif.c 113-234. *)
Fixpoint m_fetch_all (cfg : ncfg) (os : nos) (ias : list ifaddr) (stc : nst * Z) : option (nst * Z) :=
  match ias with
  | [] => Some stc
  | ia :: ias' => let? stc1 := m_fetch_one cfg os stc ia in m_fetch_all cfg os ias' stc1
  end.

(** The removal of old interfaces, netif.c 236-251: a TAILQ_FOREACH_SAFE over the
    elements [l]; the interfaces to close are returned. *)
Fixpoint m_remove_old (l : list Z) (st : nst) (closed : list Z) : option (nst * list Z) :=
  match l with
  | [] => Some (st, closed)
  | a :: l' =>
      let? n := ns_mem st a in
      if negb (nf_type n =? NETIF_OLD) then m_remove_old l' st closed
      else
        let si := match si_mnetif (ns_si st) with
                  | Some b => if b =? a then set_mnetif None (ns_si st) else ns_si st
                  | None => ns_si st
                  end in
        m_remove_old l' (mkNst (filter (fun b => negb (b =? a)) (ns_list st)) (poke (ns_mem st) a None) (ns_next st) si)
          (closed ++ [nf_index n])
  end.

(** "subif->parent = parent; csubif->subif = subif", netif_linux.c 225-230, 285-291,
    325-328. *)
Definition m_add_member (par last sub child : Z) (lacp : netif -> Z) (m : mem) : option mem :=
  let? m1 := m_store (fun s => set_child child (lacp s) (Some par) s) sub m in
  m_store (set_subif (Some sub)) last m1.
(** The slave loop of netif_bond, netif_linux.c 275-294. *)
Fixpoint m_bond_loop (os : nos) (l : list Z) (par : Z) (pname : list Z) (k : nat) (i last : Z) (m : mem)
  : option mem :=
  match k with
  | O => Some m
  | S k' =>
      match no_slave os pname i with
      | None => m_bond_loop os l par pname k' (i + 1) last m
      | Some (name, state) =>
          let? found := m_byname l m name in
          match found with
          | None => m_bond_loop os l par pname k' (i + 1) last m
          | Some a =>
              let? s := m a in
              if nf_type s <? NETIF_PARENT then
                let child := if state =? BOND_STATE_BACKUP then NETIF_CHILD_BACKUP else NETIF_CHILD_ACTIVE in
                let? m1 := m_add_member par last a child (fun _ => i mod 256) m in
                m_bond_loop os l par pname k' (i + 1) a m1
              else m_bond_loop os l par pname k' (i + 1) last m
          end
      end
  end.
(** netif_bond, netif_linux.c 243-296. *)
Definition m_bond (os : nos) (l : list Z) (par : Z) (m : mem) : option mem :=
  let? p := m par in
  match no_bond os (nf_name p) with
  | None => Some m
  | Some (mode, slaves) =>
      let? m1 :=
        if mode =? BOND_MODE_8023AD then m_store (set_bonding_mode NETIF_BONDING_LACP) par m
        else if mode =? BOND_MODE_ACTIVEBACKUP then m_store (set_bonding_mode NETIF_BONDING_FAILOVER) par m
        else Some m in
      m_bond_loop os l par (nf_name p) (Z.to_nat slaves) 0 par m1
  end.
(** The port loop of netif_bridge, netif_linux.c 319-330. *)
Fixpoint m_bridge_loop (l : list Z) (par : Z) (ports : list Z) (last : Z) (m : mem) : option mem :=
  match ports with
  | [] => Some m
  | i :: ports' =>
      let? found := m_byindex l m i in
      match found with
      | None => m_bridge_loop l par ports' last m
      | Some a =>
          let? s := m a in
          if nf_type s <? NETIF_PARENT then
            let? m1 := m_add_member par last a NETIF_CHILD_ACTIVE nf_lacp_index m in
            m_bridge_loop l par ports' a m1
          else m_bridge_loop l par ports' last m
      end
  end.
(** netif_bridge, netif_linux.c 300-332. *)
Definition m_bridge (os : nos) (l : list Z) (par : Z) (m : mem) : option mem :=
  let? p := m par in
  match no_bridge os (nf_name p) with
  | None => Some m
  | Some ports => m_bridge_loop l par ports par m
  end.
(** The port loop of netif_team, netif_linux.c 219-231. *)
Fixpoint m_team_loop (l : list Z) (par child : Z) (ports : list Z) (last : Z) (m : mem) : option mem :=
  match ports with
  | [] => Some m
  | i :: ports' =>
      let? found := m_byindex l m i in
      match found with
      | None => m_team_loop l par child ports' last m
      | Some a =>
          let? s := m a in
          if NETIF_PARENT <? nf_type s then m_team_loop l par child ports' last m
          else
            let? m1 := m_add_member par last a child nf_lacp_index m in
            m_team_loop l par child ports' a m1
      end
  end.
(** netif_team, netif_linux.c 203-238. *)
Definition m_team (os : nos) (l : list Z) (par : Z) (m : mem) : option mem :=
  let? p := m par in
  match no_team os (nf_index p) with
  | None => Some m
  | Some (mode, ports, active) =>
      let failover := mode =? NETIF_BONDING_FAILOVER in
      let? m1 := m_store (set_bonding_mode mode) par m in
      let? m2 := m_team_loop l par (if failover then NETIF_CHILD_BACKUP else NETIF_CHILD_ACTIVE) ports par m1 in
      if failover then
        let? found := m_byindex l m2 active in
        match found with
        | None => Some m2
        | Some a => m_store (fun s => set_child NETIF_CHILD_ACTIVE (nf_lacp_index s) (nf_parent s) s) a m2
        end
      else Some m2
  end.
(** netif_vlan, netif_linux.c 336-362. *)
Definition m_vlan (os : nos) (l : list Z) (v : Z) (m : mem) : option mem :=
  let? n := m v in
  match no_vlan os (nf_name n) with
  | None => Some m
  | Some dev =>
      let? found := m_byname l m dev in
      match found with
      | None => Some m
      | Some a =>
          let? p := m a in
          let id := match no_vid os (nf_name n) with Some i => i mod 65536 | None => nf_vlan_id n end in
          m_store (set_vlan id (nf_index p)) v m
      end
  end.
(** netif_device_id, netif_linux.c 182-199. *)
Definition m_device_id (os : nos) (a : Z) (m : mem) : option mem :=
  let? n := m a in
  if negb (nf_device_identified n =? 0) then Some m
  else
    let d := no_device_id os (nf_index n) in
    m_store (fun n => set_device 1 (if zlen d =? 0 then nf_device_name n else firstn 63 (cstr d)) n) a m.
(** The detection of settings, netif.c 253-279. *)
Fixpoint m_detect (os : nos) (l todo : list Z) (m : mem) : option mem :=
  match todo with
  | [] => Some m
  | a :: todo' =>
      let? n := m a in
      let? m1 :=
        if nf_type n =? NETIF_TEAMING then m_team os l a m
        else if nf_type n =? NETIF_BONDING then m_bond os l a m
        else if nf_type n =? NETIF_BRIDGE then m_bridge os l a m
        else if nf_type n =? NETIF_VLAN then m_vlan os l a m
        else if nf_type n =? NETIF_REGULAR then m_device_id os a m
        else Some m in
      m_detect os l todo' m1
  end.

(** One address of netif_addrs, netif.c 335-402. *)
Definition m_addr_one (cfg : ncfg) (l : list Z) (ms : mem * sysinfo) (ia : ifaddr) : option (mem * sysinfo) :=
  let '(m, si) := ms in
  match ia_addr ia with
  | None => Some ms
  | Some sa =>
      let? found := m_byname l m (ia_name ia) in
      match found with
      | None => Some ms
      | Some a =>
          let? n := m a in
          match sa with
          | SAInet x =>
              if addr_set (nf_ipaddr4 n) then Some ms
              else
                let? m1 := m_store (fun n => set_ips x (nf_ipaddr6 n) n) a m in
                match si_mnetif si with
                | Some _ => Some (m1, si)
                | None =>
                    Some (m1, if addr_set (nc_maddr4 cfg) && beq (nc_maddr4 cfg) x
                              then set_mnetif (Some a) si else si)
                end
          | SAInet6 x =>
              if addr_set (nf_ipaddr6 n) then Some ms
              else if linklocal x then Some ms
              else
                let? m1 := m_store (fun n => set_ips (nf_ipaddr4 n) x n) a m in
                match si_mnetif si with
                | Some _ => Some (m1, si)
                | None =>
                    Some (m1, if addr_set (nc_maddr6 cfg) && beq (nc_maddr6 cfg) x
                              then set_mnetif (Some a) si else si)
                end
          | SALink _ _ hw => let? m1 := m_store (set_hwaddr hw) a m in Some (m1, si)
          | SAOther => Some ms
          end
      end
  end.
(** The loop of netif_addrs, netif.c 333-402. *)
Fixpoint m_addr_all (cfg : ncfg) (l : list Z) (ias : list ifaddr) (ms : mem * sysinfo) : option (mem * sysinfo) :=
  match ias with
  | [] => Some ms
  | ia :: ias' => let? ms1 := m_addr_one cfg l ms ia in m_addr_all cfg l ias' ms1
  end.
(** The copy of the management addresses, netif.c 409-413: mnetif is read for each
    interface. *)
Fixpoint m_copy_ips (mg : Z) (l : list Z) (m : mem) : option mem :=
  match l with
  | [] => Some m
  | a :: l' =>
      let? g := m mg in
      let? m1 := m_store (set_ips (nf_ipaddr4 g) (nf_ipaddr6 g)) a m in
      m_copy_ips mg l' m1
  end.
(** netif_addrs, netif.c 321-414. *)
Definition m_addrs (cfg : ncfg) (ias : list ifaddr) (l : list Z) (m : mem) (si : sysinfo) : option (mem * sysinfo) :=
  let? (m1, si1) := m_addr_all cfg l ias (m, si) in
  if negb (has (nc_opts cfg) OPT_MADDR) then Some (m1, si1)
  else match si_mnetif si1 with
  | None => Some (m1, si1)
  | Some mg => let? m2 := m_copy_ips mg l m1 in Some (m2, si1)
  end.
(** The check of the interface list, netif.c 289-304. *)
Fixpoint m_argv_loop (ifl : list (list Z)) (l : list Z) (m : mem) (count : Z) : option (mem * Z) :=
  match ifl with
  | [] => Some (m, count)
  | name :: ifl' =>
      let? found := m_byname l m name in
      match found with
      | None => m_argv_loop ifl' l m count
      | Some a =>
          let? n := m a in
          if nf_type n =? NETIF_VLAN then m_argv_loop ifl' l m count
          else let? m1 := m_store (set_argv 1) a m in m_argv_loop ifl' l m1 (count + 1)
      end
  end.
(** netif_fetch, netif.c 75-317: the value returned, the state, the interfaces to close. *)
Definition m_fetch (cfg : ncfg) (os : nos) (st : nst) : option (Z * nst * list Z) :=
  match no_ifaddrs os with
  | None => Some (0, st, [])
  | Some ias =>
      let keep := Z.lor CAP_HOST CAP_ROUTER in
      let si := ns_si st in
      let si0 := set_caps (Z.land (si_cap si) keep) (Z.land (si_cap_active si) keep) 0 si in
      let? m0 := m_all (set_type NETIF_OLD) (ns_list st) (ns_mem st) in
      let? (st1, count) := m_fetch_all cfg os ias (with_si (with_mem st m0) si0, 0) in
      let? (st2, gone) := m_remove_old (ns_list st1) st1 [] in
      let l := ns_list st2 in
      let? m3 := m_detect os l l (ns_mem st2) in
      let? (m4, si4) := m_addrs cfg ias l m3 (ns_si st2) in
      let? si5 := match l with
                  | a :: _ => let? n := m4 a in Some (set_chassis (nf_hwaddr n) si4)
                  | [] => Some si4
                  end in
      if 0 <? zlen (nc_ifl cfg) then
        let? (m5, c) := m_argv_loop (nc_ifl cfg) l m4 0 in
        Some ((if c =? zlen (nc_ifl cfg) then c else 0) mod 65536, mkNst l m5 (ns_next st2) si5, gone)
      else Some (count mod 65536, mkNst l m4 (ns_next st2) si5, gone)
  end.

(** The for loop of netif_iter, util.c 311-327. *)
Definition m_iter_scan (opts : Z) (l : list Z) (m : mem) : option (option Z) :=
  m_find (fun n => negb (iter_skip opts n)) l m.
(** TAILQ_NEXT, util.c 309: what follows the element [a]. *)
Fixpoint behind (a : Z) (l : list Z) : list Z :=
  match l with
  | [] => []
  | b :: l' => if b =? a then l' else behind a l'
  end.
(** netif_iter, util.c 301-330. *)
Definition m_iter (opts : Z) (cur : option Z) (l : list Z) (m : mem) : option (option Z) :=
  match cur with
  | None => m_iter_scan opts l m
  | Some a => let? _ := m a in m_iter_scan opts (behind a l) m
  end.
(** subif_iter, util.c 332-349. *)
Definition m_subif_iter (sub : option Z) (a : Z) (m : mem) : option (option Z) :=
  match sub with
  | None =>
      let? n := m a in
      Some (if NETIF_PARENT <? nf_type n then nf_subif n
            else if nf_type n <? NETIF_REGULAR then None
            else Some a)
  | Some s => if s =? a then Some None else let? n := m s in Some (nf_subif n)
  end.
(** "subif->parent" where it is used, child.c 338-343, 445-450, proto/cdp.c 92-96: the parent if
    there is one, otherwise the interface itself. *)
Definition m_top (a : Z) (m : mem) : option Z :=
  let? n := m a in
  match nf_parent n with
  | Some p => let? _ := m p in Some p
  | None => Some a
  end.
