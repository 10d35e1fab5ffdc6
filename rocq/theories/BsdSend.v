(** Advertisement runs and link events on FreeBSD and OpenBSD: child_send and the
    routing socket branch of child_link in /repo/src/child.c. *)
From Verif Require Import Base Types Tlv Protos Wire Util Child Netif Sysinfo Send Bsd HostBsd.

(** One interface, child.c 206-281, as [send_sub] with the netif_media of BSD. *)
Definition bc_sub (cfg : scfg) (b : bos) (si : sysinfo) (index top : Z)
  (st : list netif * Z * list seff) (i : Z) : list netif * Z * list seff :=
  let '(nfs, edp, eff) := st in
  if negb (index =? NETIF_INDEX_MAX) && negb (index =? i) then st
  else match netif_byindex nfs i with
  | None => st
  | Some sub0 =>
      let ev := if index =? NETIF_INDEX_MAX then 0 else (nf_link_event sub0 + 1) mod 256 in
      let nfs1 := nf_assign (set_link_event ev) i nfs in
      if send_skip cfg sub0 then (nfs1, edp, eff)
      else
        let eff1 := if has (sc_opts cfg) OPT_RECV && (nf_protos sub0 =? 0) then [SOpen i] else [] in
        let nfs2 := nf_assign (bsd_media b) i nfs1 in
        if negb (has (sc_opts cfg) OPT_SEND) then (nfs2, edp, eff ++ eff1)
        else match netif_byindex nfs2 i, netif_byindex nfs2 top with
        | Some sub, Some t =>
            let '(edp', eff2) := fold_left (send_proto cfg nfs2 si t sub) [0; 1; 2; 3; 4; 5] (edp, []) in
            (nfs2, edp', eff ++ eff1 ++ eff2)
        | _, _ => (nfs2, edp, eff ++ eff1)
        end
  end.
(** One selected interface with its members, child.c 188-282. *)
Definition bc_top (cfg : scfg) (b : bos) (si : sysinfo) (index : Z) (nfs0 : list netif)
  (st : list netif * Z * list seff) (n : netif) : list netif * Z * list seff :=
  if send_skip cfg n then st
  else fold_left (bc_sub cfg b si index (nf_index n)) (map nf_index (subif_each n nfs0)) st.
(** The loops over the interfaces, child.c 188-283, as [send_loop]. *)
Definition bc_loop (cfg : scfg) (b : bos) (index : Z) (nfs : list netif) (si : sysinfo) (edp : Z)
  : list netif * Z * list seff :=
  fold_left (bc_top cfg b si index nfs) (netif_each (sc_opts cfg) nfs) (nfs, edp, []).
(** child_send, child.c 163-296, as [child_send]. *)
Definition bc_send (cfg : scfg) (pf : platform) (b : bos) (index : Z) (timeout : bool) (now : Z) (st : sstate)
  : sstate * list seff :=
  let c := st_child st in
  let flapping := negb (index =? NETIF_INDEX_MAX)
                  && match netif_byindex (c_nfs c) index with
                     | Some n => 3 <? nf_link_event n
                     | None => false
                     end in
  let '(st1, eff1) :=
    if flapping then (st, [])
    else
      let '(count, nfs, si, gone) := bsd_fetch (sc_net cfg) pf b (c_nfs c) (st_si st) in
      let closes := map SClose gone in
      if count =? 0 then (mkSt (set_nfs c nfs) si (st_edp st), closes)
      else if negb (index =? NETIF_INDEX_MAX)
              && match netif_byindex nfs index with Some _ => false | None => true end
      then (mkSt (set_nfs c nfs) si (st_edp st), closes)
      else
        let '(nfs', edp, eff) := bc_loop cfg b index nfs si (st_edp st) in
        (mkSt (set_nfs c nfs') si edp, closes ++ eff) in
  if timeout && has (sc_opts cfg) OPT_RECV then
    let '(c', eff2) := child_expire (sc_opts cfg) now (st_child st1) in
    (mkSt c' (st_si st1) (st_edp st1), eff1 ++ map SChild eff2)
  else (st1, eff1).

(** A read(2) from the routing socket, child.c 610-623: the value returned and the
    fields of the buffer that are looked at (struct if_msghdr of net/if.h; zero
    behind what was read). *)
Record rtmsg := mkRtm { rm_len : Z; rm_version : Z; rm_type : Z; rm_iftype : Z; rm_flags : Z; rm_state : Z; rm_index : Z }.
(** sizeof(struct rt_msghdr) of net/route.h, child.c 618, on 64-bit machines. *)
Definition RT_HDRLEN (pf : platform) : Z := match pf with FreeBSD => 152 | OpenBSD => 96 end.
(** RTM_VERSION and RTM_IFINFO of net/route.h, child.c 619-620. *)
Definition RTM_VERSION := 5.
Definition RTM_IFINFO := 14. (* net/route.h *)
(** IFF_RUNNING | IFF_UP of net/if.h, child.c 613. *)
Definition RT_FLAGS := 65.
(** LINK_STATE_UP of net/if.h, child.c 628-631; LINK_STATE_UNKNOWN is 0 (32-35). *)
Definition LINK_STATE_UP (pf : platform) : Z := match pf with FreeBSD => 2 | OpenBSD => 4 end.
(** child_link, child.c 608-636: "len" is compared as size_t; ifm_index is a
    u_short. *)
Definition bc_link (cfg : scfg) (pf : platform) (b : bos) (m : rtmsg) (now : Z) (st : sstate) : sstate * list seff :=
  if (rm_len m mod 18446744073709551616 <? RT_HDRLEN pf) || negb (rm_version m =? RTM_VERSION) || negb (rm_type m =? RTM_IFINFO)
  then (st, [])
  else if negb (rm_iftype m =? IFT_ETHER) then (st, [])
  else if negb (Z.land (rm_flags m) RT_FLAGS =? RT_FLAGS) then (st, [])
  else if negb ((LINK_STATE_UP pf <=? rm_state m) || (rm_state m =? 0)) then (st, [])
  else bc_send cfg pf b (rm_index m mod 65536) false now st.

(** The event loop, child.c 124-157, as [sevent] and [send_step]. *)
Inductive bevent :=
| BRun (b : bos) (now : Z)
| BLink (b : bos) (m : rtmsg) (now : Z)
| BChild (e : cevent).
(** One event of that loop. *)
Definition bc_step (cfg : scfg) (pf : platform) (st : sstate) (e : bevent) : dres (sstate * list seff) :=
  match e with
  | BRun b now => DOk (bc_send cfg pf b NETIF_INDEX_MAX true now st)
  | BLink b m now => DOk (bc_link cfg pf b m now st)
  | BChild e => send_step cfg st (EvChild e)
  end.
