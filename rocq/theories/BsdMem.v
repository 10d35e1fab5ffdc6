(** The buffers and the temporary memory of interface detection on FreeBSD and
    OpenBSD: /repo/src/netif_bsd.c, called from netif_fetch and netif_media in
    /repo/src/netif.c.  Unlike in Bsd, every access to an array is checked. *)
From Verif Require Import Base Types Tlv Util Sysinfo Netif Bsd Heap.

(** ** Arrays *)
(** Reading and writing an element of an array of known length; outside of it the
    behaviour is undefined.  Helpers for the accesses in netif_bsd.c 114-117, 244-254. *)
Definition a_get (buf : list Z) (i : Z) : dres Z :=
  if (0 <=? i) && (i <? zlen buf) then DOk (nth (Z.to_nat i) buf 0) else DUB.
(** Writing, as [a_get]; netif_bsd.c 117, 254. *)
Definition a_put (buf : list Z) (i v : Z) : dres (list Z) :=
  if (0 <=? i) && (i <? zlen buf) then DOk (firstn (Z.to_nat i) buf ++ v :: skipn (Z.to_nat (i + 1)) buf) else DUB.
(** The string that starts at an element, as strlen, strcmp and "%s" read it;
    netif_bsd.c 114, 120, 124, 240, 244, 249, 253, 256. *)
Fixpoint a_str (fuel : nat) (buf : list Z) (i : Z) : dres (list Z) :=
  match fuel with
  | O => DLoop
  | S f => let* c := a_get buf i in
           if c =? 0 then DOk [] else let* r := a_str f buf (i + 1) in DOk (c :: r)
  end.
(** memmove(3) within an array, netif_bsd.c 253. *)
Definition a_move (buf : list Z) (dst src n : Z) : dres (list Z) :=
  if (0 <=? src) && (0 <=? dst) && (src + n <=? zlen buf) && (dst + n <=? zlen buf)
  then DOk (firstn (Z.to_nat dst) buf ++ firstn (Z.to_nat n) (skipn (Z.to_nat src) buf) ++ skipn (Z.to_nat (dst + n)) buf)
  else DUB.

(** ** Driver names *)
(** IFNAMSIZ of net/if.h. *)
Definition IFNAMSIZ := 16.
(** dname[IFNAMSIZ+1] after netif_driver, netif_bsd.c 84, 164-182, 235: sysctl(3)
    copies the name and its end as far as IFNAMSIZ bytes go, strlcpy(3) ends it. *)
Definition dname_buf (pf : platform) (b : bos) (index : Z) (ifr : list Z) : list Z :=
  let w := match pf with
           | FreeBSD => firstn (Z.to_nat IFNAMSIZ) (cstr (bo_driver b index) ++ [0])
           | OpenBSD => firstn (Z.to_nat (IFNAMSIZ - 1)) ifr ++ [0]
           end in
  w ++ repeat 0 (Z.to_nat (IFNAMSIZ + 1) - length w).
(** The loop "zap dunit", netif_bsd.c 115-117; [i] is dunit - dname. *)
Fixpoint zap_loop (fuel : nat) (buf : list Z) (i : Z) : dres (list Z) :=
  match fuel with
  | O => DLoop
  | S f =>
      if i =? 0 then DOk buf
      else let* c := a_get buf (i - 1) in
           if isdigit c then let* buf' := a_put buf (i - 1) 0 in zap_loop f buf' (i - 1) else DOk buf
  end.
(** The loop that finds the unit number, netif_bsd.c 245; as [zap_loop]. *)
Fixpoint unit_loop (fuel : nat) (buf : list Z) (i : Z) : dres Z :=
  match fuel with
  | O => DLoop
  | S f =>
      let* c := a_get buf (i - 1) in
      if isdigit c then if i - 1 =? 0 then DOk 0 else unit_loop f buf (i - 1) else DOk i
  end.

(** netif_type, netif_bsd.c 81-160, as [bsd_type]. *)
Definition bm_type (pf : platform) (b : bos) (index : Z) (name : list Z) : dres Z :=
  let ifr := firstn 15 name in
  let dname := dname_buf pf b index ifr in
  let ty := bo_iftype b name in
  if bo_wireless b ifr then DOk NETIF_WIRELESS
  else if ty =? IFT_ETHER then
    match bo_vlan b ifr with
    | Some _ => DOk NETIF_VLAN
    | None =>
        let* s := a_str 32 dname 0 in
        let* dname := zap_loop 32 dname (zlen s) in
        let* d := a_str 32 dname 0 in
        if beq d (bs "tun") || beq d (bs "tap") || beq d (bs "vxlan") then DOk NETIF_TAP
        else if (match pf with FreeBSD => true | OpenBSD => false end) && beq d (bs "ipfw") then DOk NETIF_INVALID
        else match bo_lagg b ifr with
             | Some _ => DOk NETIF_BONDING
             | None => DOk NETIF_REGULAR
             end
    end
  else if ty =? IFT_BRIDGE then DOk NETIF_BRIDGE
  else if ty =? IFT_IEEE8023ADLAG then DOk NETIF_REGULAR
  else if ty =? IFT_L2VLAN then DOk NETIF_VLAN
  else DOk NETIF_INVALID.

(** The name asked for, netif_bsd.c 239-258; desc_sysctl has room for 63 characters. *)
Definition bm_sysctl_name (dname : list Z) : dres (option (list Z)) :=
  let* s := a_str 32 dname 0 in
  if zlen s =? 0 then DOk None
  else
    let* i := unit_loop 32 dname (zlen s) in
    let* u := a_str 32 dname i in
    if zlen u =? 0 then DOk None
    else
      let* dname := a_move dname (i + 1) i (zlen u) in
      let* dname := a_put dname i 46 in
      let* s := a_str 32 dname 0 in
      DOk (Some (firstn 63 (bs "dev." ++ s ++ bs ".%desc"))).
(** netif_device_id, netif_bsd.c 228-263, as [bsd_device_id]. *)
Definition bm_device_id (pf : platform) (b : bos) (ifr : list Z) (n : netif) (nfs : list netif) : dres (list netif) :=
  if negb (nf_device_identified n =? 0) then DOk nfs
  else
    let* name :=
      match pf with
      | OpenBSD => DOk (nf_device_name n)
      | FreeBSD =>
          let* s := bm_sysctl_name (dname_buf FreeBSD b (nf_index n) ifr) in
          DOk match s with
              | None => nf_device_name n
              | Some s =>
                  match bo_sysctl b s with
                  | None => nf_device_name n
                  | Some v => match device_field v with Some d => d | None => firstn 64 (cstr v) end
                  end
              end
      end in
    DOk (nf_assign (set_device 1 name) (nf_index n) nfs).

(** ** Aggregates *)
(** LAGG_MAX_PORTS of net/if_lagg.h and TRUNK_MAX_PORTS of net/if_trunk.h: the size of
    rpbuf, netif_bsd.c 274-279. *)
Definition MAX_PORTS (pf : platform) : Z := match pf with FreeBSD => 32 | OpenBSD => 8 end.
(** netif_bond, netif_bsd.c 267-327, as [bsd_bond]; rpbuf is read up to ra_ports. *)
Definition bm_bond (pf : platform) (b : bos) (p : netif) (nfs : list netif) : dres (list netif) :=
  match bo_lagg b (nf_name p) with
  | Some (_, ports) => if zlen ports <=? MAX_PORTS pf then DOk (bsd_bond pf b p nfs) else DUB
  | None => DOk (bsd_bond pf b p nfs)
  end.

(** ** Bridges *)
(** The loop that fetches the members, netif_bsd.c 395-420: realloc(3) gives a new
    block and frees the old one, or fails if there is no [room]; [ask] is the ioctl
    with a buffer of this length, the number of bytes filled.  Returns the block, its
    length and the bytes filled.  A product that is no int is undefined (419). *)
Fixpoint bm_bridge_fetch (fuel : nat) (room : Z -> bool) (sz : Z) (ask : Z -> option Z)
  (inbuf : option Z) (len : Z) (h : heap) : dres (option (Z * Z * Z) * heap) :=
  match fuel with
  | O => DLoop
  | S f =>
      if negb (room len) then
        let* h1 := match inbuf with Some a => free a h | None => DOk h end in
        DOk (None, h1)
      else
        let* h1 := match inbuf with Some a => free a h | None => DOk h end in
        let '(a, h2) := malloc h1 in
        match ask len with
        | None => let* h3 := free a h2 in DOk (None, h3)
        | Some used =>
            if used + sz <? len then DOk (Some (a, len, used), h2)
            else if 2147483647 <? len * 2 then DUB
            else bm_bridge_fetch f room sz ask (Some a) (len * 2) h2
        end
  end.
(** netif_bridge, netif_bsd.c 373-441, as [bsd_bridge]; the kernel fills in as many
    members as fit.  The loop (422-435) reads the first [used / sz] of them, which
    have to lie in the block. *)
Definition bm_bridge (room : Z -> bool) (b : bos) (p : netif) (nfs : list netif) (h : heap) : dres (list netif * heap) :=
  let sz := bo_ifbreq b in
  let ask len := match bo_bridge b (nf_name p) with
                 | None => None
                 | Some ports => Some (Z.min (zlen ports) (len / sz) * sz)
                 end in
  let* r := bm_bridge_fetch 32 room sz ask None 8192 h in
  match r with
  | (None, h1) => DOk (nfs, h1)
  | (Some (a, len, used), h1) =>
      if is_live a h1 && ((used / sz) * sz <=? len) then
        let ports := match bo_bridge b (nf_name p) with Some ports => ports | None => [] end in
        let nfs' := bsd_bridge_loop (nf_index p) (firstn (Z.to_nat (used / sz)) ports) (nf_index p) nfs in
        let* h2 := free a h1 in
        DOk (nfs', h2)
      else DUB
  end.

(** ** A refresh *)
(** A loop whose steps may be undefined.  Helper without a counterpart in the C code. *)
Fixpoint d_fold {S A} (f : S -> A -> dres S) (l : list A) (s : S) : dres S :=
  match l with
  | [] => DOk s
  | x :: l' => let* s' := f s x in d_fold f l' s'
  end.
(** One AF_LINK entry, netif.c 116-234, as [bsd_fetch_one]. *)
Definition bm_fetch_one (cfg : ncfg) (pf : platform) (b : bos) (st : list netif * sysinfo * Z) (ia : ifaddr)
  : dres (list netif * sysinfo * Z) :=
  let '(nfs, si, count) := st in
  match ia_addr ia with
  | Some (SALink sdl_type index _) =>
      if negb (sdl_type =? IFT_BRIDGE) && negb (sdl_type =? IFT_ETHER) then DOk st
      else
        let name := ia_name ia in
        let up := match bo_flags b (firstn 15 name) with Some f => has f IFF_UP | None => false end in
        let* ty := bm_type pf b index name in
        let si := count_type ty up si in
        if ty =? NETIF_INVALID then DOk (nfs, si, count)
        else if negb up then DOk (nfs, si, count)
        else
          let descr := match bo_descr b (firstn 15 name) with Some d => d | None => [] end in
          let nfs' :=
            match netif_byindex nfs index with
            | None => nfs ++ [fresh_netif index name ty descr 0 0 0 []]
            | Some o =>
                nf_assign (fun _ => fresh_netif index name ty descr (nf_protos o)
                             (nf_link_event o) (nf_device_identified o) (nf_device_name o))
                  index nfs
            end in
          let si := match nc_mifname cfg with
                    | Some m => if beq (firstn 15 name) m then set_mnetif (Some index) si else si
                    | None => si
                    end in
          DOk (nfs', si, count + 1)
  | _ => DOk st
  end.
(** The switch for one interface, netif.c 255-278, as [bsd_detect_one]. *)
Definition bm_detect_one (room : Z -> bool) (pf : platform) (b : bos) (ifr : list Z) (st : list netif * heap) (i : Z)
  : dres (list netif * heap) :=
  let '(nfs, h) := st in
  match netif_byindex nfs i with
  | None => DOk st
  | Some n =>
      if nf_type n =? NETIF_BONDING then let* x := bm_bond pf b n nfs in DOk (x, h)
      else if nf_type n =? NETIF_BRIDGE then bm_bridge room b n nfs h
      else if nf_type n =? NETIF_VLAN then DOk (bsd_vlan b ifr n nfs, h)
      else if nf_type n =? NETIF_REGULAR then let* x := bm_device_id pf b ifr n nfs in DOk (x, h)
      else DOk st
  end.
(** netif_fetch, netif.c 75-317, as [bsd_fetch]: the list of getifaddrs is one more
    allocation, given back at the end (314). *)
Definition bm_fetch (room : Z -> bool) (cfg : ncfg) (pf : platform) (b : bos) (nfs : list netif) (si : sysinfo) (h : heap)
  : dres ((Z * list netif * sysinfo * list Z) * heap) :=
  match bo_ifaddrs b with
  | None => DOk ((0, nfs, si, []), h)
  | Some ias =>
      let '(a, h) := malloc h in
      let keep := Z.lor CAP_HOST CAP_ROUTER in
      let si0 := set_caps (Z.land (si_cap si) keep) (Z.land (si_cap_active si) keep) 0 si in
      let nfs0 := map (set_type NETIF_OLD) nfs in
      let* r := d_fold (bm_fetch_one cfg pf b) ias (nfs0, si0, 0) in
      let '(nfs1, si1, count) := r in
      let '(nfs2, si2, gone) := remove_old nfs1 si1 in
      let* r := d_fold (bm_detect_one room pf b (last_ifr ias [])) (map nf_index nfs2) (nfs2, h) in
      let '(nfs3, h) := r in
      let '(nfs4, si4) := netif_addrs cfg ias nfs3 si2 in
      let si5 := match nfs4 with n :: _ => set_chassis (nf_hwaddr n) si4 | [] => si4 end in
      let res :=
        if 0 <? zlen (nc_ifl cfg) then
          let '(nfs5, c) := argv_loop (nc_ifl cfg) nfs4 0 in
          ((if c =? zlen (nc_ifl cfg) then c else 0) mod 65536, nfs5, si5, gone)
        else (count mod 65536, nfs4, si5, gone) in
      if is_live a h then let* h := free a h in DOk (res, h) else DUB
  end.

(** ** Media *)
(** The list of media, netif_bsd.c 495-544 and 649: ifm_count elements are allocated,
    the second call fills in the list, and each of its elements is read. *)
Definition bm_media (b : bos) (n : netif) (h : heap) : dres (netif * heap) :=
  let done h := DOk (bsd_media b n, h) in
  if negb (nf_type n =? NETIF_REGULAR) then done h
  else match bo_media b (nf_name n) with
  | None => done h
  | Some im =>
      if negb (im_ether im) then done h
      else if negb (im_up im) then done h
      else if im_count im =? 0 then done h
      else
        let '(a, h) := malloc h in
        match im_list im with
        | None => let* h := free a h in done h
        | Some l => if zlen l <=? im_count im then let* h := free a h in done h else DUB
        end
  end.
