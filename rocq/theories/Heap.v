(** Who frees what: allocations of the decoders (/repo/src/proto/*.c), of the
    neighbour table and of the client sessions (/repo/src/child.c). *)
From Verif Require Import Base Vis Tlv Types Checks Msg Cdp Edp Fdp Ndp Lldp Protos Wire Util Child.

(** The allocations that were not freed, and the number of the next one.
    malloc(3) and free(3) behind my_malloc and my_strdup, util.c 80-106: allocations
    are named by numbers that are never used again, so that freeing one twice or
    using it afterwards shows. *)
Record heap := mkHeap { live : list Z; next : Z }.
(** my_malloc, util.c 80-87. *)
Definition malloc (h : heap) : Z * heap := (next h, mkHeap (next h :: live h) (next h + 1)).
(** Membership.  Helper without a counterpart in the C code. *)
Definition is_live (a : Z) (h : heap) : bool := existsb (Z.eqb a) (live h).
(** free(3) of an allocation. *)
Definition free (a : Z) (h : heap) : dres heap :=
  if is_live a h then DOk (mkHeap (filter (fun x => negb (x =? a)) (live h)) (next h)) else DUB.

(** The message being decoded: each slot of peer[] with the allocation and the string
    in it, the other fields, and the heap; common.h 279-295. *)
Record hst := mkHst {
  h_peer : list (option (Z * list Z));
  h_ttl : Z;
  h_proto : Z;
  h_out : list (list Z);
  h_heap : heap
}.
(** A C function working on it: what it returns, and the state it leaves, also if it
    returned 0. *)
Definition HM (A : Type) : Type := hst -> dres A * hst.
(** Returning a value.  Helper without a counterpart in the C code. *)
Definition hret {A} (a : A) : HM A := fun s => (DOk a, s).
(** An outcome without effect on the state.  Helper, as above. *)
Definition hlift {A} (r : dres A) : HM A := fun s => (r, s).
(** Sequencing of C statements.  Helper, as above. *)
Definition hbind {A B} (m : HM A) (f : A -> HM B) : HM B :=
  fun s => match m s with
           | (DOk a, s') => f a s'
           | (DFail, s') => (DFail, s')
           | (DAbort, s') => (DAbort, s')
           | (DUB, s') => (DUB, s')
           | (DLoop, s') => (DLoop, s')
           end.
Notation "'do' x '<-' m ';' f" := (hbind m (fun x => f))
  (at level 200, x pattern, m at level 100, f at level 200, right associativity).
(** The fields without the allocations.  Helper, as above. *)
Definition erase (s : hst) : dst :=
  mkDst (map (option_map snd) (h_peer s)) (h_ttl s) (h_proto s) (h_out s).

(** my_malloc, util.c 80-87. *)
Definition h_malloc : HM Z := fun s =>
  let '(a, h) := malloc (h_heap s) in (DOk a, mkHst (h_peer s) (h_ttl s) (h_proto s) (h_out s) h).
(** free(3). *)
Definition h_free (a : Z) : HM unit := fun s =>
  match free a (h_heap s) with
  | DOk h => (DOk tt, mkHst (h_peer s) (h_ttl s) (h_proto s) (h_out s) h)
  | _ => (DUB, s)
  end.
(** printf(3), and assignments to the fields, common.h 279-295. *)
Definition h_print (l : list Z) : HM unit := fun s =>
  (DOk tt, mkHst (h_peer s) (h_ttl s) (h_proto s) (h_out s ++ [l]) (h_heap s)).
(** As above. *)
Definition h_set_ttl (t : Z) : HM unit := fun s => (DOk tt, mkHst (h_peer s) t (h_proto s) (h_out s) (h_heap s)).
(** As above. *)
Definition h_set_proto (p : Z) : HM unit := fun s => (DOk tt, mkHst (h_peer s) (h_ttl s) p (h_out s) (h_heap s)).
(** "holdtime = msg->ttl - (now - msg->received)", cdp.c 473, lldp.c 751. *)
Definition h_holdtime (c : dctx) : HM Z := fun s => (DOk (holdtime c (erase s)), s).
(** "msg->peer[i] != NULL". *)
Definition h_slot (i : Z) : HM bool := fun s =>
  (DOk (match nth (Z.to_nat i) (h_peer s) None with Some _ => true | None => false end), s).
(** "msg->peer[i] = str". *)
Definition h_set_slot (i : Z) (v : Z * list Z) : HM unit := fun s =>
  (DOk tt, mkHst (upd (h_peer s) (Z.to_nat i) (Some v)) (h_ttl s) (h_proto s) (h_out s) (h_heap s)).
(** PEER_STR(x, y), common.h 266. *)
Definition h_PEER_STR (i : Z) (v : Z * list Z) : HM unit :=
  do used <- h_slot i;
  if used then h_free (fst v) else h_set_slot i v.

(** "str = ...; if print { printf(...); free(str); } else PEER_STR(...)": cdp.c 487-495,
    505-513, 569-575, 636-642, lldp.c 664-670, 810-816, 872-877. *)
Definition h_show_or_store (c : dctx) (line : list Z) (slot : Z) (v : list Z) : HM unit :=
  do a <- h_malloc;
  if d_mode c =? DECODE_PRINT then do _ <- h_print line; h_free a
  else h_PEER_STR slot (a, v).
(** "if print printf(...) else if (asprintf(&str, ...) > 0) PEER_STR(...)": cdp.c 667-671,
    lldp.c 918-922. *)
Definition h_print_or_number (c : dctx) (line : list Z) (slot : Z) (v : list Z) : HM unit :=
  if d_mode c =? DECODE_PRINT then h_print line
  else do a <- h_malloc; h_PEER_STR slot (a, v).
(** A string that is printed and freed: cdp.c 681-683, lldp.c 634-637, 793-795. *)
Definition h_show (line : list Z) : HM unit :=
  do a <- h_malloc; do _ <- h_print line; h_free a.
(** The tokens, cdp.c 540-541, lldp.c 733-734. *)
Fixpoint h_lines (l : list (list Z)) : HM unit :=
  match l with
  | [] => hret tt
  | t :: l' => do _ <- h_print (bs "  " ++ t ++ [10]); h_lines l'
  end.
(** The common body of cdp_descr_print (cdp.c 537-545) and lldp_descr_print (lldp.c
    730-738): after strsep(&str, ...) has returned NULL, [str] is NULL, and free(str)
    frees nothing. *)
Definition h_descr_print (label v : list Z) : HM unit :=
  do a <- h_malloc;
  if existsb (fun b => b =? 10) v
  then do _ <- h_print (label ++ bs ":" ++ [10]); h_lines (strsep_nl v [])
  else do _ <- h_print (label ++ bs ": " ++ v ++ [10]); h_free a.
(** "ret = ...; free(p); return ret", lldp.c 892-896. *)
Definition h_finally (m : HM unit) (a : Z) : HM unit := fun s =>
  match m s with
  | (DOk tt, s') => h_free a s'
  | (DFail, s') => match h_free a s' with (DOk _, s'') => (DFail, s'') | r => r end
  | r => r
  end.

(** ** CDP *)
(** cdp_header_check, cdp.c 445-480. *)
Definition h_cdp_header_check (c : dctx) (p l : Z) : HM unit :=
  if l <? 4 then hlift DFail
  else
    do h <- hlift (rdn (d_buf c) p 4);
    let version := nth 0 h 0 in
    if (version <? 1) || (2 <? version) then hlift DFail
    else
      do _ <- h_set_proto (if version =? 1 then PROTO_CDP1 else PROTO_CDP);
      do _ <- h_set_ttl (nth 1 h 0);
      do ht <- h_holdtime c;
      if d_mode c =? DECODE_PRINT
      then h_print (bs "CDP Version: " ++ dec version ++ [10] ++ bs "Holdtime: " ++ dec ht ++ [10])
      else hret tt.
(** cdp_system_name, cdp.c 482-498. *)
Definition h_cdp_system_name (c : dctx) (p l t : Z) : HM unit :=
  do str <- hlift (tlv_str_copy (d_buf c) p l);
  h_show_or_store c
    ((if t =? CDP_TYPE_DEVICE_ID then bs "Device ID" else bs "System Name") ++ bs ": " ++ str ++ [10]) PEER_HOSTNAME str.
(** cdp_port_id, cdp.c 500-516. *)
Definition h_cdp_port_id (c : dctx) (p l : Z) : HM unit :=
  do str <- hlift (tlv_str_copy (d_buf c) p l);
  h_show_or_store c
    (bs "Interface: " ++ d_name c ++ bs ", Port ID (outgoing port): " ++ str ++ [10]) PEER_PORTNAME str.
(** cdp_descr_print, cdp.c 518-548. *)
Definition h_cdp_descr_print (c : dctx) (t p l : Z) : HM unit :=
  do str <- hlift (tlv_str_copy (d_buf c) p l);
  h_descr_print (if t =? CDP_TYPE_IOS_VERSION then bs "Version"
                 else if t =? CDP_TYPE_PLATFORM then bs "Platform"
                 else bs "Unknown") str.
(** cdp_system_cap, cdp.c 550-578. *)
Definition h_cdp_system_cap (c : dctx) (p l : Z) : HM unit :=
  if negb (l =? 4) then hlift DFail
  else
    do (w, _) <- hlift (GRAB_UINT32 (d_buf c) (mkCur p l));
    let str := tlv_str_cap (cdp_cap_decode w) in
    h_show_or_store c (bs "Capabilities: " ++ str ++ [10]) PEER_CAP str.
(** The loop at next_addr of cdp_addr, cdp.c 596-651. *)
Fixpoint h_cdp_addr_loop (fuel : nat) (c : dctx) (count : Z) (k : cur) : HM unit :=
  match fuel with
  | O => hlift DLoop
  | S f =>
      do (pt, k1) <- hlift (GRAB_UINT8 (d_buf c) k);
      do (pl, k2) <- hlift (GRAB_UINT8 (d_buf c) k1);
      if len k2 <? pl + 2 then hlift DFail
      else
        do af <- hlift
          (if (pt =? PT_IPV4) && (pl =? 1) then
             let* b := rdn (d_buf c) (pos k2) pl in
             DOk (if beq b PROTO_BYTES_IPV4 then PEER_ADDR_INET4 else 0)
           else if (pt =? PT_IPV6) && (pl =? 8) then
             let* b := rdn (d_buf c) (pos k2) pl in
             DOk (if beq b PROTO_BYTES_IPV6 then PEER_ADDR_INET6 else 0)
           else DOk 0);
        do k3 <- hlift (SKIP pl k2);
        do (al, k4) <- hlift (GRAB_UINT16 (d_buf c) k3);
        if len k4 <? al then hlift DFail
        else
          do _ <-
            (if af =? 0 then hret tt
             else
               do r <- hlift (tlv_str_addr af (d_buf c) (pos k4) al);
               match r with
               | None => hlift DFail
               | Some str =>
                   h_show_or_store c
                     (bs "  IP" ++ (if af =? PEER_ADDR_INET6 then bs "v6" else [])
                        ++ bs " address: " ++ str ++ [10]) af str
               end);
          do k5 <- hlift (SKIP al k4);
          let count := (count - 1) mod 4294967296 in
          if negb (len k5 =? 0) && (0 <? count)
          then h_cdp_addr_loop f c count k5
          else hret tt
  end.
(** cdp_addr, cdp.c 580-654. *)
Definition h_cdp_addr (c : dctx) (p l t : Z) : HM unit :=
  do (count, k) <- hlift (GRAB_UINT32 (d_buf c) (mkCur p l));
  do _ <-
    (if d_mode c =? DECODE_PRINT
     then h_print ((if t =? CDP_TYPE_MGMT_ADDRESS then bs "Management" else bs "Entry") ++ bs " address(es):" ++ [10])
     else hret tt);
  h_cdp_addr_loop (S (Z.to_nat l)) c count k.
(** cdp_vlan, cdp.c 656-674. *)
Definition h_cdp_vlan (c : dctx) (p l : Z) : HM unit :=
  if negb (l =? 2) then hlift DFail
  else
    do (v, _) <- hlift (GRAB_UINT16 (d_buf c) (mkCur p l));
    h_print_or_number c (bs "Native VLAN: " ++ dec v ++ [10]) PEER_VLAN_ID (dec v).
(** cdp_vtp_print, cdp.c 676-686. *)
Definition h_cdp_vtp_print (c : dctx) (p l : Z) : HM unit :=
  do str <- hlift (tlv_str_copy (d_buf c) p l);
  h_show (bs "VTP Management Domain: '" ++ str ++ bs "'" ++ [10]).
(** cdp_duplex_print, cdp.c 688-701. *)
Definition h_cdp_duplex_print (c : dctx) (p l : Z) : HM unit :=
  if negb (l =? 1) then hlift DFail
  else
    do (d, _) <- hlift (GRAB_UINT8 (d_buf c) (mkCur p l));
    h_print (bs "Duplex: " ++ (if d =? 0 then bs "half" else bs "full") ++ [10]).
(** The switch over the TLV type, cdp.c 387-433. *)
Definition h_cdp_dispatch (c : dctx) (t p l : Z) : HM unit :=
  if (t =? CDP_TYPE_DEVICE_ID) || (t =? CDP_TYPE_SYSTEM_NAME) then h_cdp_system_name c p l t
  else if t =? CDP_TYPE_PORT_ID then h_cdp_port_id c p l
  else if t =? CDP_TYPE_CAPABILITIES then h_cdp_system_cap c p l
  else if (t =? CDP_TYPE_ADDRESS) || (t =? CDP_TYPE_MGMT_ADDRESS) then h_cdp_addr c p l t
  else if (t =? CDP_TYPE_IOS_VERSION) || (t =? CDP_TYPE_PLATFORM) then
    (if d_mode c =? DECODE_PRINT then h_cdp_descr_print c t p l else hret tt)
  else if t =? CDP_TYPE_VTP_MGMT_DOMAIN then
    (if d_mode c =? DECODE_PRINT then h_cdp_vtp_print c p l else hret tt)
  else if t =? CDP_TYPE_NATIVE_VLAN then h_cdp_vlan c p l
  else if t =? CDP_TYPE_DUPLEX then
    (if d_mode c =? DECODE_PRINT then h_cdp_duplex_print c p l else hret tt)
  else hret tt.
(** The while loop of cdp_decode, cdp.c 376-439. *)
Fixpoint h_cdp_loop (fuel : nat) (c : dctx) (k : cur) : HM Z :=
  match fuel with
  | O => hlift DLoop
  | S f =>
      if len k =? 0 then hret (pos k)
      else
        do (t, l, k1) <- hlift (GRAB_CDP_TLV (d_buf c) k);
        if len k1 <? l then hlift DFail
        else
          do _ <- h_cdp_dispatch c t (pos k1) l;
          do k2 <- hlift (SKIP l k1);
          h_cdp_loop f c k2
  end.
(** cdp_decode, cdp.c 350-443. *)
Definition h_cdp_decode (c : dctx) : HM Z :=
  do r <- hlift (cdp_check (d_buf c) (d_len c));
  match r with
  | None => hlift DAbort
  | Some p =>
      let l := szsub (d_len c) p in
      do _ <- h_cdp_header_check c p l;
      h_cdp_loop (S (Z.to_nat (d_len c))) c (mkCur (p + 4) (szsub l 4))
  end.

(** ** EDP, FDP, NDP *)
(** DECODE_STRING and tlv_value_str for strings, tlv.h 98-105, tlv.c 28-49, 88-89. *)
Definition h_DECODE_STRING (type l : Z) (buf : list Z) (k : cur) : HM cur :=
  if l <=? len k then
    do used <- h_slot type;
    do _ <- (if used then hret tt
             else
               do s <- hlift (tlv_value_vis buf (pos k) l);
               do a <- h_malloc;
               h_set_slot type (a, s));
    hret (mkCur (pos k + l) (len k - l))
  else hlift DFail.
(** tlv_value_str for PEER_CAP, tlv.c 50-57, 88-89. *)
Definition h_value_cap (cap : Z) : HM unit :=
  do used <- h_slot PEER_CAP;
  if used then hret tt else do a <- h_malloc; h_set_slot PEER_CAP (a, tlv_str_cap cap).
(** The while loop of edp_decode, edp.c 230-252. *)
Fixpoint h_edp_loop (fuel : nat) (c : dctx) (k : cur) : HM Z :=
  match fuel with
  | O => hlift DLoop
  | S f =>
      if len k =? 0 then hret (pos k)
      else
        do (t, l, k1) <- hlift (GRAB_EDP_TLV (d_buf c) k);
        if t =? EDP_TYPE_DISPLAY then
          do k2 <- h_DECODE_STRING PEER_HOSTNAME l (d_buf c) k1;
          h_edp_loop f c k2
        else
          do k2 <- hlift (SKIP l k1);
          h_edp_loop f c k2
  end.
(** edp_decode, edp.c 193-256. *)
Definition h_edp_decode (c : dctx) : HM Z :=
  do r <- hlift (edp_check (d_buf c) (d_len c));
  match r with
  | None => hlift DAbort
  | Some p =>
      let l := szsub (d_len c) p in
      if l <? 16 then hlift DFail
      else
        do h <- hlift (rdn (d_buf c) p 16);
        if negb (nth 0 h 0 =? 1) then hlift DFail
        else
          do _ <- h_set_ttl LADVD_TTL;
          h_edp_loop (S (Z.to_nat (d_len c))) c (mkCur (p + 16) (szsub l 16))
  end.
(** The while loop of fdp_decode, fdp.c 259-303; the capability string is allocated by
    GRAB_STRING (tlv.h 87-96) and freed in 292. *)
Fixpoint h_fdp_loop (fuel : nat) (c : dctx) (cap : Z) (k : cur) : HM Z :=
  match fuel with
  | O => hlift DLoop
  | S f =>
      if len k =? 0 then hret (pos k)
      else
        do (t, l, k1) <- hlift (GRAB_CDP_TLV (d_buf c) k);
        if t =? FDP_TYPE_DEVICE_ID then
          do k2 <- h_DECODE_STRING PEER_HOSTNAME l (d_buf c) k1;
          h_fdp_loop f c cap k2
        else if t =? FDP_TYPE_PORT_ID then
          do k2 <- h_DECODE_STRING PEER_PORTNAME l (d_buf c) k1;
          h_fdp_loop f c cap k2
        else if t =? FDP_TYPE_CAPABILITIES then
          do (b, k2) <- hlift (GRAB_BYTES l (d_buf c) k1);
          do a <- h_malloc;
          let cap' := Z.lor cap (fdp_cap_decode (cstr b)) in
          do _ <- h_value_cap cap';
          do _ <- h_free a;
          h_fdp_loop f c cap' k2
        else
          do k2 <- hlift (SKIP l k1);
          h_fdp_loop f c cap k2
  end.
(** fdp_decode, fdp.c 220-307. *)
Definition h_fdp_decode (c : dctx) : HM Z :=
  do r <- hlift (fdp_check (d_buf c) (d_len c));
  match r with
  | None => hlift DAbort
  | Some p =>
      let l := szsub (d_len c) p in
      if l <? 4 then hlift DFail
      else
        do h <- hlift (rdn (d_buf c) p 4);
        if negb (nth 0 h 0 =? 1) then hlift DFail
        else
          do _ <- h_set_ttl (nth 1 h 0);
          h_fdp_loop (S (Z.to_nat (d_len c))) c 0 (mkCur (p + 4) (szsub l 4))
  end.
(** ndp_decode, ndp.c 111-142. *)
Definition h_ndp_decode (c : dctx) : HM Z :=
  do r <- hlift (ndp_check (d_buf c) (d_len c));
  match r with
  | None => hlift DAbort
  | Some p =>
      let l := szsub (d_len c) p in
      if l <? 11 then hlift DFail
      else do _ <- h_set_ttl LADVD_TTL; hret (p + 11)
  end.

(** ** LLDP *)
(** lldp_chassis_id, lldp.c 593-639. *)
Definition h_lldp_chassis_id (c : dctx) (p l : Z) : HM unit :=
  if (l <=? 1) || (256 <? l) then hlift DFail
  else if negb (d_mode c =? DECODE_PRINT) then hret tt
  else
    do (sub, k) <- hlift (GRAB_UINT8 (d_buf c) (mkCur p l));
    do str <- hlift
      (if (sub =? 1) || (sub =? 2) || (sub =? 3) || (sub =? 6) || (sub =? 7) then
         let* v := tlv_str_copy (d_buf c) (pos k) (len k) in DOk (Some v)
       else if sub =? 4 then tlv_str_addr PEER_ADDR_802 (d_buf c) (pos k) (len k)
       else if sub =? 5 then
         let* (afnum, k2) := GRAB_UINT8 (d_buf c) k in
         tlv_str_addr afnum (d_buf c) (pos k2) (len k2)
       else DOk None);
    match str with
    | Some v => h_show (bs "Chassis id: " ++ v ++ [10])
    | None => hret tt
    end.
(** lldp_port_id, lldp.c 641-683. *)
Definition h_lldp_port_id (c : dctx) (p l : Z) : HM unit :=
  if (l <=? 1) || (256 <? l) then hlift DFail
  else
    do (sub, k) <- hlift (GRAB_UINT8 (d_buf c) (mkCur p l));
    if (sub =? 1) || (sub =? 2) || (sub =? 5) || (sub =? 6) || (sub =? 7) then
      do str <- hlift (tlv_str_copy (d_buf c) (pos k) (len k));
      h_show_or_store c (bs "Port id: " ++ str ++ [10]) PEER_PORTNAME str
    else if sub =? 3 then
      if d_mode c =? DECODE_PRINT then
        do r <- hlift (tlv_str_addr PEER_ADDR_802 (d_buf c) (pos k) (len k));
        match r with
        | Some str => h_show (bs "Port id: " ++ str ++ [10])
        | None => hlift DUB
        end
      else hret tt
    else hret tt.
(** lldp_system_name, lldp.c 685-709. *)
Definition h_lldp_system_name (c : dctx) (p l : Z) : HM unit :=
  if 255 <? l then hlift DFail
  else
    do used <- h_slot PEER_HOSTNAME;
    if used then hlift DFail
    else
      do str <- hlift (tlv_str_copy (d_buf c) p l);
      do a <- h_malloc;
      do _ <- (if d_mode c =? DECODE_PRINT then h_print (bs "System Name: " ++ str ++ [10]) else hret tt);
      h_PEER_STR PEER_HOSTNAME (a, str).
(** lldp_descr_print, lldp.c 711-741. *)
Definition h_lldp_descr_print (c : dctx) (t p l : Z) : HM unit :=
  do str <- hlift (tlv_str_copy (d_buf c) p l);
  h_descr_print (if t =? LLDP_TYPE_PORT_DESCR then bs "Port Description" else bs "System Description") str.
(** lldp_system_cap, lldp.c 757-819. *)
Definition h_lldp_system_cap (c : dctx) (p l : Z) : HM unit :=
  if negb (l =? 4) then hlift DFail
  else
    do (avail, k) <- hlift (GRAB_UINT16 (d_buf c) (mkCur p l));
    do (cap, _) <- hlift (GRAB_UINT16 (d_buf c) k);
    if negb (avail =? Z.lor cap avail) then hlift DFail
    else if has avail LLDP_CAP_STATION_ONLY && has avail 65407 then hlift DFail
    else
      do _ <-
        (if d_mode c =? DECODE_PRINT
         then h_show (bs "System Capabilities: " ++ tlv_str_cap (lldp_cap_decode avail) ++ [10])
         else hret tt);
      let str := tlv_str_cap (lldp_cap_decode cap) in
      h_show_or_store c (bs "Enabled Capabilities: " ++ str ++ [10]) PEER_CAP str.
(** lldp_mgmt_addr, lldp.c 821-880. *)
Definition h_lldp_mgmt_addr (c : dctx) (p l : Z) : HM unit :=
  do (aflen0, k1) <- hlift (GRAB_UINT8 (d_buf c) (mkCur p l));
  do (afnum, k2) <- hlift (GRAB_UINT8 (d_buf c) k1);
  let aflen := (aflen0 - 1) mod 256 in
  let af := if afnum =? LLDP_AFNUM_INET then PEER_ADDR_INET4
            else if afnum =? LLDP_AFNUM_INET6 then PEER_ADDR_INET6
            else if afnum =? LLDP_AFNUM_802 then PEER_ADDR_802
            else 0 in
  let astr := if afnum =? LLDP_AFNUM_INET then bs "IPv4"
              else if afnum =? LLDP_AFNUM_INET6 then bs "IPv6"
              else bs "Ethernet" in
  if af =? 0 then hlift DFail
  else if negb (aflen <? len k2) then hlift DFail
  else
    do used <- h_slot af;
    if (d_mode c =? DECODE_STR) && used then hret tt
    else
      do r <- hlift (tlv_str_addr af (d_buf c) (pos k2) aflen);
      match r with
      | None => hlift DFail
      | Some str =>
          h_show_or_store c (bs "Management Address " ++ astr ++ bs ": " ++ str ++ [10]) af str
      end.
(** lldp_private_8021, lldp.c 899-929. *)
Definition h_lldp_private_8021 (c : dctx) (k : cur) : HM unit :=
  do (sub, k1) <- hlift (GRAB_UINT8 (d_buf c) k);
  if sub =? 1 then
    if negb (len k1 =? 2) then hlift DFail
    else
      do (v, _) <- hlift (GRAB_UINT16 (d_buf c) k1);
      h_print_or_number c (bs "Port VLAN ID: " ++ dec v ++ [10]) PEER_VLAN_ID (dec v)
  else hret tt.
(** lldp_private, lldp.c 882-897; [oui] is allocated by GRAB_BYTES, tlv.h 78-86. *)
Definition h_lldp_private (c : dctx) (p l : Z) : HM unit :=
  do (oui, k) <- hlift (GRAB_BYTES 3 (d_buf c) (mkCur p l));
  do a <- h_malloc;
  h_finally (if beq oui OUI_8021 then h_lldp_private_8021 c k else hret tt) a.
(** The switch over the TLV type without the END case, lldp.c 542-574. *)
Definition h_lldp_dispatch (c : dctx) (t p l : Z) : HM unit :=
  if t =? LLDP_TYPE_SYSTEM_NAME then h_lldp_system_name c p l
  else if t =? LLDP_TYPE_PORT_DESCR then
    do _ <-
      (if d_mode c =? DECODE_STR then
         do str <- hlift (tlv_str_copy (d_buf c) p l);
         do a <- h_malloc;
         h_PEER_STR PEER_PORTDESCR (a, str)
       else hret tt);
    if d_mode c =? DECODE_PRINT then h_lldp_descr_print c t p l else hret tt
  else if t =? LLDP_TYPE_SYSTEM_DESCR then
    if d_mode c =? DECODE_PRINT then h_lldp_descr_print c t p l else hret tt
  else if t =? LLDP_TYPE_SYSTEM_CAP then h_lldp_system_cap c p l
  else if t =? LLDP_TYPE_MGMT_ADDR then h_lldp_mgmt_addr c p l
  else if t =? LLDP_TYPE_PRIVATE then h_lldp_private c p l
  else if (8 <? t) && (t <? 127) then hlift DFail
  else hret tt.
(** The while loop of lldp_decode, lldp.c 524-589. *)
Fixpoint h_lldp_loop (fuel : nat) (c : dctx) (last : Z) (k : cur) : HM Z :=
  match fuel with
  | O => hlift DLoop
  | S f =>
      if len k =? 0 then (if last =? 0 then hret (pos k) else hlift DFail)
      else
        do (t, l, k1) <- hlift (GRAB_LLDP_TLV (d_buf c) k);
        if len k1 <? l then hlift DFail
        else if t =? LLDP_TYPE_END then
          if l =? 0 then hret (pos k1) else hlift DFail
        else
          do _ <- h_lldp_dispatch c t (pos k1) l;
          do k2 <- hlift (SKIP l k1);
          h_lldp_loop f c t k2
  end.
(** lldp_decode, lldp.c 469-590. *)
Definition h_lldp_decode (c : dctx) : HM Z :=
  do r <- hlift (lldp_check (d_buf c) (d_len c));
  match r with
  | None => hlift DAbort
  | Some p =>
      do (t, l, k) <- hlift (GRAB_LLDP_TLV (d_buf c) (mkCur p (szsub (d_len c) p)));
      if negb (t =? LLDP_TYPE_CHASSIS_ID) then hlift DFail
      else if len k <? l then hlift DFail
      else
        do _ <- h_lldp_chassis_id c (pos k) l;
        do k <- hlift (SKIP l k);
        do (t, l, k) <- hlift (GRAB_LLDP_TLV (d_buf c) k);
        if negb (t =? LLDP_TYPE_PORT_ID) then hlift DFail
        else if len k <? l then hlift DFail
        else
          do _ <- h_lldp_port_id c (pos k) l;
          do k <- hlift (SKIP l k);
          do (t, l, k) <- hlift (GRAB_LLDP_TLV (d_buf c) k);
          if negb (t =? LLDP_TYPE_TTL) then hlift DFail
          else if negb (l =? 2) then hlift DFail
          else
            do (ttl, k) <- hlift (GRAB_UINT16 (d_buf c) k);
            do _ <- h_set_ttl ttl;
            do _ <-
              (if d_mode c =? DECODE_PRINT
               then do ht <- h_holdtime c; h_print (bs "Time remaining: " ++ dec ht ++ bs " seconds" ++ [10])
               else hret tt);
            h_lldp_loop (S (Z.to_nat (d_len c))) c t k
  end.
(** protos[p].decode, main.h 24-38. *)
Definition h_decode (p : Z) (c : dctx) : HM Z :=
  if p =? PROTO_LLDP then h_lldp_decode c
  else if p =? PROTO_CDP then h_cdp_decode c
  else if p =? PROTO_EDP then h_edp_decode c
  else if p =? PROTO_FDP then h_fdp_decode c
  else if p =? PROTO_NDP then h_ndp_decode c
  else if p =? PROTO_CDP1 then h_cdp_decode c
  else hlift DUB.

(** ** The child *)
(** peer_free, common.h 268-277: the allocations in the slots are freed. *)
Fixpoint h_peer_free (strs : list (option Z)) (h : heap) : dres heap :=
  match strs with
  | [] => DOk h
  | None :: l => h_peer_free l h
  | Some a :: l => let* h := free a h in h_peer_free l h
  end.
(** An entry of mqueue: its allocation, its fields and the allocations in peer[]. *)
Record hentry := mkHe { he_ptr : Z; he_entry : entry; he_strs : list (option Z) }.
(** The state of [child] with these entries, the allocation of each session, and the
    heap. *)
Record hchild := mkHc {
  hc_nfs : list netif;
  hc_queue : list hentry;
  hc_sess : list (session * Z);
  hc_next : Z;
  hc_heap : heap
}.
(** Without allocations.  Helper without a counterpart in the C code. *)
Definition plain (c : hchild) : child :=
  mkChild (hc_nfs c) (map he_entry (hc_queue c)) (map fst (hc_sess c)) (hc_next c).
(** TAILQ_INSERT_AFTER, child.c 376. *)
Fixpoint h_insert_after (i : Z) (new : hentry) (q : list hentry) : list hentry :=
  match q with
  | [] => []
  | e :: q' => if q_id (he_entry e) =? i then e :: new :: q' else e :: h_insert_after i new q'
  end.
(** peer_free(msg->peer) of the entry replaced, child.c 366. *)
Fixpoint h_free_strs (i : Z) (q : list hentry) (h : heap) : dres heap :=
  match q with
  | [] => DOk h
  | e :: q' => if q_id (he_entry e) =? i then h_peer_free (he_strs e) h else h_free_strs i q' h
  end.
(** child.c 345-384: the strings of an entry replaced are freed, a new entry is
    allocated. *)
Definition h_queue_put (new : entry) (strs : list (option Z)) (q : list hentry) (fresh : Z) (h : heap)
  : dres (list hentry * Z * heap) :=
  match queue_find (q_index new) (q_proto new) (slice (q_msg new) 0 12) (map he_entry q) None with
  | (Some i, _) =>
      let* h := h_free_strs i q h in
      DOk (map (fun e => if q_id (he_entry e) =? i then mkHe (he_ptr e) (with_id i new) strs else e) q, fresh, h)
  | (None, Some i) =>
      let '(a, h) := malloc h in
      DOk (h_insert_after i (mkHe a (with_id fresh new) strs) q, fresh + 1, h)
  | (None, None) =>
      let '(a, h) := malloc h in
      DOk (q ++ [mkHe a (with_id fresh new) strs], fresh + 1, h)
  end.
(** The removal loop, child.c 421-439. *)
Fixpoint h_expire_loop (now : Z) (q : list hentry) (nfs : list netif) (h : heap)
  : dres (list hentry * list netif * heap) :=
  match q with
  | [] => DOk ([], nfs, h)
  | e :: q' =>
      if keeps now (he_entry e) then
        let* (r, nfs', h) := h_expire_loop now q' nfs h in DOk (e :: r, nfs', h)
      else
        let nfs := nf_assign (set_update 1) (q_index (he_entry e)) nfs in
        let* h := h_peer_free (he_strs e) h in
        let* h := free (he_ptr e) h in
        h_expire_loop now q' nfs h
  end.
(** child_expire, child.c 411-462. *)
Definition h_child_expire (opts now : Z) (c : hchild) : dres (hchild * list ceff) :=
  if now =? -1 then DOk (c, [])
  else
    let* (q, nfs, h) := h_expire_loop now (hc_queue c) (hc_nfs c) (hc_heap c) in
    let '(nfs', eff) := update_loop opts (map he_entry q) nfs in
    DOk (mkHc nfs' q (hc_sess c) (hc_next c) h, eff).
(** child_queue, child.c 298-409; netif_descr (394) leaves the heap as it was, see
    [h_netif_descr]. *)
Definition h_child_queue (opts : Z) (c : hchild) (dgram : list Z) (now now2 : Z) : dres (hchild * list ceff) :=
  let len := Z.min (zlen dgram) PARENT_MSG_MAX in
  let m := msg_mem dgram in
  if negb (msg_size_ok len m) then DOk (c, [])
  else if now =? -1 then DOk (c, [])
  else if negb (pm_proto m <? PROTO_MAX) then DAbort
  else if negb (pm_len m <=? ETHER_MAX_LEN) then DAbort
  else match netif_byindex (hc_nfs c) (pm_index m) with
  | None => DOk (c, [])
  | Some sub =>
      match netif_byaddr (hc_nfs c) (slice (pm_msg m) 6 6) with
      | Some _ => DOk (c, [])
      | None =>
          let ctx := mkCtx (pm_msg m) (pm_len m) DECODE_STR (nf_name sub) (pm_received m) now in
          let set_heap h := mkHc (hc_nfs c) (hc_queue c) (hc_sess c) (hc_next c) h in
          let free_peers s :=
            let* h := h_peer_free (map (option_map fst) (h_peer s)) (h_heap s) in
            DOk (set_heap h, []) in
          match h_decode (pm_proto m) ctx (mkHst (repeat None 8) 0 (pm_proto m) [] (hc_heap c)) with
          | (DFail, s) => free_peers s
          | (DAbort, _) => DAbort
          | (DUB, _) => DUB
          | (DLoop, _) => DLoop
          | (DOk n, s) =>
              if n =? 0 then free_peers s
              else
                let received := if h_ttl s =? 0 then pm_received m else now in
                let new := mkEnt 0 (pm_index m) (nf_name sub) (h_proto s) received (pm_len m)
                             (pm_msg m) (h_ttl s) (map (option_map snd) (h_peer s)) 0 in
                let* (q, fresh, h) :=
                  h_queue_put new (map (option_map fst) (h_peer s)) (hc_queue c) (hc_next c) (h_heap s) in
                let c1 := mkHc (hc_nfs c) q (hc_sess c) fresh h in
                if h_ttl s =? 0 then h_child_expire opts now2 c1
                else
                  let eff := if has opts OPT_IFDESCR then descr_eff opts sub (map he_entry q) else [] in
                  let top := top_of (hc_nfs c) sub in
                  if negb (has opts OPT_AUTO) || has (nf_protos top) (Z.shiftl 1 (h_proto s))
                  then DOk (c1, eff)
                  else if has opts OPT_ARGV && (nf_argv sub =? 0) && (nf_argv top =? 0)
                  then DOk (c1, eff)
                  else
                    DOk (mkHc
                      (nf_assign (set_protos (Z.lor (nf_protos top) (Z.shiftl 1 (h_proto s)) mod 256))
                         (nf_index top) (hc_nfs c)) q (hc_sess c) fresh h, eff)
          end
      end
  end.
(** child_cli_accept, child.c 475-494. *)
Definition h_cli_accept (c : hchild) (sid : Z) : hchild :=
  let '(a, h) := malloc (hc_heap c) in
  mkHc (hc_nfs c) (hc_queue c) (hc_sess c ++ [(mkSess sid None, a)]) (hc_next c) h.
(** msg->lock++ and msg->lock--, child.c 507, 521. *)
Definition h_add_lock (i d : Z) (q : list hentry) : list hentry :=
  map (fun e => mkHe (he_ptr e) (hd (he_entry e) (add_lock i d [he_entry e])) (he_strs e)) q.
(** The cleanup, child.c 526-529: the session is freed. *)
Definition h_end_sess (sid a : Z) (q : list hentry) (c : hchild) (eff : list ceff) : dres (hchild * list ceff) :=
  let* h := free a (hc_heap c) in
  DOk (mkHc (hc_nfs c) q (filter (fun s => negb (ss_id (fst s) =? sid)) (hc_sess c)) (hc_next c) h, eff).
(** child_cli_write, child.c 496-530. *)
Definition h_cli_write (c : hchild) (sid : Z) (timeout : bool) (ws : list wres) : dres (hchild * list ceff) :=
  match find (fun s => ss_id (fst s) =? sid) (hc_sess c) with
  | None => DOk (c, [])
  | Some (s, a) =>
      if timeout then h_end_sess sid a (hc_queue c) c []
      else
        let start :=
          match ss_msg s with
          | None => DOk (hc_queue c, map he_entry (hc_queue c))
          | Some i =>
              let q1 := h_add_lock i (-1) (hc_queue c) in
              match queue_from i (map he_entry q1) with
              | None => DUB
              | Some l => DOk (q1, l)
              end
          end in
        let* (q1, l) := start in
        let '(eff, r) := write_loop sid l ws in
        match r with
        | Some i =>
            DOk (mkHc (hc_nfs c) (h_add_lock i 1 q1)
                   (map (fun s => if ss_id (fst s) =? sid then (mkSess sid (Some i), snd s) else s) (hc_sess c))
                   (hc_next c) (hc_heap c), eff)
        | None => h_end_sess sid a q1 c eff
        end
  end.
(** One event of the loop, child.c 124-157. *)
Definition h_step (opts : Z) (c : hchild) (e : cevent) : dres (hchild * list ceff) :=
  match e with
  | CRecv d now now2 => h_child_queue opts c d now now2
  | CTick now => h_child_expire opts now c
  | CFetch nfs => DOk (mkHc nfs (hc_queue c) (hc_sess c) (hc_next c) (hc_heap c), [])
  | CAccept sid =>
      if existsb (fun s => ss_id (fst s) =? sid) (hc_sess c) then DOk (c, [])
      else DOk (h_cli_accept c sid, [])
  | CReady sid ws => h_cli_write c sid false ws
  | CTimeout sid => h_cli_write c sid true []
  end.
(** The state at child.c 67-68; other allocations are not considered. *)
Definition h_start : hchild := mkHc [] [] [] 0 (mkHeap [] 0).
(** A history, child.c 157. *)
Fixpoint h_run (opts : Z) (c : hchild) (es : list cevent) : dres (hchild * list ceff) :=
  match es with
  | [] => DOk (c, [])
  | e :: es' =>
      let* (c1, eff1) := h_step opts c e in
      let* (c2, eff2) := h_run opts c1 es' in
      DOk (c2, eff1 ++ eff2)
  end.
(** my_strdup if there is something to copy, util.c 390-397.  Helper of the next
    definition. *)
Definition h_dup (s : option (list Z)) (h : heap) : option Z * heap :=
  match s with
  | Some _ => let '(a, h) := malloc h in (Some a, h)
  | None => (None, h)
  end.
(** netif_descr, util.c 374-440: the copies of host name and port are freed, and so is
    the request. *)
Definition h_netif_descr (opts : Z) (n : netif) (q : list entry) (h : heap) : dres (option (list Z) * heap) :=
  let d := descr_scan opts (nf_index n) q in
  let '(peer, h) := h_dup (ds_peer d) h in
  let '(suffix, h) := h_dup (ds_suffix d) h in
  let* h := h_peer_free [peer; suffix] h in
  if beq (descr_text d) (nf_description n) then DOk (None, h)
  else
    let '(a, h) := malloc h in
    let* h := free a h in
    DOk (Some (descr_text d), h).
(** The loop of child_free, child.c 467-471: every entry is taken out and freed. *)
Fixpoint h_child_free (q : list hentry) (h : heap) : dres heap :=
  match q with
  | [] => DOk h
  | e :: q' =>
      let* h := h_peer_free (he_strs e) h in
      let* h := free (he_ptr e) h in
      h_child_free q' h
  end.
