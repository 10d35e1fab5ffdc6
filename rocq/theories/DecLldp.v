(** The LLDP decoder as a function of the frame bytes alone. *)
From Verif Require Import Base Vis Tlv Types Checks Msg Cdp Lldp Spec Lemmas VisProofs EncProofs DecProofs
  DecCheck DecCdp DecCdp2.

(** Reading a TLV header when fewer than two bytes are left: the two bytes are
    copied first, so at the very end of the buffer this is a stray read.
    [n] is the frame length. *)
Definition p_short {A} (n : Z) (r : list Z) : dres A :=
  if n - zlen r + 2 <=? 1518 then DFail else DUB.

Lemma grab_lldp buf p r : view buf p r -> zlen buf = 1518 ->
  GRAB_LLDP_TLV buf (mkCur p (zlen r)) =
  match r with
  | a :: b :: r' => DOk (Z.shiftr (a * 256 + b) 9, Z.land (a * 256 + b) 511, mkCur (p + 2) (zlen r'))
  | _ => p_short (p + zlen r) r
  end.
Proof.
  intros Hv Hl. unfold GRAB_LLDP_TLV, p_short. cbn [pos len].
  destruct r as [|a [|b r]].
  - rewrite zlen_nil. replace (p + 0 - 0 + 2) with (p + 2) by lia.
    unfold rdn. rewrite Hl. pose proof (view_pos _ _ _ Hv).
    replace ((0 <=? p) && (0 <=? 2)) with true by lia. cbn [andb].
    destruct (p + 2 <=? 1518); reflexivity.
  - change (zlen [a]) with 1. replace (p + 1 - 1 + 2) with (p + 2) by lia.
    unfold rdn. rewrite Hl. pose proof (view_pos _ _ _ Hv).
    replace ((0 <=? p) && (0 <=? 2)) with true by lia. cbn [andb].
    destruct (p + 2 <=? 1518); reflexivity.
  - rewrite (rdn_view _ _ _ 2 Hv) by zlia.
    change (firstn (Z.to_nat 2) (a :: b :: r)) with [a; b]. cbn [dbind de16].
    rewrite skipk by lia. replace (2 <=? zlen (a :: b :: r)) with true by zlia. reflexivity.
Qed.

Definition p_chassis (c : dctx) (v : list Z) (s : dst) : dres dst :=
  if (zlen v <=? 1) || (256 <? zlen v) then DFail
  else if negb (d_mode c =? DECODE_PRINT) then DOk s
  else
    match v with
    | sub :: v1 =>
        let* str :=
          (if (sub =? 1) || (sub =? 2) || (sub =? 3) || (sub =? 6) || (sub =? 7)
           then DOk (Some (shown show_safe v1))
           else if sub =? 4 then DOk (addr_text 6 v1)
           else if sub =? 5 then
             match v1 with af :: v2 => DOk (addr_text af v2) | [] => DFail end
           else DOk None) in
        DOk (match str with
             | Some x => print s (bs "Chassis id: " ++ x ++ [10])
             | None => s
             end)
    | [] => DFail
    end.
Lemma chassis_pure c p v s : view (d_buf c) p v -> bytes v ->
  lldp_chassis_id c p (zlen v) s = p_chassis c v s.
Proof.
  intros Hv Hb. unfold lldp_chassis_id, p_chassis.
  destruct (_ || _); [easy|]. destruct (negb _); [easy|]. rewrite (grab8 _ _ _ Hv).
  destruct v as [|sub v]; [easy|]. cbn [dbind pos len]. apply view_cons in Hv.
  apply bytes_cons_inv in Hb as [_ Hb].
  rewrite (tlv_str_copy_view _ _ _ Hv Hb), (grab8 _ _ _ Hv), (tlv_str_addr_view _ _ _ _ Hv). cbn [dbind].
  destruct (_ || _ || _ || _ || _); [easy|]. destruct (sub =? 4); [easy|].
  destruct (sub =? 5); [|easy]. destruct v as [|af v]; [easy|]. cbn [dbind pos len].
  apply view_cons in Hv. now rewrite (tlv_str_addr_view _ _ _ _ Hv).
Qed.

Definition p_port (c : dctx) (v : list Z) (s : dst) : dres dst :=
  if (zlen v <=? 1) || (256 <? zlen v) then DFail
  else
    match v with
    | sub :: v1 =>
        if (sub =? 1) || (sub =? 2) || (sub =? 5) || (sub =? 6) || (sub =? 7) then
          DOk (show_or_store c s (bs "Port id: " ++ shown show_safe v1 ++ [10]) 1 (shown show_safe v1))
        else if (sub =? 3) && (d_mode c =? DECODE_PRINT) then
          match addr_text 6 v1 with
          | Some str => DOk (print s (bs "Port id: " ++ str ++ [10]))
          | None => DUB
          end
        else DOk s
    | [] => DFail
    end.
Lemma port_pure c p v s : view (d_buf c) p v -> bytes v ->
  lldp_port_id c p (zlen v) s = p_port c v s.
Proof.
  intros Hv Hb. unfold lldp_port_id, p_port.
  destruct (_ || _); [easy|]. rewrite (grab8 _ _ _ Hv).
  destruct v as [|sub v]; [easy|]. cbn [dbind pos len]. apply view_cons in Hv.
  apply bytes_cons_inv in Hb as [_ Hb].
  rewrite (tlv_str_copy_view _ _ _ Hv Hb), (tlv_str_addr_view _ _ _ _ Hv). cbn [dbind].
  destruct (_ || _ || _ || _ || _); [easy|]. destruct (sub =? 3); [|easy].
  now destruct (d_mode c =? _).
Qed.

Definition p_lldp_cap (c : dctx) (v : list Z) (s : dst) : dres dst :=
  match v with
  | [a; b; d; e] =>
      let avail := a * 256 + b in
      let cap := d * 256 + e in
      if negb (avail =? Z.lor cap avail) then DFail
      else if has avail 128 && has avail 65407 then DFail
      else
        let s := if d_mode c =? DECODE_PRINT
                 then print s (bs "System Capabilities: " ++ letters (lldp_cap_decode avail) ++ [10])
                 else s in
        let str := letters (lldp_cap_decode cap) in
        DOk (show_or_store c s (bs "Enabled Capabilities: " ++ str ++ [10]) 3 str)
  | _ => DFail
  end.
Definition p_mgmt (c : dctx) (v : list Z) (s : dst) : dres dst :=
  match v with
  | aflen0 :: afnum :: v2 =>
      let aflen := (aflen0 - 1) mod 256 in
      let af := if afnum =? 1 then 4 else if afnum =? 2 then 5 else if afnum =? 6 then 6 else 0 in
      let astr := if afnum =? 1 then bs "IPv4" else if afnum =? 2 then bs "IPv6" else bs "Ethernet" in
      if af =? 0 then DFail
      else if negb (aflen <? zlen v2) then DFail
      else if (d_mode c =? DECODE_STR) &&
              match pget (s_peer s) af with Some _ => true | None => false end
      then DOk s
      else
        match addr_text af (sized aflen v2) with
        | None => DFail
        | Some str =>
            DOk (show_or_store c s
               (bs "Management Address " ++ astr ++ bs ": " ++ str ++ [10]) af str)
        end
  | _ => DFail
  end.
Definition p_private (c : dctx) (v : list Z) (s : dst) : dres dst :=
  match v with
  | o1 :: o2 :: o3 :: v3 =>
      if beq [o1; o2; o3] [0; 128; 194] then
        match v3 with
        | sub :: v4 =>
            if sub =? 1 then
              match v4 with
              | [a; b] => DOk (show_or_store c s (bs "Port VLAN ID: " ++ dec (a * 256 + b) ++ [10]) 7
                                 (dec (a * 256 + b)))
              | _ => DFail
              end
            else DOk s
        | [] => DFail
        end
      else DOk s
  | _ => DFail
  end.
Definition p_lldp_tlv (c : dctx) (t : Z) (v : list Z) (s : dst) : dres dst :=
  if t =? 5 then
    if 255 <? zlen v then DFail
    else
      match pget (s_peer s) 0 with
      | Some _ => DFail
      | None =>
          let str := shown show_safe v in
          let s := if d_mode c =? DECODE_PRINT
                   then print s (bs "System Name: " ++ str ++ [10]) else s in
          DOk (peer_str s 0 str)
      end
  else if t =? 4 then
    let s1 := if d_mode c =? DECODE_STR then peer_str s 2 (shown show_safe v) else s in
    DOk (if d_mode c =? DECODE_PRINT
         then descr_print s1 (bs "Port Description") (shown show_safe v) else s1)
  else if t =? 6 then
    DOk (if d_mode c =? DECODE_PRINT
         then descr_print s (bs "System Description") (shown show_safe v) else s)
  else if t =? 7 then p_lldp_cap c v s
  else if t =? 8 then p_mgmt c v s
  else if t =? 127 then p_private c v s
  else if (8 <? t) && (t <? 127) then DFail
  else DOk s.

Lemma lldp_tlv_pure c t p v s : view (d_buf c) p v -> bytes v ->
  lldp_tlv_dispatch c t p (zlen v) s = p_lldp_tlv c t v s.
Proof.
  intros Hv Hb. unfold lldp_tlv_dispatch, p_lldp_tlv, LLDP_TYPE_SYSTEM_NAME, LLDP_TYPE_PORT_DESCR,
    LLDP_TYPE_SYSTEM_DESCR, LLDP_TYPE_SYSTEM_CAP, LLDP_TYPE_MGMT_ADDR, LLDP_TYPE_PRIVATE.
  unfold lldp_system_name, lldp_descr_print. rewrite (tlv_str_copy_view _ _ _ Hv Hb). cbn [dbind].
  destruct (t =? 5) eqn:E5; [easy|].
  destruct (t =? 4) eqn:E4.
  { destruct (d_mode c =? DECODE_STR), (d_mode c =? DECODE_PRINT); cbn [dbind]; unfold LLDP_TYPE_PORT_DESCR;
      rewrite ?E4; reflexivity. }
  destruct (t =? 6) eqn:E6.
  { destruct (d_mode c =? DECODE_PRINT); [|easy]. unfold LLDP_TYPE_PORT_DESCR. now rewrite E4. }
  destruct (t =? 7) eqn:E7.
  { unfold lldp_system_cap, p_lldp_cap. rewrite (grab16 _ _ _ Hv).
    destruct v as [|a [|b v]]; try reflexivity. cbn [dbind]. apply view_2 in Hv.
    rewrite (grab16 _ _ _ Hv).
    destruct v as [|d [|e [|x v]]]; try reflexivity.
    - change (zlen [a; b; d; e] =? 4) with true. cbn [negb dbind]. rewrite !cap_str_letters. reflexivity.
    - replace (zlen (a :: b :: d :: e :: x :: v) =? 4) with false by zlia. reflexivity. }
  destruct (t =? 8) eqn:E8.
  { unfold lldp_mgmt_addr, p_mgmt. rewrite (grab8 _ _ _ Hv). destruct v as [|a v]; [easy|].
    cbn [dbind]. apply view_cons in Hv. rewrite (grab8 _ _ _ Hv). destruct v as [|n v]; [easy|].
    cbn [dbind pos len]. apply view_cons in Hv.
    unfold LLDP_AFNUM_INET, LLDP_AFNUM_INET6, LLDP_AFNUM_802, PEER_ADDR_INET4, PEER_ADDR_INET6, PEER_ADDR_802.
    cbv zeta. set (af := if n =? 1 then 4 else _). destruct (af =? 0); [easy|].
    set (l := (a - 1) mod 256). destruct (negb (l <? zlen v)) eqn:El; [easy|].
    destruct (_ && _); [easy|].
    assert (Ls : zlen (sized l v) = l) by (apply zlen_sized; unfold l in *; lia).
    rewrite <- Ls at 1. rewrite tlv_str_addr_view by now apply view_firstn. reflexivity. }
  destruct (t =? 127) eqn:E127; [|easy].
  unfold lldp_private, p_private, GRAB_BYTES. rewrite (grabn 3 _ _ _ Hv) by lia.
  destruct v as [|o1 [|o2 [|o3 v]]]; try reflexivity.
  replace (3 <=? zlen (o1 :: o2 :: o3 :: v)) with true by zlia.
  change (firstn (Z.to_nat 3) (o1 :: o2 :: o3 :: v)) with [o1; o2; o3].
  change (skipn (Z.to_nat 3) (o1 :: o2 :: o3 :: v)) with v. cbn [dbind].
  change OUI_8021 with [0; 128; 194]. destruct (beq _ _); [|easy].
  unfold lldp_private_8021.
  assert (Hv3 : view (d_buf c) (p + 3) v) by (apply (view_app_r _ p [o1; o2; o3]) in Hv; exact Hv).
  rewrite (grab8 _ _ _ Hv3). destruct v as [|sub v]; [easy|]. cbn [dbind pos len].
  destruct (sub =? 1); [|easy]. apply view_cons in Hv3. rewrite (grab16 _ _ _ Hv3).
  destruct v as [|a [|b [|x v]]]; try reflexivity.
  replace (zlen (a :: b :: x :: v) =? 2) with false by zlia. reflexivity.
Qed.

(** The TLV list up to the End TLV; [n] is the frame length. *)
Fixpoint p_lldp_loop (fuel : nat) (n : Z) (c : dctx) (r : list Z) (s : dst) : dres (Z * dst) :=
  match fuel with
  | O => DLoop
  | S f =>
      match r with
      | [] => DFail
      | a :: b :: r' =>
          let t := Z.shiftr (a * 256 + b) 9 in
          let l := Z.land (a * 256 + b) 511 in
          if zlen r' <? l then DFail
          else if t =? 0 then (if l =? 0 then DOk (n - zlen r', s) else DFail)
          else
            let* s' := p_lldp_tlv c t (sized l r') s in
            p_lldp_loop f n c (after l r') s'
      | _ => p_short n r
      end
  end.
Lemma lldp_loop_pure fuel : forall c last p r s,
  view (d_buf c) p r -> zlen (d_buf c) = 1518 -> bytes r -> last <> 0 ->
  lldp_loop fuel c last (mkCur p (zlen r)) s = p_lldp_loop fuel (p + zlen r) c r s.
Proof.
  induction fuel as [|fuel IH]; intros c last p r s Hv Hl Hb Hlast; [easy|].
  cbn [lldp_loop p_lldp_loop len pos]. rewrite (grab_lldp _ _ _ Hv Hl).
  destruct r as [|a r].
  { change (zlen (@nil Z) =? 0) with true. cbv iota. now replace (last =? 0) with false by lia. }
  replace (zlen (a :: r) =? 0) with false by zlia.
  destruct r as [|b r].
  { unfold p_short. now destruct (_ <=? _). }
  cbn [dbind len pos]. apply view_2 in Hv.
  do 2 (let H := fresh in apply bytes_cons_inv in Hb as [H Hb]).
  set (w := a * 256 + b). set (t := Z.shiftr w 9). set (l := Z.land w 511).
  assert (Hl0 : 0 <= l) by (apply Z.land_nonneg; lia).
  destruct (zlen r <? l) eqn:E1; [easy|]. unfold LLDP_TYPE_END.
  destruct (t =? 0) eqn:Et.
  { destruct (l =? 0); [|easy]. do 2 f_equal. zlia. }
  assert (Ls : zlen (sized l r) = l) by (apply zlen_sized; lia).
  assert (La : zlen (after l r) = zlen r - l) by (apply zlen_after; lia).
  rewrite <- Ls at 1. rewrite lldp_tlv_pure.
  2: now apply view_firstn.
  2: now apply bytes_firstn.
  destruct (p_lldp_tlv c t (sized l r) s); try reflexivity. cbn [dbind].
  rewrite skipk by lia. replace (l <=? zlen r) with true by lia. cbn [dbind]. fold (after l r).
  rewrite IH; try easy.
  - f_equal. rewrite La. zlia.
  - apply (view_skipn _ _ _ l Hv). lia.
  - now apply bytes_skipn.
  - lia.
Qed.

(** The three mandatory TLVs. *)
Definition p_head (n : Z) (ty : Z) (r : list Z) {A} (k : list Z -> list Z -> dres A) : dres A :=
  match r with
  | a :: b :: r' =>
      let t := Z.shiftr (a * 256 + b) 9 in
      let l := Z.land (a * 256 + b) 511 in
      if negb (t =? ty) then DFail
      else if zlen r' <? l then DFail
      else k (sized l r') (after l r')
  | _ => p_short n r
  end.
Definition p_lldp (n : Z) (c : dctx) (payload : list Z) (s : dst) : dres (Z * dst) :=
  p_head n 1 payload (fun v r =>
  let* s := p_chassis c v s in
  p_head n 2 r (fun v r =>
  let* s := p_port c v s in
  p_head n 3 r (fun v r =>
  match v with
  | [x; y] =>
      let s := set_ttl s (x * 256 + y) in
      let s := if d_mode c =? DECODE_PRINT
               then print s (bs "Time remaining: " ++ dec (holdtime c s) ++ bs " seconds" ++ [10])
               else s in
      p_lldp_loop (S (Z.to_nat n)) n c r s
  | _ => DFail
  end))).

Theorem lldp_decode_pure c f payload s :
  in_buffer c f -> lldp_frame f payload ->
  lldp_decode c s = p_lldp (zlen f) c payload s.
Proof.
  intros Hin Hf. unfold lldp_decode, p_lldp.
  destruct (lldp_check_some _ _ _ Hin Hf) as (p & Hc & Hv & Hp & Hl).
  rewrite Hc. cbn [dbind].
  assert (Hbp : bytes payload).
  { destruct Hin as (tail & _ & _ & _ & _ & Hb).
    destruct Hf; rewrite !bytes_app in Hb; apply Hb. }
  destruct Hin as (tail & Eb & Lb & Ed & Lf & _). rewrite Ed.
  rewrite szsub_le by zlia. replace (zlen f - p) with (zlen payload) by lia.
  clear Hc Hf Eb Ed tail. unfold p_head at 1.
  rewrite (grab_lldp _ _ _ Hv Lb), Hl.
  destruct payload as [|a [|b r]]; [unfold p_short; now destruct (_ <=? _)..|].
  cbn [dbind pos len]. apply view_2 in Hv.
  do 2 (let H := fresh in apply bytes_cons_inv in Hbp as [H Hbp]).
  set (t := Z.shiftr (a * 256 + b) 9). set (l := Z.land (a * 256 + b) 511).
  assert (Hl0 : 0 <= l) by (apply Z.land_nonneg; lia).
  unfold LLDP_TYPE_CHASSIS_ID. destruct (negb (t =? 1)); [easy|].
  destruct (zlen r <? l) eqn:E1; [easy|].
  assert (Ls : zlen (sized l r) = l) by (apply zlen_sized; lia).
  assert (La : zlen (after l r) = zlen r - l) by (apply zlen_after; lia).
  rewrite <- Ls at 1. rewrite chassis_pure.
  2: now apply view_firstn.
  2: now apply bytes_firstn.
  destruct (p_chassis c (sized l r) s) as [s1| | | |]; try reflexivity. cbn [dbind].
  rewrite skipk by lia. replace (l <=? zlen r) with true by lia. cbn [dbind]. fold (after l r).
  apply (view_skipn _ _ _ l) in Hv; [|lia]. fold (after l r) in Hv.
  apply (bytes_skipn (Z.to_nat l)) in Hbp. fold (after l r) in Hbp.
  assert (Hl1 : p + 2 + l + zlen (after l r) = zlen f) by zlia.
  set (p1 := p + 2 + l) in *. set (r1 := after l r) in *.
  clearbody r1 p1. clear Hl Ls La E1 Hl0 t l a b H H0 Hp r.
  unfold p_head at 1. rewrite (grab_lldp _ _ _ Hv Lb), Hl1.
  destruct r1 as [|a [|b r]]; [unfold p_short; now destruct (_ <=? _)..|].
  cbn [dbind pos len]. apply view_2 in Hv.
  do 2 (let H := fresh in apply bytes_cons_inv in Hbp as [H Hbp]).
  set (t := Z.shiftr (a * 256 + b) 9). set (l := Z.land (a * 256 + b) 511).
  assert (Hl0 : 0 <= l) by (apply Z.land_nonneg; lia).
  unfold LLDP_TYPE_PORT_ID. destruct (negb (t =? 2)); [easy|].
  destruct (zlen r <? l) eqn:E1; [easy|].
  assert (Ls : zlen (sized l r) = l) by (apply zlen_sized; lia).
  assert (La : zlen (after l r) = zlen r - l) by (apply zlen_after; lia).
  rewrite <- Ls at 1. rewrite port_pure.
  2: now apply view_firstn.
  2: now apply bytes_firstn.
  destruct (p_port c (sized l r) s1) as [s2| | | |]; try reflexivity. cbn [dbind].
  rewrite skipk by lia. replace (l <=? zlen r) with true by lia. cbn [dbind]. fold (after l r).
  apply (view_skipn _ _ _ l) in Hv; [|lia]. fold (after l r) in Hv.
  apply (bytes_skipn (Z.to_nat l)) in Hbp. fold (after l r) in Hbp.
  assert (Hl2 : p1 + 2 + l + zlen (after l r) = zlen f) by zlia.
  set (p2 := p1 + 2 + l) in *. set (r2 := after l r) in *.
  clearbody r2 p2. clear Hl1 Ls La E1 Hl0 t l a b H H0 r p1 s s1.
  unfold p_head at 1. rewrite (grab_lldp _ _ _ Hv Lb), Hl2.
  destruct r2 as [|a [|b r]]; [unfold p_short; now destruct (_ <=? _)..|].
  cbn [dbind pos len]. apply view_2 in Hv.
  do 2 (let H := fresh in apply bytes_cons_inv in Hbp as [H Hbp]).
  set (t := Z.shiftr (a * 256 + b) 9). set (l := Z.land (a * 256 + b) 511).
  assert (Hl0 : 0 <= l) by (apply Z.land_nonneg; lia).
  unfold LLDP_TYPE_TTL. destruct (t =? 3) eqn:Et; [|easy]. cbn [negb].
  rewrite (grab16 _ _ _ Hv).
  destruct (zlen r <? l) eqn:E1.
  { destruct (l =? 2) eqn:E2; [|easy]. cbn [negb]. destruct r as [|x [|y r]]; try reflexivity.
    exfalso. zlia. }
  assert (Ls : zlen (sized l r) = l) by (apply zlen_sized; lia).
  destruct (l =? 2) eqn:E2; cbn [negb].
  2:{ destruct (sized l r) as [|x [|y [|z v]]]; try reflexivity. exfalso. zl. lia. }
  apply Z.eqb_eq in E2. rewrite E2 in *.
  destruct r as [|x [|y r]]; [exfalso; zlia..|].
  change (sized 2 (x :: y :: r)) with [x; y]. change (after 2 (x :: y :: r)) with r. cbn [dbind].
  apply view_2 in Hv. do 2 (let H := fresh in apply bytes_cons_inv in Hbp as [H Hbp]).
  rewrite lldp_loop_pure; try easy; [|lia].
  replace (p2 + 2 + 2 + zlen r) with (zlen f) by zlia. reflexivity.
Qed.
