(** The CDP decoder as a function of the frame bytes alone. *)
From Verif Require Import Base Vis Tlv Types Checks Msg Cdp Spec Lemmas VisProofs EncProofs DecProofs DecCheck.

Definition lift {A} (x : option A) : dres A := match x with Some a => DOk a | None => DFail end.
Definition sized {A} (l : Z) (r : list A) : list A := firstn (Z.to_nat l) r.
Definition after {A} (l : Z) (r : list A) : list A := skipn (Z.to_nat l) r.

Lemma lift_bind A B (x : option A) (g : A -> dres B) h :
  (forall a, x = Some a -> g a = lift (h a)) -> dbind (lift x) g = lift (obind x h).
Proof. destruct x; cbn; auto. Qed.

(** Address records, given the rest of the TLV. *)
Definition p_af (pt : Z) (proto : list Z) : Z :=
  if (pt =? 1) && beq proto [204] then 4
  else if (pt =? 2) && beq proto [170; 170; 3; 0; 0; 0; 134; 221] then 5 else 0.
Definition p_addr_line (af : Z) (str : list Z) : list Z :=
  bs "  IP" ++ (if af =? PEER_ADDR_INET6 then bs "v6" else []) ++ bs " address: " ++ str ++ [10].
Fixpoint p_addr_loop (fuel : nat) (c : dctx) (count : Z) (r : list Z) (s : dst) : option dst :=
  match fuel with
  | O => None
  | S f =>
      match r with
      | pt :: pl :: r1 =>
          if zlen r1 <? pl + 2 then None
          else
            match after pl r1 with
            | l1 :: l2 :: r2 =>
                let al := l1 * 256 + l2 in
                if zlen r2 <? al then None
                else
                  let af := p_af pt (sized pl r1) in
                  let? s' :=
                    (if af =? 0 then Some s
                     else let? str := addr_text af (sized al r2) in
                          Some (show_or_store c s (p_addr_line af str) af str)) in
                  let count := (count - 1) mod 4294967296 in
                  if negb (zlen (after al r2) =? 0) && (0 <? count)
                  then p_addr_loop f c count (after al r2) s' else Some s'
            | _ => None
            end
      | _ => None
      end
  end.

Lemma bytes_cons_inv b l : bytes (b :: l) -> 0 <= b < 256 /\ bytes l.
Proof. intros H. inversion H; subst. now split. Qed.
Lemma zlen_after A l (r : list A) : 0 <= l <= zlen r -> zlen (after l r) = zlen r - l.
Proof. apply zlen_skipn. Qed.
Lemma zlen_sized A l (r : list A) : 0 <= l <= zlen r -> zlen (sized l r) = l.
Proof. apply zlen_firstn. Qed.
Lemma beq_len a b : zlen a <> zlen b -> beq a b = false.
Proof. intros H. apply beq_false. congruence. Qed.

Lemma addr_loop_pure fuel : forall c count p r s,
  view (d_buf c) p r -> bytes r -> (length r < fuel)%nat ->
  cdp_addr_loop fuel c count (mkCur p (zlen r)) s = lift (p_addr_loop fuel c count r s).
Proof.
  induction fuel as [|fuel IH]; intros c count p r s Hv Hb Hf; [lia|].
  cbn [cdp_addr_loop p_addr_loop]. rewrite (grab8 _ _ _ Hv).
  destruct r as [|pt r]; [easy|]. cbn [dbind]. apply view_cons in Hv.
  rewrite (grab8 _ _ _ Hv). destruct r as [|pl r]; [easy|]. cbn [dbind len pos].
  apply view_cons in Hv. apply bytes_cons_inv in Hb as [Hpt Hb]. apply bytes_cons_inv in Hb as [Hpl Hb].
  destruct (zlen r <? pl + 2) eqn:E1; [easy|].
  set (q := p + 1 + 1) in *.
  (* protocol id *)
  assert (Haf : (if (pt =? PT_IPV4) && (pl =? 1)
             then dbind (rdn (d_buf c) q pl) (fun b => DOk (if beq b PROTO_BYTES_IPV4 then PEER_ADDR_INET4 else 0))
             else if (pt =? PT_IPV6) && (pl =? 8)
             then dbind (rdn (d_buf c) q pl) (fun b => DOk (if beq b PROTO_BYTES_IPV6 then PEER_ADDR_INET6 else 0))
             else DOk 0) = DOk (p_af pt (sized pl r))).
  { assert (Ls : zlen (sized pl r) = pl) by (apply zlen_sized; lia).
    rewrite (rdn_view _ _ _ pl Hv) by lia. cbn [dbind].
    unfold p_af, PT_IPV4, PT_IPV6, PROTO_BYTES_IPV4, PROTO_BYTES_IPV6, PEER_ADDR_INET4, PEER_ADDR_INET6.
    fold (sized pl r).
    destruct (pt =? 1) eqn:P1; cbn [andb].
    - replace (pt =? 2) with false by lia. cbn [andb].
      destruct (pl =? 1) eqn:P2; [now destruct (beq _ _)|].
      rewrite beq_len; [easy|]. rewrite Ls. change (zlen [204]) with 1. lia.
    - destruct (pt =? 2) eqn:P3; cbn [andb]; [|easy].
      destruct (pl =? 8) eqn:P2; [now destruct (beq _ _)|].
      rewrite beq_len; [easy|]. rewrite Ls. change (zlen [170; 170; 3; 0; 0; 0; 134; 221]) with 8. lia. }
  rewrite Haf. cbn [dbind]. clear Haf.
  rewrite skipk by lia. replace (pl <=? zlen r) with true by lia. cbn [dbind].
  pose proof (view_skipn _ _ _ pl Hv ltac:(lia)) as Hv2. rewrite (grab16 _ _ _ Hv2).
  fold (after pl r) in *. 
  assert (La : zlen (after pl r) = zlen r - pl) by (apply zlen_after; lia).
  assert (Hba : bytes (after pl r)) by now apply bytes_skipn.
  assert (Hfa : (length (after pl r) <= length r)%nat) by (unfold after; rewrite skipn_length; lia).
  destruct (after pl r) as [|l1 [|l2 r2]] eqn:Ea.
  1-2: exfalso; zlia.
  cbn [dbind len pos]. apply view_2 in Hv2.
  apply bytes_cons_inv in Hba as [Hl1 Hba]. apply bytes_cons_inv in Hba as [Hl2 Hba].
  set (al := l1 * 256 + l2) in *. assert (Hal : 0 <= al) by lia.
  destruct (zlen r2 <? al) eqn:E2; [easy|].
  assert (Hs : forall af, dbind (tlv_str_addr af (d_buf c) (q + pl + 2) al)
       (fun r0 => match r0 with
        | Some str => DOk (show_or_store c s (bs "  IP" ++ (if af =? PEER_ADDR_INET6 then bs "v6" else []) ++
                           bs " address: " ++ str ++ [10]) af str)
        | None => DFail end) =
     lift (obind (addr_text af (sized al r2)) (fun str => Some (show_or_store c s (p_addr_line af str) af str)))).
  { intros af. assert (Ls : zlen (sized al r2) = al) by (apply zlen_sized; lia).
    rewrite <- Ls at 1. rewrite tlv_str_addr_view by now apply view_firstn.
    cbn [dbind]. now destruct (addr_text _ _). }
  rewrite Hs. clear Hs.
  set (af := p_af pt (sized pl r)).
  replace (if af =? 0 then DOk s else lift (obind (addr_text af (sized al r2))
     (fun str => Some (show_or_store c s (p_addr_line af str) af str))))
   with (lift (if af =? 0 then Some s else obind (addr_text af (sized al r2))
     (fun str => Some (show_or_store c s (p_addr_line af str) af str)))) by now destruct (af =? 0).
  apply lift_bind. intros s' _.
  rewrite skipk by lia. replace (al <=? zlen r2) with true by lia. cbn [dbind len].
  fold (after al r2). destruct (_ && _); [|easy].
  apply IH.
  - now apply (view_skipn _ _ _ al Hv2); lia.
  - now apply bytes_skipn.
  - unfold after. rewrite skipn_length. cbn [length] in *. lia.
Qed.

(** One TLV. *)
Definition p_cdp_tlv (c : dctx) (t : Z) (v : list Z) (s : dst) : option dst :=
  if (t =? 1) || (t =? 20) then
    Some (show_or_store c s ((if t =? 1 then bs "Device ID" else bs "System Name")
            ++ bs ": " ++ shown show_safe v ++ [10]) 0 (shown show_safe v))
  else if t =? 3 then
    Some (show_or_store c s (bs "Interface: " ++ d_name c ++ bs ", Port ID (outgoing port): "
            ++ shown show_safe v ++ [10]) 1 (shown show_safe v))
  else if t =? 4 then
    match v with
    | [a; b; d; e] =>
        let str := letters (cdp_cap_decode (((a * 256 + b) * 256 + d) * 256 + e)) in
        Some (show_or_store c s (bs "Capabilities: " ++ str ++ [10]) 3 str)
    | _ => None
    end
  else if (t =? 2) || (t =? 22) then
    match v with
    | a :: b :: d :: e :: r =>
        p_addr_loop (S (length v)) c (((a * 256 + b) * 256 + d) * 256 + e) r
          (if d_mode c =? DECODE_PRINT
           then print s ((if t =? 22 then bs "Management" else bs "Entry")
                    ++ bs " address(es):" ++ [10])
           else s)
    | _ => None
    end
  else if (t =? 5) || (t =? 6) then
    Some (if d_mode c =? DECODE_PRINT
          then descr_print s (if t =? 5 then bs "Version" else if t =? 6 then bs "Platform" else bs "Unknown") (shown show_safe v)
          else s)
  else if t =? 9 then
    Some (if d_mode c =? DECODE_PRINT
          then print s (bs "VTP Management Domain: '" ++ shown show_safe v ++ bs "'" ++ [10]) else s)
  else if t =? 10 then
    match v with
    | [a; b] =>
        Some (show_or_store c s (bs "Native VLAN: " ++ dec (a * 256 + b) ++ [10]) 7 (dec (a * 256 + b)))
    | _ => None
    end
  else if t =? 11 then
    if d_mode c =? DECODE_PRINT then
      match v with
      | [d] => Some (print s (bs "Duplex: " ++ (if d =? 0 then bs "half" else bs "full") ++ [10]))
      | _ => None
      end
    else Some s
  else Some s.

Lemma cdp_tlv_pure c t p v s :
  view (d_buf c) p v -> bytes v ->
  cdp_tlv_dispatch c t p (zlen v) s = lift (p_cdp_tlv c t v s).
Proof.
  intros Hv Hb. unfold cdp_tlv_dispatch, p_cdp_tlv, CDP_TYPE_DEVICE_ID, CDP_TYPE_SYSTEM_NAME,
    CDP_TYPE_PORT_ID, CDP_TYPE_CAPABILITIES, CDP_TYPE_ADDRESS, CDP_TYPE_MGMT_ADDRESS,
    CDP_TYPE_IOS_VERSION, CDP_TYPE_PLATFORM, CDP_TYPE_VTP_MGMT_DOMAIN, CDP_TYPE_NATIVE_VLAN,
    CDP_TYPE_DUPLEX.
  destruct ((t =? 1) || (t =? 20)).
  { unfold cdp_system_name. now rewrite (tlv_str_copy_view _ _ _ Hv Hb). }
  destruct (t =? 3).
  { unfold cdp_port_id. now rewrite (tlv_str_copy_view _ _ _ Hv Hb). }
  destruct (t =? 4).
  { unfold cdp_system_cap. rewrite (grab32 _ _ _ Hv).
    destruct v as [|a [|b [|d [|e [|x v]]]]]; try reflexivity.
    - cbn [dbind]. change (zlen [a; b; d; e]) with 4. cbn [Z.eqb Pos.eqb negb].
      cbv zeta. now rewrite cap_str_letters.
    - replace (zlen (a :: b :: d :: e :: x :: v) =? 4) with false by zlia. reflexivity. }
  destruct ((t =? 2) || (t =? 22)).
  { unfold cdp_addr. rewrite (grab32 _ _ _ Hv).
    destruct v as [|a [|b [|d [|e v]]]]; try reflexivity. cbn [dbind].
    rewrite to_nat_zlen. apply addr_loop_pure.
    - now apply view_4 in Hv.
    - now do 4 apply bytes_cons_inv in Hb as [_ Hb].
    - cbn [length]. lia. }
  destruct ((t =? 5) || (t =? 6)).
  { unfold cdp_descr_print. rewrite (tlv_str_copy_view _ _ _ Hv Hb). now destruct (d_mode c =? _). }
  destruct (t =? 9).
  { unfold cdp_vtp_print. rewrite (tlv_str_copy_view _ _ _ Hv Hb). now destruct (d_mode c =? _). }
  destruct (t =? 10).
  { unfold cdp_vlan. rewrite (grab16 _ _ _ Hv).
    destruct v as [|a [|b [|x v]]]; try reflexivity.
    replace (zlen (a :: b :: x :: v) =? 2) with false by zlia. reflexivity. }
  destruct (t =? 11); [|easy].
  unfold cdp_duplex_print. rewrite (grab8 _ _ _ Hv).
  destruct (d_mode c =? _); [|easy]. destruct v as [|a [|x v]]; try reflexivity.
  replace (zlen (a :: x :: v) =? 1) with false by zlia. reflexivity.
Qed.

Fixpoint p_cdp_loop (fuel : nat) (c : dctx) (r : list Z) (s : dst) : option dst :=
  match fuel with
  | O => None
  | S f =>
      match r with
      | [] => Some s
      | t1 :: t2 :: l1 :: l2 :: r' =>
          let l := (l1 * 256 + l2 - 4) mod 65536 in
          if zlen r' <? l then None
          else let? s' := p_cdp_tlv c (t1 * 256 + t2) (sized l r') s in
               p_cdp_loop f c (after l r') s'
      | _ => None
      end
  end.

Lemma cdp_loop_pure fuel : forall c p r s,
  view (d_buf c) p r -> bytes r -> (length r < fuel)%nat ->
  cdp_loop fuel c (mkCur p (zlen r)) s =
  lift (let? s' := p_cdp_loop fuel c r s in Some (p + zlen r, s')).
Proof.
  induction fuel as [|fuel IH]; intros c p r s Hv Hb Hf; [lia|].
  cbn [cdp_loop p_cdp_loop len pos]. rewrite (grab_cdp _ _ _ Hv).
  destruct r as [|t1 r].
  { cbn [obind lift]. rewrite zlen_nil, Z.add_0_r. reflexivity. }
  replace (zlen (t1 :: r) =? 0) with false by zlia.
  destruct r as [|t2 [|l1 [|l2 r]]]; try reflexivity. cbn [dbind len pos].
  apply view_4 in Hv. do 4 (let H := fresh in apply bytes_cons_inv in Hb as [H Hb]).
  set (l := (l1 * 256 + l2 - 4) mod 65536). assert (Hl : 0 <= l) by lia.
  destruct (zlen r <? l) eqn:E1; [easy|].
  assert (Ls : zlen (sized l r) = l) by (apply zlen_sized; lia).
  rewrite <- Ls at 1. rewrite cdp_tlv_pure.
  2: now apply view_firstn.
  2: now apply bytes_firstn.
  rewrite skipk by lia. replace (l <=? zlen r) with true by lia.
  destruct (p_cdp_tlv c (t1 * 256 + t2) (sized l r) s) as [s'|]; [|easy]. cbn [lift dbind obind].
  fold (after l r). rewrite IH.
  - assert (La : zlen (after l r) = zlen r - l) by (apply zlen_after; lia).
    destruct (p_cdp_loop fuel c (after l r) s') as [s2|]; [|easy]. cbn [lift obind]. do 2 f_equal.
    rewrite La. zlia.
  - apply (view_skipn _ _ _ l Hv). lia.
  - now apply bytes_skipn.
  - unfold after. rewrite skipn_length. cbn [length] in *. lia.
Qed.

(** The whole payload. *)
Definition p_cdp_header (c : dctx) (version ttl : Z) (s : dst) : dst :=
  let s := set_ttl (set_proto s (if version =? 1 then 5 else 1)) ttl in
  if d_mode c =? DECODE_PRINT
  then print s (bs "CDP Version: " ++ dec version ++ [10] ++
                         bs "Holdtime: " ++ dec (holdtime c s) ++ [10])
  else s.
Definition p_cdp (c : dctx) (payload : list Z) (s : dst) : option dst :=
  match payload with
  | version :: ttl :: _ :: _ :: r =>
      if (version <? 1) || (2 <? version) then None
      else p_cdp_loop (S (length r)) c r (p_cdp_header c version ttl s)
  | _ => None
  end.

Lemma p_cdp_loop_fuel c : forall f1 f2 r s, (length r < f1)%nat -> (length r < f2)%nat ->
  p_cdp_loop f1 c r s = p_cdp_loop f2 c r s.
Proof.
  induction f1 as [|f1 IH]; intros [|f2] r s H1 H2; try lia. cbn [p_cdp_loop].
  destruct r as [|t1 [|t2 [|l1 [|l2 r]]]]; try reflexivity.
  destruct (zlen r <? _); [easy|]. destruct (p_cdp_tlv _ _ _ _); [|easy]. cbn [obind].
  apply IH; unfold after; rewrite skipn_length; cbn [length] in *; lia.
Qed.

Lemma view_le buf p r : view buf p r -> p + zlen r <= zlen buf.
Proof. intros (a & b & -> & <-). zlia. Qed.

Lemma szsub_le a b : 0 <= b <= a -> a < 18446744073709551616 -> szsub a b = a - b.
Proof. intros. unfold szsub. apply Z.mod_small. lia. Qed.

Theorem cdp_decode_pure c f payload s :
  in_buffer c f -> cdp_frame f payload ->
  cdp_decode c s = lift (let? s' := p_cdp c payload s in Some (zlen f, s')).
Proof.
  intros Hin Hf. unfold cdp_decode, cdp_check.
  destruct (llc_check_some [1; 0; 12; 204; 204; 204] [0; 0; 12] 8192 _ _ _ Hin eq_refl eq_refl Hf) as (p & Hc & Hv & Hp & Hl).
  change (llc_check CDP_MULTICAST_ADDR LLC_ORG_CISCO LLC_PID_CDP) with
    (llc_check [1; 0; 12; 204; 204; 204] [0; 0; 12] 8192).
  rewrite Hc. cbn [dbind].
  assert (Hbp : bytes payload).
  { destruct Hin as (tail & _ & _ & _ & _ & Hb).
    destruct Hf; rewrite !bytes_app in Hb; apply Hb. }
  destruct Hin as (tail & Eb & Lb & Ed & Lf & _). rewrite Ed.
  rewrite szsub_le by zlia. replace (zlen f - p) with (zlen payload) by lia.
  unfold cdp_header_check, p_cdp.
  destruct payload as [|v [|ttl [|x [|y r]]]]; try reflexivity.
  replace (zlen (v :: ttl :: x :: y :: r) <? 4) with false by zlia.
  rewrite (rdn_view _ _ _ 4 Hv) by zlia.
  change (firstn (Z.to_nat 4) (v :: ttl :: x :: y :: r)) with [v; ttl; x; y]. cbn [dbind nth].
  destruct (_ || _); [easy|]. cbn [dbind]. apply view_4 in Hv.
  rewrite szsub_le by zlia. replace (zlen (v :: ttl :: x :: y :: r) - 4) with (zlen r) by zlia.
  do 4 (let H := fresh in apply bytes_cons_inv in Hbp as [H Hbp]).
  rewrite cdp_loop_pure; try easy.
  2:{ zl. unfold zlen in *. lia. }
  rewrite (p_cdp_loop_fuel c (S (Z.to_nat (zlen f))) (S (length r))).
  2:{ zl. unfold zlen in *. lia. }
  2: lia.
  unfold p_cdp_header, PROTO_CDP1, PROTO_CDP. cbv zeta.
  destruct (p_cdp_loop _ _ _ _); [|easy]. cbn [obind lift]. do 2 f_equal. zlia.
Qed.
