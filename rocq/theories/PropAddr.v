(** Addresses can be read back: C90. *)
From Verif Require Import Base Types Tlv Spec SpecAddr AddrProofs.

(** C90.  The text made of an address that stands in a frame denotes exactly this
    address: IPv4 as dotted quad, IPv6 as RFC 4291 and 5952 have it, Ethernet as six
    pairs of hexadecimal digits; other kinds and sizes give no text. *)
Theorem C90_text_of_address type buf pre a post : buf = pre ++ a ++ post -> bytes a ->
  match tlv_str_addr type buf (zlen pre) (zlen a) with
  | DOk (Some t) => exists s, In (type, s, zlen a) [(4, IPv4, 4); (5, IPv6, 16); (6, Mac, 6)] /\ denotes s t a
  | DOk None => forall s, ~ In (type, s, zlen a) [(4, IPv4, 4); (5, IPv6, 16); (6, Mac, 6)]
  | _ => False
  end.
Proof. exact (str_addr_denotes type buf pre a post). Qed.
Print Assumptions C90_text_of_address.
(** 2001:db8::1:0:0:1, 192.0.2.1 and 00:00:5e:00:53:01 within a frame. *)
Definition a_v6 : list Z := [32; 1; 13; 184; 0; 0; 0; 0; 0; 1; 0; 0; 0; 0; 0; 1].
Example C90_case :
  bytes a_v6
  /\ tlv_str_addr 5 ([1; 2] ++ a_v6 ++ [3]) 2 16 = DOk (Some (bs "2001:db8::1:0:0:1"))
  /\ tlv_str_addr 4 ([1; 2] ++ [192; 0; 2; 1] ++ [3]) 2 4 = DOk (Some (bs "192.0.2.1"))
  /\ tlv_str_addr 6 ([1; 2] ++ [0; 0; 94; 0; 83; 1] ++ [3]) 2 6 = DOk (Some (bs "00:00:5e:00:53:01"))
  /\ tlv_str_addr 4 ([1; 2] ++ [192; 0; 2] ++ [3]) 2 3 = DOk None
  /\ inet_ntop6 (repeat 0 10%nat ++ [255; 255; 192; 0; 2; 1]) = bs "::ffff:192.0.2.1"
  /\ inet_ntop6 (repeat 0 16%nat) = bs "::" /\ inet_ntop6 ([254; 128] ++ repeat 0 14%nat) = bs "fe80::".
Proof. split; [repeat constructor; unfold byte; lia|]. vm_compute. repeat split; reflexivity. Qed.
(** The reader refuses what is no address, or another one. *)
Example C90_others :
  read6 (bs "2001:db8::1::1") = None /\ read6 (bs "1:2:3:4:5:6:7") = None /\ read6 (bs "1:2:3:4:5:6:7:8:9") = None
  /\ read6 (bs "1:2:3:4:5:6:7:08") = None /\ read6 (bs "1:2:3:4:5:6:7:10000") = None /\ read6 (bs "1.2.3.4::") = None
  /\ read6 (bs "::1.2.3.4") = Some [0; 0; 0; 0; 0; 0; 258; 772] /\ read4 (bs "1.2.3") = None /\ read4 (bs "1.2.3.256") = None
  /\ read802 (bs "0:0:5e:0:53:1") = None /\ ~ shortened (bs "2001:db8:0:0:1::1") (words a_v6).
Proof.
  do 10 (split; [vm_compute; reflexivity|]). unfold shortened.
  replace (cut (bs "2001:db8:0:0:1::1")) with (Some (bs "2001:db8:0:0:1", bs "1")) by (vm_compute; reflexivity).
  intros (lw & n & rw & H1 & H2 & Hn & H3 & H4).
  assert (E : lw = [8193; 3512; 0; 0; 1]) by (vm_compute in H1; now injection H1 as <-). 
  assert (E2 : rw = [1]) by (vm_compute in H2; now injection H2 as <-).
  subst lw rw. destruct (H4 [8193; 3512] 2%nat [1; 0; 0; 1] eq_refl) as [_ K].
  assert (n = 2%nat) by (assert (L : length (words a_v6) = 8%nat) by reflexivity; rewrite H3, !app_length, repeat_length in L; cbn in L; lia).
  subst n. specialize (K eq_refl). cbn in K. lia.
Qed.
(** C90 for what the decoders report (C01-C05 and C10-C13): the text of a management
    address of an LLDP or CDP neighbour denotes the address in the frame. *)
Theorem C90_lldp_address af s n text a : mgmt_family af s n text -> bytes a -> zlen a = n -> denotes s (text a) a.
Proof. exact (mgmt_denotes af s n text a). Qed.
Print Assumptions C90_lldp_address.
Theorem C90_cdp_address r s t : addr_means r [(s, t)] -> bytes (snd r) -> denotes s t (snd r).
Proof. exact (addr_means_denotes r s t). Qed.
Print Assumptions C90_cdp_address.
Example C90_reported_case :
  mgmt_family 2 IPv6 16 inet_ntop6 /\ zlen a_v6 = 16 /\ inet_ntop6 a_v6 = bs "2001:db8::1:0:0:1"
  /\ addr_means (1, [204], [192; 0; 2; 1]) [(IPv4, bs "192.0.2.1")].
Proof.
  split; [constructor|]. split; [reflexivity|]. split; [vm_compute; reflexivity|].
  replace (bs "192.0.2.1") with (inet_ntop4 [192; 0; 2; 1]) by (vm_compute; reflexivity). now constructor.
Qed.
