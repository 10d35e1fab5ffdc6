(** What an interface table has to hold besides the interfaces themselves:
    addresses, capabilities, the management interface, and the interfaces named on
    the command line.  Vocabulary of C66 to C70. *)
From Verif Require Import Base Types Tlv Util Netif Spec SpecAdv SpecNetif.

(** ** Names *)
(** Names have at most 15 characters, and names and indices of the datalink
    entries identify each other. *)
Definition link_of (ia : ifaddr) : option (Z * list Z) :=
  match ia_addr ia with Some (SALink _ i _) => Some (i, ia_name ia) | _ => None end.
Definition names_apart (ias : list ifaddr) : Prop :=
  (forall ia, In ia ias -> zlen (ia_name ia) <= 15)
  /\ forall x y i j a b, In x ias -> In y ias -> link_of x = Some (i, a) -> link_of y = Some (j, b) ->
       (i = j <-> a = b).

(** ** Addresses *)
Definition same (a b : list Z) : bool := if list_eq_dec Z.eq_dec a b then true else false.
(** What is reported under a name, in order. *)
Definition hw_of (ias : list ifaddr) (x : list Z) : list (list Z) :=
  flat_map (fun ia => match ia_addr ia with
                      | Some (SALink _ _ a) => if same (ia_name ia) x then [a] else []
                      | _ => []
                      end) ias.
Definition v4_of (ias : list ifaddr) (x : list Z) : list (list Z) :=
  flat_map (fun ia => match ia_addr ia with
                      | Some (SAInet a) => if same (ia_name ia) x then [a] else []
                      | _ => []
                      end) ias.
Definition v6_of (ias : list ifaddr) (x : list Z) : list (list Z) :=
  flat_map (fun ia => match ia_addr ia with
                      | Some (SAInet6 a) => if same (ia_name ia) x then [a] else []
                      | _ => []
                      end) ias.
Definition nonzero (a : list Z) : bool := negb (same a (repeat 0 (length a))).
(** fe80::/10. *)
Definition local6 (a : list Z) : bool :=
  match a with b0 :: b1 :: _ => (b0 =? 254) && (128 <=? b1) && (b1 <? 192) | _ => false end.
(** The address an interface is advertised with: the first usable one. *)
Definition main4 (ias : list ifaddr) (x : list Z) : list Z :=
  hd [0; 0; 0; 0] (filter nonzero (v4_of ias x)).
Definition main6 (ias : list ifaddr) (x : list Z) : list Z :=
  hd (repeat 0 16) (filter (fun a => nonzero a && negb (local6 a)) (v6_of ias x)).
Definition main_hw (ias : list ifaddr) (x : list Z) : list Z := last (hw_of ias x) (repeat 0 6).
(** With -n (option bit 8) everything is advertised with the addresses of the
    management interface, if there is one. *)
Definition address_name (cfg : ncfg) (si : sysinfo) (nfs : list netif) (n : netif) : list Z :=
  if Z.testbit (nc_opts cfg) 8 then
    match si_mnetif si with
    | Some m => match find (index_is m) nfs with Some k => nf_name k | None => nf_name n end
    | None => nf_name n
    end
  else nf_name n.
Definition addressed (cfg : ncfg) (ias : list ifaddr) (nfs : list netif) (si : sysinfo) : Prop :=
  forall n, In n nfs ->
    nf_hwaddr n = main_hw ias (nf_name n)
    /\ nf_ipaddr4 n = main4 ias (address_name cfg si nfs n)
    /\ nf_ipaddr6 n = main6 ias (address_name cfg si nfs n).

(** ** Capabilities *)
(** Some Ethernet interface of a kind is reported, up or not; or one that is
    up. *)
Definition reported_kind (os : nos) (ty : Z) : Prop :=
  exists ias name i a, no_ifaddrs os = Some ias /\ In (mkIfa name (Some (SALink 1 i a))) ias
    /\ kind os i name ty.
Definition usable_kind (os : nos) (ty : Z) : Prop := exists i name, usable_as os i name ty.
(** How many members of a list have a property. *)
Inductive number {A : Type} (P : A -> Prop) : list A -> Z -> Prop :=
| num_nil : number P [] 0
| num_yes x l k : P x -> number P l k -> number P (x :: l) (k + 1)
| num_no x l k : ~ P x -> number P l k -> number P (x :: l) k.
Definition regular_entry (os : nos) (ia : ifaddr) : Prop :=
  exists i a, ia_addr ia = Some (SALink 1 i a) /\ kind os i (ia_name ia) 0.
Definition up_entry (os : nos) (ia : ifaddr) : Prop :=
  exists i a ty, ia_addr ia = Some (SALink 1 i a) /\ kind os i (ia_name ia) ty
    /\ exists f, no_flags os (firstn 15 (ia_name ia)) = Some f /\ Z.testbit f 0 = true.
(** Bits 2 and 3 are host and router, 1 is bridge, 5 wireless. *)
Definition caps_are (bridge wlan : Prop) (before after : Z) : Prop :=
  forall b, 0 <= b ->
    if b =? 1 then (Z.testbit after b = true <-> bridge)
    else if b =? 5 then (Z.testbit after b = true <-> wlan)
    else if (b =? 2) || (b =? 3) then Z.testbit after b = Z.testbit before b
    else Z.testbit after b = false.

(** ** The interfaces on the command line *)
Definition marked (cfg : ncfg) (nfs : list netif) : Prop :=
  forall n, In n nfs -> nf_argv n = if (existsb (same (nf_name n)) (nc_ifl cfg)) && negb (nf_type n =? -1) then 1 else 0.
Definition all_found (cfg : ncfg) (nfs : list netif) : Prop :=
  forall x, In x (nc_ifl cfg) -> exists n, In n nfs /\ nf_name n = x /\ nf_type n <> -1.

(** ** The management interface *)
(** The interface has the configured name, or its address is the configured
    one. *)
Definition wanted (cfg : ncfg) (ias : list ifaddr) (n : netif) : Prop :=
  nc_mifname cfg = Some (nf_name n)
  \/ (nonzero (nc_maddr4 cfg) = true /\ main4 ias (nf_name n) = nc_maddr4 cfg)
  \/ (nonzero (nc_maddr6 cfg) = true /\ main6 ias (nf_name n) = nc_maddr6 cfg).
