(** Operating systems and interface tables for the examples of interface
    detection. *)
From Verif Require Import Base Tlv Types Util Netif Spec SpecAdv SpecNetif Lemmas Conformance.

Definition v_name (i : Z) : list Z :=
  if i =? 1 then bs "eth0" else if i =? 2 then bs "eth1" else if i =? 3 then bs "eth2"
  else if i =? 4 then bs "bond0" else if i =? 5 then bs "eth0.5" else if i =? 6 then bs "br0"
  else if i =? 7 then bs "wlan0" else bs "lo".
Definition v_link (i : Z) : ifaddr := mkIfa (v_name i) (Some (SALink 1 i [2; 0; 0; 0; 0; i])).
(** Three physical interfaces, a bond of two of them, a VLAN, a bridge, a
    wireless interface that is down, the loopback; [up] tells which physical
    interfaces exist. *)
Definition v_os (exist : list Z) : nos :=
  let is x i := if list_eq_dec Z.eq_dec x (v_name i) then true else false in
  mkNos
    (Some (mkIfa (bs "lo") (Some (SALink 772 9 (repeat 0 6))) :: map v_link exist
             ++ [mkIfa (bs "eth0") (Some (SAInet [10; 0; 0; 1])); mkIfa (bs "ppp0") None;
                 mkIfa (bs "bond0") (Some (SAInet6 (254 :: 128 :: repeat 0 13 ++ [1])));
                 mkIfa (bs "bond0") (Some (SAInet [10; 0; 0; 2]));
                 mkIfa (bs "eth0") (Some (SAInet [10; 0; 0; 3]))]))
    (fun x => Some (if is x 7 then 4098 else 4163))
    (fun x => is x 7)
    (fun i => i <=? 3)
    (fun i => if i =? 4 then Some (bs "bonding") else if i =? 6 then Some (bs "bridge") else None)
    (fun x => if is x 5 then Some (bs "eth0") else None)
    (fun x => if is x 5 then Some 5 else None)
    (fun i => if i =? 1 then bs "uplink" else [])
    (fun _ => [])
    (fun x => if is x 4 then Some (4, 2) else None)
    (fun _ i => if i =? 0 then Some (bs "eth1", 0) else Some (bs "eth2", 1))
    (fun x => if is x 6 then Some [1] else None)
    (fun _ => None)
    (fun _ => Some 1500)
    (fun i => if i =? 1 then Some (mkEcmd 64 63 1000 1 0 1) else if i =? 2 then Some (mkEcmd 0 0 1000 1 3 0) else None).
Definition v_os1 : nos := v_os [1; 2; 3; 4; 5; 6; 7].
Definition v_os2 : nos := v_os [1; 2; 4; 5; 6; 7].
Definition v_cfg : ncfg := mkNcfg 12 [] (Some (bs "bond0")) (repeat 0 4) (repeat 0 16).
Definition v_si : sysinfo := set_mnetif None (t_si 4 4).
Definition v_fetch (os : nos) (nfs : list netif) (si : sysinfo) : list netif * sysinfo :=
  let '(_, nfs', si', _) := netif_fetch v_cfg os nfs si in (nfs', si').
Definition v_tab1 : list netif := fst (v_fetch v_os1 [] v_si).
Definition v_si1 : sysinfo := snd (v_fetch v_os1 [] v_si).
(** Protocols enabled on eth0 after the first refresh. *)
Definition v_tab1' : list netif := map (fun n => if nf_index n =? 1 then set_protos 5 n else n) v_tab1.

Lemma v_refreshed : refreshed v_cfg [v_os1] v_tab1 v_si1.
Proof.
  change [v_os1] with (@nil nos ++ [v_os1]). unfold v_tab1, v_si1, v_fetch.
  destruct (netif_fetch v_cfg v_os1 [] v_si) as [[[r a] b] g] eqn:E. cbn [fst snd].
  eapply ref_fetch; [apply (ref_start v_cfg v_si); reflexivity|reflexivity|exact E].
Qed.
