(** Properties of displayed strings (C20, C21, C22) and of iteration over
    interfaces (C48). *)
From Verif Require Import Base Vis Tlv Types Spec SpecAdv SpecOut Lemmas Conformance Cases.
From Verif Require Import VisProofs TypesProofs VisProps.

(** C20: for every string [v] lying anywhere in the message buffer, the CDP and
    LLDP string function and the EDP and FDP string function write inside
    their buffers (no [DUB]) and yield the allowed characters only. *)
Theorem C20_escaping pre v post :
  bytes v -> let buf := pre ++ v ++ post in let p := zlen pre in
  (exists s, tlv_str_copy buf p (zlen v) = DOk s
     /\ Forall (fun x => 32 <= x <= 126 \/ In x [7; 8; 9; 10; 13]) s)
  /\ (exists s, tlv_value_vis buf p (zlen v) = DOk s
     /\ Forall (fun x => 32 <= x <= 126 /\ ~ In x [35; 42; 63; 91]) s).
Proof.
  exact (fun Hb => let Hv := view_at pre v post in
    conj (ex_intro _ _ (conj (tlv_str_copy_view _ _ v Hv Hb) (shown_all _ _ v Hb show_safe_ok)))
         (ex_intro _ _ (conj (tlv_value_vis_view _ _ v Hv Hb) (shown_all _ _ v Hb show_strict_ok)))).
Qed.
Print Assumptions C20_escaping.
Example C20_case :
  tlv_str_copy ([1; 2] ++ [27; 91; 92; 200; 65; 0; 66] ++ [9]) 2 7 = DOk (bs "\033[\\\310A")
  /\ tlv_value_vis ([1; 2] ++ [27; 91; 92; 200; 65; 0; 66] ++ [9]) 2 7
     = DOk (bs "\033\133\\\310A").
Proof. vm_compute. now split. Qed.

(** C21: the received bytes, up to the first NUL and the limit of 511 bytes,
    can be read back from the displayed text. *)
Theorem C21_reversible pre v post :
  bytes v -> let buf := pre ++ v ++ post in let p := zlen pre in
  (exists s, tlv_str_copy buf p (zlen v) = DOk s /\ unshow 511 s = before_nul (firstn 511 v))
  /\ (exists s, tlv_value_vis buf p (zlen v) = DOk s /\ unshow 511 s = before_nul (firstn 511 v)).
Proof.
  exact (fun Hb => let Hv := view_at pre v post in
    conj (ex_intro _ _ (conj (tlv_str_copy_view _ _ v Hv Hb)
                             (unshow_shown _ v unshow_app_safe show_safe_len Hb)))
         (ex_intro _ _ (conj (tlv_value_vis_view _ _ v Hv Hb)
                             (unshow_shown _ v unshow_app_strict show_strict_len Hb)))).
Qed.
Print Assumptions C21_reversible.
(** A name ending in the text "\n" and one ending in a newline byte. *)
Example C21_case :
  unshow 511 (bs "\033[\\\310A") = [27; 91; 92; 200; 65]
  /\ tlv_str_copy [92; 110] 0 2 = DOk [92; 92; 110] /\ tlv_str_copy [10] 0 1 = DOk [10].
Proof. vm_compute. now repeat split. Qed.

(** C22 is false: bell, backspace, tab, newline and carriage return of a CDP or
    LLDP name reach the display unescaped (C20 shows that these five are the
    only ones). *)
Theorem C22_no_control_refuted :
  forall x, In x [7; 8; 9; 10; 13] ->
  exists v s, bytes v /\ tlv_str_copy v 0 (zlen v) = DOk s /\ In x s /\ x < 32.
Proof.
  intros x Hx. exists [x; 65], [x; 65].
  cbn [In] in Hx. decompose [or] Hx; subst; try contradiction;
    (split; [repeat constructor; discriminate|]); (split; [vm_compute; reflexivity|]);
    (split; [now left|reflexivity]).
Qed.
Print Assumptions C22_no_control_refuted.

(** C48, interfaces: the loop visits, in table order, exactly the selected
    interfaces that are not member-less aggregates. *)
Theorem C48_interfaces opts nfs :
  netif_each opts nfs = filter (visible opts) nfs.
Proof. exact (netif_each_filter opts nfs). Qed.
Print Assumptions C48_interfaces.
Example C48_case_interfaces :
  netif_each 0 t_nfs = [t_parent; t_vlan1; t_vlan2] /\ netif_each 32 t_nfs = [t_parent].
Proof. vm_compute. now split. Qed.

(** C48, members: an aggregate yields exactly its members in chain order, a
    plain interface yields itself, a VLAN interface nothing; the loops end. *)
Theorem C48_members nfs n ms :
  (0 <= nf_type n <= 10 -> subif_each n nfs = [n])
  /\ (nf_type n < 0 -> subif_each n nfs = [])
  /\ (NoDup (map nf_index nfs) -> 10 < nf_type n -> member_chain nfs (nf_subif n) ms ->
      NoDup ms -> (forall m, In m ms -> nf_index m <> nf_index n) -> subif_each n nfs = ms).
Proof.
  exact (conj (subif_each_plain nfs n) (conj (subif_each_vlan nfs n) (subif_each_members nfs n ms))).
Qed.
Print Assumptions C48_members.
Definition t_slave : netif :=
  mkNetif 9 (bs "eth9") [] (repeat 2 6) 1500 1 0 0 0 0 (repeat 0 4) (repeat 0 16)
    0 NETIF_REGULAR 1 0 0 0 0 0 0 (Some 3) None 0 0 [].
Definition t_slave1 : netif :=
  mkNetif 1 (bs "eth0") [] (repeat 0 6) 9000 1 0 0 0 0 (repeat 0 4) (repeat 0 16)
    0 NETIF_REGULAR 1 0 0 0 0 0 0 (Some 3) (Some 9) 0 0 [].
Example C48_case_members :
  let nfs := [t_slave; t_vlan1; t_parent; t_slave1] in
  NoDup (map nf_index nfs) /\ member_chain nfs (nf_subif t_parent) [t_slave1; t_slave]
  /\ subif_each t_parent nfs = [t_slave1; t_slave].
Proof.
  cbv zeta. split; [repeat constructor; cbn; intuition discriminate|].
  split; [|reflexivity].
  apply (chain_next _ 1 t_slave1); [cbn; auto|easy|].
  apply (chain_next _ 9 t_slave); [cbn; auto|easy|]. constructor.
Qed.
