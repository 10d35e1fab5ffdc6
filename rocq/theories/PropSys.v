(** What the host says about itself: C70 to C74. *)
From Verif Require Import Base Types Tlv Wire Util Child Netif Sysinfo Send Spec SpecAdv SpecSend SpecSys Cases6.
From Verif Require Import Lemmas SendProofs1 SysProofs1 SysProofs2 SysProofs3.

(** A host: the distribution in quotes, a name known to the resolver, some of the
    inventory, IPv6 forwarding. *)
Definition y_file (path : list Z) : option (list Z) :=
  if beq path (bs "/sys/class/dmi/id/sys_vendor") then Some (bs "ACME" ++ [10])
  else if beq path (bs "/sys/class/dmi/id/product_name") then Some (repeat 65 40 ++ [10])
  else if beq path switch4 then Some (bs "0" ++ [10])
  else if beq path switch6 then Some (bs "1" ++ [10])
  else None.
Definition y_os : sios :=
  mkSios ([34] ++ bs "CentOS 9" ++ [34; 10]) true
    (mkUts (bs "Linux") (bs "box") (bs "5.14.0-362.el9") (bs "#1 SMP") (bs "x86_64")) (Some (bs "box.example.org")) y_file.
Lemma y_file_bytes path c : y_file path = Some c -> bytes c.
Proof.
  unfold y_file. destruct (beq path _); [|destruct (beq path _); [|destruct (beq path _); [|destruct (beq path _)]]]; try discriminate;
    intros H; injection H as <-; repeat constructor; unfold byte; lia.
Qed.
Lemma y_os_ok : sios_ok y_os.
Proof.
  split; [|split; [|split; [|split]]].
  - repeat constructor; cbn; try (unfold byte; lia); try discriminate; try (intuition discriminate); now vm_compute.
  - split; [repeat constructor; unfold byte; lia|split; [cbn; intuition discriminate|now vm_compute]].
  - repeat constructor; unfold byte; lia.
  - intros h H. injection H as <-. split; [repeat constructor; unfold byte; lia|cbn; intuition discriminate].
  - exact y_file_bytes.
Qed.
Definition y_st : sstate := mkSt child_start (sysinfo_fetch y_os (bs "NL") (bs "attic")) 0.
Lemma y_on : running_on w_cfg y_os (bs "NL") (bs "attic") y_st.
Proof.
  apply on_boot; [exact y_os_ok| |]; (split; [repeat constructor; unfold byte; lia|split; [cbn; intuition discriminate|now vm_compute]]).
Qed.

(** C70.  At all times the host is advertised under the name the resolver knows
    it by (its node name if that is none or localhost) and described by its
    distribution, if lsb_release told it, and uname(2). *)
Theorem C70_identity cfg os country location st :
  running_on cfg os country location st -> named os (st_si st) /\ described os (st_si st).
Proof.
  intros H. destruct (on_keeps _ _ _ _ _ H) as (_ & _ & _ & [E1 _ E2 E3 _ _ _ _ _] & _).
  pose proof (boot_named os country location) as N. pose proof (boot_described os country location) as D.
  unfold named, described in *. rewrite E1, E2, E3. exact (conj N D).
Qed.
Print Assumptions C70_identity.
Example C70_case :
  running_on w_cfg y_os (bs "NL") (bs "attic") y_st
  /\ si_hostname (st_si y_st) = bs "box.example.org"
  /\ si_uts_str (st_si y_st) = bs "CentOS 9 Linux 5.14.0-362.el9 #1 SMP x86_64"
  /\ si_platform (st_si y_st) = bs "CentOS 9 Linux x86_64".
Proof. split; [exact y_on|]. vm_compute. repeat split. Qed.

(** C71.  The inventory consists of the first lines of the DMI files and the
    kernel release, each cut to 32 bytes, at all times. *)
Theorem C71_inventory cfg os country location st :
  running_on cfg os country location st -> inventoried os (si_hinv (st_si st)).
Proof.
  intros H. destruct (on_keeps _ _ _ _ _ H) as (_ & _ & _ & [_ _ _ _ _ _ _ _ E] & _). rewrite E.
  exact (boot_inventoried os country location).
Qed.
Print Assumptions C71_inventory.
Example C71_case :
  hi_manuf (si_hinv (st_si y_st)) = bs "ACME" /\ hi_model (si_hinv (st_si y_st)) = repeat 65 32
  /\ hi_sw (si_hinv (st_si y_st)) = bs "5.14.0-362.el9" /\ hi_serial (si_hinv (st_si y_st)) = [].
Proof. vm_compute. repeat split. Qed.

(** C72 is false: a number behind a minus sign that does not stand behind a
    digit is taken as negative. *)
Theorem C72_negative_refuted :
  exists os st, running_on w_cfg os [] [] st
    /\ numbers (ut_release (so_uts os)) [5; 10; 3] /\ si_uts_rel (st_si st) = [5; 10; 253].
Proof.
  pose (os := mkSios [] true (mkUts (bs "Linux") (bs "box") (bs "5.10-custom-3") (bs "#1 SMP") (bs "x86_64")) None (fun _ => None)).
  exists os, (mkSt child_start (sysinfo_fetch os [] []) 0). split; [|split].
  - apply on_boot.
    + split; [|split; [|split; [|split]]].
      * repeat constructor; cbn; try (unfold byte; lia); try discriminate; try (intuition discriminate); now vm_compute.
      * split; [repeat constructor; unfold byte; lia|split; [cbn; intuition discriminate|now vm_compute]].
      * constructor.
      * discriminate.
      * discriminate.
    + split; [constructor|]. split; [easy|now vm_compute].
    + split; [constructor|]. split; [easy|now vm_compute].
  - change (numbers (bs "5" ++ bs "." ++ bs "10" ++ bs "-custom-" ++ bs "3" ++ []) [value (bs "5"); value (bs "10"); value (bs "3")]).
    apply nums_run; [discriminate|now apply all_digits|right; exists 46, (bs "10-custom-3"); split; [reflexivity|unfold digit; lia]|].
    apply (nums_other 46 (bs "10" ++ bs "-custom-" ++ bs "3" ++ [])); [unfold digit; lia|].
    apply nums_run; [discriminate|now apply all_digits|right; exists 45, (bs "custom-3"); split; [reflexivity|unfold digit; lia]|].
    do 8 (apply nums_other; [apply isdigit_not; reflexivity|]).
    apply (nums_run (bs "3") []); [discriminate|now apply all_digits|now left|apply nums_nil].
  - vm_compute. reflexivity.
Qed.
Print Assumptions C72_negative_refuted.
(** What holds: the version consists of the first three numbers of the kernel
    release, if each minus sign in front of a digit stands behind a digit and the
    numbers fit 63 bits.  Missing: other releases. *)
Theorem C72_version_partial cfg os country location st l :
  running_on cfg os country location st ->
  numbers (ut_release (so_uts os)) l -> no_signs (ut_release (so_uts os)) -> Forall (fun v => v < 9223372036854775808) l ->
  si_uts_rel (st_si st) = version_of l.
Proof.
  intros H N S B. destruct (on_keeps _ _ _ _ _ H) as (_ & _ & _ & [_ E _ _ _ _ _ _ _] & _). rewrite E.
  unfold sysinfo_fetch. cbv zeta. destruct (sysinfo_forwarding os CAP_HOST CAP_HOST) as [cap act]. exact (uts_rel_spec _ l S N B).
Qed.
Print Assumptions C72_version_partial.
Example C72_case :
  si_uts_rel (st_si y_st) = [5; 14; 0] /\ version_of [5; 14; 0; 362; 9] = [5; 14; 0] /\ uts_rel (bs "4.300") = version_of [4; 300]
  /\ version_of [4; 300] = [4; 44; 0].
Proof. vm_compute. repeat split. Qed.

(** C73.  At all times the host is a router by capability if and only if one of
    the two forwarding switches could be read at start, and an active one if and
    only if one of them read 1; it is always an active host. *)
Theorem C73_router cfg os country location st :
  running_on cfg os country location st ->
  (Z.testbit (si_cap (st_si st)) 3 = true <-> readable os switch4 \/ readable os switch6)
  /\ (proper os switch4 -> proper os switch6 ->
      (Z.testbit (si_cap_active (st_si st)) 3 = true <-> turned_on os switch4 \/ turned_on os switch6))
  /\ Z.testbit (si_cap (st_si st)) 2 = true /\ Z.testbit (si_cap_active (st_si st)) 2 = true.
Proof.
  intros H. destruct (on_keeps _ _ _ _ _ H) as (_ & _ & _ & _ & S). destruct (S 3 ltac:(now right)) as [-> ->]. destruct (S 2 ltac:(now left)) as [-> ->].
  exact (boot_router os country location).
Qed.
Print Assumptions C73_router.
Example C73_case :
  proper y_os switch4 /\ proper y_os switch6 /\ turned_on y_os switch6 /\ ~ turned_on y_os switch4
  /\ si_cap (st_si y_st) = 12 /\ si_cap_active (st_si y_st) = 12.
Proof.
  split; [right; exists 0; split; [lia|reflexivity]|]. split; [right; exists 1; split; [lia|reflexivity]|]. split; [reflexivity|]. split; [discriminate|].
  vm_compute. split; reflexivity.
Qed.

(** C74.  The LLDP-MED capabilities of every LLDP frame sent name exactly the
    LLDP-MED TLVs in it. *)
Theorem C74_med_capabilities cfg os country location st e st' eff i f tlvs :
  running_on cfg os country location st -> zlen country = 0 \/ zlen country = 2 -> event_ok e ->
  send_step cfg st e = DOk (st', eff) -> In (SFrame i 0 f) eff ->
  Forall lldp_fits tlvs -> skipn 14 f = flat_map lldp_bytes tlvs -> med_true tlvs.
Proof. exact (med_frame cfg os country location st e st' eff i f tlvs). Qed.
Print Assumptions C74_med_capabilities.
(** The first frame of a run: a location and an inventory are announced and
    there. *)
Definition y_eff : list seff := Eval vm_compute in match send_step w_cfg y_st (EvRun w_os2 100) with DOk (_, eff) => eff | _ => [] end.
Definition y_frame : Z * list Z := Eval vm_compute in match frames y_eff with (i, _, f) :: _ => (i, f) | [] => (0, []) end.
Fixpoint y_split (fuel : nat) (l : list Z) : list tlv :=
  match fuel, l with
  | S fuel', a :: b :: r => (a / 2, firstn (Z.to_nat (a mod 2 * 256 + b)) r) :: y_split fuel' (skipn (Z.to_nat (a mod 2 * 256 + b)) r)
  | _, _ => []
  end.
Definition y_tlvs : list tlv := Eval vm_compute in y_split 100 (skipn 14 (snd y_frame)).
Example C74_case :
  (match send_step w_cfg y_st (EvRun w_os2 100) with DOk (_, eff) => eff = y_eff | _ => False end)
  /\ In (SFrame (fst y_frame) 0 (snd y_frame)) y_eff /\ skipn 14 (snd y_frame) = flat_map lldp_bytes y_tlvs
  /\ Forall lldp_fits y_tlvs /\ In (tia 1 (U16 37 ++ [1])) y_tlvs /\ In (tia 9 (bs "ACME")) y_tlvs
  /\ In (tia 3 ([2; 10; 2] ++ bs "NL" ++ [22; 5] ++ bs "attic")) y_tlvs.
Proof.
  split; [vm_compute; reflexivity|]. split; [vm_compute; auto 20|]. split; [vm_compute; reflexivity|].
  split; [repeat (apply Forall_cons; [split; [cbn; lia|vm_compute; reflexivity]|]); apply Forall_nil|].
  split; [vm_compute; auto 30|]. split; [vm_compute; auto 40|]. vm_compute; auto 40.
Qed.
