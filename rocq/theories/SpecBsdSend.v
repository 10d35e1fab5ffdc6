(** Which frames an advertisement run has to send on FreeBSD and OpenBSD: vocabulary
    of C134. *)
From Verif Require Import Base Types Tlv Wire Util Child Netif Sysinfo Send Bsd HostBsd BsdSend Spec SpecAdv SpecNetif SpecSend SpecSys SpecBsd SpecHostBsd.

(** ** The daemon *)
(** uname(2) as on Linux; on FreeBSD the version starts with the name of the system;
    the texts of the inventory of OpenBSD have at most 32 characters (C110 is about
    longer ones). *)
Definition b_boot_ok (pf : platform) (o : bsios) : Prop :=
  let u := bh_uts o in
  Forall (fun s => cstring 65 s /\ s <> []) [ut_sysname u; ut_release u; ut_machine u]
  /\ bytes (ut_version u) /\ ~ In 0 (ut_version u) /\ ut_version u <> []
  /\ (pf = FreeBSD -> exists r, ut_version u = bs "FreeBSD" ++ r)
  /\ cstring 65 (ut_nodename u)
  /\ (forall h, bh_host o = Some h -> bytes h /\ ~ In 0 h)
  /\ (forall x v, bh_text o x = Some v -> bytes v /\ ~ In 0 v)
  /\ (pf = OpenBSD -> short_texts o).
Definition b_event_ok (e : bevent) : Prop :=
  match e with
  | BRun b _ => b_ok b
  | BLink b m _ => b_ok b /\ 0 <= rm_index m < 65536
  | BChild _ => True
  end.
(** The states of the child from its start, through any events. *)
Inductive b_running (cfg : scfg) (pf : platform) : sstate -> Prop :=
| brun_boot o country location :
    b_boot_ok pf o -> cstring 3 country -> cstring 256 location ->
    b_running cfg pf (mkSt child_start (bsd_sysinfo pf o country location) 0)
| brun_event st e st' eff :
    b_running cfg pf st -> b_event_ok e -> bc_step cfg pf st e = DOk (st', eff) -> b_running cfg pf st'.
Definition b_refresh (cfg : scfg) (pf : platform) (b : bos) (st : sstate) (nfs : list netif) (si : sysinfo) : Prop :=
  exists ret gone, bsd_fetch (sc_net cfg) pf b (table st) (st_si st) = (ret, nfs, si, gone) /\ ret <> 0.

(** ** Where advertisements are due *)
Definition b_stands_for (b : bos) (nfs : list netif) (top : netif) : list netif :=
  if nf_type top <=? 10 then [top]
  else flat_map (fun r => match at_index nfs (Some (fst r)) with Some m => [m] | None => [] end)
         (b_reported b nfs top).
Definition b_due (cfg : scfg) (b : bos) (nfs : list netif) : list (netif * netif * Z) :=
  flat_map (fun top =>
    flat_map (fun sub => map (fun p => (top, sub, p)) (filter (enabled cfg top) [0; 1; 2; 3; 4; 5]))
      (filter (eligible cfg) (b_stands_for b nfs top)))
    (filter (fun n => selected cfg n && eligible cfg n) nfs).

(** ** The frames *)
Definition b_frame_due (cfg : scfg) (b : bos) (nfs : list netif) (si : sysinfo) (seq : Z)
  (d : netif * netif * Z) : list Z :=
  let '(top, sub, p) := d in
  let f := advert p (nc_opts (sc_net cfg)) seq (bsd_media b sub) (at_index nfs (nf_parent sub))
             (at_index nfs (si_mnetif si)) nfs si in
  if (nf_bonding_mode top =? 2) && negb (nf_child sub =? 1) then blanked f else f.
Fixpoint b_frames_due (cfg : scfg) (b : bos) (nfs : list netif) (si : sysinfo) (seq : Z)
  (ds : list (netif * netif * Z)) : list (Z * Z * list Z) :=
  match ds with
  | [] => []
  | d :: ds' =>
      let f := b_frame_due cfg b nfs si seq d in
      when (zlen f <=? 1518) [(nf_index (snd (fst d)), snd d, f)]
      ++ b_frames_due cfg b nfs si (if snd d =? 2 then (seq + 1) mod 65536 else seq) ds'
  end.

(** ** Link messages *)
(** A whole message about an interface (type 14 of version 5). *)
Definition rt_whole (pf : platform) (m : rtmsg) : Prop :=
  (match pf with FreeBSD => 152 | OpenBSD => 96 end) <= rm_len m <= 2048 /\ rm_version m = 5 /\ rm_type m = 14.
(** It is up and running, and its link is up or of unknown state. *)
Definition rt_up (pf : platform) (m : rtmsg) : Prop :=
  Z.testbit (rm_flags m) 0 = true /\ Z.testbit (rm_flags m) 6 = true
  /\ (rm_state m = 0 \/ (match pf with FreeBSD => 2 | OpenBSD => 4 end) <= rm_state m).
