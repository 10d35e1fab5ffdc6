(** The requests of the unprivileged process (C92, C93, C94): theorems, their
    assumptions and concrete cases. *)
From Verif Require Import Base Types Tlv Checks Wire Util Parent Netif Mreq Spec SpecNet SpecSys SpecMreq MreqProofs Cases4.

(** C92.  The parent reads the request the child made: operation, index, length and
    payload; the rest of its buffer is clear. *)
Theorem C92_request q : request q ->
  let m := req_mem (mreq_out q) in
  req_size_ok (Z.min (zlen (mreq_out q)) 544) m = true
  /\ pr_op m = rq_op q /\ pr_index m = rq_index q /\ pr_len m = rq_len q
  /\ pr_buf m = payload q ++ zeros (512 - rq_len q).
Proof. exact (out_fields q). Qed.
Print Assumptions C92_request.
(** The child gets the answer the parent gave to this request, or the parent ended
    and the child ends too. *)
Theorem C92_answer cfg fds q os : request q -> 0 <= rq_op q ->
  let r := parent_req cfg fds (mreq_out q) os in
  if r_alive r then
    exists eff len data name,
      r_eff r = eff ++ [EReply (rq_op q) (rq_index q) len data]
      /\ 0 <= len <= 512 /\ zlen data = len
      /\ exchange cfg fds q os = (r, DOk (mkPreq (rq_op q) (rq_index q) name len (data ++ zeros (512 - len))))
  else exchange cfg fds q os = (r, DAbort).
Proof. exact (exchange_ok cfg fds q os). Qed.
Print Assumptions C92_answer.
(** The answer has the name the interface has now; when it is gone, the name in the
    request. *)
Theorem C92_name cfg fds q os r a : request q -> 0 <= rq_op q ->
  ~ In 0 (rq_name q) -> zlen (rq_name q) <= 15 ->
  match os_name os with Some n => ~ In 0 n /\ zlen n <= 15 | None => True end ->
  exchange cfg fds q os = (r, DOk a) ->
  rq_name a = match os_name os with Some n => n | None => rq_name q end.
Proof. exact (exchange_name cfg fds q os r a). Qed.
Print Assumptions C92_name.
(** What the single requests yield.  Every interface gets its own alias, although
    the structure of the request still has the answer for the previous one. *)
Theorem C92_alias cfg fds l : Forall (fun x => 0 <= fst x < 4294967296 /\ os_reply (snd x) = true) l ->
  exists ds q, ask_aliases cfg fds preq0 l = DOk (ds, q) /\ Forall2 (fun x d => alias_is (snd x) d) l ds.
Proof.
  intros H. destruct (aliases_answer cfg fds l preq0 preq0_request H) as (ds & q & A & B & _). now exists ds, q.
Qed.
Print Assumptions C92_alias.
Theorem C92_device cfg fds i os : 0 <= i < 4294967296 -> os_reply os = true ->
  exists a, answered cfg fds (q_device i) os a
    /\ (a_device a = true <-> os_name os <> None /\ os_stat os = true).
Proof. exact (device_answer cfg fds i os). Qed.
Print Assumptions C92_device.
Theorem C92_driver cfg fds i os : 0 <= i < 4294967296 -> os_reply os = true ->
  exists a, answered cfg fds (q_driver i) os a
    /\ (os_name os = None \/ os_ethtool os = None -> a_driver a = None)
    /\ (forall d driver, os_name os <> None -> os_ethtool os = Some d -> drvinfo d driver -> a_driver a = Some driver).
Proof. exact (driver_answer cfg fds i os). Qed.
Print Assumptions C92_driver.
Theorem C92_settings cfg fds i os : 0 <= i < 4294967296 -> os_reply os = true ->
  exists a, answered cfg fds (q_settings i) os a
    /\ (os_name os = None \/ os_ethtool os = None -> a_settings a = None)
    /\ (forall d e, os_name os <> None -> os_ethtool os = Some d -> ethcmd d e -> a_settings a = Some e).
Proof. exact (settings_answer cfg fds i os). Qed.
Print Assumptions C92_settings.
Theorem C92_device_id cfg fds i os : 0 <= i < 4294967296 -> pc_pci cfg = true -> os_reply os = true ->
  exists a, answered cfg fds (q_device_id i) os a
    /\ (os_name os = None -> a_device_id a = [])
    /\ (os_name os <> None -> ~ In 0 (os_device_id os) -> zlen (os_device_id os) <= 511 -> a_device_id a = os_device_id os).
Proof. exact (device_id_answer cfg fds i os). Qed.
Print Assumptions C92_device_id.
Theorem C92_team cfg fds i os : 0 <= i < 4294967296 -> pc_team cfg = true -> os_reply os = true ->
  exists a, answered cfg fds (q_team i) os a
    /\ (os_name os = None -> a_team a = DOk None)
    /\ (os_name os <> None -> os_team os = None -> a_team a = DOk (Some (0, [], 0)))
    /\ (forall d mode ports active, os_name os <> None -> os_team os = Some d -> teaminfo d mode ports active ->
         a_team a = DOk (Some (mode, ports, active))).
Proof. exact (team_answer cfg fds i os). Qed.
Print Assumptions C92_team.
Theorem C92_descr cfg fds i t os : 0 <= i < 4294967296 -> ~ In 0 t -> zlen t <= 63 -> os_reply os = true ->
  exists a, exchange cfg fds (q_descr i t) os
    = (mkRes fds ((match os_name os with Some name => if os_stat os then [EAlias name t] else [] | None => [] end)
                    ++ [EReply 2 i (rq_len a) (payload a)]) true, DOk a).
Proof. exact (descr_answer cfg fds i t os). Qed.
Print Assumptions C92_descr.

Definition m_os (name : option (list Z)) (alias : list Z) (eth team : option (list Z)) : pos :=
  mkPos name (SockFd 9) 100 false true alias 63 eth (bs "Example Networks NIC-1000") team true.
Definition m_cfg : pcfg := mkPcfg 7 [true; true; false; false; false; false] true true.
Definition m_eth := m_os (Some (bs "eth0")).
Definition m_drv : list Z := [3; 0; 0; 0] ++ (bs "bonding" ++ zeros 25) ++ zeros 160.
Definition m_cmd : list Z := [1; 0; 0; 0] ++ word4 527 ++ word4 271 ++ word2 1000 ++ [1; 0] ++ [0; 0; 1] ++ zeros 25.
Definition m_team : list Z := [2; 3] ++ [0; 0] ++ concat (map word4 [4; 70000; 6]) ++ zeros 116 ++ word4 70000.
Example C92_case :
  (* three interfaces: a long alias, none, a short one *)
  (let l := [(4, m_eth (repeat 65 80) None None); (5, m_eth [] None None); (6, m_os (Some (bs "eth2")) (bs "up" ++ [10] ++ bs "x") None None);
             (7, m_os None (bs "gone") None None)] in
   Forall (fun x => 0 <= fst x < 4294967296 /\ os_reply (snd x) = true) l
   /\ match ask_aliases m_cfg [] preq0 l with DOk (ds, _) => ds | _ => [] end = [repeat 65 63; []; bs "up"; []])
  /\ request (q_driver 70000) /\ request (q_descr 4 (bs "connected to sw (Gi0/1)"))
  /\ (drvinfo m_drv (bs "bonding")
      /\ match snd (exchange m_cfg [] (q_driver 4) (m_eth [] (Some m_drv) None)) with DOk a => a_driver a | _ => None end
         = Some (bs "bonding"))
  /\ (ethcmd m_cmd (mkEcmd 527 271 1000 1 0 1)
      /\ match snd (exchange m_cfg [] (q_settings 4) (m_eth [] (Some m_cmd) None)) with DOk a => a_settings a | _ => None end
         = Some (mkEcmd 527 271 1000 1 0 1))
  /\ (teaminfo m_team 2 [4; 70000; 6] 70000
      /\ match snd (exchange m_cfg [] (q_team 4) (m_eth [] None (Some m_team))) with DOk a => a_team a | _ => DFail end
         = DOk (Some (2, [4; 70000; 6], 70000)))
  /\ match snd (exchange m_cfg [] (q_device_id 4) (m_eth [] None None)) with DOk a => a_device_id a | _ => [] end
     = bs "Example Networks NIC-1000"
  /\ match snd (exchange m_cfg [] (q_device 4) (m_eth [] None None)) with DOk a => a_device a | _ => false end = true
  /\ r_eff (fst (exchange m_cfg [] (q_descr 4 (bs "connected to sw (Gi0/1)")) (m_eth [] None None)))
     = [EAlias (bs "eth0") (bs "connected to sw (Gi0/1)"); EReply 2 4 23 (bs "connected to sw (Gi0/1)")].
Proof.
  cbv zeta. split; [split; [repeat constructor; discriminate|vm_compute; reflexivity]|].
  split; [repeat split; discriminate|]. split; [repeat split; discriminate|].
  split.
  { split; [|vm_compute; reflexivity].
    exists [3; 0; 0; 0], (bs "bonding" ++ zeros 25), (zeros 160). split; [reflexivity|]. split; [reflexivity|].
    split; [|reflexivity]. split; [reflexivity|]. split; [repeat constructor; discriminate|]. exists (zeros 24). reflexivity. }
  split.
  { split; [|vm_compute; reflexivity]. exists [1; 0; 0; 0], 0, 0, (zeros 25). repeat split; discriminate. }
  split.
  { split; [|vm_compute; reflexivity]. exists [0; 0]. repeat split; try discriminate. repeat constructor; discriminate. }
  repeat split; vm_compute; reflexivity.
Qed.
Example C92_name_case :
  let q := mkPreq 3 4 (bs "eth9") 0 (zeros 512) in
  request q
  /\ match snd (exchange m_cfg [] q (m_eth [] None None)) with DOk a => rq_name a | _ => [] end = bs "eth0"
  /\ match snd (exchange m_cfg [] q (m_os None [] None None)) with DOk a => rq_name a | _ => [] end = bs "eth9".
Proof. cbv zeta. split; [|split; vm_compute; reflexivity]. repeat split; vm_compute; congruence. Qed.

(** C93.  Whatever the child asks for, both processes go on: unless the capture
    library cannot even be set up for a socket (C84), or the answer cannot be
    written. *)
Theorem C93_goes_on cfg fds q os :
  asked cfg q -> 0 <= rq_index q < 4294967296 -> os_sock os <> SockFatal -> os_reply os = true ->
  exists r a, exchange cfg fds q os = (r, DOk a) /\ r_alive r = true.
Proof. exact (asked_alive cfg fds q os). Qed.
Print Assumptions C93_goes_on.
Example C93_case :
  (* the structure still holds an alias of 63 bytes when the sockets are closed *)
  let os := m_eth (repeat 65 80) None None in
  let q := match snd (exchange m_cfg [] (q_alias preq0 4) os) with DOk a => a | _ => preq0 end in
  asked m_cfg (q_close q 9) /\ rq_len (q_close q 9) = 63
  /\ asked m_cfg (q_descr 1 []) /\ r_alive (fst (exchange m_cfg [] (q_close q 9) os)) = true
  /\ r_alive (fst (exchange m_cfg [] (mkPreq 6 4 [] 63 (zeros 512)) os)) = false.
Proof.
  cbv zeta. split; [|split; [vm_compute; reflexivity|split; [|split; vm_compute; reflexivity]]].
  - apply asked_close. eapply reused_alias with (q := preq0) (i := 4) (fds := []) (os := m_eth (repeat 65 80) None None).
    + apply reused_new.
    + split; [discriminate|reflexivity].
    + vm_compute. reflexivity.
  - apply (asked_descr m_cfg 4 (u_if 1 (bs "eth0") (bs "connected to sw") 0 0 None None) [] []). vm_compute. reflexivity.
Qed.

(** C94.  A description becomes the alias of the interface.  False for the empty one,
    by which the description is to be removed when the last neighbour is gone: a
    write of no bytes, which Linux ignores. *)
Theorem C94_removed_refuted :
  exists opts n cfg fds os name old,
    netif_descr opts n [] = Some [] /\ nf_name n = name /\ nf_description n = old /\ old <> []
    /\ os_name os = Some name /\ os_stat os = true /\ os_reply os = true
    /\ alias_after name old (r_eff (fst (exchange cfg fds (q_descr (nf_index n) []) os))) = old.
Proof.
  exists 4, (u_if 1 (bs "eth0") (bs "connected to sw") 0 0 None None), m_cfg, [],
    (m_eth (bs "connected to sw") None None), (bs "eth0"), (bs "connected to sw").
  repeat split; try (vm_compute; reflexivity). discriminate.
Qed.
Print Assumptions C94_removed_refuted.
(** Every other description becomes the alias.  Missing: the empty one. *)
Theorem C94_alias_partial cfg fds i t os name old :
  0 <= i < 4294967296 -> ~ In 0 t -> zlen t <= 63 -> t <> [] ->
  os_reply os = true -> os_name os = Some name -> os_stat os = true ->
  alias_after name old (r_eff (fst (exchange cfg fds (q_descr i t) os))) = t.
Proof. exact (alias_set cfg fds i t os name old). Qed.
Print Assumptions C94_alias_partial.
Example C94_case :
  let t := bs "connected to 2 peers" in
  ~ In 0 t /\ zlen t <= 63
  /\ alias_after (bs "eth0") (bs "connected to sw") (r_eff (fst (exchange m_cfg [] (q_descr 4 t) (m_eth [] None None)))) = t.
Proof.
  cbv zeta. split; [|split; vm_compute; [discriminate|reflexivity]].
  cbn. intros H. repeat (destruct H as [H|H]; [discriminate|]). exact H.
Qed.
