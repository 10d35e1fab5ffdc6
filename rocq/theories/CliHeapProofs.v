(** Proofs for C120. *)
From Coq Require Import Permutation.
From Verif Require Import Base Tlv Types Msg Protos Wire Util Child Cli Heap CliHeap Spec SpecHeap SpecCliMem
  Lemmas HeapProofs HeapProofs2 HeapProofs3.

Lemma headed_app a b : headed (a ++ b) = headed a + headed b.
Proof. unfold headed. now rewrite filter_app, zlen_app. Qed.
Definition CI (c : cconf) (own : list Z) (s : hcli) : Prop :=
  length (hl_peer s) = 8%nat /\ exists lost, client_uses c own s lost.
Lemma write_use mode h l : in_use h l -> exists h', h_write mode h = DOk h' /\ in_use h' l.
Proof.
  intros H. unfold h_write. destruct (mode =? MODE_HTTP); [|now exists h].
  pose proof (malloc_use _ _ H) as H1. destruct (malloc h) as [a h1] eqn:E1. cbn [snd] in H1.
  assert (A : a = next h) by (unfold malloc in E1; congruence).
  pose proof (malloc_use _ _ H1) as H2. destruct (malloc h1) as [b h2] eqn:E2. cbn [snd] in H2.
  assert (B : b = next h1) by (unfold malloc in E2; congruence).
  pose proof (malloc_use _ _ H2) as H3. destruct (malloc h2) as [d h3] eqn:E3. cbn [snd] in H3.
  assert (D : d = next h2) by (unfold malloc in E3; congruence).
  rewrite <- A, <- B, <- D in H3.
  assert (P : in_use h3 (a :: b :: d :: l)).
  { eapply use_perm; [exact H3|]. change (d :: b :: a :: l) with ([d; b; a] ++ l). change (a :: b :: d :: l) with ([a; b; d] ++ l).
    apply Permutation_app_tail. apply (Permutation_rev [d; b; a]). }
  apply free_use in P as (h4 & F1 & P & _). rewrite F1. cbn [dbind].
  apply free_use in P as (h5 & F2 & P & _). rewrite F2. cbn [dbind].
  apply free_use in P as (h6 & F3 & P & _). now exists h6.
Qed.
Lemma none_held {A} (l : list A) : held (map (option_map fst) (map (fun _ => @None (Z * list Z)) l)) = [].
Proof. induction l; [reflexivity|assumption]. Qed.
Lemma free8 (p q : peers) : length p = 8%nat -> length q = 8%nat -> peer_free p = peer_free q.
Proof. intros H1 H2. unfold peer_free. do 9 (destruct p as [|? p]; try discriminate). do 9 (destruct q as [|? q]; try discriminate). reflexivity. Qed.
Definition plain_peers (l : list (option (Z * list Z))) : peers := map (option_map snd) l.
Lemma plain_none {A} (l : list A) : plain_peers (map (fun _ => None) l) = map (fun _ => None) l.
Proof. unfold plain_peers. now rewrite map_map. Qed.

Lemma cli_step_good c idx now own s m : CI c own s ->
  match h_cli_step c idx now s m, cli_step c idx now (plain_peers (hl_peer s)) m with
  | DOk (s', did, o), DOk (p, did', o') => did = did' /\ o = o' /\ p = plain_peers (hl_peer s') /\ CI c own s' /\ (did = true -> strings s' = [])
  | DFail, DFail | DAbort, DAbort | DUB, DUB | DLoop, DLoop => True
  | _, _ => False
  end.
Proof.
  intros (H8 & lost & U & L1 & L2). assert (I : CI c own s) by (split; [assumption|now exists lost]). unfold h_cli_step, cli_step.
  assert (N : forall o : list cout, false = false /\ o = o /\ plain_peers (hl_peer s) = plain_peers (hl_peer s) /\ CI c own s /\ (false = true -> strings s = []))
    by (intros o; split; [reflexivity|]; split; [reflexivity|]; split; [reflexivity|]; split; [exact I|discriminate]).
  destruct (6 <=? _); [apply N|]. destruct (_ || _); [apply N|]. destruct (_ && _); [apply N|].
  destruct (negb _); [apply N|]. clear I N.
  set (mode := if cl_mode c =? MODE_PRINT then DECODE_PRINT else DECODE_STR).
  set (ctx := mkCtx (pm_msg m) (pm_len m) mode (pm_name m) (pm_received m) now).
  set (s0 := mkHst (hl_peer s) 0 (pm_proto m) [] (hl_heap s)).
  assert (O : ok (lossy ctx 0) (own ++ lost) s0).
  { split; [exact H8|]. exists []. split; [reflexivity|]. split; [unfold lossy; cbn [snd h_out s0]; rewrite zlen_nil; unfold headed; cbn [filter]; rewrite zlen_nil; lia|].
    rewrite app_nil_r. exact U. }
  destruct (decode_good (pm_proto m) ctx 0 (own ++ lost) s0 O) as [E A].
  change (erase s0) with (mkDst (plain_peers (hl_peer s)) 0 (pm_proto m) []) in E. rewrite <- E. clear E.
  destruct (h_decode (pm_proto m) ctx s0) as [r d]. unfold after in A. cbn [fst snd] in A.
  assert (K : ok (lossy ctx 0) (own ++ lost) d -> exists lost', length (h_peer d) = 8%nat /\ in_use (h_heap d) (held_by d ++ own ++ lost')
    /\ (cl_mode c <> MODE_PRINT -> lost' = []) /\ zlen lost' <= headed (hl_printed s ++ h_out d)).
  { intros (D8 & lk & D1 & D2 & D3). exists (lost ++ lk). split; [assumption|]. rewrite <- app_assoc in D3. split; [exact D3|]. split.
    - intros N. rewrite (L1 N), D1; [reflexivity|]. unfold lossy, ctx, mode. cbn [fst d_mode]. replace (cl_mode c =? MODE_PRINT) with false by lia. reflexivity.
    - rewrite zlen_app, headed_app. unfold lossy in D2. cbn [snd] in D2. lia. }
  assert (FR : forall lost' h, length (h_peer d) = 8%nat -> in_use h (held_by d ++ own ++ lost') -> (cl_mode c <> MODE_PRINT -> lost' = []) ->
     zlen lost' <= headed (hl_printed s ++ h_out d) ->
     exists h', h_peer_free (map (option_map fst) (h_peer d)) h = DOk h'
     /\ CI c own (mkHcli (map (fun _ => None) (h_peer d)) h' (hl_printed s ++ h_out d))
     /\ strings (mkHcli (map (fun _ => None) (h_peer d)) h' (hl_printed s ++ h_out d)) = []
     /\ plain_peers (map (fun _ => None) (h_peer d)) = peer_free (plain_peers (hl_peer s))).
  { intros lost' h D8 U' N' Z'. apply peer_free_use in U' as (h' & F & U'). exists h'. split; [exact F|].
    split; [|split; [unfold strings; cbn [hl_peer]; apply none_held|]].
    - split; [cbn [hl_peer]; now rewrite map_length|]. exists lost'. split; [|now split]. unfold strings. cbn [hl_peer hl_heap]. rewrite none_held. exact U'.
    - rewrite plain_none. rewrite (free8 _ (plain_peers (h_peer d))); [unfold peer_free, plain_peers; now rewrite map_map|unfold plain_peers; now rewrite map_length|unfold plain_peers; now rewrite map_length]. }
  destruct r as [n| | | |]; cbn [ran]; try exact Logic.I; destruct (K A) as (lost' & D8 & D1 & D2 & D3); clear K A.
  - cbn [s_out s_ttl s_proto s_peer erase]. destruct (n =? 0).
    { destruct (FR lost' (h_heap d) D8 D1 D2 D3) as (h' & F & C1 & C2 & C3). rewrite F. cbn [dbind]. split; [reflexivity|]. split; [reflexivity|]. split; [now symmetry|]. split; [exact C1|discriminate]. }
    destruct (_ || _); [exact Logic.I|]. destruct (_ <? _).
    { split; [reflexivity|]. split; [reflexivity|]. split; [reflexivity|]. split; [|discriminate].
      split; [exact D8|]. exists lost'. split; [exact D1|]. now split. }
    destruct (write_use (cl_mode c) _ _ D1) as (h1 & W & D1'). rewrite W. cbn [dbind].
    destruct (FR lost' h1 D8 D1' D2 D3) as (h' & F & C1 & C2 & C3). rewrite F. cbn [dbind].
    split; [reflexivity|]. split; [reflexivity|]. split; [|split; [exact C1|now intros _]].
    cbn [hl_peer]. rewrite plain_none. unfold peer_free, plain_peers. now rewrite map_map.
  - destruct (FR lost' (h_heap d) D8 D1 D2 D3) as (h' & F & C1 & C2 & C3). rewrite F. cbn [dbind].
    split; [reflexivity|]. split; [reflexivity|]. split; [now symmetry|]. split; [exact C1|discriminate].
Qed.
Lemma cli_loop_good c idx now own : forall reads s, CI c own s ->
  shown (h_cli_loop c idx now s reads) = cli_loop c idx now (plain_peers (hl_peer s)) reads
  /\ forall s' o, h_cli_loop c idx now s reads = DOk (s', o) -> CI c own s'.
Proof.
  induction reads as [|m reads IH]; intros s H; cbn [h_cli_loop cli_loop].
  { split; [reflexivity|]. intros s' o E. injection E as <- <-. assumption. }
  destruct (negb _). { split; [reflexivity|]. intros s' o E. injection E as <- <-. assumption. }
  pose proof (cli_step_good c idx now own s m H) as K.
  destruct (h_cli_step c idx now s m) as [[[s1 did] o1]| | | |], (cli_step c idx now (plain_peers (hl_peer s)) m) as [[[p did'] o1']| | | |];
    try contradiction; cbn [dbind shown]; try (now split).
  destruct K as (<- & <- & -> & I1 & _). destruct (did && cl_once c).
  { split; [reflexivity|]. intros s' o E. injection E as <- <-. assumption. }
  destruct (IH s1 I1) as [E1 E2]. rewrite <- E1. destruct (h_cli_loop c idx now s1 reads) as [[s2 o2]| | | |]; cbn [dbind shown]; try (now split).
  split; [reflexivity|]. intros s' o E. injection E as <- <-. now apply (E2 _ o2).
Qed.
Lemma start_good c idx own s : h_cli_start c idx = (own, s) ->
  CI c own s /\ plain_peers (hl_peer s) = no_peers /\ hl_printed s = [] /\ exists a l, own = a :: l
  /\ zlen l = (if zlen idx =? 0 then 0 else 1) + (if cl_mode c =? MODE_HTTP then 1 else 0).
Proof.
  unfold h_cli_start. intros H. destruct (zlen idx =? 0), (cl_mode c =? MODE_HTTP); cbn in H; apply pair_equal_spec in H as [<- <-];
  (split; [split; [reflexivity|]; exists []; split;
     [split; [repeat (constructor; [cbn; intuition lia|]); constructor|split; [unfold strings; cbn|repeat (constructor; [cbn; lia|]); constructor]]
     |split; [reflexivity|vm_compute; discriminate]]
   |split; [reflexivity|]; split; [reflexivity|]; do 2 eexists; split; [reflexivity|reflexivity]]); try apply Permutation_refl.
  apply perm_skip. apply perm_swap.
Qed.
(** ** The statements *)
Theorem same c idx now reads : shown (snd (h_cli_run c idx now reads)) = cli_loop c idx now no_peers reads.
Proof.
  unfold h_cli_run. destruct (h_cli_start c idx) as [own s] eqn:E. destruct (start_good _ _ _ _ E) as (I & P & _ & a & l & -> & _). cbn [snd hd].
  destruct (cli_loop_good c idx now (a :: l) reads s I) as [E1 E2]. rewrite P in E1. rewrite <- E1.
  destruct (h_cli_loop c idx now s reads) as [[s' o]| | | |]; cbn [dbind shown]; try reflexivity.
  destruct (E2 s' o eq_refl) as (_ & lost & U & _).
  assert (U' : in_use (hl_heap s') (a :: strings s' ++ l ++ lost)) by (eapply use_perm; [exact U|]; cbn [app]; symmetry; apply Permutation_middle).
  apply free_use in U' as (h & F & _). rewrite F. reflexivity.
Qed.
Theorem used c idx now reads own s s' o : h_cli_start c idx = (own, s) -> h_cli_loop c idx now s reads = DOk (s', o) ->
  exists lost, client_uses c own s' lost.
Proof.
  intros E L. destruct (start_good _ _ _ _ E) as (I & _). destruct (cli_loop_good c idx now own reads s I) as [_ E2].
  exact (proj2 (E2 s' o L)).
Qed.
Theorem few c idx now reads own s s' o : h_cli_start c idx = (own, s) -> h_cli_loop c idx now s reads = DOk (s', o) ->
  zlen (live (hl_heap s')) <= 11 + headed (hl_printed s') /\ (cl_mode c <> MODE_PRINT -> zlen (live (hl_heap s')) <= 11).
Proof.
  intros E L. destruct (start_good _ _ _ _ E) as (I & _ & _ & a & l & -> & Hl). destruct (cli_loop_good c idx now (a :: l) reads s I) as [_ E2].
  destruct (E2 s' o L) as (H8 & lost & (_ & P & _) & L1 & L2). apply Permutation_length in P.
  assert (Q : zlen (live (hl_heap s')) = zlen (strings s') + (1 + zlen l) + zlen lost).
  { unfold zlen. rewrite P, !app_length. cbn [length]. lia. }
  pose proof (held_short (map (option_map fst) (hl_peer s'))) as S. fold (strings s') in S.
  assert (S8 : zlen (map (option_map (@fst Z (list Z))) (hl_peer s')) = 8) by (unfold zlen; rewrite map_length, H8; reflexivity).
  assert (zlen l <= 2) by (destruct (_ =? 0), (_ =? MODE_HTTP); lia).
  split; [lia|]. intros N. rewrite (L1 N), zlen_nil in Q. lia.
Qed.
Theorem no_strings_left c idx now own s m s' o : length (hl_peer s) = 8%nat -> (exists lost, client_uses c own s lost) ->
  h_cli_step c idx now s m = DOk (s', true, o) -> strings s' = [].
Proof.
  intros H8 U E. pose proof (cli_step_good c idx now own s m (conj H8 U)) as K. rewrite E in K.
  destruct (cli_step _ _ _ _ _) as [[[p did] o']| | | |]; try contradiction. now apply K.
Qed.
Theorem at_end c idx now reads own s' o : h_cli_run c idx now reads = (own, DOk (s', o)) -> exists lost, client_uses c (tl own) s' lost.
Proof.
  unfold h_cli_run. destruct (h_cli_start c idx) as [own0 s] eqn:E. intros H. apply pair_equal_spec in H as [<- H].
  destruct (start_good _ _ _ _ E) as (I & _ & _ & a & l & -> & _). cbn [hd tl] in *.
  destruct (cli_loop_good c idx now (a :: l) reads s I) as [_ E2].
  destruct (h_cli_loop c idx now s reads) as [[s1 o1]| | | |]; cbn [dbind] in H; try discriminate.
  destruct (E2 s1 o1 eq_refl) as (_ & lost & U & L1 & L2).
  assert (U' : in_use (hl_heap s1) (a :: strings s1 ++ l ++ lost)) by (eapply use_perm; [exact U|]; cbn [app]; symmetry; apply Permutation_middle).
  apply free_use in U' as (h & F & U' & _). rewrite F in H. cbn [dbind] in H. injection H as <- <-. exists lost. split; [exact U'|]. now split.
Qed.
