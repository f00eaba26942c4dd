(** C54, C63: connection statistics under all schedules. *)
From Verif Require Import Bytes Stats StatsProofs.

(** The number of calls of one kind. *)
Definition how_many (c : call) (l : list call) : Z := Z.of_nat (length (bfilter (fun x => bool_decide (x = c)) l)).
Definition at_rest (st : sstate) : Prop := forall k t, ss_threads st !! k = Some t -> th_prog t = [].

Lemma at_rest_writes st : at_rest st -> collect to_write (ss_threads st) = [].
Proof.
  intros H. destruct (collect to_write (ss_threads st)) as [|c l] eqn:E; [done|].
  assert (Hin : c ∈ collect to_write (ss_threads st)) by (rewrite E; left).
  apply collect_elem in Hin as (k & t & Hk & Ht). unfold to_write in Ht. by rewrite (H _ _ Hk) in Ht.
Qed.
Lemma number_perm c l l' : l ≡ₚ l' -> number c l = number c l'.
Proof.
  intros H. unfold number. f_equal. induction H; cbn; try done; repeat (destruct (bool_decide _); cbn); lia.
Qed.
Lemma number_writes c l : writes c = true -> number c (bfilter writes l) = number c l.
Proof.
  intros Hc. unfold number. f_equal. induction l as [|x l IH]; cbn; [done|].
  destruct (writes x) eqn:Ex; cbn; [|rewrite (bool_decide_false (x = c)) by congruence; done].
  destruct (bool_decide (x = c)); cbn; lia.
Qed.

(** C54: whatever the schedule, once no goroutine is inside a call, each counter is
    the number of calls made (as a uint64) and the current number of connections is
    opens minus closes.  No lost updates. *)
Theorem C54_exact : forall es,
  let st := s_run s_init es in let l := s_calls s_init es in let s := ss_stats st in
  at_rest st ->
  s_conns s = u64 (how_many COpen l) /\ s_current s = u64 (how_many COpen l - how_many CClose l) /\
  s_adds s = u64 (how_many CAdd l) /\ s_binds s = u64 (how_many CBind l) /\ s_deletes s = u64 (how_many CDelete l) /\
  s_moddns s = u64 (how_many CModDN l) /\ s_modifies s = u64 (how_many CModify l) /\
  s_unbinds s = u64 (how_many CUnbind l) /\ s_searches s = u64 (how_many CSearch l).
Proof.
  intros es st l s Hr. destruct (inv_run s_init es inv_init) as (_ & Hs & Hp).
  fold st in Hp, Hs. rewrite (at_rest_writes st Hr) in Hp. cbn [collect s_init ss_threads] in Hp.
  assert (Hp' : bfilter writes l ≡ₚ s_done s_init es) by (unfold collect in Hp; rewrite map_to_list_empty in Hp; cbn in Hp; by rewrite !app_nil_r in Hp).
  assert (Hn : forall c, writes c = true -> number c (s_done s_init es) = number c l).
  { intros c Hc. by rewrite <- (number_perm c _ _ Hp'), number_writes. }
  pose proof (counters (s_done s_init es)) as Hc. cbn zeta in Hc. change stats0 with (ss_stats s_init) in Hc. rewrite <- Hs in Hc.
  fold s in Hc. rewrite !Hn in Hc by done. exact Hc.
Qed.
Print Assumptions C54_exact.

(** At any moment, in calls or not, the counters are those of the calls that have
    written, in the order of writing; and a call not yet counted is still running. *)
Theorem C54_linear : forall es,
  ss_stats (s_run s_init es) = foldl (fun s c => count c s) stats0 (s_done s_init es) /\
  (forall c, writes c = true -> (how_many c (s_done s_init es) <= how_many c (s_calls s_init es))%Z) /\
  (forall c, writes c = true -> (how_many c (s_done s_init es) < how_many c (s_calls s_init es))%Z ->
     exists k t, ss_threads (s_run s_init es) !! k = Some t /\ th_call t = c /\ th_prog t <> []).
Proof.
  intros es. destruct (inv_run s_init es inv_init) as (_ & Hs & Hp). split; [done|].
  assert (Hp' : bfilter writes (s_calls s_init es) ≡ₚ s_done s_init es ++ collect to_write (ss_threads (s_run s_init es)))
    by (unfold collect in Hp at 1; cbn [s_init ss_threads] in Hp; rewrite map_to_list_empty in Hp; cbn in Hp; by rewrite app_nil_r in Hp).
  assert (Hn : forall c, writes c = true -> how_many c (s_calls s_init es) =
     (how_many c (s_done s_init es) + number c (collect to_write (ss_threads (s_run s_init es))))%Z).
  { intros c Hc. change how_many with number. rewrite <- (number_writes c (s_calls s_init es) Hc), (number_perm c _ _ Hp').
    unfold number. rewrite List.filter_app, app_length. lia. }
  split; intros c Hc; rewrite (Hn c Hc).
  - unfold number. lia.
  - intros Hlt. destruct (bfilter (fun x => bool_decide (x = c)) (collect to_write (ss_threads (s_run s_init es)))) as [|y l] eqn:E.
    { unfold number in Hlt. rewrite E in Hlt. cbn in Hlt. lia. }
    assert (Hin : In y (bfilter (fun x => bool_decide (x = c)) (collect to_write (ss_threads (s_run s_init es))))) by (rewrite E; by left).
    apply filter_In in Hin as [Hin Hy]. apply bool_decide_eq_true in Hy as ->. apply elem_of_list_In, collect_elem in Hin as (k & t & Hk & Ht).
    exists k, t. unfold to_write in Ht. destruct (th_prog t) as [|i [|j p]]; try done. destruct (writes (th_call t)); [|done]. by inversion Ht.
Qed.
Print Assumptions C54_linear.

(** Clone reads one state: while a goroutine holds the read lock nothing changes. *)
Theorem C54_snapshot : forall es k t e,
  let st := s_run s_init es in
  ss_threads st !! k = Some t -> th_call t = CClone -> th_prog t = [IRead; IRUnlock] \/ th_prog t = [IRUnlock] ->
  ss_stats (s_step st e) = ss_stats st.
Proof.
  intros es k t e st Hk Hc Hp. apply (reader_step st k t); [apply (inv_run s_init es inv_init)|done|].
  unfold holds_r. rewrite Hc. by destruct Hp as [-> | ->].
Qed.
Print Assumptions C54_snapshot.

(** Without adds the mutex never blocks for good: while some call is unfinished a
    goroutine can take a step, steps only ever shorten the work left, and there is a
    schedule in which everything finishes. *)
Theorem C54_completes : forall es,
  let st := s_run s_init es in
  CAdd ∉ s_calls s_init es ->
  (forall k, s_step st (SRun k) = st \/ left st = S (left (s_step st (SRun k)))) /\
  (at_rest st \/ exists k, left st = S (left (s_step st (SRun k)))) /\
  (exists ks, at_rest (s_run st (map SRun ks))).
Proof.
  intros es st Ha. pose proof (proj1 (inv_run s_init es inv_init)) as Hi. fold st in Hi.
  assert (Hn : no_adds st).
  { intros k t Hk Hc. destruct (calls_run s_init es k t Hk) as [H|(k' & t' & Hl & _)]; [by rewrite Hc in H|].
    cbn in Hl. by rewrite lookup_empty in Hl. }
  assert (Hsome : at_rest st \/ exists k, left st = S (left (s_step st (SRun k)))).
  { destruct (decide (left st = 0)) as [E|E]; [left; exact (left_zero st E)|right]. by apply some_step. }
  split; [intros k; apply left_run|]. split; [done|]. clear Hsome Ha. clearbody st.
  remember (left st) as n eqn:En. revert st Hi Hn En. induction n as [|n IH]; intros st Hi Hn En.
  - exists []. exact (left_zero st (eq_sym En)).
  - destruct (some_step st Hi Hn ltac:(lia)) as [k Hk].
    assert (Hn' : no_adds (s_step st (SRun k))).
    { intros j t Hj. destruct (calls_run st [SRun k] j t Hj) as [H|(j' & t' & Hl & <-)]; [by apply elem_of_nil in H|by eapply Hn]. }
    destruct (IH (s_step st (SRun k)) (proj1 (inv_step st _ Hi)) Hn' ltac:(lia)) as [ks Hks].
    by exists (k :: ks).
Qed.
Print Assumptions C54_completes.

(** The maximum kept inside: the largest number of connections open at once, if
    closes never outnumber opens. *)
Theorem C63_kept : forall es,
  let l := s_done s_init es in let mx := s_max (ss_stats (s_run s_init es)) in
  (forall p, p `prefix_of` l -> (0 <= how_many COpen p - how_many CClose p < 2 ^ 64)%Z) ->
  (forall p, p `prefix_of` l -> (how_many COpen p - how_many CClose p <= mx)%Z) /\
  (exists p, p `prefix_of` l /\ mx = (how_many COpen p - how_many CClose p)%Z).
Proof.
  intros es l mx H. unfold mx. destruct (inv_run s_init es inv_init) as (_ & -> & _). exact (maximum l H).
Qed.
Print Assumptions C63_kept.
(** What is reported (metrics.go:88-125 through Clone): always zero. *)
Theorem C63_reported : forall es, s_max (clone (ss_stats (s_run s_init es))) = 0%Z.
Proof. intros es. by destruct (ss_stats _). Qed.
Print Assumptions C63_reported.
(** Everything else is reported as counted. *)
Theorem C63_rest : forall s,
  let c := clone s in
  s_conns c = s_conns s /\ s_current c = s_current s /\ s_adds c = s_adds s /\ s_binds c = s_binds s /\ s_deletes c = s_deletes s /\
  s_moddns c = s_moddns s /\ s_modifies c = s_modifies s /\ s_unbinds c = s_unbinds s /\ s_searches c = s_searches s.
Proof. by intros []. Qed.
Print Assumptions C63_rest.

(** An add: once it has counted, it waits for the mutex it holds itself.  From then on,
    whatever else happens, no counter changes, and no call in progress or entered later
    gets past its first step, Clone included. *)
Theorem C54_add_blocks : forall es k x es',
  let st := s_run s_init es in let st' := s_run st es' in
  ss_threads st !! k = Some (mkThr CAdd [ILock] x) ->
  ss_stats st' = ss_stats st /\ s_done st es' = [] /\
  (forall j t, ss_threads st !! j = Some t -> th_prog t <> [] -> ss_threads st' !! j = Some t) /\
  (forall j c y es'', ss_threads st' !! j = Some (mkThr c (program c) y) ->
     ss_threads (s_run st' es'') !! j = Some (mkThr c (program c) y)).
Proof.
  intros es k x es' st st' Hk. pose proof (proj1 (inv_run s_init es inv_init)) as Hi. fold st in Hi.
  destruct (stuck_run st k x es' Hi Hk) as (H1 & H2 & H3). split; [done|]. split; [done|]. split; [done|].
  intros j c y es'' Hj. apply (stuck_run st' k x es''); [apply inv_run, Hi|apply H3; done|done|by destruct c].
Qed.
Print Assumptions C54_add_blocks.
(** And every add that gets the mutex comes to that point by its own steps: an add that
    is let run when nobody holds the mutex is stuck after three steps. *)
Theorem C54_add_gets_there : forall st k x,
  ss_threads st !! k = Some (mkThr CAdd (program CAdd) x) -> ss_writer st = false -> ss_nreaders st = 0 ->
  ss_threads (s_run st [SRun k; SRun k; SRun k]) !! k = Some (mkThr CAdd [ILock] (ss_stats st)).
Proof.
  intros st k x Hk Hw Hr. cbn [s_run foldl s_step]. rewrite Hk. cbn. rewrite Hw, Hr. cbn.
  rewrite lookup_insert. cbn. rewrite lookup_insert. cbn. by rewrite lookup_insert.
Qed.
Print Assumptions C54_add_gets_there.

(** Two connections, a bind and a search interleaved step by step with a Clone waiting. *)
Definition busy : list sevent :=
  [SCall 0 COpen; SRun 0; SCall 1 CBind; SRun 1; SRun 0; SRun 0; SRun 0; SCall 0 COpen; SCall 2 CClone;
   SRun 0; SRun 1; SRun 2; SRun 0; SRun 0; SRun 1; SRun 0; SRun 1; SRun 1; SRun 1; SRun 1; SRun 2; SRun 2; SRun 2;
   SCall 1 CSearch; SRun 1; SRun 1; SRun 1; SRun 1; SCall 3 CClose; SRun 3; SRun 3; SRun 3; SRun 3].
Example C54_case :
  let st := s_run s_init busy in
  ss_stats st = mkStats 2 1 2 0 1 0 0 0 0 1 /\ map th_prog (collect Some (ss_threads st)) = [[]; []; []; []] /\
  s_calls s_init busy = [COpen; CBind; COpen; CClone; CSearch; CClose].
Proof. by vm_compute. Qed.
(** The first add of a server with metrics on, with a new connection coming in. *)
Example C54_add_case :
  let es := [SCall 0 COpen; SRun 0; SRun 0; SRun 0; SRun 0; SCall 1 CAdd; SRun 1; SRun 1; SRun 1; SCall 0 COpen; SRun 1; SRun 0] in
  let st := s_run s_init es in
  ss_stats st = mkStats 1 1 1 1 0 0 0 0 0 0 /\
  map th_prog (collect Some (ss_threads st)) = [[ILock; IRead; IWrite; IUnlock]; [ILock]] /\
  ss_stats (s_run st (map SRun [0; 1; 0; 1; 0; 1])) = mkStats 1 1 1 1 0 0 0 0 0 0.
Proof. by vm_compute. Qed.
Example C63_case :
  s_max (ss_stats (s_run s_init busy)) = 2%Z /\ s_max (clone (ss_stats (s_run s_init busy))) = 0%Z.
Proof. by vm_compute. Qed.
