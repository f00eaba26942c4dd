(** Property C83: accepting connections, stopping and the result. *)
From Verif Require Import Bytes Reload Life.

Definition stop_signal (e : levent) : Prop := e = ESignal INT \/ e = ESignal TERM.
Definition listen_failure (e : levent) : Prop := exists i, e = EListen i false.

Section proofs.
(** ** Why Serve ends *)
Definition reason (es : list levent) (st : life) : Prop :=
  (0 < lf_errs st -> Exists listen_failure es) /\
  (lf_queue st = Some INT \/ lf_queue st = Some TERM -> Exists stop_signal es) /\
  (forall err, lf_main st = MStop err \/ lf_main st = MExit err ->
     if err then Exists listen_failure es else Exists stop_signal es).
Lemma reason_step es st e : reason es st -> reason (es ++ [e]) (l_step st e).
Proof.
  intros (H1 & H2 & H3).
  assert (M : forall P, Exists P es -> Exists P (es ++ [e])) by (intros P ?; apply List.Exists_app; auto).
  assert (N : forall P : levent -> Prop, P e -> Exists P (es ++ [e])).
  { intros P HP. apply List.Exists_app. right. by constructor. }
  assert (H1' : 0 < lf_errs st -> Exists listen_failure (es ++ [e])) by auto.
  assert (H2' : lf_queue st = Some INT \/ lf_queue st = Some TERM -> Exists stop_signal (es ++ [e])) by auto.
  assert (H3' : forall err, lf_main st = MStop err \/ lf_main st = MExit err ->
     if err then Exists listen_failure (es ++ [e]) else Exists stop_signal (es ++ [e])).
  { intros err Hm. specialize (H3 err Hm). destruct err; auto. }
  assert (Hsame : reason (es ++ [e]) st) by done.
  clear H1 H2 H3 M. destruct st as [ls errs q t quit cancel fin rl m taken served live]. cbn in H1', H2', H3'.
  destruct e; cbn [l_step].
  - destruct (ls !! i) as [[]|]; try done. destruct ok; [done|]. destruct (errs <? 2); [|done].
    split; [|done]. intros _. apply N. by eexists.
  - destruct (ls !! i) as [[|[]|[]|]|], c; done.
  - destruct (ls !! i) as [[|[]|[]|]|]; done.
  - destruct (ls !! i) as [[|a|a|]|]; try done. by destruct quit.
  - done.
  - destruct q; [done|]. split; [done|]. split; [|done]. cbn [lf_queue]. intros H. apply N.
    destruct H as [[= ->]|[= ->]]; [by left|by right].
  - destruct q as [s|]; [|done]. destruct m as [|err|err].
    + destruct s; (split; [done|]); (split; [by intros [?|?]|]); cbn [lf_main].
      * by intros err [?|?].
      * intros err [[= <-]|?]; [|done]. apply H2'. by left.
      * intros err [[= <-]|?]; [|done]. apply H2'. by right.
    + assert (G : reason (es ++ [ETake]) (mkLife ls errs None t quit cancel fin rl (MExit err) taken served live)).
      { split; [done|]. split; [by intros [?|?]|]. cbn [lf_main]. intros e [?|[= <-]]; [done|]. apply H3'. by left. }
      by destruct s.
    + by destruct s.
  - destruct errs as [|n]; [done|]. destruct m; [|done..]. split; [intros _; apply H1'; lia|]. split; [done|].
    cbn [lf_main]. intros err [[= <-]|?]; [|done]. apply H1'. lia.
  - by destruct m.
  - destruct rl; try done. by destruct t.
  - by destruct rl.
  - destruct rl; try done. by destruct cancel.
  - destruct rl; try done. by destruct (forallb _ _).
  - destruct m as [|err|err]; try done. destruct fin; [|done]. split; [done|]. split; [done|].
    cbn [lf_main]. intros e [?|[= <-]]; [done|]. apply H3'. by left.
Qed.
Lemma reason_run n es : reason es (l_run (life_init n) es).
Proof.
  induction es as [|e es IH] using rev_ind.
  - split; [cbn; lia|]. split; [by intros [?|?]|]. by intros err [?|?].
  - unfold l_run. rewrite foldl_app. by apply reason_step.
Qed.

(** ** Errors of listeners *)
Fixpoint failed (ls : list listener) : nat := match ls with [] => 0 | l :: ls => (match l with LErr => 1 | _ => 0 end) + failed ls end.
Lemma failed_insert ls i l l' : ls !! i = Some l -> l' <> LErr -> l <> LErr -> failed (<[i := l']> ls) = failed ls.
Proof.
  revert i. induction ls as [|x ls IH]; intros [|i] H Hl' Hl; try done; cbn in *.
  - injection H as ->. by destruct l, l'.
  - by rewrite IH.
Qed.
Lemma failed_fail ls i : ls !! i = Some LNew -> failed (<[i := LErr]> ls) = S (failed ls).
Proof.
  revert i. induction ls as [|x ls IH]; intros [|i] H; try done; cbn in *.
  - by injection H as ->.
  - rewrite IH by done. lia.
Qed.
Lemma failed_new ls i : ls !! i = Some LNew -> failed ls < length ls.
Proof.
  revert i. induction ls as [|x ls IH]; intros [|i] H; try done; cbn in *.
  - injection H as ->. clear. assert (failed ls <= length ls); [|lia]. induction ls as [|[]]; cbn; lia.
  - apply IH in H. destruct x; lia.
Qed.
Lemma failed_le ls : failed ls <= length ls.
Proof. induction ls as [|[]]; cbn; lia. Qed.
Definition counted (n : nat) (st : life) : Prop :=
  length (lf_list st) = n /\ lf_errs st <= failed (lf_list st) /\ (lf_main st = MRun -> lf_errs st = failed (lf_list st)).
Lemma counted_step n st e : counted n st -> counted n (l_step st e).
Proof.
  intros Hc. pose proof Hc as (Hn & He & Hm).
  destruct st as [ls errs q t quit cancel fin rl m taken served live]. cbn in Hn, He, Hm.
  assert (K : forall i l l', ls !! i = Some l -> l' <> LErr -> l <> LErr -> forall taken' served' live',
    counted n (mkLife (<[i := l']> ls) errs q t quit cancel fin rl m taken' served' live')).
  { intros i l l' H1 H2 H3 ? ? ?. unfold counted. cbn. rewrite insert_length, (failed_insert ls i l l') by done. done. }
  destruct e; cbn [l_step].
  - destruct (ls !! i) as [[]|] eqn:Ei; try done. destruct ok; [by eapply K|]. destruct (errs <? 2); [|done].
    unfold counted. cbn. rewrite insert_length, (failed_fail _ _ Ei). split; [done|]. split; [lia|]. intros Hr. specialize (Hm Hr). lia.
  - destruct (ls !! i) as [[|[]|[]|]|] eqn:Ei, c; try done; by eapply K.
  - destruct (ls !! i) as [[|[]|[]|]|] eqn:Ei; try done; by eapply K.
  - destruct (ls !! i) as [[|a|a|]|] eqn:Ei; try done. destruct quit; [by eapply K|done].
  - done.
  - by destruct q.
  - destruct q as [[]|], m; try done; unfold counted; cbn; naive_solver.
  - destruct errs as [|k]; [done|]. destruct m; [|done..]. unfold counted. cbn. split; [done|]. split; [lia|done].
  - by destruct m.
  - destruct rl; try done. by destruct t.
  - by destruct rl.
  - destruct rl; try done. by destruct cancel.
  - destruct rl; try done. by destruct (forallb _ _).
  - destruct m; try done. destruct fin; [|done]. unfold counted; cbn; naive_solver.
Qed.
Lemma counted_run n es : counted n (l_run (life_init n) es).
Proof.
  induction es as [|e es IH] using rev_ind.
  - split; [apply replicate_length|]. cbn. split; [lia|]. intros _. induction n; [done|]. cbn. done.
  - unfold l_run. rewrite foldl_app. by apply counted_step.
Qed.

(** ** Connections *)
Definition of_listener (i : nat) (l : list (nat * nat)) : list nat := map snd (List.filter (fun p => p.1 =? i) l).
Definition carried (l : option listener) : list nat :=
  match l with Some (LRun (ACarry c)) | Some (LGone (ACarry c)) => [c] | _ => [] end.
Lemma of_listener_app i l k : of_listener i (l ++ k) = of_listener i l ++ of_listener i k.
Proof. unfold of_listener. by rewrite List.filter_app, map_app. Qed.
Lemma of_one i c : of_listener i [(i, c)] = [c].
Proof. unfold of_listener. cbn. by rewrite Nat.eqb_refl. Qed.
Lemma of_other i j c : i <> j -> of_listener j [(i, c)] = [].
Proof. intros H. unfold of_listener. cbn. by rewrite (proj2 (Nat.eqb_neq i j) H). Qed.
Definition in_order (st : life) : Prop :=
  forall i, of_listener i (lf_taken st) = of_listener i (lf_served st) ++ carried (lf_list st !! i).
Lemma in_order_step st e : in_order st -> in_order (l_step st e).
Proof.
  intros H. destruct st as [ls errs q t quit cancel fin rl m taken served live].
  assert (L : forall i l x j, ls !! i = Some l -> <[i := x]> ls !! j = if i =? j then Some x else ls !! j).
  { intros i l x j Hi. destruct (Nat.eqb_spec i j) as [->|Hne].
    - apply list_lookup_insert. by eapply lookup_lt_Some.
    - by apply list_lookup_insert_ne. }
  assert (K : forall i l x, ls !! i = Some l -> carried (Some x) = carried (Some l) -> forall errs' q' t' quit' cancel' fin' rl' m' live',
    in_order (mkLife (<[i := x]> ls) errs' q' t' quit' cancel' fin' rl' m' taken served live')).
  { intros i l x Hi Hc ? ? ? ? ? ? ? ? ? j. cbn [lf_taken lf_served lf_list]. rewrite (L i l x j Hi). destruct (Nat.eqb_spec i j) as [->|]; [|apply (H j)].
    rewrite Hc, <- Hi. apply (H j). }
  destruct e; cbn [l_step].
  - destruct (ls !! i) as [[]|] eqn:Ei; try done. destruct ok; [by eapply K|]. destruct (errs <? 2); [by eapply K|done].
  - destruct (ls !! i) as [[|[]|[]|]|] eqn:Ei, c; try done; try (by eapply K).
    intros j. cbn [lf_taken lf_served lf_list]. rewrite (L i _ _ j Ei), of_listener_app. specialize (H j). cbn [lf_taken lf_served lf_list] in H. rewrite H.
    destruct (Nat.eqb_spec i j) as [->|Hne].
    + rewrite Ei, of_one. cbn [carried]. by rewrite app_nil_r.
    + rewrite of_other by done. by rewrite app_nil_r.
  - destruct (ls !! i) as [[|[]|[]|]|] eqn:Ei; try done.
    intros j. cbn [lf_taken lf_served lf_list]. rewrite (L i _ _ j Ei), of_listener_app. specialize (H j). cbn [lf_taken lf_served lf_list] in H. rewrite H.
    destruct (Nat.eqb_spec i j) as [->|Hne].
    + rewrite Ei, of_one. cbn [carried]. by rewrite app_nil_r.
    + rewrite of_other by done. by rewrite app_nil_r.
  - destruct (ls !! i) as [[|a|a|]|] eqn:Ei; try done. destruct quit; [|done]. eapply K; [done|]. by destruct a.
  - done.
  - by destruct q.
  - by destruct q as [[]|], m.
  - by destruct errs, m.
  - by destruct m.
  - destruct rl; try done. by destruct t.
  - by destruct rl.
  - destruct rl; try done. by destruct cancel.
  - destruct rl; try done. by destruct (forallb _ _).
  - destruct m; try done. by destruct fin.
Qed.
Lemma in_order_run n es : in_order (l_run (life_init n) es).
Proof.
  induction es as [|e es IH] using rev_ind.
  - intros i. cbn. destruct (replicate n LNew !! i) as [l|] eqn:E; [|done]. apply lookup_replicate_1 in E as [-> _]. done.
  - unfold l_run. rewrite foldl_app. by apply in_order_step.
Qed.
(** A listener that accepts no more. *)
Definition deaf (l : listener) : Prop := l = LRun AEnd \/ exists a, l = LGone a.
Lemma deaf_step i st e l : lf_list st !! i = Some l -> deaf l ->
  (exists l', lf_list (l_step st e) !! i = Some l' /\ deaf l') /\
  of_listener i (lf_served (l_step st e)) = of_listener i (lf_served st).
Proof.
  destruct st as [ls errs q t quit cancel fin rl m taken served live]. cbn [lf_list lf_served]. intros Hi Hd.
  assert (L : forall j l x, ls !! j = Some l -> <[j := x]> ls !! i = if j =? i then Some x else ls !! i).
  { intros j l0 x Hj. destruct (Nat.eqb_spec j i) as [->|Hne].
    - apply list_lookup_insert. by eapply lookup_lt_Some.
    - by apply list_lookup_insert_ne. }
  assert (K : forall j l0 x, ls !! j = Some l0 -> (j = i -> deaf x) -> exists l', <[j := x]> ls !! i = Some l' /\ deaf l').
  { intros j l0 x Hj Hx. rewrite (L j l0 x Hj). destruct (Nat.eqb_spec j i) as [->|]; eauto. }
  assert (Hsame : (exists l', ls !! i = Some l' /\ deaf l') /\ of_listener i served = of_listener i served) by eauto.
  destruct e as [j ok|j c|j|j| | | | | | | | | |]; cbn [l_step].
  - destruct (ls !! j) as [[]|] eqn:Ej; try done.
    assert (j <> i) by (intros ->; rewrite Hi in Ej; injection Ej as ->; by destruct Hd as [?|[? ?]]).
    destruct ok; [cbn; split; [by eapply K|done]|]. destruct (errs <? 2); [cbn; split; [by eapply K|done]|done].
  - destruct (ls !! j) as [[|[]|[]|]|] eqn:Ej, c; try done; cbn; split; try done; eapply K; eauto;
      intros ->; rewrite Hi in Ej; injection Ej as ->; destruct Hd as [?|[? ?]]; try done; unfold deaf; eauto.
  - destruct (ls !! j) as [[|[]|[]|]|] eqn:Ej; try done. cbn [lf_list lf_served].
    assert (j <> i) by (intros ->; rewrite Hi in Ej; injection Ej as ->; by destruct Hd as [?|[? ?]]).
    split; [by eapply K|]. rewrite of_listener_app, of_other by done. by rewrite app_nil_r.
  - destruct (ls !! j) as [[|a|a|]|] eqn:Ej; try done. destruct quit; [|done]. cbn. split; [|done]. eapply K; eauto.
    intros _. right. by eexists.
  - done.
  - by destruct q.
  - by destruct q as [[]|], m.
  - by destruct errs, m.
  - by destruct m.
  - destruct rl; try done. by destruct t.
  - by destruct rl.
  - destruct rl; try done. by destruct cancel.
  - destruct rl; try done. by destruct (forallb _ _).
  - destruct m; try done. by destruct fin.
Qed.
Lemma deaf_run i st es l : lf_list st !! i = Some l -> deaf l ->
  of_listener i (lf_served (l_run st es)) = of_listener i (lf_served st).
Proof.
  revert st l. induction es as [|e es IH]; intros st l Hi Hd; [done|]. cbn [l_run foldl].
  destruct (deaf_step i st e l Hi Hd) as [(l' & Hl' & Hd') Hs]. etransitivity; [by eapply IH|done].
Qed.

(** ** Stopping *)
Definition own (e : levent) : bool :=
  match e with EListen _ _ | EQuit _ | EClose | EReload | EReloaded | EStop | EWait | ELeave | ETake => true | _ => false end.
Definition weigh (l : listener) : nat := match l with LNew => 2 | LRun _ => 1 | _ => 0 end.
Fixpoint weight (ls : list listener) : nat :=
  match ls with [] => 0 | l :: ls => weigh l + weight ls end.
Lemma weight_insert ls i l x : ls !! i = Some l ->
  weight (<[i := x]> ls) + weigh l = weight ls + weigh x.
Proof.
  revert i. induction ls as [|y ls IH]; intros [|i] H; try done.
  - injection H as ->. cbn. lia.
  - change (weigh y + weight (<[i := x]> ls) + weigh l = weigh y + weight ls + weigh x). specialize (IH i H). lia.
Qed.
Definition left (st : life) : nat :=
  weight (lf_list st) + (if lf_quit st then 0 else 1) + (if lf_trigger st then 2 else 0) +
  (match lf_reload st with RIdle => 1 | RBusy => 2 | RGone => 0 end) + (if lf_done st then 0 else 1) +
  (match lf_main st with MExit _ => 0 | _ => 1 end).
Definition stopping (st : life) : Prop := lf_main st <> MRun.
Lemma left_step st e : stopping st ->
  stopping (l_step st e) /\ left (l_step st e) <= left st /\ (own e = true -> l_step st e <> st -> left (l_step st e) < left st).
Proof.
  destruct st as [ls errs q t quit cancel fin rl m taken served live]. unfold stopping. cbn [lf_main]. intros Hm.
  assert (Hsame : m <> MRun /\ left (mkLife ls errs q t quit cancel fin rl m taken served live) <= left (mkLife ls errs q t quit cancel fin rl m taken served live) /\
    (own e = true -> mkLife ls errs q t quit cancel fin rl m taken served live <> mkLife ls errs q t quit cancel fin rl m taken served live ->
     left (mkLife ls errs q t quit cancel fin rl m taken served live) < left (mkLife ls errs q t quit cancel fin rl m taken served live))).
  { split; [done|]. split; [lia|]. by intros _ ?. }
  destruct e; cbn [l_step].
  - destruct (ls !! i) as [[]|] eqn:Ei; try done. destruct ok.
    + split; [done|]. unfold left. cbn. pose proof (weight_insert ls i _ (LRun AWait) Ei). cbn in *. lia.
    + destruct (errs <? 2); [|done]. split; [done|]. unfold left. cbn. pose proof (weight_insert ls i _ LErr Ei). cbn in *. lia.
  - destruct (ls !! i) as [[|[]|[]|]|] eqn:Ei, c; try done; (split; [done|]); unfold left; cbn;
      match goal with |- context [<[i := ?x]> ls] => pose proof (weight_insert ls i _ x Ei) end; cbn in *; (split; [lia|done]).
  - destruct (ls !! i) as [[|[]|[]|]|] eqn:Ei; try done. split; [done|]. unfold left; cbn.
    pose proof (weight_insert ls i _ (LRun AWait) Ei). cbn in *. split; [lia|done].
  - destruct (ls !! i) as [[|a|a|]|] eqn:Ei; try done. destruct quit; [|done]. split; [done|]. unfold left; cbn.
    pose proof (weight_insert ls i _ (LGone a) Ei). cbn in *. lia.
  - split; [done|]. unfold left; cbn. split; [lia|done].
  - destruct q; [done|]. split; [done|]. unfold left; cbn. split; [lia|done].
  - destruct q as [[]|], m; try done; (split; [done|]); unfold left; cbn; lia.
  - by destruct errs, m.
  - destruct m; [done|..]; (split; [done|]); destruct quit; unfold left; cbn; try lia; (split; [lia|]); intros _ []; done.
  - destruct rl; try done. destruct t; [|done]. split; [done|]. unfold left; cbn. lia.
  - destruct rl; try done. split; [done|]. unfold left; cbn. lia.
  - destruct rl; try done. destruct cancel; [|done]. split; [done|]. unfold left; cbn. lia.
  - destruct rl; try done. destruct (forallb _ _); [|done]. split; [done|]. destruct fin; unfold left; cbn; try lia. split; [lia|]. intros _ []; done.
  - destruct m; try done. destruct fin; [|done]. split; [done|]. unfold left; cbn. lia.
Qed.
(** Cancelled while stopping. *)
Definition cancelled (st : life) : Prop := lf_main st <> MRun -> lf_cancel st = true.
Lemma cancelled_step st e : cancelled st -> cancelled (l_step st e).
Proof.
  destruct st as [ls errs q t quit cancel fin rl m taken served live]. unfold cancelled. intros H. cbn [lf_main lf_cancel] in H.
  destruct e; cbn [l_step].
  - destruct (ls !! i) as [[]|]; try done. destruct ok; [done|]. by destruct (errs <? 2).
  - by destruct (ls !! i) as [[|[]|[]|]|], c.
  - by destruct (ls !! i) as [[|[]|[]|]|].
  - destruct (ls !! i) as [[]|]; try done. by destruct quit.
  - done.
  - by destruct q.
  - destruct q as [[]|], m; try done; cbn; intros _; by apply H.
  - by destruct errs, m.
  - by destruct m.
  - destruct rl; try done. by destruct t.
  - by destruct rl.
  - destruct rl; try done. by destruct cancel.
  - destruct rl; try done. by destruct (forallb _ _).
  - destruct m; try done. destruct fin; [|done]. cbn. intros _. by apply H.
Qed.
Lemma cancelled_run n es : cancelled (l_run (life_init n) es).
Proof.
  induction es as [|e es IH] using rev_ind; [by intros []|]. unfold l_run. rewrite foldl_app. by apply cancelled_step.
Qed.
End proofs.

(** C83.  Serve returns an error only if a listener could not be started, and
    without error only after SIGINT or SIGTERM; otherwise it goes on. *)
Theorem C83_result (n : nat) (es : list levent) :
  let st := l_run (life_init n) es in
  (forall err, lf_main st = MStop err \/ lf_main st = MExit err ->
     if err then exists i, In (EListen i false) es else In (ESignal INT) es \/ In (ESignal TERM) es) /\
  ((forall i, ~ In (EListen i false) es) -> ~ In (ESignal INT) es -> ~ In (ESignal TERM) es -> lf_main st = MRun).
Proof.
  intros st.
  assert (H : forall err, lf_main st = MStop err \/ lf_main st = MExit err ->
     if err then exists i, In (EListen i false) es else In (ESignal INT) es \/ In (ESignal TERM) es).
  { intros err Hm. destruct (reason_run n es) as (_ & _ & H). specialize (H err Hm). destruct err.
    - apply List.Exists_exists in H as (x & Hx & i & ->). by exists i.
    - apply List.Exists_exists in H as (x & Hx & [->| ->]); auto. }
  split; [done|]. intros H1 H2 H3. destruct (lf_main st) as [|[]|[]] eqn:E; [done|..].
  - destruct (H true) as [i ?]; [auto|]. by destruct (H1 i).
  - by destruct (H false) as [?|?]; [auto|..].
  - destruct (H true) as [i ?]; [auto|]. by destruct (H1 i).
  - by destruct (H false) as [?|?]; [auto|..].
Qed.
Print Assumptions C83_result.
(** While Serve has no reason to stop, nothing is told to stop: Quit is open, the
    context is not cancelled, every listener that was started listens, and the
    goroutine for reloads is there. *)
Definition unstopped (st : life) : Prop :=
  lf_main st = MRun ->
  lf_quit st = false /\ lf_cancel st = false /\ lf_done st = false /\ lf_reload st <> RGone /\
  forall i a, lf_list st !! i <> Some (LGone a).
Lemma unstopped_step st e : unstopped st -> unstopped (l_step st e).
Proof.
  destruct st as [ls errs q t quit cancel fin rl m taken served live]. unfold unstopped. intros H.
  assert (Hset : m = MRun -> forall i l, (forall a, l <> LGone a) -> forall j a, <[i := l]> ls !! j <> Some (LGone a)).
  { intros Hm i l Hl j a Hj. destruct (decide (i = j)) as [<-|Hne].
    - apply list_lookup_insert_Some in Hj as [(_ & -> & _)|(? & _)]; [by eapply Hl|done].
    - rewrite list_lookup_insert_ne in Hj by done. by eapply (proj2 (proj2 (proj2 (proj2 (H Hm))))). }
  destruct e; cbn [l_step].
  - destruct (ls !! i) as [[]|] eqn:Ei; try done. destruct ok; [|destruct (errs <? 2); [|done]];
      (intros Hm; cbn in Hm; destruct (H Hm) as (H1 & H2 & H3 & H4 & H5); repeat split; [done..|]; cbn [lf_list]; apply Hset; [done|by intros]).
  - destruct (ls !! i) as [[|[]|[]|]|] eqn:Ei, c; try done;
      (intros Hm; cbn in Hm; destruct (H Hm) as (H1 & H2 & H3 & H4 & H5); repeat split; [done..|]; cbn [lf_list]; try (apply Hset; [done|by intros])).
    by destruct (H5 i AWait).
  - destruct (ls !! i) as [[|[]|[]|]|] eqn:Ei; try done.
    intros Hm; cbn in Hm; destruct (H Hm) as (H1 & H2 & H3 & H4 & H5); repeat split; [done..|]; cbn [lf_list]; apply Hset; [done|by intros].
  - destruct (ls !! i) as [[|a|a|]|] eqn:Ei; try done. destruct quit; [|done].
    intros Hm. cbn in Hm. destruct (H Hm) as (H1 & _). done.
  - done.
  - by destruct q.
  - destruct q as [[]|], m; try done.
  - destruct errs, m; done.
  - by destruct m.
  - destruct rl; try done. destruct t; [|done]. intros Hm. cbn in Hm. destruct (H Hm) as (H1 & H2 & H3 & H4 & H5). by repeat split.
  - destruct rl; try done. intros Hm. cbn in Hm. destruct (H Hm) as (H1 & H2 & H3 & H4 & H5). by repeat split.
  - destruct rl; try done. destruct cancel; [|done]. intros Hm. cbn in Hm. destruct (H Hm) as (_ & H2 & _). done.
  - destruct rl; try done. destruct (forallb _ _); [|done]. intros Hm. cbn in Hm. destruct (H Hm) as (_ & _ & _ & H4 & _). done.
  - destruct m; try done. by destruct fin.
Qed.
Theorem C83_runs (n : nat) (es : list levent) :
  let st := l_run (life_init n) es in
  lf_main st = MRun ->
  lf_quit st = false /\ lf_cancel st = false /\ lf_done st = false /\ lf_reload st <> RGone /\
  forall i a, lf_list st !! i <> Some (LGone a).
Proof.
  intros st. unfold st. change (unstopped (l_run (life_init n) es)).
  induction es as [|e es IH] using rev_ind.
  - intros _. repeat split; [done..|]. intros i a H. apply lookup_replicate in H as [? _]. done.
  - unfold l_run. rewrite foldl_app. by apply unstopped_step.
Qed.
Print Assumptions C83_runs.
(** A reload takes a SIGHUP. *)
Theorem C83_hangup (n : nat) (es : list levent) :
  let st := l_run (life_init n) es in
  ~ In (ESignal HUP) es -> lf_trigger st = false /\ lf_reload st <> RBusy.
Proof.
  intros st Hn. assert (G : lf_queue st <> Some HUP /\ lf_trigger st = false /\ lf_reload st <> RBusy); [|by destruct G].
  unfold st. clear st. induction es as [|e es IH] using rev_ind; [done|].
  unfold l_run. rewrite foldl_app. cbn [foldl]. fold (l_run (life_init n) es).
  destruct IH as (Hq & Ht & Hr); [intros Hi; apply Hn, in_app_iff; by left|].
  assert (He : e <> ESignal HUP) by (intros ->; apply Hn, in_app_iff; right; by left).
  destruct (l_run (life_init n) es) as [ls errs q t quit cancel fin rl m taken served live]. cbn [lf_queue lf_trigger lf_reload] in *. subst t.
  destruct e; cbn [l_step]; repeat case_match; subst; cbn [lf_queue lf_trigger lf_reload]; try done; naive_solver.
Qed.
Print Assumptions C83_hangup.
(** With at most two listeners a failure to listen is always reported, and a server
    that has nothing left to take from its channels has noticed it. *)
Theorem C83_failure_noticed (n : nat) (es : list levent) (i : nat) :
  n <= 2 ->
  let st := l_run (life_init n) es in
  (lf_list st !! i = Some LNew -> lf_list (l_step st (EListen i false)) !! i = Some LErr /\
     lf_errs (l_step st (EListen i false)) = S (lf_errs st)) /\
  (lf_list st !! i = Some LErr -> l_step st EFail = st -> lf_main st <> MRun).
Proof.
  intros Hn st. destruct (counted_run n es) as (Hl & He & Hm). fold st in Hl, He, Hm.
  destruct st as [ls errs q t quit cancel fin rl m taken served live]. cbn in Hl, He, Hm. cbn [lf_list lf_main]. split.
  - intros Hi. cbn [l_step]. rewrite Hi. pose proof (failed_new _ _ Hi).
    rewrite (proj2 (Nat.ltb_lt errs 2)) by lia. cbn. split; [|done]. apply list_lookup_insert. by eapply lookup_lt_Some.
  - intros Hi Hs ->. specialize (Hm eq_refl). assert (0 < failed ls).
    { clear -Hi. revert i Hi. induction ls as [|x ls IH]; intros [|i] H; try done; cbn in *; [by injection H as ->; lia|].
      apply IH in H. lia. }
    destruct errs as [|k]; [lia|]. discriminate Hs.
Qed.
Print Assumptions C83_failure_noticed.
(** Connections are handled in the order they were accepted, each once; at most one
    per listener has been accepted and not been handled. *)
Theorem C83_connections (n : nat) (es : list levent) (i : nat) :
  let st := l_run (life_init n) es in
  exists rest, of_listener i (lf_taken st) = of_listener i (lf_served st) ++ rest /\ length rest <= 1 /\
    (forall c, rest = [c] <-> lf_list st !! i = Some (LRun (ACarry c)) \/ lf_list st !! i = Some (LGone (ACarry c))).
Proof.
  intros st. exists (carried (lf_list st !! i)). split; [apply in_order_run|].
  destruct (lf_list st !! i) as [[|[]|[]|]|]; cbn; (split; [lia|]); intros c; (split; [intros H; by simplify_eq; auto|intros [H|H]; by simplify_eq]).
Qed.
Print Assumptions C83_connections.
(** A connection that was accepted before the listener stops can be handled next,
    whatever the other parts of the server do. *)
Theorem C83_hand (st : life) (i c : nat) :
  lf_list st !! i = Some (LRun (ACarry c)) ->
  lf_served (l_step st (EHand i)) = lf_served st ++ [(i, c)] /\
  lf_list (l_step st (EHand i)) !! i = Some (LRun AWait) /\
  (forall j, j <> i -> lf_list (l_step st (EHand i)) !! j = lf_list st !! j).
Proof.
  destruct st as [ls errs q t quit cancel fin rl m taken served live]. cbn [lf_list]. intros Hi. cbn [l_step]. rewrite Hi. cbn.
  split; [done|]. split; [apply list_lookup_insert; by eapply lookup_lt_Some|]. intros j Hj. by apply list_lookup_insert_ne.
Qed.
Print Assumptions C83_hand.
(** One error of Accept: that listener never handles a connection again ... *)
Theorem C83_accept_error (st : life) (i : nat) (more : list levent) :
  lf_list st !! i = Some (LRun AWait) ->
  let st' := l_run (l_step st (EAccept i None)) more in
  of_listener i (lf_served st') = of_listener i (lf_served st).
Proof.
  intros Hi st'. unfold st'.
  assert (H : lf_list (l_step st (EAccept i None)) !! i = Some (LRun AEnd) /\ lf_served (l_step st (EAccept i None)) = lf_served st).
  { destruct st as [ls errs q t quit cancel fin rl m taken served live]. cbn [lf_list] in Hi. cbn [l_step]. rewrite Hi. cbn.
    split; [|done]. apply list_lookup_insert. by eapply lookup_lt_Some. }
  destruct H as [H1 <-]. eapply deaf_run; [exact H1|by left].
Qed.
Print Assumptions C83_accept_error.
(** ... and so does one that has seen Quit. *)
Theorem C83_stopped (st : life) (i : nat) (a : acceptor) (more : list levent) :
  lf_list st !! i = Some (LGone a) -> of_listener i (lf_served (l_run st more)) = of_listener i (lf_served st).
Proof. intros H. eapply deaf_run; [exact H|]. right. by eexists. Qed.
Print Assumptions C83_stopped.
(** Stopping cannot get stuck: while Serve waits for the end, some step of the server
    itself is possible ... *)
Theorem C83_shutdown_moves (n : nat) (es : list levent) (err : bool) :
  let st := l_run (life_init n) es in
  lf_main st = MStop err ->
  exists e, own e = true /\ l_step st e <> st.
Proof.
  intros st Hm. pose proof (cancelled_run n es) as Hc. fold st in Hc.
  unfold cancelled in Hc. rewrite Hm in Hc. specialize (Hc ltac:(done)).
  destruct st as [ls errs q t quit cancel fin rl m taken served live]. cbn in Hm, Hc. subst m cancel.
  destruct quit.
  2:{ exists EClose. split; [done|]. cbn. congruence. }
  destruct (decide (Exists (fun l => listener_done l = false) ls)) as [Hex|Hall].
  - apply Exists_exists in Hex as (l & Hin & Hd). apply elem_of_list_lookup in Hin as [i Hi].
    assert (Hne : forall x, x <> l -> <[i := x]> ls <> ls).
    { intros x Hx Heq. assert (H : <[i := x]> ls !! i = Some x) by (apply list_lookup_insert; by eapply lookup_lt_Some). congruence. }
    destruct l as [|a|a|]; try done.
    + exists (EListen i true). split; [done|]. cbn [l_step]. rewrite Hi. intros [= Heq]. by eapply (Hne (LRun AWait)).
    + exists (EQuit i). split; [done|]. cbn [l_step]. rewrite Hi. intros [= Heq]. by eapply (Hne (LGone a)).
  - assert (Hf : forallb listener_done ls = true).
    { apply forallb_forall. intros l Hl. destruct (listener_done l) eqn:E; [done|]. destruct Hall. apply Exists_exists.
      exists l. split; [by apply elem_of_list_In|done]. }
    destruct rl.
    + exists EStop. split; [done|]. cbn. congruence.
    + exists EReloaded. split; [done|]. cbn. congruence.
    + destruct fin.
      * exists ELeave. split; [done|]. cbn. congruence.
      * exists EWait. split; [done|]. cbn [l_step]. rewrite Hf. congruence.
Qed.
Print Assumptions C83_shutdown_moves.
(** ... and only finitely many such steps change anything, whatever clients and
    signals do in between. *)
Fixpoint own_changes (st : life) (es : list levent) (k : nat) : Prop :=
  match es with
  | [] => k = 0
  | e :: es =>
      (own e = true /\ l_step st e <> st /\ exists k', k = S k' /\ own_changes (l_step st e) es k') \/
      ((own e = false \/ l_step st e = st) /\ own_changes (l_step st e) es k)
  end.
Theorem C83_shutdown_ends (n : nat) (before after : list levent) (k : nat) :
  let st := l_run (life_init n) before in
  lf_main st <> MRun -> own_changes st after k -> k <= 2 * n + 7.
Proof.
  intros st Hm Hk.
  assert (Hb : forall es st k, stopping st -> own_changes st es k -> k <= left st).
  { clear. induction es as [|e es IH]; intros st k Hs Hk; cbn in Hk; [lia|].
    destruct (left_step st e Hs) as (Hs' & Hle & Hlt).
    destruct Hk as [(Ho & Hne & k' & -> & Hk)|[_ Hk]].
    - specialize (IH _ _ Hs' Hk). specialize (Hlt Ho Hne). lia.
    - specialize (IH _ _ Hs' Hk). lia. }
  specialize (Hb _ _ _ Hm Hk).
  destruct (counted_run n before) as (Hl & _). fold st in Hl.
  assert (Hw : weight (lf_list st) <= 2 * n).
  { rewrite <- Hl. generalize (lf_list st). clear. induction l as [|[] l IH]; cbn in *; lia. }
  unfold left in Hb. destruct (lf_quit st), (lf_trigger st), (lf_reload st), (lf_done st), (lf_main st); lia.
Qed.
Print Assumptions C83_shutdown_ends.
(** The exit code of the command. *)
Theorem C83_exit_code (tls conf served : bool) :
  (exit_code tls conf served = 0 <-> tls = true /\ conf = true /\ served = true) /\
  (exit_code tls conf served = 64 <-> tls = true /\ conf = false) /\
  (exit_code tls conf served = 1 <-> tls = false \/ (conf = true /\ served = false)).
Proof. destruct tls, conf, served; cbn; intuition congruence. Qed.
Print Assumptions C83_exit_code.

(** Two listeners; the second cannot listen; a connection is handled; Serve reports
    the error and stops. *)
Example C83_case :
  let st := l_run (life_init 2) [EListen 0 true; EAccept 0 (Some 7); EHand 0; EAccept 0 (Some 8); EListen 1 false] in
  lf_list st = [LRun (ACarry 8); LErr] /\ lf_served st = [(0, 7)] /\ lf_taken st = [(0, 7); (0, 8)] /\
  let st' := l_run st [EFail; EHand 0; EClose; EQuit 0; EStop; EWait; ELeave] in
  lf_main st' = MExit true /\ lf_served st' = [(0, 7); (0, 8)] /\
  lf_main (l_run st [EFail; EClose]) = MStop true.
Proof. repeat split. Qed.

(** A stopped server has not always handled the connections it accepted, and
    "shutdown complete" does not mean that requests under way are done. *)
Theorem C83_unhandled_refuted : exists es,
  let st := l_run (life_init 1) es in
  lf_main st = MExit false /\ lf_done st = true /\
  of_listener 0 (lf_taken st) <> of_listener 0 (lf_served st) /\ lf_live st <> [].
Proof.
  exists [EListen 0 true; EAccept 0 (Some 1); EHand 0; EAccept 0 (Some 2); ESignal TERM; ETake; EClose; EQuit 0; EStop; EWait; ELeave].
  vm_compute. repeat split; discriminate.
Qed.
Print Assumptions C83_unhandled_refuted.
(** SIGHUP while stopping does not reload: it makes Serve return at once, with
    listeners still accepting and a reload still running. *)
Theorem C83_hangup_refuted : exists es,
  let st := l_run (life_init 1) es in
  In (ESignal HUP) es /\ lf_main st = MExit false /\ lf_done st = false /\ lf_reload st = RBusy /\ lf_list st = [LRun AWait].
Proof.
  exists [EListen 0 true; ESignal HUP; ETake; EReload; ESignal TERM; ETake; ESignal HUP; ETake].
  vm_compute. repeat split; auto.
Qed.
Print Assumptions C83_hangup_refuted.
(** After an error of Accept the server runs on, with no listener that accepts. *)
Theorem C83_deaf_refuted : exists es,
  let st := l_run (life_init 1) es in
  lf_main st = MRun /\ lf_list st = [LRun AEnd] /\
  forall more, (forall i, ~ In (EListen i false) more) -> ~ In (ESignal INT) more -> ~ In (ESignal TERM) more ->
    lf_main (l_run st more) = MRun /\ lf_served (l_run st more) = [].
Proof.
  exists [EListen 0 true; EAccept 0 None]. split; [done|]. split; [done|]. intros more H1 H2 H3. split.
  - change (l_run (l_run (life_init 1) [EListen 0 true; EAccept 0 None]) more) with (l_run (life_init 1) ([EListen 0 true; EAccept 0 None] ++ more)).
    apply (C83_result 1); cbn; intuition; try discriminate. by eapply H1.
  - set (st := l_run (life_init 1) [EListen 0 true; EAccept 0 None]).
    assert (Hs : lf_served st = []) by done. assert (Hl : exists l, lf_list st = [l] /\ deaf l).
    { exists (LRun AEnd). split; [done|by left]. }
    clearbody st. clear H1 H2 H3. revert st Hs Hl. induction more as [|e more IH]; intros st Hs (l & Hl & Hd); [done|].
    cbn [l_run foldl].
    assert (G : lf_served (l_step st e) = [] /\ exists l', lf_list (l_step st e) = [l'] /\ deaf l').
    { destruct st as [ls errs q t quit cancel fin rl m taken served live]. cbn [lf_list lf_served] in Hs, Hl. subst ls served.
      assert (Hsame : (@nil (nat * nat)) = [] /\ exists l', [l] = [l'] /\ deaf l') by eauto.
      destruct e as [j ok|j c|j|j| | | | | | | | | |]; cbn [l_step].
      - destruct j as [|j]; [|by destruct j]. cbn. destruct Hd as [->|[a ->]]; eauto.
      - destruct j as [|j]; [|by destruct j]. cbn. destruct Hd as [->|[a ->]]; [destruct c; eauto|]. destruct a, c; cbn; split; eauto; eexists; (split; [done|]); right; eauto.
      - destruct j as [|j]; [|by destruct j]. cbn. destruct Hd as [->|[a ->]]; eauto.
      - destruct j as [|j]; [|by destruct j]. cbn. destruct Hd as [->|[a ->]]; [|done]. destruct quit; cbn; [|done]. split; [done|]. eexists. split; [done|]. right; eauto.
      - done.
      - by destruct q.
      - by destruct q as [[]|], m.
      - by destruct errs, m.
      - by destruct m.
      - destruct rl; try done. by destruct t.
      - by destruct rl.
      - destruct rl; try done. by destruct cancel.
      - destruct rl; try done. by destruct (forallb _ _).
      - destruct m; try done. by destruct fin. }
    destruct G as [G1 G2]. by apply IH.
Qed.
Print Assumptions C83_deaf_refuted.
