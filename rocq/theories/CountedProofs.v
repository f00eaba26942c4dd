(** Proofs about Counted.v. *)
From Verif Require Import Bytes Text Dn Res Entry Password Db Packet Filter Handler Server.
From Verif Require Stats StatsProofs P_Stats.
From Verif Require Import Conns Counted.

(** * The statistics alone *)
Section stats.
Import Stats StatsProofs P_Stats.
Lemma s_run_app st es es' : s_run st (es ++ es') = s_run (s_run st es) es'.
Proof. apply foldl_app. Qed.
Lemma s_calls_app st es es' : s_calls st (es ++ es') = s_calls st es ++ s_calls (s_run st es) es'.
Proof.
  revert st. induction es as [|e es IH]; intros st; [done|]. cbn [Datatypes.app]. rewrite !s_calls_cons, IH, app_assoc. done.
Qed.
(** A call that counts an add never returns. *)
Definition adding (st : sstate) (t : nat) : Prop :=
  exists x, ss_threads st !! t = Some x /\ th_call x = CAdd /\ th_prog x <> [].
Lemma adding_step st t e : inv st -> adding st t -> adding (s_step st e) t.
Proof.
  intros Hi (x & Hx & Hc & Hp). destruct x as [c p y]. cbn [th_call th_prog] in *. subst c.
  destruct e as [j c|j]; cbn [s_step].
  - destruct (decide (j = t)) as [->|Hne].
    + rewrite Hx. destruct p as [|i p]; [done|]. by exists (mkThr CAdd (i :: p) y).
    + destruct (ss_threads st !! j) as [[c' [|i q] z]|]; eexists; (split; [cbn [ss_threads]; try (rewrite lookup_insert_ne by done); exact Hx|done]).
  - destruct (decide (j = t)) as [->|Hne].
    + destruct (iv_prog st Hi _ _ Hx) as [n Hd]. cbn [th_prog th_call program] in Hd.
      assert (Hn : p = [ILock; IRead; IWrite; ILock] \/ p = [IRead; IWrite; ILock] \/ p = [IWrite; ILock] \/ p = [ILock]).
      { destruct n as [|[|[|[|n]]]]; cbn in Hd; try tauto. by destruct n. }
      destruct Hn as [->|[->|[->| ->]]].
      4:{ destruct (stuck_step st t y (SRun t) Hi Hx) as (_ & _ & H). specialize (H t _ Hx ltac:(done)). cbn [s_step] in H. by eexists. }
      all: unfold adding; rewrite Hx; try (destruct (_ || _); [by eexists|]); cbn [ss_threads]; rewrite lookup_insert; by eexists.
    + destruct (ss_threads st !! j) as [[c' [|i q] z]|] eqn:Ej; [by eexists| |by eexists].
      destruct i; try (destruct (_ || _); [by eexists|]); try (destruct (ss_writer st); [by eexists|]);
        unfold adding; cbn [ss_threads]; rewrite lookup_insert_ne by done; by eexists.
Qed.
Lemma adding_run st es t : inv st -> adding st t -> adding (s_run st es) t.
Proof.
  revert st. induction es as [|e es IH]; intros st Hi Ha; [done|]. cbn [s_run foldl]. apply IH; [by apply inv_step|by apply adding_step].
Qed.
(** A thread that reads the counters has read them as they were at some moment. *)
Lemma copy_read es t x : ss_threads (s_run s_init es) !! t = Some x -> th_call x = CClone ->
  length (th_prog x) <= 1 -> exists es1 es2, es = es1 ++ es2 /\ th_copy x = ss_stats (s_run s_init es1).
Proof.
  revert x. induction es as [|e es IH] using rev_ind; intros x Hx Hc Hl; [cbn in Hx; by rewrite lookup_empty in Hx|].
  rewrite s_run_app in Hx. cbn [s_run foldl] in Hx. fold (s_run s_init es) in Hx.
  pose proof (inv_run s_init es inv_init) as [Hi _].
  assert (Hold : forall y, ss_threads (s_run s_init es) !! t = Some y -> th_call y = CClone -> length (th_prog y) <= 1 -> th_copy y = th_copy x ->
    exists es1 es2, es ++ [e] = es1 ++ es2 /\ th_copy x = ss_stats (s_run s_init es1)).
  { intros y Hy Hyc Hyl <-. destruct (IH y Hy Hyc Hyl) as (es1 & es2 & -> & H). exists es1, (es2 ++ [e]). by rewrite <- app_assoc. }
  set (st := s_run s_init es) in *.
  destruct e as [j c|j]; cbn [s_step] in Hx.
  - destruct (ss_threads st !! j) as [[c' [|i q] z]|] eqn:Ej; [|by eapply Hold|];
      cbn [ss_threads] in Hx; apply lookup_insert_Some in Hx as [[<- <-]|[Hne Hx]]; try (by eapply Hold);
      cbn [th_prog th_call] in *; subst c; cbn in Hl; lia.
  - destruct (ss_threads st !! j) as [[c [|i p] z]|] eqn:Ej; [by eapply Hold| |by eapply Hold].
    pose proof (iv_prog st Hi _ _ Ej) as Hd. cbn [th_prog th_call] in Hd.
    destruct (decide (j = t)) as [->|Hne].
    + assert (Hcase : c = CClone -> i :: p = [IRLock; IRead; IRUnlock] \/ i :: p = [IRead; IRUnlock] \/ i :: p = [IRUnlock]).
      { intros ->. destruct Hd as [n Hd]. rewrite Hd. cbn in Hd. destruct n as [|[|[|n]]]; cbn in Hd |- *; try tauto. by destruct n. }
      assert (Hnow : c = CClone).
      { destruct i; try (destruct (_ || _)); try (destruct (ss_writer st)); cbn [ss_threads] in Hx;
          first [rewrite lookup_insert in Hx|rewrite Ej in Hx]; injection Hx as <-; exact Hc. }
      destruct (Hcase Hnow) as [E|[E|E]]; injection E as -> ->.
      * destruct (ss_writer st); cbn [ss_threads] in Hx; first [rewrite lookup_insert in Hx|rewrite Ej in Hx]; injection Hx as <-; cbn in Hl; lia.
      * cbn [ss_threads] in Hx. rewrite lookup_insert in Hx. injection Hx as <-. exists es, [SRun t]. done.
      * cbn [ss_threads] in Hx. rewrite lookup_insert in Hx. injection Hx as <-. eapply Hold; [exact Ej|done|cbn; lia|done].
    + destruct i; try (destruct (_ || _)); try (destruct (ss_writer st)); cbn [ss_threads] in Hx;
        try (rewrite lookup_insert_ne in Hx by done); by eapply Hold.
Qed.
(** What a thread does, it was called to do. *)
Lemma call_made es t x : ss_threads (s_run s_init es) !! t = Some x -> SCall t (th_call x) ∈ es.
Proof.
  revert x. induction es as [|e es IH] using rev_ind; intros x Hx; [cbn in Hx; by rewrite lookup_empty in Hx|].
  rewrite s_run_app in Hx. cbn [s_run foldl] in Hx. fold (s_run s_init es) in Hx. apply elem_of_app. set (st := s_run s_init es) in *.
  assert (Hold : forall y, ss_threads st !! t = Some y -> th_call y = th_call x -> SCall t (th_call x) ∈ es \/ SCall t (th_call x) ∈ [e]).
  { intros y Hy <-. left. by apply IH. }
  destruct e as [j c|j]; cbn [s_step] in Hx.
  - destruct (ss_threads st !! j) as [[c' [|i q] z]|] eqn:Ej; [|by eapply Hold|];
      cbn [ss_threads] in Hx; apply lookup_insert_Some in Hx as [[<- <-]|[Hne Hx]]; try (by eapply Hold); right; by left.
  - destruct (ss_threads st !! j) as [[c [|i p] z]|] eqn:Ej; [by eapply Hold| |by eapply Hold].
    destruct i; try (destruct (_ || _)); try (destruct (ss_writer st)); cbn [ss_threads] in Hx; try (by eapply Hold);
      apply lookup_insert_Some in Hx as [[<- <-]|[Hne Hx]]; by eapply Hold.
Qed.
(** Entering a call. *)
Lemma free_other st t c : (forall x, ss_threads st !! t = Some x -> th_prog x = []) ->
  s_calls st [SCall t c] = [c] /\ ss_threads (s_run st [SCall t c]) !! t = Some (mkThr c (program c) stats0).
Proof.
  intros H. cbn [s_run foldl s_step s_calls]. destruct (ss_threads st !! t) as [[c' [|i q] z]|] eqn:E; cbn [ss_threads]; rewrite ?lookup_insert; try done.
  specialize (H _ eq_refl). done.
Qed.
End stats.

(** * The server's steps *)
Section server.
Context {T : Text} {C : Crypto} {W : Wire}.
Variable (cfg : server_cfg) (c : bolt_cfg).
(** A step is that of one connection. *)
Lemma cstep_one s s' : cstep cfg c s s' -> cw_conns s' = cw_conns s \/ exists k x, cw_conns s' = put s k x.
Proof. intros H. destruct H; cbn [cw_conns]; eauto. Qed.
Lemma cstep_same s s' k j : cstep cfg c s s' -> cw_conns s' !! k <> cw_conns s !! k -> j <> k -> cw_conns s' !! j = cw_conns s !! j.
Proof.
  intros H Hk Hj. destruct (cstep_one s s' H) as [E|(i & x & E)]; rewrite E in Hk |- *; [done|]. unfold put in *.
  destruct (decide (i = k)) as [->|Hne]; [by rewrite lookup_insert_ne|]. by rewrite lookup_insert_ne in Hk.
Qed.
Lemma ends_changes s s' k : ends s s' k -> cw_conns s' !! k <> cw_conns s !! k.
Proof. intros (x & x' & H1 & H2 & H3 & H4) E. rewrite E, H1 in H2. injection H2 as ->. done. Qed.
Lemma cstep_alive s s' : cstep cfg c s s' -> cw_alive s = true.
Proof. by destruct 1. Qed.
End server.
