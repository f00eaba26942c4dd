(** Property C52: reload signals. *)
From Verif Require Import Bytes Reload.

(** Nothing is under way. *)
Definition quiet (st : rstate) : Prop :=
  rs_queue st = None /\ rs_trigger st = false /\ rs_loader st = Idle /\ rs_out st = false.
Lemma file_step st e : rs_file st <= rs_file (r_step st e).
Proof. destruct st as [[[]|] [] [] f d []], e as [| | | | |[]|]; cbn; lia. Qed.
Lemma out_step st e : rs_out st = true -> rs_out (r_step st e) = true.
Proof. destruct st as [[[]|] [] [] f d []], e as [| | | | |[]|]; cbn; done. Qed.

(** A reload will begin: what is true from the signal to the next read. *)
Definition due (st : rstate) : Prop :=
  rs_out st = true \/ rs_queue st <> None \/ rs_trigger st = true \/ rs_loader st = Opening.
Lemma due_step st e : due st ->
  due (r_step st e) \/ (exists good, e = RRead good) /\ rs_loader st = Opening.
Proof.
  unfold due. destruct st as [[[]|] [] [] f d []], e as [| | | | |[]|]; cbn; intros H;
    (left; by auto) || (right; by eauto) || (left; naive_solver).
Qed.
Lemma signal_due st : due (r_step st (RSignal HUP)).
Proof. unfold due. destruct st as [[[]|] t l f d o]; cbn; auto. Qed.
Lemma quiet_not_due st : quiet st -> ~ due st.
Proof. intros (H1 & H2 & H3 & H4) H. unfold due in H. rewrite H1, H2, H3, H4 in H. naive_solver. Qed.
Lemma due_reads st es v : due st -> v <= rs_file st -> quiet (r_run st es) -> exists w, In w (r_reads st es) /\ v <= w.
Proof.
  revert st. induction es as [|e es IH]; intros st Hd Hv Hq; [by apply quiet_not_due in Hq|].
  cbn [r_run foldl] in Hq. cbn [r_reads]. pose proof (file_step st e) as Hf.
  destruct (due_step st e Hd) as [Hd'|[[good ->] Hl]].
  - destruct (IH _ Hd' ltac:(lia) Hq) as (w & Hw & Hle). exists w. split; [|done]. apply in_or_app. by right.
  - rewrite Hl. exists (rs_file st). split; [by left|done].
Qed.

(** A HUP signal, whatever happened before it and whatever happens after it: once
    nothing is under way (the server still running), the file has been read after
    the signal, in a version not older than the one at the signal. *)
Theorem C52_not_lost (v0 : nat) (before after : list revent) :
  let st := r_run (r_init v0) before in
  let st' := r_step st (RSignal HUP) in
  quiet (r_run st' after) -> exists w, In w (r_reads st' after) /\ rs_file st <= w.
Proof.
  intros st st' Hq. apply due_reads; [apply signal_due| |done]. apply (file_step st (RSignal HUP)).
Qed.
Print Assumptions C52_not_lost.

(** The reload is a new one, begun after the signal (one under way may already
    have read some of the files). *)
Definition owed (st : rstate) : Prop := rs_out st = true \/ rs_queue st <> None \/ rs_trigger st = true.
Lemma owed_step st e : owed st ->
  owed (r_step st e) \/ e = RBegin /\ rs_loader st = Idle /\ rs_trigger st = true.
Proof.
  unfold owed. destruct st as [[[]|] [] [] f d []], e as [| | | | |[]|]; cbn; intros H;
    (left; by auto) || (right; by eauto) || (left; naive_solver).
Qed.
Theorem C52_new_reload (v0 : nat) (before after : list revent) :
  let st' := r_step (r_run (r_init v0) before) (RSignal HUP) in
  quiet (r_run st' after) ->
  exists pre post, after = pre ++ RBegin :: post /\
    rs_loader (r_run st' pre) = Idle /\ rs_loader (r_run st' (pre ++ [RBegin])) = Opening.
Proof.
  intros st'. assert (Ho : owed st').
  { unfold st'. destruct (r_run (r_init v0) before) as [[[]|] t l f d o]; unfold owed; cbn; auto. }
  clearbody st'. revert st' Ho. induction after as [|e after IH]; intros st Ho Hq.
  { destruct Hq as (H1 & H2 & _ & H4). unfold owed in Ho. cbn in H1, H2, H4. rewrite H1, H2, H4 in Ho. naive_solver. }
  destruct (owed_step st e Ho) as [Ho'|(-> & Hl & Ht)].
  - destruct (IH _ Ho' Hq) as (pre & post & -> & H1 & H2). exists (e :: pre), post. done.
  - exists [], after. split; [done|]. split; [done|]. cbn. destruct st as [q t l f d o]. cbn in *. by subst.
Qed.
Print Assumptions C52_new_reload.

Definition fresh_enough (v : nat) (st : rstate) : Prop :=
  v <= rs_file st /\
  (due st \/ (exists w, rs_loader st = Holding w /\ v <= w) \/
   (v <= rs_served st /\ forall w, rs_loader st = Holding w -> v <= w)).
Lemma fresh_step v st e : e <> RRead false -> fresh_enough v st -> fresh_enough v (r_step st e).
Proof.
  unfold fresh_enough, due. intros He [Hf H]. pose proof (file_step st e) as Hfs. split; [lia|].
  destruct st as [[[]|] [] [] f d []], e as [|[]| | | |[]|]; cbn in *; try done; try (left; by auto);
    try (left; naive_solver); try (right; left; exists f; split; [done|lia]); naive_solver.
Qed.
Lemma fresh_run v st es : Forall (fun e => e <> RRead false) es -> fresh_enough v st -> fresh_enough v (r_run st es).
Proof. intros H. revert st. induction H as [|e es He _ IH]; intros st Hs; [done|]. cbn [r_run foldl]. apply IH. by apply fresh_step. Qed.
(** If everything read since the signal could be loaded, the data served is then
    not older than the file at the signal. *)
Theorem C52_served (v0 : nat) (before after : list revent) :
  let st := r_run (r_init v0) before in
  let st' := r_step st (RSignal HUP) in
  Forall (fun e => e <> RRead false) after -> quiet (r_run st' after) -> rs_file st <= rs_served (r_run st' after).
Proof.
  intros st st' Hg Hq.
  assert (H : fresh_enough (rs_file st) st').
  { split; [apply (file_step st (RSignal HUP))|]. left. apply signal_due. }
  apply (fresh_run _ _ after Hg) in H. destruct H as [_ [H|[(w & H & _)|[H _]]]]; [by apply quiet_not_due in H| |done].
  destruct Hq as (_ & _ & Hl & _). congruence.
Qed.
Print Assumptions C52_served.
(** A server that has not left its main loop can always come to rest by its own
    steps, unless a signal to stop is queued. *)
Theorem C52_comes_to_rest (v0 : nat) (es : list revent) :
  let st := r_run (r_init v0) es in
  rs_out st = false -> rs_queue st = None \/ rs_queue st = Some HUP ->
  exists more, Forall (fun e => e = RTake \/ e = RBegin \/ e = RRead true \/ e = RStore) more /\
    quiet (r_run st more) /\ rs_file (r_run st more) = rs_file st.
Proof.
  intros st Ho Hq.
  exists [RRead true; RStore; RTake; RBegin; RRead true; RStore].
  split; [repeat (apply List.Forall_cons; [by auto|]); constructor|].
  destruct st as [q t l f d out]. cbn in Ho, Hq. subst out. unfold quiet.
  destruct Hq as [-> | ->], l, t; done.
Qed.
Print Assumptions C52_comes_to_rest.
(** It leaves its main loop only by a signal to stop or an error of a listener; an
    error always has that effect. *)
Theorem C52_stays (v0 : nat) (es : list revent) :
  (Forall (fun e => e <> RFail /\ e <> RSignal INT /\ e <> RSignal TERM) es ->
   rs_out (r_run (r_init v0) es) = false /\ (rs_queue (r_run (r_init v0) es) = None \/ rs_queue (r_run (r_init v0) es) = Some HUP)) /\
  (In RFail es -> rs_out (r_run (r_init v0) es) = true).
Proof.
  assert (Hkeep : forall l st, rs_out st = true -> rs_out (r_run st l) = true).
  { intros l; induction l as [|e l IH]; intros st Hst; [done|]. apply IH. destruct st as [q t ld f d out]. cbn in Hst. subst out.
    by destruct e, q as [[]|], ld, t. }
  split.
  - set (good st := rs_out st = false /\ (rs_queue st = None \/ rs_queue st = Some HUP)).
    intros H. assert (Hi : good (r_init v0)) by (split; auto). revert Hi. generalize (r_init v0).
    induction H as [|e l (H1 & H2 & H3) _ IH]; intros st Hst; [done|]. apply IH.
    destruct st as [q t ld f d out], Hst as [Ho Hq]. cbn in Ho, Hq. subst out. unfold good.
    destruct Hq as [-> | ->], e as [|[]| | | | |], ld, t; try done; cbn; auto.
  - intros H. generalize (r_init v0). revert H. induction es as [|e l IH]; [done|]. intros [->|H] st.
    + apply (Hkeep l). by destruct st.
    + apply (IH H).
Qed.
Print Assumptions C52_stays.
(** Nothing is read unless asked for: the reloads are at most as many as the HUP
    signals, and what is served is what was served at the start or a version that
    was read.  Without such a signal the data served never changes. *)
Definition is_hup (e : revent) : bool := match e with RSignal HUP => true | _ => false end.
Definition tokens (st : rstate) : nat :=
  match rs_queue st with Some HUP => 1 | _ => 0 end + (if rs_trigger st then 1 else 0) +
  match rs_loader st with Opening => 1 | _ => 0 end.
Lemma reads_tokens es : forall st, length (r_reads st es) <= tokens st + length (List.filter is_hup es).
Proof.
  induction es as [|e es IH]; intros st; [cbn; lia|].
  cbn [r_reads List.filter]. rewrite app_length. specialize (IH (r_step st e)).
  destruct st as [[[]|] [] [] f d []], e as [|[]| | | |[]|]; cbn in *; lia.
Qed.
Lemma served_read es : forall st,
  (rs_served (r_run st es) = rs_served st \/ rs_loader st = Holding (rs_served (r_run st es)) \/
   In (rs_served (r_run st es)) (r_reads st es)) /\
  (forall w, rs_loader (r_run st es) = Holding w -> rs_loader st = Holding w \/ In w (r_reads st es)).
Proof.
  induction es as [|e es IH]; intros st; [split; auto|].
  destruct (IH (r_step st e)) as [Hs Hl]. cbn [r_reads]. change (r_run st (e :: es)) with (r_run (r_step st e) es).
  set (v := rs_served (r_run (r_step st e) es)) in *. clearbody v. split.
  - rewrite in_app_iff. destruct st as [[[]|] [] [] f d []], e as [|[]| | | |[]|]; cbn in *; destruct Hs as [->|[[= ->]|Hs]]; auto.
  - intros w Hw. rewrite in_app_iff. specialize (Hl w Hw). clear Hs Hw.
    destruct st as [[[]|] [] [] f d []], e as [|[]| | | |[]|]; cbn in *; destruct Hl as [[= ->]|Hs]; auto.
Qed.
Theorem C52_only_asked (v0 : nat) (es : list revent) :
  length (r_reads (r_init v0) es) <= length (List.filter is_hup es) /\
  (rs_served (r_run (r_init v0) es) = v0 \/ In (rs_served (r_run (r_init v0) es)) (r_reads (r_init v0) es)) /\
  (~ In (RSignal HUP) es -> r_reads (r_init v0) es = [] /\ rs_served (r_run (r_init v0) es) = v0).
Proof.
  pose proof (reads_tokens es (r_init v0)) as Hn. destruct (served_read es (r_init v0)) as [Hs _].
  assert (Hs' : rs_served (r_run (r_init v0) es) = v0 \/ In (rs_served (r_run (r_init v0) es)) (r_reads (r_init v0) es)).
  { destruct Hs as [Hs|[Hs|Hs]]; [by left|done|by right]. }
  split; [exact Hn|]. split; [exact Hs'|]. intros Hno.
  assert (H0 : List.filter is_hup es = []).
  { clear -Hno. induction es as [|e es IH]; [done|]. cbn [List.filter].
    destruct (is_hup e) eqn:E; [|apply IH; intros H; apply Hno; by right].
    exfalso. apply Hno. left. by destruct e as [|[]| | | | |]. }
  rewrite H0 in Hn. destruct (r_reads (r_init v0) es) as [|w l]; [|cbn in Hn; lia].
  split; [done|]. by destruct Hs'.
Qed.
Print Assumptions C52_only_asked.
Example C52_only_asked_case :
  (* two signals, the second dropped: one reload *)
  r_reads (r_init 3) [RWrite; RSignal HUP; RSignal HUP; RTake; RTake; RBegin; RRead true; RBegin; RRead true; RStore] = [4] /\
  (* changes of the file alone change nothing *)
  r_reads (r_init 3) [RWrite; RTake; RBegin; RRead true; RStore] = [].
Proof. done. Qed.
(** A second signal during a reload: the trigger is full, the signal is taken and
    the change made before it is served in the end. *)
Example C52_case :
  let es := [RSignal HUP; RTake; RBegin; RWrite; RSignal HUP; RSignal HUP; RTake; RRead true; RWrite; RSignal HUP; RTake;
             RStore; RBegin; RRead true; RStore] in
  rs_served (r_init 5) = 5 /\ quiet (r_run (r_init 0) es) /\ rs_served (r_run (r_init 0) es) = 2 /\ r_reads (r_init 0) es = [1; 2] /\
  (* a signal dropped because a signal to stop is queued: the server stops *)
  rs_out (r_run (r_init 0) [RSignal TERM; RSignal HUP; RTake; RTake]) = true.
Proof. done. Qed.
