(** Serialisability. *)
From Verif Require Import Bytes Text Dn Res Entry Password Db DbOps Conc.

Section proofs.
Context {T : Text} {C : Crypto}.

(** The invariant. *)
Record winv (base : str) (d0 : db) (w : world) : Prop := {
  i_serial : serial base d0 (w_log w) (w_db w);
  i_last : last (w_hist w) = Some (w_db w);
  i_hist : length (w_hist w) = S (length (w_log w));
  i_write : forall c ev o snap, w_act w c = Writing ev o snap -> w_lock w = Some c /\ snap = w_db w;
  i_read : forall c b scope snap since, w_act w c = Reading b scope snap since ->
    since <= length (w_hist w) - 1 /\ w_hist w !! since = Some snap;
  i_answers : Forall (fun a => an_from a <= an_to a /\ an_to a <= length (w_hist w) - 1 /\
    exists t d, an_from a <= t <= an_to a /\ w_hist w !! t = Some d /\
      an_res a = search d (an_base a) (an_scope a)) (w_answers w)
}.

Lemma set_act_same a c x : set_act a c x c = x.
Proof using Type. unfold set_act. by rewrite Nat.eqb_refl. Qed.
Lemma set_act_cases a c x c' y : set_act a c x c' = y ->
  (c' = c /\ x = y) \/ (c' <> c /\ a c' = y).
Proof using Type.
  unfold set_act. destruct (c' =? c) eqn:E.
  - apply Nat.eqb_eq in E. auto.
  - apply Nat.eqb_neq in E. auto.
Qed.

Lemma answers_grow base d0 w h :
  winv base d0 w ->
  Forall (fun a => an_from a <= an_to a /\ an_to a <= length (w_hist w ++ h) - 1 /\
    exists t d, an_from a <= t <= an_to a /\ (w_hist w ++ h) !! t = Some d /\
      an_res a = search d (an_base a) (an_scope a)) (w_answers w).
Proof using Type.
  intros Hw. eapply Forall_impl; [apply (i_answers _ _ _ Hw)|].
  intros a (H1 & H2 & t & d & Ht & Hd & Hr). split; [done|].
  rewrite app_length. split; [lia|]. exists t, d. split; [done|]. split; [|done].
  by apply lookup_app_l_Some.
Qed.

Lemma step_inv base d0 w w' : winv base d0 w -> step base w w' -> winv base d0 w'.
Proof using Type.
  intros Hw Hst. destruct Hst as
    [c ev o Hi Hl|c ev o snap r d' Ha Hr|c ev o snap d' Ha Hr|c b scope Hi|c b scope snap since Ha];
    split; simpl; try apply Hw.
  - intros c' ev' o' snap' H. apply set_act_cases in H as [[-> [= -> -> ->]]|[Hne H]]; [done|].
    apply (i_write _ _ _ Hw) in H as [H _]. by rewrite Hl in H.
  - intros c' b scope snap since H. apply set_act_cases in H as [[-> [=]]|[Hne H]].
    by eapply (i_read _ _ _ Hw).
  - destruct (i_write _ _ _ Hw _ _ _ _ Ha) as [_ ->]. econstructor; [apply Hw|done].
  - by rewrite last_snoc.
  - rewrite !app_length, (i_hist _ _ _ Hw). simpl. lia.
  - intros c' ev' o' snap' H. apply set_act_cases in H as [[-> [=]]|[Hne H]].
    destruct (i_write _ _ _ Hw _ _ _ _ H) as [H1 _]. destruct (i_write _ _ _ Hw _ _ _ _ Ha) as [H2 _].
    rewrite H1 in H2. by injection H2.
  - intros c' b scope snap' since H. apply set_act_cases in H as [[-> [=]]|[Hne H]].
    apply (i_read _ _ _ Hw) in H as [H1 H2]. rewrite app_length. split; [lia|].
    by apply lookup_app_l_Some.
  - by apply (answers_grow base d0).
  - destruct (i_write _ _ _ Hw _ _ _ _ Ha) as [_ ->]. econstructor; [apply Hw|done].
  - by rewrite last_snoc.
  - rewrite !app_length, (i_hist _ _ _ Hw). simpl. lia.
  - done.
  - done.
  - by apply (answers_grow base d0).
  - intros c' ev' o' snap' H. apply set_act_cases in H as [[-> [=]]|[Hne H]].
    by eapply (i_write _ _ _ Hw).
  - intros c' b' scope' snap' since' H. apply set_act_cases in H as [[-> [= <- <- <- <-]]|[Hne H]].
    + split; [lia|]. pose proof (i_last _ _ _ Hw) as H. rewrite last_lookup in H.
      by rewrite <- H, Nat.sub_1_r.
    + by eapply (i_read _ _ _ Hw).
  - intros c' ev' o' snap' H. apply set_act_cases in H as [[-> [=]]|[Hne H]].
    by eapply (i_write _ _ _ Hw).
  - intros c' b' scope' snap' since' H. apply set_act_cases in H as [[-> [=]]|[Hne H]].
    by eapply (i_read _ _ _ Hw).
  - apply Forall_app. split; [apply Hw|]. apply Forall_singleton. simpl.
    apply (i_read _ _ _ Hw) in Ha as [H1 H2]. split; [done|]. split; [done|].
    exists since, snap. repeat split; done || lia.
Qed.
Lemma start_inv base d0 : winv base d0 (start d0).
Proof using Type. split; simpl; try done. constructor. Qed.
Lemma steps_inv base d0 w : steps base (start d0) w -> winv base d0 w.
Proof using Type.
  intros H. induction H as [|w1 w2 _ IH Hst]; [apply start_inv|]. by eapply step_inv.
Qed.

Lemma all_succeed_app base ops o d d1 d' :
  all_succeed base ops d d1 -> run_op base no_faults o d1 = (Done (Ok tt), d') ->
  all_succeed base (ops ++ [o]) d d'.
Proof using Type.
  revert d. induction ops as [|o' ops IH]; intros d H Hr; simpl in *.
  - subst. eauto.
  - destruct H as (d2 & H1 & H2). exists d2. eauto.
Qed.
Lemma effective_app l l' l2 l2' : effective l l' -> effective l2 l2' -> effective (l ++ l2) (l' ++ l2').
Proof using Type. intros H H2. induction H; simpl; try done; by constructor. Qed.
Lemma crash_commit base ev o d d' : run_op base ev o d = (Crashed, d') -> d' = d \/ e_commit ev = CrashAfter.
Proof using Type.
  unfold run_op. destruct (op_body base o) as [m| | |]; try done. unfold update.
  destruct (m (e_fault ev) d 0) as [[[] [d1 n]]| | |]; try done.
  destruct (e_commit ev) eqn:E; try done; [|by right]. intros [= <-]. by left.
Qed.
(** A serial run has the effect of its effective operations. *)
Lemma serial_effective base d0 l d : serial base d0 l d ->
  exists ops, effective l ops /\ all_succeed base ops d0 d.
Proof using Type.
  intros H. induction H as [|l d1 ev o out d2 _ (ops & He & Ha) Hr].
  - exists []. split; [constructor|done].
  - destruct (run_op_atomic _ _ _ _ _ _ Hr) as [[-> Hn]|[Hf Ho]].
    + exists ops. split; [|done]. rewrite <- (app_nil_r ops). apply effective_app; [done|].
      destruct out as [r|].
      * apply eff_fail; [|constructor]. intros ->. by apply Hn.
      * apply eff_crash_no. constructor.
    + destruct Ho as [->| ->].
      * exists (ops ++ [o]). split; [|by eapply all_succeed_app].
        apply effective_app; [done|]. apply eff_ok. constructor.
      * destruct (crash_commit _ _ _ _ _ Hr) as [->|Hc].
        -- exists ops. split; [|done]. rewrite <- (app_nil_r ops). apply effective_app; [done|].
           apply eff_crash_no. constructor.
        -- exists (ops ++ [o]). split; [|by eapply all_succeed_app].
           apply effective_app; [done|]. apply eff_crash_yes; [done|constructor].
Qed.
End proofs.
