(** The order of child lists, and the numbers a restore gives. *)
From stdpp Require Import sorting.
From Verif Require Import Bytes Text Dn DnProofs Res Entry EntryProofs Password PasswordProofs
  Db DbSpec IdProofs DbProofs DbOps DbSearch DbFacts DbMore IsoProofs.

Section order.
Context {T : Text} {C : Crypto} (HT : TextOK T).

(** Child lists ascend, with numbers up to [q]. *)
Definition asc (q : N) (d : db) : Prop :=
  (q <= idseq d < 2 ^ 64)%N /\
  forall v w, id2ch d !! v = Some w -> exists l, w = ids l /\ StronglySorted N.lt l /\ Forall (fun j => (j <= q)%N) l.
Definition tpre {A} (P : db -> Prop) (Q : A -> db -> Prop) (m : tx A) : Prop :=
  forall f d n a d' n', P d -> m f d n = Ok (a, (d', n')) -> Q a d'.
Lemma pre_bind {A B} P Q R (m : tx A) (k : A -> tx B) : tpre P Q m -> (forall a, tpre (Q a) R (k a)) -> tpre P R (t_bind m k).
Proof using Type.
  intros Hm Hk f d n x d' n' HP. unfold t_bind. destruct (m f d n) as [[a [d1 n1]]| | |] eqn:E; try done.
  intros H. eapply Hk; [|exact H]. by eapply Hm.
Qed.
Lemma pre_read {A} P (g : db -> res A) : tpre P (fun a d => P d /\ g d = Ok a) (t_read g).
Proof using Type. intros f d n a d' n' HP. unfold t_read. destruct (g d) eqn:E; try done. by intros [= <- <- _]. Qed.
Lemma pre_err {A} P Q e : tpre P Q (t_err (A:=A) e).
Proof using Type. by intros f d n a d' n' HP. Qed.
Lemma pre_ret {A} (P : db -> Prop) (Q : A -> db -> Prop) a : (forall d, P d -> Q a d) -> tpre P Q (t_ret a).
Proof using Type. intros H f d n a' d' n' HP [= <- <- _]. auto. Qed.
Lemma pre_weak {A} (P P' : db -> Prop) (Q Q' : A -> db -> Prop) m :
  (forall d, P' d -> P d) -> (forall a d, Q a d -> Q' a d) -> tpre P Q m -> tpre P' Q' m.
Proof using Type. intros HP HQ Hm f d n a d' n' Hd E. apply HQ. eapply Hm; [|exact E]. by apply HP. Qed.
Lemma pre_write {A} (P : db -> Prop) (Q : A -> db -> Prop) g :
  (forall d a d', P d -> g d = Ok (a, d') -> Q a d') -> tpre P Q (t_write g).
Proof using Type.
  intros H f d n a d' n' HP. unfold t_write. destruct (f n); [done|]. destruct (g d) as [[x y]| | |] eqn:E; try done.
  intros [= <- <- _]. by eapply H.
Qed.
Lemma pre_ent k e q s : tpre (fun d => asc q d /\ idseq d = s) (fun _ d => asc q d /\ idseq d = s) (put_id2ent k e).
Proof using Type. apply pre_write. intros d a d' H. destruct (key_ok k); [|done]. by intros [= _ <-]. Qed.
Lemma pre_dn k v q s : tpre (fun d => asc q d /\ idseq d = s) (fun _ d => asc q d /\ idseq d = s) (put_dn2id k v).
Proof using Type. apply pre_write. intros d a d' H. destruct (key_ok k); [|done]. by intros [= _ <-]. Qed.
Lemma pre_del_dn k q s : tpre (fun d => asc q d /\ idseq d = s) (fun _ d => asc q d /\ idseq d = s) (del_dn2id k).
Proof using Type. apply pre_write. intros d a d' H. by intros [= _ <-]. Qed.
Lemma pre_del_ent k q s : tpre (fun d => asc q d /\ idseq d = s) (fun _ d => asc q d /\ idseq d = s) (del_id2ent k).
Proof using Type. apply pre_write. intros d a d' H. by intros [= _ <-]. Qed.
Lemma asc_ch q q' d k l : asc q d -> (q <= q' <= idseq d)%N -> StronglySorted N.lt l -> Forall (fun j => (j <= q')%N) l ->
  asc q' (mkDb (dn2id d) (<[k := ids l]> (id2ch d)) (id2ent d) (idseq d)).
Proof using Type.
  intros [H1 H2] Hq Hs Hl. split; [cbn; lia|]. cbn. intros v w. destruct (decide (k = v)) as [<-|Hne].
  - rewrite lookup_insert. intros [= <-]. by exists l.
  - rewrite lookup_insert_ne by done. intros Hv. destruct (H2 v w Hv) as (l' & -> & S' & L'). exists l'. split; [done|]. split; [done|].
    eapply Forall_impl; [exact L'|]. cbn. lia.
Qed.
Lemma asc_raw q d i : asc q d -> exists l, raw_children i d = ids l /\ StronglySorted N.lt l /\ Forall (fun j => (j <= q)%N) l.
Proof using Type.
  intros [_ H]. unfold raw_children. destruct (id2ch d !! id_bytes i) as [w|] eqn:E; [by apply (H _ _ E)|].
  exists []. split; [done|]. split; constructor.
Qed.
Lemma sorted_app {A} (R : A -> A -> Prop) l1 l2 : StronglySorted R l1 -> StronglySorted R l2 ->
  (forall x y, x ∈ l1 -> y ∈ l2 -> R x y) -> StronglySorted R (l1 ++ l2).
Proof using Type.
  intros H1 H2. induction H1 as [|a l1 H1 IH Ha]; intros Hx; [done|]. cbn. constructor.
  - apply IH. intros x y Hx'. apply Hx. by right.
  - apply Forall_app. split; [done|]. apply Forall_forall. intros y. apply Hx. left.
Qed.
Lemma sorted_filter {A} (R : A -> A -> Prop) (f : A -> bool) l : StronglySorted R l -> StronglySorted R (bfilter f l).
Proof using Type.
  induction 1 as [|a l H IH Ha]; [constructor|]. cbn. destruct (f a); [|done]. constructor; [done|].
  apply List.Forall_forall. intros x [Hx _]%filter_In. rewrite List.Forall_forall in Ha. auto.
Qed.

Lemma asc_put base e s ps q : tpre (fun d => asc q d /\ idseq d = q /\ (q + 1 < 2 ^ 64)%N) (fun _ d => asc (idseq d) d) (entry_put_tx base e s ps).
Proof using Type.
  unfold entry_put_tx. eapply pre_bind; [apply pre_read|]. intros a. cbn beta.
  destruct (negb _); [apply pre_err|].
  eapply (pre_bind _ (fun i d => i = (q + 1)%N /\ asc q d /\ idseq d = (q + 1)%N)).
  { apply pre_write. intros d i d' ((Ha & Hq & Hlt) & _) [= <- <-]. rewrite Hq, N.mod_small by done. split; [done|].
    destruct Ha as [H1 H2]. split; [|done]. split; [cbn; lia|done]. }
  intros i. cbn beta.
  assert (Hi : forall m, (i = (q + 1)%N -> tpre (fun d => asc q d /\ idseq d = (q + 1)%N) (fun (_ : unit) d => asc (idseq d) d) m) ->
    tpre (fun d => i = (q + 1)%N /\ asc q d /\ idseq d = (q + 1)%N) (fun _ d => asc (idseq d) d) m).
  { intros m H f d n a' d' n' [Hi Hd]. by apply H. }
  apply Hi. intros ->. clear Hi. eapply pre_bind; [apply pre_ent|]. intros []. cbn beta.
  eapply (pre_bind _ (fun _ d => asc (q + 1) d /\ idseq d = (q + 1)%N)).
  { destruct (seqb s base).
    { apply pre_ret. intros d [[H1 H2] Hq]. split; [|done]. split; [lia|]. intros v w Hv.
      destruct (H2 v w Hv) as (l & ? & ? & L). exists l. split; [done|]. split; [done|]. eapply Forall_impl; [exact L|]. cbn. lia. }
    unfold add_child. eapply pre_bind; [apply pre_read|]. intros p. cbn beta. destruct (p =? 0)%N; [apply pre_err|].
    eapply pre_bind; [apply pre_read|]. intros raw. cbn beta. apply pre_write.
    intros d [] d' (((Ha & Hq) & _) & Hraw). injection Hraw as Hraw. destruct (key_ok (id_bytes p)); [|done]. intros [= <-].
    destruct (asc_raw _ _ p Ha) as (l & El & Sl & Ll). rewrite <- Hraw, El.
    replace (ids l ++ id_bytes (q + 1)) with (ids (l ++ [(q + 1)%N]))
      by (unfold ids; rewrite map_app, concat_app; cbn [map concat]; by rewrite app_nil_r).
    split; [|done]. apply (asc_ch q); [done|lia| |].
    - apply sorted_app; [done|repeat constructor|]. intros x y Hx Hy. apply elem_of_list_singleton in Hy as ->.
      rewrite Forall_forall in Ll. specialize (Ll x Hx). cbn in Ll. lia.
    - apply Forall_app. split; [eapply Forall_impl; [exact Ll|]; cbn; lia|]. constructor; [lia|constructor]. }
  intros []. cbn beta. eapply pre_weak; [intros d H; exact H| |apply (pre_dn _ _ (q + 1) (q + 1))]. intros a' d [H1 H2]. by rewrite H2.
Qed.
Lemma asc_delete s ps q x : tpre (fun d => asc q d /\ idseq d = x) (fun _ d => asc q d /\ idseq d = x) (entry_delete_tx s ps).
Proof using Type.
  unfold entry_delete_tx. eapply pre_bind; [apply pre_read|]. intros a. cbn beta.
  destruct (a =? 0)%N; [apply pre_err|]. eapply pre_bind; [apply pre_read|]. intros raw. cbn beta.
  destruct (negb _); [apply pre_err|]. eapply pre_bind; [apply pre_read|]. intros p. cbn beta.
  destruct (p =? 0)%N; [apply pre_err|]. eapply pre_bind; [apply pre_read|]. intros praw. cbn beta.
  eapply (pre_bind _ (fun _ d => asc q d /\ idseq d = x)).
  { apply pre_write. intros d [] d' (((((Ha & Hq) & _) & _) & _) & Hraw). injection Hraw as Hraw.
    destruct (key_ok (id_bytes p)); [|done]. intros [= <-].
    destruct (asc_raw _ _ p Ha) as (l & El & Sl & Ll). rewrite <- Hraw, El. unfold ids. rewrite chunks8_ids.
    destruct (Ha) as [Hq' _].
    rewrite ids_filter by (eapply Forall_impl; [exact Ll|]; cbn; lia).
    split; [|done]. apply (asc_ch q); [done|lia|by apply sorted_filter|].
    apply List.Forall_forall. intros y [Hy _]%filter_In. rewrite List.Forall_forall in Ll. auto. }
  intros []. cbn beta. eapply pre_bind; [apply pre_del_dn|]. intros []. apply pre_del_ent.
Qed.
Lemma asc_modify_with i e r q x : tpre (fun d => asc q d /\ idseq d = x) (fun _ d => asc q d /\ idseq d = x) (entry_modify_with i e r).
Proof using Type.
  unfold entry_modify_with, t_lift. eapply pre_bind; [apply pre_read|]. intros e'. cbn beta.
  eapply pre_weak; [|intros a d H; exact H|apply pre_ent]. by intros d [H _].
Qed.
Lemma asc_op base ev o d : asc (idseq d) d -> (idseq d + 1 < 2 ^ 64)%N -> asc (idseq (run_op base ev o d).2) (run_op base ev o d).2.
Proof using Type.
  intros Ha Hlt. unfold run_op. destruct (op_body base o) as [m|e| |] eqn:E; try done.
  assert (Hm : tpre (fun d' => asc (idseq d) d' /\ idseq d' = idseq d) (fun _ d' => asc (idseq d') d') m).
  { assert (Hw : tpre (fun d' => asc (idseq d) d' /\ idseq d' = idseq d) (fun _ d' => asc (idseq d) d' /\ idseq d' = idseq d) m ->
      tpre (fun d' => asc (idseq d) d' /\ idseq d' = idseq d) (fun _ d' => asc (idseq d') d') m).
    { apply pre_weak; [done|]. intros a d' [H1 H2]. by rewrite H2. }
    destruct o as [e|s|r|r|r]; cbn [op_body] in E.
    - unfold entry_put in E. destruct (parse_dn (e_dn e)) as [[|? ?]|]; try done. destruct (negb _); [done|]. injection E as <-.
      eapply pre_weak; [|intros a d' H; exact H|apply (asc_put _ _ _ _ (idseq d))]. by intros d' [H1 H2].
    - unfold entry_delete in E. destruct (parse_dn s) as [[|? ?]|]; try done. injection E as <-. apply Hw, asc_delete.
    - unfold entry_modify in E. destruct (parse_normalize (m_dn r)); try done. injection E as <-. apply Hw.
      eapply pre_bind; [apply pre_read|]. intros p. eapply pre_weak; [|intros a d' H; exact H|apply asc_modify_with]. by intros d' [H _].
    - unfold entry_moddn in E. destruct (parse_dn (md_dn r)) as [[|? ?]|], (parse_dn (md_newrdn r)) as [[|? ?]|]; try done.
      injection E as <-. apply Hw. unfold entry_moddn_tx. eapply pre_bind; [apply pre_read|]. intros a. cbn beta. destruct (negb _); [apply pre_err|].
      eapply pre_bind; [apply pre_read|]. intros p. cbn beta. eapply pre_bind; [apply pre_read|]. intros ch. cbn beta.
      destruct (negb _); [apply pre_err|]. eapply (pre_bind _ (fun _ d' => asc (idseq d) d' /\ idseq d' = idseq d)).
      { eapply pre_weak; [|intros a' d' H; exact H|apply asc_modify_with]. by intros d' [[[H _] _] _]. }
      intros []. eapply pre_bind; [apply pre_dn|]. intros []. apply pre_del_dn.
    - unfold update_password in E. destruct (parse_normalize (pw_user r)); try done. injection E as <-. apply Hw.
      eapply pre_bind; [apply pre_read|]. intros p. cbn beta. unfold t_lift. eapply pre_bind; [apply pre_read|]. intros []. cbn beta.
      intros f d1 n a d' n' [[H _] _]. unfold t_maperr.
      match goal with |- context [entry_modify_with ?x ?y ?z f d1 n] => destruct (entry_modify_with x y z f d1 n) as [[y' [d2 n2]]| | |] eqn:E1 end; try done.
      intros [= <- <- _]. by eapply (asc_modify_with _ _ _ _ _ _ _ _ _ _ _ H). }
  unfold update. destruct (m (e_fault ev) d 0) as [[[] [d' n']]| | |] eqn:E1; try done.
  assert (H' : asc (idseq d') d') by (by eapply Hm; [|exact E1]). by destruct (e_commit ev).
Qed.
Lemma asc_history base h : forall d, asc (idseq d) d -> (idseq d + N.of_nat (length h) < 2 ^ 64)%N ->
  asc (idseq (run_ops base h d)) (run_ops base h d).
Proof using Type.
  induction h as [|[ev o] h IH]; intros d Ha Hl; [done|]. cbn [run_ops length] in *. apply IH.
  - apply asc_op; [done|]. lia.
  - pose proof (run_op_seq base ev o d (run_op base ev o d).1 (run_op base ev o d).2) as H.
    rewrite <- surjective_pairing in H. specialize (H ltac:(lia) eq_refl). lia.
Qed.
Lemma asc_empty : asc 0 empty_db.
Proof using Type. split; [by vm_compute|]. intros v w. unfold empty_db. cbn. by rewrite lookup_empty. Qed.

(** ** The list of a subtree *)
Lemma subtree_inv fuel d root l : subtree (S fuel) d root = Ok l ->
  exists subs, Forall2 (fun c sub => subtree fuel d c = Ok sub) (get_children d root) subs /\ l = get_children d root ++ concat subs.
Proof using Type.
  cbn [subtree]. generalize (get_children d root) at 2 4. generalize (get_children d root).
  intros cs. induction cs as [|c cs IH]; intros acc; cbn.
  - intros [= <-]. exists []. split; [constructor|]. by rewrite app_nil_r.
  - destruct (subtree fuel d c) as [sub| | |] eqn:E; try done. cbn [rbind]. intros H.
    destruct (IH (acc ++ sub) H) as (subs & H1 & ->). exists (sub :: subs). split; [by constructor|]. cbn. by rewrite app_assoc.
Qed.
(** Siblings. *)
Definition before (g : ghost) (j j' : N) : Prop :=
  forall r r' k e e', g !! (r :: k) = Some (j, e) -> g !! (r' :: k) = Some (j', e') -> (j < j')%N.
Lemma subtree_before b d g q fuel : sim b d g -> b <> [] -> asc q d ->
  forall k i e l, g !! k = Some (i, e) -> subtree fuel d i = Ok l -> StronglySorted (before g) l.
Proof using Type.
  intros Hs Hb Ha. induction fuel as [|fuel IH]; intros k i e l Hk Hl; [done|].
  destruct (sim_children _ _ _ _ _ _ Hs Hk) as [Hnd Hin].
  assert (Hsub : forall r j e' f l', g !! (r :: k) = Some (j, e') -> subtree f d j = Ok l' -> forall y, y ∈ l' -> below g (r :: k) y).
  { intros r j e' f l' Hr Hf y Hy. destruct (subtree_spec b d g (max f (S (measure d g (r :: k)))) Hs Hb _ _ _ Hr) as (l2 & H2 & _ & H3 & _); [lia|].
    rewrite (subtree_mono d f _ _ l' (Nat.le_max_l _ _) Hf) in H2. injection H2 as <-. by apply H3. }
  destruct (subtree_inv _ _ _ _ Hl) as (subs & HF & ->). apply sorted_app.
  - destruct (asc_raw q d i Ha) as (l & El & Sl & Ll).
    rewrite (children_ids i d l El) in * by (destruct Ha; eapply Forall_impl; [exact Ll|]; cbn; lia).
    eapply (StronglySorted_ind (R:=N.lt) (fun l => StronglySorted (before g) l)); [constructor| |exact Sl].
    intros x l' _ Hx Hl'. constructor; [done|]. eapply Forall_impl; [exact Hl'|]. intros y Hy r r' k' e1 e2 _ _. exact Hy.
  - assert (Hin' : forall j, j ∈ get_children d i -> exists r e', g !! (r :: k) = Some (j, e')) by (intros j Hj; by apply Hin).
    clear Hl Hin. revert Hin' Hnd HF. generalize (get_children d i). intros cs. revert subs.
    induction cs as [|c cs IHc]; intros subs Hin Hnd HF; [inversion HF; constructor|].
    inversion HF as [|? sub ? subs' Hc HF']; subst. cbn [concat]. apply NoDup_cons in Hnd as [Hnc Hnd].
    destruct (Hin c) as (rc & ec & Hrc); [left|].
    apply sorted_app; [by eapply IH|apply IHc; [|done..]; intros j Hj; apply Hin; by right|].
    intros x y Hx Hy r r' k' e1 e2 H1 H2.
    apply (Hsub _ _ _ _ _ Hrc Hc) in Hx as (z & k1 & e3 & Hz & -> & Hm).
    apply elem_of_list_In, in_concat in Hy as (sub' & Hsub' & Hy). apply elem_of_list_In in Hsub', Hy.
    apply elem_of_list_lookup in Hsub' as [n Hn]. destruct (Forall2_lookup_r _ _ _ _ _ HF' Hn) as (c' & Hc' & Hs').
    apply elem_of_list_lookup_2 in Hc'.
    destruct (Hin c') as (rc' & ec' & Hrc'); [by right|].
    apply (Hsub _ _ _ _ _ Hrc' Hs') in Hy as (z' & k2 & e4 & Hz' & -> & Hm').
    pose proof (s_inj _ _ _ Hs _ _ _ _ _ H1 Hm) as E1. pose proof (s_inj _ _ _ Hs _ _ _ _ _ H2 Hm') as E2.
    destruct z as [|z0 z]; [done|]. destruct z' as [|z0' z']; [done|]. injection E1 as _ ->. injection E2 as _ E2.
    assert (rc = rc') as <-.
    { apply (suffix_cons_ne rc rc' k (z ++ rc :: k)); [by exists z|]. rewrite E2. by exists z'. }
    rewrite Hrc in Hrc'. injection Hrc' as <- _. done.
  - intros x y Hx Hy r r' k' e1 e2 H1 H2. apply Hin in Hx as (rx & ex & Hx).
    pose proof (s_inj _ _ _ Hs _ _ _ _ _ H1 Hx) as [= -> ->].
    apply elem_of_list_In, in_concat in Hy as (sub' & Hsub' & Hy). apply elem_of_list_In in Hsub', Hy.
    apply elem_of_list_lookup in Hsub' as [n Hn]. destruct (Forall2_lookup_r _ _ _ _ _ HF Hn) as (c' & Hc' & Hs').
    apply elem_of_list_lookup_2, Hin in Hc' as (rc' & ec' & Hrc').
    apply (Hsub _ _ _ _ _ Hrc' Hs') in Hy as (z' & k2 & e4 & Hz' & -> & Hm').
    pose proof (s_inj _ _ _ Hs _ _ _ _ _ H2 Hm') as E2. apply (f_equal length) in E2. rewrite app_length in E2.
    destruct z'; [done|]. cbn in E2. lia.
Qed.

(** ** The numbers given by a load *)
Lemma put_dn_exact base e s ps f d n a d' n' : (idseq d + 1 < 2 ^ 64)%N ->
  entry_put_tx base e s ps f d n = Ok (a, (d', n')) ->
  dn2id d' = <[s := id_bytes (idseq d + 1)]> (dn2id d) /\ idseq d' = (idseq d + 1)%N.
Proof using Type.
  intros Hlt E.
  assert (H : tpre (fun x => dn2id x = dn2id d /\ idseq x = idseq d)
    (fun (_ : unit) x => dn2id x = <[s := id_bytes (idseq d + 1)]> (dn2id d) /\ idseq x = (idseq d + 1)%N) (entry_put_tx base e s ps)).
  { clear E. unfold entry_put_tx. eapply pre_bind; [apply pre_read|]. intros i. cbn beta. destruct (negb _); [apply pre_err|].
    eapply (pre_bind _ (fun i x => i = (idseq d + 1)%N /\ dn2id x = dn2id d /\ idseq x = (idseq d + 1)%N)).
    { apply pre_write. intros x y x' ((H1 & H2) & _) [= <- <-]. rewrite H2, N.mod_small by done. done. }
    intros j. cbn beta. eapply (pre_bind _ (fun _ x => j = (idseq d + 1)%N /\ dn2id x = dn2id d /\ idseq x = (idseq d + 1)%N)).
    { apply pre_write. intros x y x' H. destruct (key_ok _); [|done]. by intros [= _ <-]. }
    intros []. eapply (pre_bind _ (fun _ x => j = (idseq d + 1)%N /\ dn2id x = dn2id d /\ idseq x = (idseq d + 1)%N)).
    { destruct (seqb s base); [by apply pre_ret|]. unfold add_child. eapply pre_bind; [apply pre_read|]. intros p. cbn beta.
      destruct (p =? 0)%N; [apply pre_err|]. eapply pre_bind; [apply pre_read|]. intros raw. cbn beta.
      apply pre_write. intros x y x' [[H _] _]. destruct (key_ok _); [|done]. by intros [= _ <-]. }
    intros []. apply pre_write. intros x y x' (-> & H1 & H2). destruct (key_ok s); [|done]. intros [= _ <-]. cbn. by rewrite H1. }
  by eapply H; [|exact E].
Qed.
Lemma load_numbers base es : forall ss d d', (idseq d + N.of_nat (length es) < 2 ^ 64)%N ->
  Forall2 (fun e s => parse_normalize (e_dn e) = Some s) es ss -> NoDup ss ->
  load_db base es d = (Done (Ok tt), d') ->
  idseq d' = (idseq d + N.of_nat (length es))%N /\
  (forall s, s ∉ ss -> dn2id d' !! s = dn2id d !! s) /\
  forall n s, ss !! n = Some s -> dn2id d' !! s = Some (id_bytes (idseq d + 1 + N.of_nat n)).
Proof using Type.
  induction es as [|e es IH]; intros ss d d' Hl HF Hnd Hld.
  - inversion HF; subst. injection Hld as <-. split; [cbn; lia|]. split; [done|]. intros n s. by rewrite lookup_nil.
  - inversion HF as [|? s0 ? ss' He HF']; subst. cbn [load_db length] in *. apply NoDup_cons in Hnd as [Hn0 Hnd].
    destruct (run_op base no_faults (OpPut e) d) as [[[u| | |]|] d1] eqn:E1; try done.
    assert (H1 : dn2id d1 = <[s0 := id_bytes (idseq d + 1)]> (dn2id d) /\ idseq d1 = (idseq d + 1)%N).
    { unfold run_op in E1. cbn [op_body] in E1. unfold entry_put, parse_normalize in *.
      destruct (parse_dn (e_dn e)) as [[|r0 p0]|]; try done. injection He as <-.
      destruct (negb _); [done|]. unfold update in E1.
      destruct (entry_put_tx _ _ _ _ _ _ _) as [[[] [d2 n2]]| | |] eqn:E2; try done. injection E1 as _ <-.
      by apply put_dn_exact in E2; [|lia]. }
    destruct H1 as [H1 H2]. destruct (IH ss' d1 d' ltac:(lia) HF' Hnd Hld) as (I1 & I2 & I3). split; [lia|]. split.
    + intros s Hs. apply not_elem_of_cons in Hs as [Hs1 Hs2]. rewrite I2 by done. by rewrite H1, lookup_insert_ne.
    + intros [|n] s Hn; cbn in Hn.
      * injection Hn as <-. rewrite I2 by done. rewrite H1, lookup_insert. do 2 f_equal. lia.
      * rewrite (I3 n s Hn), H2. do 2 f_equal. lia.
Qed.

(** ** A restored database differs in the numbers only *)
Lemma sorted_lookup {A} (R : A -> A -> Prop) l : StronglySorted R l -> forall x y a c, x < y -> l !! x = Some a -> l !! y = Some c -> R a c.
Proof using Type.
  induction 1 as [|h l Hl IH Hh]; intros x y a c Hxy Ha Hc; [by rewrite lookup_nil in Ha|].
  destruct y as [|y]; [lia|]. cbn in Hc. destruct x as [|x]; cbn in Ha.
  - injection Ha as <-. rewrite Forall_forall in Hh. apply Hh. by eapply elem_of_list_lookup_2.
  - eapply (IH x y); [lia|done..].
Qed.
Lemma restore_iso b d g q d' g' q' xs n :
  base_ok b -> sim b d g -> asc q d -> sim b d' g' -> asc q' d' -> snd <$> g' = snd <$> g ->
  export_db d (normalize b) = Ok (xs, None) -> load_db (normalize b) xs empty_db = (Done (Ok tt), d') ->
  (N.of_nat (length xs) < 2 ^ 64)%N -> (idseq d + n < 2 ^ 64)%N -> (idseq d' + n < 2 ^ 64)%N ->
  iso n (fun i j => exists k e, g !! k = Some (i, e) /\ g' !! k = Some (j, e)) d d'.
Proof using HT.
  intros Hb Hs Ha Hs' Ha' Eg Hx Hld Hlen Q1 Q2.
  assert (Hsame : forall k i e, g !! k = Some (i, e) -> exists j, g' !! k = Some (j, e)).
  { intros k i e Hk. assert (E : (snd <$> g') !! k = (snd <$> g) !! k) by by rewrite Eg. rewrite !lookup_fmap, Hk in E.
    destruct (g' !! k) as [[j e']|]; [|done]. injection E as ->. by exists j. }
  assert (Hsame' : forall k j e, g' !! k = Some (j, e) -> exists i, g !! k = Some (i, e)).
  { intros k j e Hk. assert (E : (snd <$> g') !! k = (snd <$> g) !! k) by by rewrite Eg. rewrite !lookup_fmap, Hk in E.
    destruct (g !! k) as [[i e']|]; [|done]. injection E as ->. by exists i. }
  (* the exported entries *)
  assert (Hpb : parse_dn (normalize b) = Some b).
  { rewrite normalize_flat, (base_folded _ Hb) by apply Hb. apply (parse_flat HT); apply Hb. }
  unfold export_db, search, parse_normalize in Hx. rewrite Hpb in Hx. cbn [fmap option_fmap option_map] in Hx.
  rewrite (normalize_flat _ (base_wf _ Hb)), (base_folded _ Hb) in Hx.
  rewrite (sim_get_id _ _ _ _ Hs (base_wf _ Hb)) in Hx. cbn [rbind] in Hx.
  destruct (g !! b) as [[i0 e0]|] eqn:Eb; [|done]. rewrite (sim_id_nonzero _ _ _ _ _ _ Hs Eb) in Hx.
  unfold ScopeBase, ScopeOne, ScopeSub in Hx; cbn [Z.eqb Pos.eqb] in Hx.
  destruct (subtree_spec b d g (S (size (id2ch d))) Hs (base_ne _ Hb) b i0 e0 Eb) as (l & Hl & Hnd & Hin & _).
  { pose proof (measure_top d g b). lia. }
  rewrite Hl in Hx. cbn [rbind] in Hx. assert (Hx2 : fetch d (i0 :: l) = (xs, None)) by congruence. clear Hx.
  pose proof (subtree_before b d g q _ Hs (base_ne _ Hb) Ha b i0 e0 l Eb Hl) as Hbef.
  assert (Hnd' : NoDup (i0 :: l)).
  { apply NoDup_cons. split; [|done]. intros Hc. apply Hin in Hc as (x & k' & e' & Hx' & -> & Hm).
    pose proof (s_inj _ _ _ Hs _ _ _ _ _ Eb Hm) as He. apply (f_equal length) in He. rewrite app_length in He. destruct x; [done|]. simpl in He. lia. }
  destruct (fetch_ok b d g (i0 :: l) Hs) as (es & Hf & Hes).
  { intros j Hj. apply elem_of_cons in Hj as [->|Hj]; [eauto|]. apply Hin in Hj as (x & k' & e' & _ & _ & Hm). eauto. }
  rewrite Hf in Hx2. injection Hx2 as ->.
  (* their names *)
  assert (Hss : exists ss, Forall2 (fun e s => parse_normalize (e_dn e) = Some s) xs ss /\
    forall m s, ss !! m = Some s -> exists k j e, (i0 :: l) !! m = Some j /\ g !! k = Some (j, e) /\ s = flat k).
  { clear -Hes Hs HT. revert Hes. generalize (i0 :: l) as il. intros il Hes. induction Hes as [|j e il es [k Hk] Hes (ss & H1 & H2)].
    - exists []. split; [constructor|]. intros m s. by rewrite lookup_nil.
    - exists (flat k :: ss). split.
      + constructor; [|done]. destruct (s_dn _ _ _ Hs _ _ _ Hk) as (dd & Hp & Hwf & <-). unfold parse_normalize. rewrite Hp. cbn.
        by rewrite normalize_flat.
      + intros [|m] s Hm; cbn in Hm; [injection Hm as <-; by exists k, j, e|by apply H2]. }
  destruct Hss as (ss & Hps & Hss).
  assert (Hwfk : forall k i e, g !! k = Some (i, e) -> wf_dn k = true) by (intros k i e Hk; apply (s_key _ _ _ Hs _ _ _ Hk)).
  assert (Hnds : NoDup ss).
  { apply NoDup_alt. intros m m' s H1 H2. destruct (Hss _ _ H1) as (k & j & e & L1 & G1 & ->), (Hss _ _ H2) as (k2 & j2 & e2 & L2 & G2 & E2).
    apply flat_inj in E2 as <-; [|by eapply Hwfk..]. rewrite G1 in G2. injection G2 as <- _. by eapply NoDup_alt. }
  assert (H0 : idseq empty_db = 0%N) by done.
  destruct (load_numbers (normalize b) xs ss empty_db d' ltac:(lia) Hps Hnds Hld) as (_ & N2 & N3). rewrite H0 in N3.
  (* numbers by position *)
  assert (Hpos : forall k i j e, g !! k = Some (i, e) -> g' !! k = Some (j, e) ->
    exists m, (i0 :: l) !! m = Some i /\ j = (1 + N.of_nat m)%N /\ (1 + N.of_nat m < 2 ^ 64)%N).
  { intros k i j e G1 G2. assert (Hd : dn2id d' !! flat k = Some (id_bytes j)) by (apply (s_dn2id _ _ _ Hs'); eauto 10).
    destruct (decide (flat k ∈ ss)) as [Hin'|Hnin].
    2: { rewrite N2 in Hd by done. unfold empty_db in Hd. cbn in Hd. by rewrite lookup_empty in Hd. }
    apply elem_of_list_lookup in Hin' as [m Hm]. exists m. destruct (Hss _ _ Hm) as (k2 & i2 & e2 & L2 & G3 & E2).
    apply flat_inj in E2 as <-; [|by eapply Hwfk..]. rewrite G1 in G3. injection G3 as <- _. split; [done|].
    assert (Hml : (1 + N.of_nat m < 2 ^ 64)%N).
    { apply lookup_lt_Some in L2. apply Forall2_length in Hes. lia. }
    split; [|done]. assert (Hb2 : id_bytes (1 + N.of_nat m) = id_bytes j).
    { specialize (N3 _ _ Hm). rewrite N3 in Hd. assert (forall x y : str, Some x = Some y -> x = y) as Hinj by congruence.
      exact (Hinj _ _ Hd). }
    symmetry. apply id_bytes_inj; [lia|apply (s_lt _ _ _ _ _ _ Hs' G2)|exact Hb2]. }
  (* siblings keep their order *)
  assert (Hmono : forall k r1 r2 i1 i2 j1 j2 e e1 e2 i, g !! k = Some (i, e) -> g !! (r1 :: k) = Some (i1, e1) -> g !! (r2 :: k) = Some (i2, e2) ->
    g' !! (r1 :: k) = Some (j1, e1) -> g' !! (r2 :: k) = Some (j2, e2) -> (i1 < i2)%N -> (j1 < j2)%N).
  { intros k r1 r2 i1 i2 j1 j2 e e1 e2 i Gk G1 G2 G1' G2' Hlt.
    destruct (Hpos _ _ _ _ G1 G1') as (m1 & L1 & -> & _), (Hpos _ _ _ _ G2 G2') as (m2 & L2 & -> & _).
    assert (Hb1 : forall r i1 e1, g !! (r :: k) = Some (i1, e1) -> i1 <> i0).
    { intros r i3 e3 G3 ->. pose proof (s_inj _ _ _ Hs _ _ _ _ _ G3 Eb) as E.
      pose proof (gk_len _ _ (s_key _ _ _ Hs _ _ _ Gk)) as Hk. rewrite <- E in Hk. cbn in Hk. lia. }
    destruct m1 as [|m1]; cbn in L1; [injection L1 as L1; by destruct (Hb1 _ _ _ G1)|].
    destruct m2 as [|m2]; cbn in L2; [injection L2 as L2; by destruct (Hb1 _ _ _ G2)|].
    destruct (Nat.lt_trichotomy m1 m2) as [Hm|[->|Hm]]; [lia| |].
    - rewrite L1 in L2. injection L2 as ->. lia.
    - pose proof (sorted_lookup _ _ Hbef _ _ _ _ Hm L2 L1 _ _ _ _ _ G2 G1). lia. }
  assert (Hlist : forall q0 d0 g0 k i e, sim b d0 g0 -> asc q0 d0 -> g0 !! k = Some (i, e) ->
    raw_children i d0 = ids (get_children d0 i) /\ StronglySorted N.lt (get_children d0 i)).
  { intros q0 d0 g0 k i e S0 A0 G0. destruct (asc_raw _ _ i A0) as (l0 & E0 & Sl & Ll).
    rewrite (children_ids i d0 l0 E0) by (destruct A0; eapply Forall_impl; [exact Ll|]; cbn; lia). done. }
  split.
  - intros i j j' (k & e & G1 & G2) (k' & e' & G3 & G4). pose proof (s_inj _ _ _ Hs _ _ _ _ _ G1 G3) as <-. congruence.
  - intros i i' j (k & e & G1 & G2) (k' & e' & G3 & G4). pose proof (s_inj _ _ _ Hs' _ _ _ _ _ G2 G4) as <-. congruence.
  - intros i j (k & e & G1 & G2). split; [apply (s_id _ _ _ Hs _ _ _ G1)|apply (s_id _ _ _ Hs' _ _ _ G2)].
  - done.
  - intros s. destruct (dn2id d !! s) as [v|] eqn:E1, (dn2id d' !! s) as [w|] eqn:E2; try done.
    + apply (s_dn2id _ _ _ Hs) in E1 as (k & i & e & G1 & -> & ->). apply (s_dn2id _ _ _ Hs') in E2 as (k' & j & e' & G2 & E & ->).
      destruct (Hsame _ _ _ G1) as [j' G1']. apply flat_inj in E as <-; [|by eapply Hwfk|apply (s_key _ _ _ Hs' _ _ _ G2)].
      rewrite G1' in G2. injection G2 as -> ->. exists i, j. eauto 10.
    + apply (s_dn2id _ _ _ Hs) in E1 as (k & i & e & G1 & -> & ->). destruct (Hsame _ _ _ G1) as [j' G1'].
      assert (dn2id d' !! flat k = Some (id_bytes j')) by (apply (s_dn2id _ _ _ Hs'); eauto 10). congruence.
    + apply (s_dn2id _ _ _ Hs') in E2 as (k & i & e & G1 & -> & ->). destruct (Hsame' _ _ _ G1) as [j' G1'].
      assert (dn2id d !! flat k = Some (id_bytes j')) by (apply (s_dn2id _ _ _ Hs); eauto 10). congruence.
  - intros i j (k & e & G1 & G2). transitivity (Some e); [|symmetry].
    + apply (s_ent _ _ _ Hs). eauto.
    + apply (s_ent _ _ _ Hs'). eauto.
  - intros i j (k & e & G1 & G2). destruct (Hlist _ _ _ _ _ _ Hs Ha G1) as [R1 S1], (Hlist _ _ _ _ _ _ Hs' Ha' G2) as [R2 S2].
    exists (get_children d i), (get_children d' j). split; [done|]. split; [done|].
    destruct (sim_children _ _ _ _ _ _ Hs G1) as [D1 I1], (sim_children _ _ _ _ _ _ Hs' G2) as [D2 I2].
    assert (Hex : exists l', Forall2 (fun i j => exists r e, g !! (r :: k) = Some (i, e) /\ g' !! (r :: k) = Some (j, e)) (get_children d i) l').
    { assert (Hc : forall x, x ∈ get_children d i -> exists r e, g !! (r :: k) = Some (x, e)) by (intros x; apply I1).
      revert Hc. clear -Hsame. generalize (get_children d i) as cs. induction cs as [|x cs IH]; intros Hc; [by exists []|].
      destruct IH as [l' Hl']; [intros y Hy; apply Hc; by right|]. destruct (Hc x) as (r & e & G); [left|]. destruct (Hsame _ _ _ G) as [y Hy].
      exists (y :: l'). constructor; [|done]. eauto. }
    destruct Hex as [l' HF].
    assert (S3 : StronglySorted N.lt l').
    { clear R1 I1 D1. induction HF as [|x y cs l' (r & e1 & X1 & X2) HF IH]; [constructor|].
      inversion S1 as [|? ? S1' F1]; subst. constructor; [by apply IH|].
      apply Forall_forall. intros y' Hy'. apply elem_of_list_lookup in Hy' as [m Hm].
      destruct (Forall2_lookup_r _ _ _ _ _ HF Hm) as (x' & Hx' & r' & e2 & Y1 & Y2).
      eapply (Hmono k r r'); try done. rewrite Forall_forall in F1. apply F1. by eapply elem_of_list_lookup_2. }
    assert (l' = get_children d' j) as <-.
    { assert (AntiSymm (=) N.lt) by (intros x y; lia). apply (StronglySorted_unique N.lt); [done|done|]. apply NoDup_Permutation.
      - clear -S3. induction S3 as [|x l H IH F]; constructor; [|done]. intros Hx. rewrite Forall_forall in F. specialize (F x Hx). lia.
      - done.
      - intros y. rewrite I2. split.
        + intros [m Hm]%elem_of_list_lookup. destruct (Forall2_lookup_r _ _ _ _ _ HF Hm) as (x & _ & r & e1 & _ & Y). eauto.
        + intros (r & e1 & Y). destruct (Hsame' _ _ _ Y) as [x X]. assert (Hx : x ∈ get_children d i) by (apply I1; eauto).
          apply elem_of_list_lookup in Hx as [m Hm]. destruct (Forall2_lookup_l _ _ _ _ _ HF Hm) as (y' & Hy' & r' & e2 & Z1 & Z2).
          pose proof (s_inj _ _ _ Hs _ _ _ _ _ X Z1) as [= <-]. rewrite X in Z1. injection Z1 as <-. rewrite Y in Z2. injection Z2 as <-.
          by eapply elem_of_list_lookup_2. }
    eapply Forall2_impl; [exact HF|]. intros x y (r & e1 & X & Y). eauto.
  - intros i Hi. split.
    + unfold raw_children. destruct (id2ch d !! id_bytes i) as [w|] eqn:E; [|done]. cbn.
      destruct (s_dead _ _ _ Hs _ _ E) as [->|(k & i' & e & G & E')]; [done|].
      pose proof (s_id _ _ _ Hs _ _ _ G). pose proof (s_seq _ _ _ Hs). apply id_bytes_inj in E'; lia.
    + destruct (id2ent d !! id_bytes i) as [e|] eqn:E; [|done]. apply (s_ent _ _ _ Hs) in E as (k & i' & G & E').
      pose proof (s_id _ _ _ Hs _ _ _ G). pose proof (s_seq _ _ _ Hs). apply id_bytes_inj in E'; lia.
  - intros i Hi. split.
    + unfold raw_children. destruct (id2ch d' !! id_bytes i) as [w|] eqn:E; [|done]. cbn.
      destruct (s_dead _ _ _ Hs' _ _ E) as [->|(k & i' & e & G & E')]; [done|].
      pose proof (s_id _ _ _ Hs' _ _ _ G). pose proof (s_seq _ _ _ Hs'). apply id_bytes_inj in E'; lia.
    + destruct (id2ent d' !! id_bytes i) as [e|] eqn:E; [|done]. apply (s_ent _ _ _ Hs') in E as (k & i' & G & E').
      pose proof (s_id _ _ _ Hs' _ _ _ G). pose proof (s_seq _ _ _ Hs'). apply id_bytes_inj in E'; lia.
Qed.
End order.
