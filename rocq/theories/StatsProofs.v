(** Proofs about Stats.v. *)
From Verif Require Import Bytes Stats.

Global Instance call_eq : EqDecision call. Proof. solve_decision. Defined.
Global Instance instr_eq : EqDecision instr. Proof. solve_decision. Defined.

(** Collecting over all goroutines. *)
Definition collect {A} (f : thread -> option A) (m : gmap nat thread) : list A := omap (fun kt => f kt.2) (map_to_list m).
Definition olist {A} (o : option A) : list A := match o with Some x => [x] | None => [] end.
Lemma collect_insert {A} (f : thread -> option A) m k t :
  collect f (<[k := t]> m) ≡ₚ olist (f t) ++ collect f (delete k m).
Proof.
  unfold collect. rewrite <- insert_delete_insert, map_to_list_insert by apply lookup_delete.
  cbn [omap list_omap snd]. destruct (f t); reflexivity.
Qed.
Lemma collect_lookup {A} (f : thread -> option A) m k t : m !! k = Some t ->
  collect f m ≡ₚ olist (f t) ++ collect f (delete k m).
Proof. intros H. rewrite <- (insert_id m k t H) at 1. apply collect_insert. Qed.
Lemma collect_new {A} (f : thread -> option A) m k : m !! k = None -> collect f (delete k m) = collect f m.
Proof. intros H. by rewrite delete_notin. Qed.
Lemma collect_in {A} (f : thread -> option A) m k t x : m !! k = Some t -> f t = Some x -> x ∈ collect f m.
Proof. intros H Hf. rewrite (collect_lookup f m k t H), Hf. cbn. left. Qed.
Lemma collect_elem {A} (f : thread -> option A) m x : x ∈ collect f m -> exists k t, m !! k = Some t /\ f t = Some x.
Proof.
  unfold collect. intros H. apply elem_of_list_omap in H as ([k t] & H & Hf). apply elem_of_map_to_list in H. eauto.
Qed.

(** The goroutines that hold the mutex, as a writer or as a reader, and those
    that have still to write. *)
Definition writes (c : call) : bool := match c with CClone => false | _ => true end.
Definition holds_w (t : thread) : option unit :=
  match th_prog t with [_] | [_; _] | [_; _; _] => if writes (th_call t) then Some tt else None | _ => None end.
Definition holds_r (t : thread) : option unit :=
  match th_prog t with [_] | [_; _] => if writes (th_call t) then None else Some tt | _ => None end.
Definition to_write (t : thread) : option call :=
  match th_prog t with _ :: _ :: _ => if writes (th_call t) then Some (th_call t) else None | _ => None end.

Lemma holds_w_val c p x : holds_w (mkThr c p x) =
  match p with [_] | [_; _] | [_; _; _] => if writes c then Some tt else None | _ => None end.
Proof. done. Qed.
Lemma holds_r_val c p x : holds_r (mkThr c p x) =
  match p with [_] | [_; _] => if writes c then None else Some tt | _ => None end.
Proof. done. Qed.
Lemma to_write_val c p x : to_write (mkThr c p x) =
  match p with _ :: _ :: _ => if writes c then Some c else None | _ => None end.
Proof. done. Qed.
Record inv (st : sstate) : Prop := {
  iv_prog : forall k t, ss_threads st !! k = Some t -> exists n, th_prog t = drop n (program (th_call t));
  iv_copy : forall k t, ss_threads st !! k = Some t -> writes (th_call t) = true -> length (th_prog t) = 2 -> th_copy t = ss_stats st;
  iv_w : length (collect holds_w (ss_threads st)) = if ss_writer st then 1 else 0;
  iv_r : length (collect holds_r (ss_threads st)) = ss_nreaders st;
  iv_excl : ss_writer st = true -> ss_nreaders st = 0
}.
Lemma inv_init : inv s_init.
Proof. constructor; cbn; try done; intros *; by rewrite lookup_empty. Qed.

Lemma prog_cases (c : call) p : (exists n, p = drop n (program c)) ->
  match p with
  | [] => True
  | ILock :: q => (q = [] /\ c = CAdd) \/ (p = program c /\ writes c = true /\ exists x, q = [IRead; IWrite; x])
  | IRead :: q => (c = CClone /\ q = [IRUnlock]) \/ (writes c = true /\ exists x, q = [IWrite; x] /\ (x = IUnlock \/ x = ILock /\ c = CAdd))
  | IWrite :: q => writes c = true /\ exists x, q = [x] /\ (x = IUnlock \/ x = ILock /\ c = CAdd)
  | IUnlock :: q => q = [] /\ writes c = true
  | IRLock :: q => c = CClone /\ q = [IRead; IRUnlock]
  | IRUnlock :: q => c = CClone /\ q = []
  end.
Proof.
  intros [n ->]. destruct c; destruct n as [|[|[|[|n]]]]; cbn; rewrite ?drop_nil; try done.
  all: first [ left; split; done
             | right; split; [done|]; split; [done|]; eexists; reflexivity
             | right; split; [done|]; eexists; split; [reflexivity|]; first [left; done | right; done]
             | split; [done|]; eexists; split; [reflexivity|]; first [left; done | right; done] ].
Qed.

Lemma len_insert {A} (f : thread -> option A) m k t :
  length (collect f (<[k := t]> m)) = length (olist (f t)) + length (collect f (delete k m)).
Proof. by rewrite collect_insert, app_length. Qed.
Lemma len_lookup {A} (f : thread -> option A) m k t : m !! k = Some t ->
  length (collect f m) = length (olist (f t)) + length (collect f (delete k m)).
Proof. intros H. by rewrite (collect_lookup f m k t H), app_length. Qed.
Lemma len_idle {A} (f : thread -> option A) m k :
  (forall t, m !! k = Some t -> f t = None) -> collect f (delete k m) ≡ₚ collect f m.
Proof.
  intros H. destruct (m !! k) as [t|] eqn:E; [|by rewrite delete_notin].
  rewrite (collect_lookup f m k t E), (H t) by done. done.
Qed.

(** The effect of a step on the writes. *)
Definition wrote (st : sstate) (e : sevent) : list call :=
  match e with
  | SRun k => match ss_threads st !! k with Some (mkThr c (IWrite :: _) _) => [c] | _ => [] end
  | SCall _ _ => []
  end.
Definition entered (st : sstate) (e : sevent) : list call :=
  match e with
  | SCall k c => match ss_threads st !! k with Some (mkThr _ (_ :: _) _) => [] | _ => [c] end
  | SRun _ => []
  end.
Lemma s_done_cons st e es : s_done st (e :: es) = wrote st e ++ s_done (s_step st e) es.
Proof. done. Qed.
Lemma s_calls_cons st e es : s_calls st (e :: es) = entered st e ++ s_calls (s_step st e) es.
Proof. done. Qed.

Lemma inv_step st e : inv st ->
  inv (s_step st e) /\
  ss_stats (s_step st e) = foldl (fun s c => count c s) (ss_stats st) (wrote st e) /\
  bfilter writes (entered st e) ++ collect to_write (ss_threads st) ≡ₚ
    wrote st e ++ collect to_write (ss_threads (s_step st e)).
Proof.
  intros H. pose proof H as [Hp Hc Hw Hr Hx]. destruct e as [k c|k]; cbn [s_step wrote entered].
  - (* a call is entered *)
    assert (Hidle : (exists c' i p x, ss_threads st !! k = Some (mkThr c' (i :: p) x)) \/
       (forall t, ss_threads st !! k = Some t -> th_prog t = [])).
    { destruct (ss_threads st !! k) as [[c' [|i p] x]|]; [right|left|right]; [by intros t [= <-]|eauto 10|done]. }
    destruct Hidle as [(c' & i & p & x & E)|Hidle]; [by rewrite E|].
    assert (Hstep : forall {A} (x y : A), match ss_threads st !! k with Some (mkThr _ (_ :: _) _) => x | _ => y end = y).
    { intros A x y. destruct (ss_threads st !! k) as [[c' [|i p] z]|]; try done. by specialize (Hidle _ eq_refl). }
    rewrite !Hstep. cbn [ss_stats ss_threads].
    assert (Hd : forall {A} (f : thread -> option A), (forall t, th_prog t = [] -> f t = None) ->
      collect f (delete k (ss_threads st)) ≡ₚ collect f (ss_threads st)).
    { intros A f Hf. apply len_idle. intros t Ht. by apply Hf, Hidle. }
    split; [|split; [done|]].
    + constructor; cbn.
      * intros k' t Hl. apply lookup_insert_Some in Hl as [[<- <-]|[_ Hl]]; [by exists 0|by eapply Hp].
      * intros k' t Hl. apply lookup_insert_Some in Hl as [[<- <-]|[_ Hl]]; [by destruct c|by eapply Hc].
      * rewrite len_insert, Hd, Hw; [by destruct c|]. intros t Ht.
        unfold holds_w. by rewrite Ht.
      * rewrite len_insert, Hd, Hr; [by destruct c|]. intros t Ht.
        unfold holds_r. by rewrite Ht.
      * done.
    + rewrite collect_insert, Hd; [by destruct c|]. intros t Ht. unfold to_write. by rewrite Ht.
  - destruct (ss_threads st !! k) as [[c [|i p] x]|] eqn:Ek; [done| |done].
    pose proof (prog_cases c (i :: p) (Hp _ _ Ek)) as Hcase. cbn [th_call th_prog] in Hcase.
    pose proof (len_lookup holds_w _ _ _ Ek) as Lw. pose proof (len_lookup holds_r _ _ _ Ek) as Lr.
    pose proof (collect_lookup to_write _ _ _ Ek) as Lt.
    assert (Hprog : forall s w n x', inv (mkS s w n (<[k := mkThr c p x']> (ss_threads st))) <->
      ((forall k' t, <[k := mkThr c p x']> (ss_threads st) !! k' = Some t -> writes (th_call t) = true -> length (th_prog t) = 2 -> th_copy t = s) /\
       length (olist (holds_w (mkThr c p x'))) + length (collect holds_w (delete k (ss_threads st))) = (if w then 1 else 0) /\
       length (olist (holds_r (mkThr c p x'))) + length (collect holds_r (delete k (ss_threads st))) = n /\
       (w = true -> n = 0))).
    { intros s w n x'. rewrite <- (len_insert holds_w), <- (len_insert holds_r). split; [by intros []|].
      intros (H1 & H2 & H3 & H4). constructor; cbn; try done. intros k' t Hl.
      apply lookup_insert_Some in Hl as [[<- <-]|[_ Hl]]; [|by eapply Hp]. destruct (Hp _ _ Ek) as [m Hm]. cbn in Hm |- *.
      exists (S m). replace (S m) with (m + 1) by lia. rewrite <- drop_drop, <- Hm. done. }
    assert (Hcopy : forall x', length p <> 2 -> forall k' t, <[k := mkThr c p x']> (ss_threads st) !! k' = Some t ->
      writes (th_call t) = true -> length (th_prog t) = 2 -> th_copy t = ss_stats st).
    { intros x' Hlen k' t Hl. apply lookup_insert_Some in Hl as [[<- <-]|[_ Hl]]; [done|by eapply Hc]. }
    assert (Htw : forall x', collect to_write (<[k := mkThr c p x']> (ss_threads st)) ≡ₚ
       olist (to_write (mkThr c p x')) ++ collect to_write (delete k (ss_threads st))) by (intros; apply collect_insert).
    rewrite holds_w_val in Lw. rewrite holds_r_val in Lr. rewrite to_write_val in Lt.
    rewrite Hw in Lw. rewrite Hr in Lr.
    destruct i.
    + (* ILock *)
      destruct Hcase as [[-> ->]|(Hpr & Hwr & y & ->)].
      * cbn in Lw. destruct (ss_writer st); [|lia]. done.
      * try rewrite Hwr in Lw; try rewrite Hwr in Lr; try rewrite Hwr in Lt. cbn [olist length app] in Lw, Lr, Lt.
        destruct (ss_writer st) eqn:Ew; [done|]. destruct (ss_nreaders st) as [|n] eqn:En; [|done]. cbn [orb negb Nat.eqb].
        cbn [ss_stats ss_threads]. split; [|split; [done|]].
        -- apply Hprog. split; [by apply Hcopy|]. rewrite ?holds_w_val, ?holds_r_val.  rewrite ?Hwr. cbn. lia.
        -- rewrite Htw, Lt. rewrite to_write_val.  rewrite ?Hwr. done.
    + (* IUnlock *)
      destruct Hcase as [-> Hwr]. try rewrite Hwr in Lw; try rewrite Hwr in Lr; try rewrite Hwr in Lt. cbn [olist length app] in Lw, Lr, Lt.
      cbn [ss_stats ss_threads]. split; [|split; [done|]].
      * apply Hprog. split; [by apply Hcopy|]. rewrite ?holds_w_val, ?holds_r_val. cbn [olist length].
        destruct (ss_writer st); [|lia]. lia.
      * rewrite Htw, Lt. done.
    + (* IRLock *)
      destruct Hcase as [-> ->]. cbn [writes olist length app] in Lw, Lr, Lt. destruct (ss_writer st) eqn:Ew; [done|].
      cbn [ss_stats ss_threads]. split; [|split; [done|]].
      * apply Hprog. split.
        -- intros k' t Hl. apply lookup_insert_Some in Hl as [[<- <-]|[_ Hl]]; [done|by eapply Hc].
        -- rewrite ?holds_w_val, ?holds_r_val. cbn. lia.
      * rewrite Htw, Lt. done.
    + (* IRUnlock *)
      destruct Hcase as [-> ->]. cbn [writes olist length app] in Lw, Lr, Lt.
      cbn [ss_stats ss_threads]. split; [|split; [done|]].
      * apply Hprog. split; [by apply Hcopy|]. rewrite ?holds_w_val, ?holds_r_val. cbn. destruct (ss_writer st); [|lia]. specialize (Hx eq_refl). lia.
      * rewrite Htw, Lt. done.
    + (* IRead *)
      cbn [ss_stats ss_threads]. destruct Hcase as [[-> ->]|(Hwr & y & -> & _)].
      * cbn [writes olist length app] in Lw, Lr, Lt. split; [|split; [done|]].
        -- apply Hprog. split; [by apply Hcopy|]. rewrite ?holds_w_val, ?holds_r_val. cbn. split; [lia|]. split; [lia|done].
        -- rewrite Htw, Lt. done.
      * try rewrite Hwr in Lw; try rewrite Hwr in Lr; try rewrite Hwr in Lt. cbn [olist length app] in Lw, Lr, Lt. split; [|split; [done|]].
        -- apply Hprog. split.
           ++ intros k' t Hl. apply lookup_insert_Some in Hl as [[<- <-]|[_ Hl]]; [done|by eapply Hc].
           ++ rewrite ?holds_w_val, ?holds_r_val.  rewrite ?Hwr. cbn. split; [lia|]. split; [lia|done].
        -- rewrite Htw, Lt. rewrite to_write_val.  by rewrite ?Hwr.
    + (* IWrite *)
      cbn [ss_stats ss_threads]. destruct Hcase as (Hwr & y & -> & _). try rewrite Hwr in Lw; try rewrite Hwr in Lr; try rewrite Hwr in Lt. cbn [olist length app] in Lw, Lr, Lt.
      assert (Hx' : x = ss_stats st) by (by apply (Hc _ _ Ek)).
      split; [|split].
      * apply Hprog. split.
        -- intros k' t Hl Hwr' Hlen. exfalso. apply lookup_insert_Some in Hl as [[<- <-]|[Hne Hl]]; [done|].
           assert (Hin : tt ∈ collect holds_w (delete k (ss_threads st))).
           { eapply collect_in; [by rewrite lookup_delete_ne|]. unfold holds_w. rewrite Hwr'.
             destruct (th_prog t) as [|? [|? [|]]]; done. }
           apply elem_of_list_split in Hin as (l1 & l2 & Hin). rewrite Hin, app_length in Lw. cbn in Lw.
           destruct (ss_writer st); lia.
        -- rewrite ?holds_w_val, ?holds_r_val.  rewrite ?Hwr. cbn. split; [lia|]. split; [lia|done].
      * cbn [foldl]. by rewrite Hx'.
      * rewrite Htw, Lt. done.
Qed.
Lemma inv_run st es : inv st ->
  inv (s_run st es) /\
  ss_stats (s_run st es) = foldl (fun s c => count c s) (ss_stats st) (s_done st es) /\
  bfilter writes (s_calls st es) ++ collect to_write (ss_threads st) ≡ₚ
    s_done st es ++ collect to_write (ss_threads (s_run st es)).
Proof.
  revert st. induction es as [|e es IH]; intros st H; [done|]. cbn [s_run foldl]. rewrite s_done_cons, s_calls_cons.
  destruct (inv_step st e H) as (H1 & H2 & H3). destruct (IH _ H1) as (H4 & H5 & H6). split; [done|]. split.
  - change (foldl s_step (s_step st e) es) with (s_run (s_step st e) es). rewrite H5, H2, foldl_app. done.
  - rewrite bfilter_app || rewrite List.filter_app. change (foldl s_step (s_step st e) es) with (s_run (s_step st e) es).
    rewrite <- !app_assoc, <- H6, (Permutation_app_comm (bfilter writes (s_calls _ _))), app_assoc, H3, <- app_assoc.
    apply Permutation_app_head. apply Permutation_app_comm.
Qed.

(** * What the counters say *)
Definition number (c : call) (l : list call) : Z := Z.of_nat (length (bfilter (fun x => bool_decide (x = c)) l)).
Lemma number_nil c : number c [] = 0%Z.
Proof. done. Qed.
Lemma number_snoc c l x : number c (l ++ [x]) = (number c l + if bool_decide (x = c) then 1 else 0)%Z.
Proof. unfold number. rewrite List.filter_app, app_length. cbn. destruct (bool_decide (x = c)); cbn; lia. Qed.
Lemma u64_step a b : u64 (u64 a + b) = u64 (a + b).
Proof. unfold u64. by rewrite Zplus_mod_idemp_l. Qed.
Lemma counters l : let s := foldl (fun s c => count c s) stats0 l in
  s_conns s = u64 (number COpen l) /\ s_current s = u64 (number COpen l - number CClose l) /\
  s_adds s = u64 (number CAdd l) /\ s_binds s = u64 (number CBind l) /\ s_deletes s = u64 (number CDelete l) /\
  s_moddns s = u64 (number CModDN l) /\ s_modifies s = u64 (number CModify l) /\
  s_unbinds s = u64 (number CUnbind l) /\ s_searches s = u64 (number CSearch l).
Proof.
  induction l as [|c l IH] using rev_ind; [done|]. cbn zeta in *. rewrite foldl_app. cbn [foldl].
  destruct (foldl _ stats0 l) as [co cu mx ad bi de md mo un se]. cbn in IH.
  destruct IH as (-> & -> & -> & -> & -> & -> & -> & -> & ->). rewrite !number_snoc.
  destruct c; cbn [count s_conns s_current s_adds s_binds s_deletes s_moddns s_modifies s_unbinds s_searches];
    repeat (rewrite ?bool_decide_true by done; rewrite ?bool_decide_false by done);
    rewrite ?Z.add_0_r; unfold Z.sub; rewrite ?u64_step; repeat split; try done; f_equal; lia.
Qed.

(** * Completion *)
Definition left (st : sstate) : nat := list_sum (map (fun t => length (th_prog t)) (collect Some (ss_threads st))).
Lemma sum_perm {A} (f : A -> nat) l l' : l ≡ₚ l' -> list_sum (map f l) = list_sum (map f l').
Proof. unfold list_sum. induction 1; cbn; lia. Qed.
Lemma left_insert m k t : list_sum (map (fun t => length (th_prog t)) (collect Some (<[k := t]> m))) =
  length (th_prog t) + list_sum (map (fun t => length (th_prog t)) (collect Some (delete k m))).
Proof. rewrite (sum_perm _ _ _ (collect_insert Some m k t)). done. Qed.
Lemma left_lookup m k t : m !! k = Some t -> list_sum (map (fun t => length (th_prog t)) (collect Some m)) =
  length (th_prog t) + list_sum (map (fun t => length (th_prog t)) (collect Some (delete k m))).
Proof. intros H. rewrite (sum_perm _ _ _ (collect_lookup Some m k t H)). done. Qed.
(** A step of a goroutine changes nothing or takes one instruction. *)
Lemma left_run st k : s_step st (SRun k) = st \/ left st = S (left (s_step st (SRun k))).
Proof.
  cbn [s_step]. destruct (ss_threads st !! k) as [[c [|i p] x]|] eqn:E; [by left| |by left].
  assert (H : forall s w n x', left st = S (left (mkS s w n (<[k := mkThr c p x']> (ss_threads st))))).
  { intros s w n x'. unfold left. cbn [ss_threads]. rewrite left_insert, (left_lookup _ _ _ E). done. }
  destruct i; repeat case_match; eauto.
Qed.
Lemma left_zero st : left st = 0 -> forall k t, ss_threads st !! k = Some t -> th_prog t = [].
Proof. unfold left. intros H k t E. rewrite (left_lookup _ _ _ E) in H. destruct (th_prog t); [done|cbn in H; lia]. Qed.
Lemma left_pos st : left st <> 0 -> exists k t i p, ss_threads st !! k = Some t /\ th_prog t = i :: p.
Proof.
  intros H. assert (Hin : exists t, t ∈ collect Some (ss_threads st) /\ th_prog t <> []).
  { unfold left in H. induction (collect Some (ss_threads st)) as [|t l IH]; [done|].
    destruct (th_prog t) eqn:E; [|exists t; split; [left|by rewrite E]].
    cbn in H. rewrite E in H. destruct (IH H) as (t' & Ht' & Hn). exists t'. split; [by right|done]. }
  destruct Hin as (t & Hin & Hn). apply collect_elem in Hin as (k & t' & Hk & [= ->]). exists k, t.
  destruct (th_prog t); [done|]. eauto.
Qed.
Definition no_adds (st : sstate) : Prop := forall k t, ss_threads st !! k = Some t -> th_call t <> CAdd.
Lemma some_step st : inv st -> no_adds st -> left st <> 0 -> exists k, left st = S (left (s_step st (SRun k))).
Proof.
  intros H Ha Hl. pose proof H as [Hp Hc Hw Hr Hx].
  assert (Hgo : forall k c i p x, ss_threads st !! k = Some (mkThr c (i :: p) x) ->
    (i = ILock -> ss_writer st = false /\ ss_nreaders st = 0) -> (i = IRLock -> ss_writer st = false) ->
    exists k, left st = S (left (s_step st (SRun k)))).
  { intros k c i p x E H1 H2. exists k. cbn [s_step]. rewrite E.
    assert (Hn : forall s w n x', left st = S (left (mkS s w n (<[k := mkThr c p x']> (ss_threads st))))).
    { intros s w n x'. unfold left. cbn [ss_threads]. rewrite left_insert, (left_lookup _ _ _ E). done. }
    destruct i; try apply Hn.
    - destruct (H1 eq_refl) as [-> ->]. apply Hn.
    - rewrite (H2 eq_refl). apply Hn. }
  destruct (ss_writer st) eqn:Ew.
  - destruct (collect holds_w (ss_threads st)) as [|u l] eqn:E; [done|].
    assert (Hin : u ∈ collect holds_w (ss_threads st)) by (rewrite E; left).
    apply collect_elem in Hin as (k & [c p x] & Hk & Hh). pose proof (prog_cases c p (Hp _ _ Hk)) as Hcase.
    rewrite holds_w_val in Hh. cbn in Hcase. specialize (Ha _ _ Hk). cbn in Ha.
    destruct p as [|i p]; [done|]. apply (Hgo _ _ _ _ _ Hk).
    + intros ->. exfalso. destruct Hcase as [[-> ->]|(_ & _ & y & ->)]; done.
    + intros ->. exfalso. destruct Hcase as [-> ->]. done.
  - destruct (ss_nreaders st) as [|n] eqn:En.
    + destruct (left_pos st Hl) as (k & [c p x] & i & q & Hk & Hq). cbn in Hq. subst p. by apply (Hgo _ _ _ _ _ Hk).
    + destruct (collect holds_r (ss_threads st)) as [|u l] eqn:E; [done|].
      assert (Hin : u ∈ collect holds_r (ss_threads st)) by (rewrite E; left).
      apply collect_elem in Hin as (k & [c p x] & Hk & Hh). pose proof (prog_cases c p (Hp _ _ Hk)) as Hcase.
      rewrite holds_r_val in Hh. cbn in Hcase. destruct p as [|i p]; [done|]. apply (Hgo _ _ _ _ _ Hk); [|done].
      intros ->. exfalso. destruct Hcase as [[-> ->]|(_ & Hwr & y & ->)]; [done|]. by rewrite ?Hwr in Hh.
Qed.
Lemma calls_run st es k t : ss_threads (s_run st es) !! k = Some t ->
  th_call t ∈ s_calls st es \/ exists k t', ss_threads st !! k = Some t' /\ th_call t' = th_call t.
Proof.
  revert st. induction es as [|e es IH]; intros st H; [right; eauto|]. cbn [s_run foldl] in H.
  change (foldl s_step (s_step st e) es) with (s_run (s_step st e) es) in H. rewrite s_calls_cons, elem_of_app.
  destruct (IH _ H) as [Hc|(k' & t' & Hl & Ht)]; [by left; right|]. rewrite <- Ht. clear H Ht.
  destruct e as [j c|j]; cbn [s_step entered] in *.
  - destruct (ss_threads st !! j) as [[c' [|i p] x]|] eqn:E; cbn [ss_threads] in Hl;
      [|right; eauto|]; apply lookup_insert_Some in Hl as [[_ <-]|[_ Hl]];
      [by left; left; left|right; eauto|by left; left; left|right; eauto].
  - right. destruct (ss_threads st !! j) as [[c [|i p] x]|] eqn:E; [eauto| |eauto].
    destruct i; repeat case_match; cbn [ss_threads] in Hl; try solve [eauto];
      apply lookup_insert_Some in Hl as [[_ <-]|[_ Hl]]; eauto.
Qed.

(** * A counted add blocks *)
Lemma stuck_step st k x e : inv st -> ss_threads st !! k = Some (mkThr CAdd [ILock] x) ->
  ss_stats (s_step st e) = ss_stats st /\ wrote st e = [] /\
  (forall j t, ss_threads st !! j = Some t -> th_prog t <> [] -> ss_threads (s_step st e) !! j = Some t).
Proof.
  intros [Hp Hc Hw Hr Hx] Hk. pose proof (len_lookup holds_w _ _ _ Hk) as Lw. cbn [olist length holds_w th_prog th_call writes] in Lw.
  rewrite Hw in Lw. destruct (ss_writer st) eqn:Ew; [|lia]. specialize (Hx eq_refl).
  destruct e as [j c|j]; cbn [s_step wrote].
  - destruct (ss_threads st !! j) as [[c' [|i p] y]|] eqn:E; (split; [done|split; [done|]]); intros j' t Hl Hn; cbn [ss_threads]; try done;
      (destruct (decide (j = j')) as [<-|Hne]; [rewrite E in Hl; by inversion Hl; subst|by rewrite lookup_insert_ne]).
  - destruct (ss_threads st !! j) as [[c [|i p] y]|] eqn:E; [done| |done].
    pose proof (prog_cases c (i :: p) (Hp _ _ E)) as Hcase.
    assert (Hnw : j <> k -> holds_w (mkThr c (i :: p) y) = None).
    { intros Hne. destruct (holds_w _) as [u|] eqn:Eh; [|done]. exfalso.
      pose proof (collect_in holds_w (delete k (ss_threads st)) j _ u ltac:(by rewrite lookup_delete_ne) Eh) as Hin.
      apply elem_of_list_split in Hin as (l1 & l2 & Hin). rewrite Hin, app_length in Lw. cbn in Lw. lia. }
    assert (Hnr : holds_r (mkThr c (i :: p) y) = None).
    { destruct (holds_r _) as [u|] eqn:Eh; [|done]. exfalso.
      pose proof (collect_in holds_r (ss_threads st) j _ u E Eh) as Hin.
      apply elem_of_list_split in Hin as (l1 & l2 & Hin). rewrite Hin, app_length in Hr. cbn in Hr. lia. }
    assert (Hi : i = ILock \/ i = IRLock).
    { destruct (decide (j = k)) as [->|Hne]; [rewrite Hk in E; inversion E; subst; by left|].
      specialize (Hnw Hne). rewrite holds_w_val in Hnw. rewrite holds_r_val in Hnr.
      destruct i; try (by auto); exfalso; cbn in Hcase.
      - destruct Hcase as [-> Hwr]. by rewrite Hwr in Hnw.
      - destruct Hcase as [-> ->]. done.
      - destruct Hcase as [[-> ->]|(Hwr & z & -> & _)]; [done|by rewrite Hwr in Hnw].
      - destruct Hcase as (Hwr & z & -> & _). by rewrite Hwr in Hnw. }
    rewrite Ew. destruct Hi as [-> | ->]; done.
Qed.
Lemma stuck_run st k x es : inv st -> ss_threads st !! k = Some (mkThr CAdd [ILock] x) ->
  ss_stats (s_run st es) = ss_stats st /\ s_done st es = [] /\
  (forall j t, ss_threads st !! j = Some t -> th_prog t <> [] -> ss_threads (s_run st es) !! j = Some t).
Proof.
  revert st. induction es as [|e es IH]; intros st H Hk; [done|]. cbn [s_run foldl]. rewrite s_done_cons.
  change (foldl s_step (s_step st e) es) with (s_run (s_step st e) es).
  destruct (stuck_step st k x e H Hk) as (H1 & H2 & H3). destruct (inv_step st e H) as [H4 _].
  destruct (IH _ H4 (H3 _ _ Hk ltac:(done))) as (H5 & H6 & H7). rewrite H5, H2, H6. split; [done|]. split; [done|].
  intros j t Hj Hn. apply H7; [|done]. by apply H3.
Qed.

(** * A reader sees one state *)
Lemma reader_step st k t e : inv st -> ss_threads st !! k = Some t -> is_Some (holds_r t) ->
  ss_stats (s_step st e) = ss_stats st.
Proof.
  intros [Hp Hc Hw Hr Hx] Hk [u Hu].
  pose proof (collect_in _ _ _ _ _ Hk Hu) as Hin. apply elem_of_list_split in Hin as (l1 & l2 & Hin).
  rewrite Hin, app_length in Hr. cbn in Hr. destruct (ss_writer st) eqn:Ew; [specialize (Hx eq_refl); lia|].
  destruct e as [j c|j]; cbn [s_step].
  - by destruct (ss_threads st !! j) as [[c' [|i p] y]|].
  - destruct (ss_threads st !! j) as [[c [|i p] y]|] eqn:E; [done| |done].
    destruct i; try done.
    + by case_match.
    + case_match; done.
    + exfalso. destruct (prog_cases c (IWrite :: p) (Hp _ _ E)) as (Hwr & z & -> & _).
      assert (Hh : holds_w (mkThr c [IWrite; z] y) = Some tt) by (rewrite holds_w_val; by rewrite Hwr).
      pose proof (collect_in _ _ _ _ _ E Hh) as Hi2. destruct (collect holds_w _); [by apply elem_of_nil in Hi2|done].
Qed.

(** * The maximum of open connections *)
Definition current (l : list call) : Z := number COpen l - number CClose l.
Lemma maximum l :
  (forall p, p `prefix_of` l -> (0 <= current p < 2 ^ 64)%Z) ->
  let mx := s_max (foldl (fun s c => count c s) stats0 l) in
  (forall p, p `prefix_of` l -> (current p <= mx)%Z) /\ (exists p, p `prefix_of` l /\ mx = current p).
Proof.
  induction l as [|c l IH] using rev_ind; intros H; cbn zeta.
  - split; [|by exists []]. intros p Hp. apply prefix_nil_inv in Hp as ->. done.
  - destruct IH as [IH1 IH2]. { intros p Hp. apply H. by apply prefix_app_r. }
    pose proof (counters l) as Hc. cbn zeta in Hc. destruct Hc as (_ & Hcu & _).
    rewrite foldl_app. cbn [foldl].
    pose proof (H l ltac:(by apply prefix_app_r)) as Hl. pose proof (H (l ++ [c]) ltac:(done)) as Hlc.
    fold (current l) in Hcu. unfold u64 in Hcu. rewrite Z.mod_small in Hcu by done.
    assert (Hnew : current (l ++ [c]) = (current l + (if bool_decide (c = COpen) then 1 else 0) - (if bool_decide (c = CClose) then 1 else 0))%Z).
    { unfold current. rewrite !number_snoc. lia. }
    assert (Hpre : forall p, p `prefix_of` l ++ [c] -> p `prefix_of` l \/ p = l ++ [c]).
    { intros p [q Hq]. destruct q as [|y q _] using rev_ind; [right; by rewrite app_nil_r in Hq|].
      left. rewrite app_assoc in Hq. apply app_inj_tail in Hq as [Hq _]. by exists q. }
    destruct (foldl _ stats0 l) as [co cu mx ad bi de md mo un se]. cbn in Hcu, IH1, IH2. subst cu.
    assert (Hopen : c = COpen \/ (s_max (count c (mkStats co (current l) mx ad bi de md mo un se)) = mx /\ (current (l ++ [c]) <= current l)%Z)).
    { destruct c; [by left| |..]; right; (split; [done|]); rewrite Hnew; repeat (rewrite ?bool_decide_true by done; rewrite ?bool_decide_false by done); lia. }
    destruct Hopen as [-> | [-> Hle]].
    + cbn [count s_max]. rewrite bool_decide_true, bool_decide_false in Hnew by done. unfold u64. rewrite Z.mod_small by lia.
      destruct (Z.ltb_spec mx (current l + 1)).
      * split; [|exists (l ++ [COpen]); split; [done|lia]]. intros p Hp. destruct (Hpre p Hp) as [Hp' | ->]; [|lia]. specialize (IH1 _ Hp'). lia.
      * split; [|destruct IH2 as (p & Hp & ->); exists p; split; [by apply prefix_app_r|done]].
        intros p Hp. destruct (Hpre p Hp) as [Hp' | ->]; [by apply IH1|lia].
    + split; [|destruct IH2 as (p & Hp & ->); exists p; split; [by apply prefix_app_r|done]].
      intros p Hp. destruct (Hpre p Hp) as [Hp' | ->]; [by apply IH1|]. specialize (IH1 l ltac:(done)). lia.
Qed.
