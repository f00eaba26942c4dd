(** Searching the buckets (pkg/ldbbolt Search, getSubtreeIDs). *)
From Verif Require Import Bytes Text Dn DnProofs Res Entry EntryProofs Password Db DbSpec
  IdProofs DbProofs.

(** The loop of [subtree]. *)
Lemma subtree_each fuel d cs subs acc :
  Forall2 (fun c sub => subtree fuel d c = Ok sub) cs subs ->
  (fix each (l acc : list N) : res (list N) :=
     match l with
     | [] => Ok acc
     | c :: l' => sub <-- subtree fuel d c ;; each l' (acc ++ sub)
     end) cs acc = Ok (acc ++ concat subs).
Proof.
  intros H. revert acc. induction H as [|c sub cs subs Hc Hr IH]; intros acc.
  - by rewrite app_nil_r.
  - rewrite Hc. cbn [rbind]. rewrite IH. cbn [concat]. by rewrite app_assoc.
Qed.
Lemma subtree_unfold fuel d root subs :
  Forall2 (fun c sub => subtree fuel d c = Ok sub) (get_children d root) subs ->
  subtree (S fuel) d root = Ok (get_children d root ++ concat subs).
Proof. intros H. cbn [subtree]. by apply subtree_each. Qed.

Lemma suffix_cons_ne {A} (r1 r2 : A) k k' :
  (r1 :: k) `suffix_of` k' -> (r2 :: k) `suffix_of` k' -> r1 = r2.
Proof.
  intros [x Hx] [y Hy]. rewrite Hx in Hy.
  change (x ++ r1 :: k) with (x ++ [r1] ++ k) in Hy.
  change (y ++ r2 :: k) with (y ++ [r2] ++ k) in Hy.
  rewrite !app_assoc in Hy. apply app_inv_tail in Hy.
  by apply app_inj_2 in Hy as [_ [= ->]].
Qed.

Lemma bfilter_perm {A} (f : A -> bool) l l' : l ≡ₚ l' -> bfilter f l ≡ₚ bfilter f l'.
Proof.
  induction 1 as [|x l l' H IH|x y l|l1 l2 l3 H1 IH1 H2 IH2]; simpl.
  - done.
  - destruct (f x); [by constructor|done].
  - destruct (f x), (f y); try done. constructor.
  - by etrans.
Qed.

Section search.
Context {T : Text} (HT : TextOK T) {C : Crypto}.

(** The child lists owned by entries at or below [k]. *)
Definition under (m : ghost) (k : dn) (v : str) : Prop :=
  Exists (fun p : dn * (N * entry) => k `suffix_of` p.1 /\ v = id_bytes p.2.1) (map_to_list m).
Global Instance under_dec m k v : Decision (under m k v).
Proof using Type. unfold under. apply Exists_dec. intros p. apply _. Defined.
Definition measure (d : db) (m : ghost) (k : dn) : nat :=
  size (filter (under m k) (dom (id2ch d)) : gset str).

Lemma under_spec m k v :
  under m k v <-> exists k' i e, m !! k' = Some (i, e) /\ k `suffix_of` k' /\ v = id_bytes i.
Proof using Type.
  unfold under. rewrite Exists_exists. split.
  - intros ([k' [i e]] & Hin & H1 & H2). apply elem_of_map_to_list in Hin. eauto 10.
  - intros (k' & i & e & Hk & H1 & H2). exists (k', (i, e)).
    split; [by apply elem_of_map_to_list|done].
Qed.

Lemma measure_lt b d m k i e r j e' :
  sim b d m -> m !! k = Some (i, e) -> m !! (r :: k) = Some (j, e') ->
  measure d m (r :: k) < measure d m k.
Proof using Type.
  intros Hs Hk Hr. unfold measure. apply subset_size. split.
  - intros v. rewrite !elem_of_filter, !under_spec.
    intros [(k' & i' & e1 & H1 & H2 & H3) Hd]. split; [|done].
    exists k', i', e1. split; [done|]. split; [|done]. by apply suffix_cons_l in H2.
  - intros Hsub. specialize (Hsub (id_bytes i)). rewrite !elem_of_filter, !under_spec in Hsub.
    destruct Hsub as [(k' & i' & e1 & H1 & H2 & H3) _].
    + split; [exists k, i, e; done|]. apply elem_of_dom.
      destruct (s_ch _ _ _ Hs _ _ _ Hk) as (l & Hl & Hnd & Hin).
      unfold raw_children in Hl. destruct (id2ch d !! id_bytes i) as [w|] eqn:E; [by exists w|].
      simpl in Hl. symmetry in Hl. apply ids_empty in Hl as ->.
      exfalso. apply (not_elem_of_nil j), Hin. eauto.
    + destruct (sim_id_inj _ _ _ _ _ _ _ _ _ Hs Hk H1 H3) as [-> _].
      apply suffix_length in H2. simpl in H2. lia.
Qed.
Lemma measure_top d m k : measure d m k <= size (id2ch d).
Proof using Type.
  unfold measure. rewrite <- size_dom. apply subseteq_size.
  intros v. rewrite elem_of_filter. by intros [_ ?].
Qed.

(** [j] is the identifier of a proper descendant of [k]. *)
Definition below (m : ghost) (k : dn) (j : N) : Prop :=
  exists x k' e', x <> [] /\ k' = x ++ k /\ m !! k' = Some (j, e').
(** In [l] every element has its parent before it, unless the parent is [k]. *)
Definition topo (m : ghost) (k : dn) (l : list N) : Prop :=
  forall l1 j l2, l = l1 ++ j :: l2 ->
    exists r k' e', m !! (r :: k') = Some (j, e') /\
      (k' = k \/ exists j' e'', m !! k' = Some (j', e'') /\ j' ∈ l1).

Lemma below_step b d m k i e j :
  sim b d m -> m !! k = Some (i, e) -> b <> [] ->
  below m k j <-> exists r c e', m !! (r :: k) = Some (c, e') /\ (j = c \/ below m (r :: k) j).
Proof using Type.
  intros Hs Hk Hb. split.
  - intros (x & k' & e' & Hx & -> & Hm).
    destruct (exists_last Hx) as (x' & r & ->).
    rewrite <- app_assoc in Hm. simpl in Hm.
    assert (Hup : is_Some (m !! (r :: k))).
    { clear Hx. revert j e' Hm. induction x' as [|y x' IH]; intros j e' Hm; [by eexists|].
      simpl in Hm. apply (s_parent _ _ _ Hs) in Hm as [[[j' e1] Hm]|Hm]; [by eapply IH|].
      exfalso. pose proof (gk_len _ _ (s_key _ _ _ Hs _ _ _ Hk)) as Hl.
      apply (f_equal length) in Hm. rewrite app_length in Hm. destruct b; [done|].
      simpl in Hm, Hl. lia. }
    destruct Hup as [[c e1] Hup]. exists r, c, e1. split; [done|].
    destruct x' as [|y x'].
    + left. simpl in Hm. rewrite Hup in Hm. by injection Hm as <- _.
    + right. exists (y :: x'), ((y :: x') ++ r :: k), e'. done.
  - intros (r & c & e' & Hr & [->|(x & k' & e1 & Hx & -> & Hm)]).
    + exists [r], (r :: k), e'. done.
    + exists (x ++ [r]), (x ++ r :: k), e1. split; [by destruct x|].
      split; [by rewrite <- app_assoc|done].
Qed.

Lemma subtree_spec b d m fuel :
  sim b d m -> b <> [] ->
  forall k i e, m !! k = Some (i, e) -> measure d m k < fuel ->
  exists l, subtree fuel d i = Ok l /\ NoDup l /\ (forall j, j ∈ l <-> below m k j) /\ topo m k l.
Proof using Type.
  intros Hs Hb. induction fuel as [|fuel IH]; intros k i e Hk Hf; [lia|].
  destruct (sim_children _ _ _ _ _ _ Hs Hk) as [Hnd Hin].
  (* the sublists *)
  assert (Hsubs : forall cs, (forall j, j ∈ cs -> exists r e', m !! (r :: k) = Some (j, e')) ->
    exists subs, Forall2 (fun c sub => subtree fuel d c = Ok sub) cs subs /\
      Forall2 (fun c sub => NoDup sub /\ exists r e', m !! (r :: k) = Some (c, e') /\
         (forall j, j ∈ sub <-> below m (r :: k) j) /\ topo m (r :: k) sub) cs subs).
  { induction cs as [|c cs IHc]; intros Hcs; [by exists []|].
    destruct (Hcs c) as (r & e' & Hr); [left|].
    destruct (IH (r :: k) c e' Hr) as (sub & H1 & H2 & H3 & H4).
    { pose proof (measure_lt _ _ _ _ _ _ _ _ _ Hs Hk Hr). lia. }
    destruct IHc as (subs & Hs1 & Hs2). { intros j Hj. apply Hcs. by right. }
    exists (sub :: subs). split; [by constructor|]. constructor; [|done].
    split; [done|]. eauto 10. }
  destruct (Hsubs (get_children d i)) as (subs & Hs1 & Hs2). { intros j Hj. by apply Hin. }
  exists (get_children d i ++ concat subs). split; [by apply subtree_unfold|].
  assert (Hinc : forall cs subs0, Forall2 (fun c sub => NoDup sub /\ exists r e', m !! (r :: k) = Some (c, e') /\
         (forall j, j ∈ sub <-> below m (r :: k) j) /\ topo m (r :: k) sub) cs subs0 ->
     forall j, j ∈ concat subs0 <-> exists c r e', c ∈ cs /\ m !! (r :: k) = Some (c, e') /\ below m (r :: k) j).
  { intros cs subs0 H. induction H as [|c sub cs subs0 (H1 & r & e' & H2 & H3 & H4) Hr IHr]; intros j.
    - simpl. split; [by intros ?%elem_of_nil|]. by intros (c & r & e' & ?%elem_of_nil & _).
    - cbn [concat]. rewrite elem_of_app, IHr, H3. split.
      + intros [Hj|(c' & r' & e1 & Hc' & H)].
        * exists c, r, e'. split; [left|done].
        * exists c', r', e1. split; [by right|done].
      + intros (c' & r' & e1 & Hc' & Hm & Hj). apply elem_of_cons in Hc' as [->|Hc'].
        * left. assert (r :: k = r' :: k) as [= ->]; [|done].
          by apply (s_inj _ _ _ Hs _ _ _ _ _ H2 Hm).
        * right. eauto 10. }
  assert (Hb1 : forall r c e' j, m !! (r :: k) = Some (c, e') -> below m (r :: k) j ->
    ~ exists r' e1, m !! (r' :: k) = Some (j, e1)).
  { intros r c e' j Hr (x & k' & e1 & Hx & -> & Hm) (r' & e2 & Hm').
    pose proof (s_inj _ _ _ Hs _ _ _ _ _ Hm Hm') as He. apply (f_equal length) in He.
    rewrite app_length in He. destruct x; [done|]. simpl in He. lia. }
  split; [|split].
  - apply NoDup_app. split; [done|]. split.
    + intros j Hj Hj'. apply (Hinc _ _ Hs2) in Hj' as (c & r & e' & _ & Hm & Hbj).
      apply (Hb1 _ _ _ _ Hm Hbj). by apply Hin.
    + clear Hs1 Hsubs Hin. revert Hnd. induction Hs2 as [|c sub cs subs0 H1 Hr IHr]; intros Hnd; [constructor|].
      apply NoDup_cons in Hnd as [Hnc Hnd]. cbn [concat]. apply NoDup_app.
      destruct H1 as (H1 & r & e' & H2 & H3 & H4). split; [done|]. split; [|by apply IHr].
      intros j Hj Hj'. apply H3 in Hj as (x & k1 & e1 & Hx & -> & Hm).
      apply (Hinc _ _ Hr) in Hj' as (c' & r' & e2 & Hc' & Hm' & (y & k2 & e3 & Hy & -> & Hm2)).
      pose proof (s_inj _ _ _ Hs _ _ _ _ _ Hm Hm2) as He.
      assert (r = r') as <-.
      { apply (suffix_cons_ne r r' k (x ++ r :: k)); [by exists x|]. rewrite He. by exists y. }
      rewrite H2 in Hm'. injection Hm' as <- _. done.
  - intros j. rewrite elem_of_app, (Hinc _ _ Hs2), Hin, (below_step _ _ _ _ _ _ _ Hs Hk Hb). split.
    + intros [(r & e' & Hr)|(c & r & e' & _ & Hm & Hbj)]; eauto 10.
    + intros (r & c & e' & Hr & [->|Hbj]); [eauto|]. right. exists c, r, e'.
      split; [apply Hin; eauto|done].
  - intros l1 j l2 Heq.
    assert (Hcase : (exists r e', m !! (r :: k) = Some (j, e')) \/
      exists r c e' u1 u2 l0, m !! (r :: k) = Some (c, e') /\ topo m (r :: k) (u1 ++ j :: u2) /\
        l1 = get_children d i ++ l0 ++ u1).
    { assert (Hpos : forall cs subs0 l0 l1 l2, Forall2 (fun c sub => NoDup sub /\ exists r e', m !! (r :: k) = Some (c, e') /\
         (forall j, j ∈ sub <-> below m (r :: k) j) /\ topo m (r :: k) sub) cs subs0 ->
        l0 ++ concat subs0 = l1 ++ j :: l2 -> (exists l3, l1 = l0 ++ l3) ->
        exists r c e' u1 u2 l4, m !! (r :: k) = Some (c, e') /\ topo m (r :: k) (u1 ++ j :: u2) /\
        l1 = l0 ++ l4 ++ u1).
      { clear. intros cs subs0 l0 l1 l2 H. revert l0. induction H as [|c sub cs subs0 H1 Hr IHr]; intros l0 He [l3 ->].
        - simpl in He. apply (f_equal length) in He. rewrite !app_length in He. simpl in He. lia.
        - rewrite <- app_assoc in He. apply app_inv_head in He. cbn [concat] in He.
          destruct H1 as (_ & r & e' & H2 & _ & H4).
          assert (Hle : (exists l5, l3 = sub ++ l5) \/ exists u2, sub = l3 ++ j :: u2).
          { clear -He. revert l3 He. induction sub as [|x sub IH]; intros l3 He.
            - left. by exists l3.
            - destruct l3 as [|y l3]; simpl in He; injection He as -> He.
              + right. by exists sub.
              + destruct (IH l3 He) as [[l5 ->]|[u2 ->]]; [left; by exists l5|right; by exists u2]. }
          destruct Hle as [[l5 ->]|[u2 ->]].
          + destruct (IHr (l0 ++ sub)) as (r' & c' & e1 & u1 & u2 & l4 & G1 & G2 & G3).
            * rewrite <- app_assoc, He. by rewrite !app_assoc.
            * exists l5. by rewrite app_assoc.
            * exists r', c', e1, u1, u2, (sub ++ l4). split; [done|]. split; [done|].
              rewrite G3. by rewrite <- !app_assoc.
          + exists r, c, e', l3, u2, []. done. }
      assert (Hsplit : (exists l3, l1 = get_children d i ++ l3) \/ j ∈ get_children d i).
      { clear -Heq. revert l1 Heq. generalize (get_children d i). intros cs.
        induction cs as [|x cs IH]; intros l1 He.
        - left. by exists l1.
        - destruct l1 as [|y l1]; simpl in He; injection He as -> He.
          + right. left.
          + destruct (IH l1 He) as [[l3 ->]|?]; [left; by exists l3|right; by right]. }
      destruct Hsplit as [Hp|Hj]; [|left; by apply Hin]. right.
      eapply Hpos; eauto. }
    destruct Hcase as [(r & e' & Hr)|(r & c & e' & u1 & u2 & l0 & Hr & Ht & ->)].
    + exists r, k, e'. split; [done|]. by left.
    + destruct (Ht u1 j u2 eq_refl) as (r' & k' & e1 & Hm & [->|(j' & e2 & Hm' & Hj')]).
      * exists r', (r :: k), e1. split; [done|]. right. exists c, e'. split; [done|].
        apply elem_of_app. left. apply Hin. eauto.
      * exists r', k', e1. split; [done|]. right. exists j', e2. split; [done|].
        rewrite !elem_of_app. auto.
Qed.

(** Fetching entries by identifier. *)
Lemma fetch_ok b d m ids :
  sim b d m -> (forall j, j ∈ ids -> exists k e, m !! k = Some (j, e)) ->
  exists es, fetch d ids = (es, None) /\
    Forall2 (fun j e => exists k, m !! k = Some (j, e)) ids es.
Proof using Type.
  intros Hs. induction ids as [|j ids IH]; intros H; [by exists []|].
  destruct (H j) as (k & e & Hk); [left|].
  destruct IH as (es & He & Hes). { intros j' Hj'. apply H. by right. }
  exists (e :: es). cbn [fetch]. rewrite (sim_get_entry _ _ _ _ _ _ Hs Hk), He.
  split; [done|]. constructor; eauto.
Qed.
Lemma fetch_perm b d m ids es (P : dn -> bool) :
  sim b d m -> NoDup ids ->
  (forall j, j ∈ ids <-> exists k e, m !! k = Some (j, e) /\ P k = true) ->
  Forall2 (fun j e => exists k, m !! k = Some (j, e)) ids es ->
  es ≡ₚ map snd (bfilter (fun p => P p.1) (map_to_list (snd <$> m))).
Proof using Type.
  intros Hs Hnd Hin Hes.
  set (L := bfilter (fun p : dn * (N * entry) => P p.1) (map_to_list m)).
  assert (Hids : ids ≡ₚ map (fun p => p.2.1) L).
  { apply NoDup_Permutation; [done| |].
    - assert (HL : NoDup L).
      { apply NoDup_ListNoDup, List.NoDup_filter, NoDup_ListNoDup, NoDup_map_to_list. }
      apply NoDup_ListNoDup. unfold L in *. clear -Hs HL.
      assert (Hsub : forall p, p ∈ bfilter (fun p : dn * (N * entry) => P p.1) (map_to_list m) -> m !! p.1 = Some p.2).
      { intros [k v] H. apply elem_of_list_In, filter_In in H as [H _].
        apply elem_of_list_In, elem_of_map_to_list in H. done. }
      revert HL Hsub. generalize (bfilter (fun p : dn * (N * entry) => P p.1) (map_to_list m)).
      intros l. induction l as [|[k [i e]] l IH]; intros HL Hsub; [constructor|].
      apply NoDup_cons in HL as [Hn HL]. cbn [map]. constructor.
      + intros Hc. apply in_map_iff in Hc as ([k' [i' e']] & Hi & Hc). simpl in Hi. subst i'.
        apply elem_of_list_In in Hc.
        pose proof (Hsub (k, (i, e)) ltac:(left)) as H1.
        pose proof (Hsub (k', (i, e')) ltac:(by right)) as H2. simpl in H1, H2.
        assert (k = k') as <- by by apply (s_inj _ _ _ Hs _ _ _ _ _ H1 H2).
        rewrite H1 in H2. injection H2 as <-. done.
      + apply IH; [done|]. intros p Hp. apply Hsub. by right.
    - intros j. rewrite Hin. unfold L. split.
      + intros (k & e & Hk & HP). apply elem_of_list_In, in_map_iff. exists (k, (j, e)).
        split; [done|]. apply filter_In. split; [|done].
        by apply elem_of_list_In, elem_of_map_to_list.
      + intros H. apply elem_of_list_In, in_map_iff in H as ([k [i e]] & <- & H).
        apply filter_In in H as [H HP]. apply elem_of_list_In, elem_of_map_to_list in H.
        exists k, e. done. }
  set (ent := fun j => match id2ent d !! id_bytes j with Some e => e | None => mkEntry [] [] end).
  assert (Hent : forall k j e, m !! k = Some (j, e) -> ent j = e).
  { intros k j e Hk. unfold ent. assert (id2ent d !! id_bytes j = Some e) as ->; [|done].
    apply (s_ent _ _ _ Hs). eauto. }
  assert (es = map ent ids) as ->.
  { clear Hids Hin Hnd. induction Hes as [|j e ids es [k Hk] Hes IH]; [done|].
    cbn [map]. rewrite (Hent _ _ _ Hk). by f_equal. }
  rewrite Hids, map_map.
  assert (Hmap : map (fun x => ent x.2.1) L = map (fun x : dn * (N * entry) => x.2.2) L).
  { apply map_ext_in. intros [k [i e]] H. apply filter_In in H as [H _].
    apply elem_of_list_In, elem_of_map_to_list in H. by apply (Hent _ _ _ H). }
  rewrite Hmap. unfold L.
  rewrite (bfilter_perm _ _ _ (map_to_list_fmap snd m)).
  assert (Hf : bfilter (fun p : dn * entry => P p.1) (prod_map id snd <$> map_to_list m) =
    map (prod_map id snd) (bfilter (fun p : dn * (N * entry) => P p.1) (map_to_list m))).
  { generalize (map_to_list m). intros l. induction l as [|[k [i e]] l IH]; [done|].
    cbn [fmap list_fmap List.filter]. cbn [prod_map fst snd id].
    change (list_fmap _ _ (prod_map id snd) l) with (prod_map id snd <$> l).
    rewrite IH. by destruct (P k). }
  rewrite Hf, map_map. done.
Qed.

Definition scope_ok (scope : Z) : Prop := scope = ScopeBase \/ scope = ScopeOne \/ scope = ScopeSub.

Theorem search_spec b d m s dd scope :
  base_ok b -> sim b d m -> parse_dn s = Some dd -> wf_dn dd = true -> scope_ok scope ->
  match (snd <$> m) !! fold_dn dd with
  | None => search d s scope = Ok ([], Some ENotFound)
  | Some e => exists es, search d s scope = Ok (es, None) /\
      es ≡ₚ map snd (bfilter (fun p => in_scope scope (fold_dn dd) p.1) (map_to_list (snd <$> m)))
  end.
Proof using HT.
  intros Hb Hs Hp Hwf Hsc. unfold search, parse_normalize. rewrite Hp. cbn [fmap option_fmap option_map].
  rewrite (normalize_flat _ Hwf).
  assert (Hkwf : wf_dn (fold_dn dd) = true) by by apply fold_dn_wf.
  remember (fold_dn dd) as k eqn:Hk0. rewrite (sim_get_id _ _ _ _ Hs Hkwf), lookup_fmap.
  destruct (m !! k) as [[i e]|] eqn:Emk; [|done]. cbn [fmap option_fmap option_map snd rbind].
  rewrite (sim_id_nonzero _ _ _ _ _ _ Hs Emk).
  assert (Hgo : forall ids (P : dn -> bool), NoDup ids ->
    (forall j, j ∈ ids <-> exists k e, m !! k = Some (j, e) /\ P k = true) ->
    exists es, Ok (fetch d ids) = Ok (es, None) /\
      es ≡ₚ map snd (bfilter (fun p => P p.1) (map_to_list (snd <$> m)))).
  { intros ids P Hnd Hin. destruct (fetch_ok b d m ids Hs) as (es & Hf & Hes).
    - intros j Hj. apply Hin in Hj as (k' & e' & Hj & _). eauto.
    - exists es. split; [by rewrite Hf|]. by apply (fetch_perm b d m ids). }
  destruct Hsc as [->|[->| ->]]; unfold ScopeBase, ScopeOne, ScopeSub; cbn [Z.eqb].
  - apply (Hgo [i] (in_scope 0 k)); [apply NoDup_singleton|]. intros j. rewrite elem_of_list_singleton.
    unfold in_scope; cbn [Z.eqb]. split.
    + intros ->. exists k, e. split; [done|]. by apply bool_decide_eq_true.
    + intros (k' & e' & Hk' & Heq). apply bool_decide_eq_true in Heq as ->.
      rewrite Emk in Hk'. by injection Hk' as <- _.
  - destruct (sim_children _ _ _ _ _ _ Hs Emk) as [Hnd Hin].
    apply (Hgo _ (in_scope 1 k)); [done|]. intros j. rewrite Hin. unfold in_scope; cbn [Z.eqb]. split.
    + intros (r & e' & Hr). exists (r :: k), e'. split; [done|]. simpl. by apply bool_decide_eq_true.
    + intros (k' & e' & Hk' & Hc). destruct k' as [|r t]; [done|]. simpl in Hc.
      apply bool_decide_eq_true in Hc as ->. eauto.
  - destruct (subtree_spec b d m (S (size (id2ch d))) Hs (base_ne _ Hb) k i e Emk) as (l & Hl & Hnd & Hin & _).
    { pose proof (measure_top d m k). lia. }
    rewrite Hl. cbn [rbind]. apply (Hgo _ (in_scope 2 k)).
    + apply NoDup_cons. split; [|done]. intros Hc. apply Hin in Hc as (x & k' & e' & Hx & -> & Hm).
      pose proof (s_inj _ _ _ Hs _ _ _ _ _ Emk Hm) as He. apply (f_equal length) in He.
      rewrite app_length in He. destruct x; [done|]. simpl in He. lia.
    + intros j. rewrite elem_of_cons, Hin. unfold in_scope, at_or_below; cbn [Z.eqb]. split.
      * intros [->|(x & k' & e' & Hx & -> & Hm)].
        -- exists k, e. split; [done|]. by apply bool_decide_eq_true.
        -- exists (x ++ k), e'. split; [done|]. apply bool_decide_eq_true. by exists x.
      * intros (k' & e' & Hk' & Hsuf). apply bool_decide_eq_true in Hsuf as [x ->].
        destruct x as [|y x].
        -- left. simpl in Hk'. rewrite Emk in Hk'. by injection Hk' as <- _.
        -- right. exists (y :: x), ((y :: x) ++ k), e'. done.
Qed.
End search.
