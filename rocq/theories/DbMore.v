(** More consequences: values after a rename or password change, export and
    load. *)
From Verif Require Import Bytes Text Dn DnProofs Res Entry EntryProofs Password PasswordProofs Db DbSpec
  IdProofs DbProofs DbOps DbSearch DbFacts.

Section more.
Context {T : Text} (HT : TextOK T) {C : Crypto}.

(** ** Adding values *)
Definition adds (r : rdn) : list change := map (fun p => mkChange MAdd p.1 [p.2]) r.

Lemma add_gives r0 old cur t v new :
  asciis t -> names_ok cur -> apply_change r0 old cur (mkChange MAdd t [v]) = Ok new ->
  has_value t v new.
Proof using HT.
  intros Ht Hn [= <-]. cbn [c_type c_vals]. apply has_value_vals.
  rewrite vals_of_replaced by apply Hn. rewrite mod_add_spec.
  set (g := get_eqfold_vals (fold t) cur).
  destruct (existsb (same v) g) eqn:E.
  - apply existsb_exists in E as (x & Hx & Hs).
    exists (g ++ bfilter (fun n => negb (existsb (same n) g)) [v]), x.
    assert (Hin : In x (g ++ bfilter (fun n => negb (existsb (same n) g)) [v])).
    { apply in_or_app. by left. }
    split; [|split; [done|symmetry; by apply same_eq]].
    destruct (g ++ _); [done|]. by left.
  - exists (g ++ [v]), v. simpl. rewrite E. simpl.
    split; [destruct g; by left|]. split; [|done]. apply in_or_app. right. by left.
Qed.
Lemma add_keeps r0 old cur t v t' v' new :
  asciis t -> names_ok cur -> apply_change r0 old cur (mkChange MAdd t [v]) = Ok new ->
  has_value t' v' cur -> has_value t' v' new.
Proof using HT.
  intros Ht Hn H Hv. destruct (decide (fold t = fold t')) as [He|Hne].
  - injection H as <-. cbn [c_type c_vals]. apply has_value_vals.
    rewrite <- (vals_of_fold t t') by done. rewrite vals_of_replaced by apply Hn.
    rewrite mod_add_spec, get_vals by (try apply Hn; done).
    apply has_value_vals in Hv as (vs & x & Hvs & Hx & Hf).
    rewrite <- (vals_of_fold t t') in Hvs by done.
    destruct (vals_of_at_most_one t cur) as [E|[ws E]]; [apply Hn|by rewrite E in Hvs|].
    rewrite E in Hvs |- *. destruct Hvs as [->|[]].
    eexists _, x. split; [|split; [|done]].
    + destruct vs; [done|]. by left.
    + apply in_or_app. by left.
  - apply apply_change_shape in H as [vs ->]. apply has_value_vals. simpl.
    rewrite vals_of_other by done. by apply has_value_vals.
Qed.
Lemma adds_values r0 old r cur new :
  Forall (fun p => asciis p.1) r -> names_ok cur ->
  apply_changes r0 old cur (adds r) = Ok new ->
  (forall t v, has_value t v cur -> has_value t v new) /\
  (forall t v, In (t, v) r -> has_value t v new).
Proof using HT.
  revert cur. induction r as [|[t v] r IH]; intros cur Ha Hn H.
  - simpl in H. injection H as <-. split; [done|]. by intros t v [].
  - inversion Ha as [|? ? Ht Hr]; subst. cbn [adds map apply_changes fst snd] in H. simpl in Ht.
    destruct (apply_change r0 old cur _) as [cur'| | |] eqn:E; [|done..]. cbn [rbind] in H.
    assert (Hn' : names_ok cur') by (eapply (apply_change_names_ok); [|exact Hn|exact E]; done).
    destruct (IH cur' Hr Hn' H) as [IH1 IH2]. split.
    + intros t1 v1 H1. apply IH1. exact (add_keeps _ _ _ _ _ _ _ _ Ht Hn E H1).
    + intros t1 v1 [[= <- <-]|H1]; [|by apply IH2]. apply IH1. exact (add_gives _ _ _ _ _ _ Ht Hn E).
Qed.
Lemma apply_changes_app r0 old c1 c2 cur :
  apply_changes r0 old cur (c1 ++ c2) =
  (cur' <-- apply_changes r0 old cur c1 ;; apply_changes r0 old cur' c2).
Proof using Type.
  revert cur. induction c1 as [|c c1 IH]; intros cur; [done|]. simpl.
  destruct (apply_change r0 old cur c); simpl; [apply IH|done..].
Qed.
Lemma descr_asciis t : descr t = true -> asciis t.
Proof using Type. intros H. apply prints_asciis. by apply descr_prints. Qed.
Lemma wf_rdn_asciis r : wf_rdn r = true -> Forall (fun p => asciis p.1) r.
Proof using Type.
  intros H. unfold wf_rdn in H. apply andb_true_iff in H as [_ H].
  apply forallb_Forall in H. eapply Forall_impl; [exact H|].
  intros p Hp. simpl in Hp. by apply descr_asciis.
Qed.
(** The entry after a rename. *)
Lemma rename_values (e e' : entry) (n : str) (oldr newr : rdn) (delold : bool) :
  wf_rdn oldr = true -> wf_rdn newr = true -> names_ok (e_attrs e) ->
  apply_modify (mkEntry n (e_attrs e))
    (mkModify n ((if delold then map (fun p => mkChange MDelete p.1 [p.2]) oldr else [])
                 ++ map (fun p => mkChange MAdd p.1 [p.2]) newr)) = Ok e' ->
  e_dn e' = n /\ (forall t v, In (t, v) newr -> has_value t v (e_attrs e')) /\
  (delold = false -> forall t v, has_value t v (e_attrs e) -> has_value t v (e_attrs e')).
Proof using HT.
  intros Ho Hw Hn H. apply apply_modify_inv in H as (r & od & md & attrs & _ & _ & _ & H & ->).
  cbn [e_dn e_attrs m_changes] in *. split; [done|].
  rewrite apply_changes_app in H.
  destruct (apply_changes r (e_attrs e) (e_attrs e) (if delold then _ else _)) as [cur| | |] eqn:E;
    [|done..]. cbn [rbind] in H.
  assert (Hnc : names_ok cur).
  { eapply apply_changes_names_ok; [|exact Hn|exact E]. destruct delold; [|done].
    rewrite Forall_map. by apply wf_rdn_asciis. }
  destruct (adds_values r (e_attrs e) newr cur attrs (wf_rdn_asciis _ Hw) Hnc H) as [H1 H2].
  split; [done|]. intros ->. simpl in E. injection E as <-. done.
Qed.

(** ** Names fit *)
Lemma spec_op_fits b o m m' :
  spec_op b o m = Ok m' ->
  (forall k, is_Some (m !! k) -> name_fits k = true) ->
  (forall k, is_Some (m' !! k) -> name_fits k = true).
Proof using Type.
  intros H Hm. destruct o as [e|s|r|r|r]; cbn [spec_op] in H.
  - destruct (parse_dn (e_dn e)) as [[|x p]|]; try done. unfold spec_put in H.
    destruct (negb _); [done|]. destruct (bool_decide (is_Some _)); [done|].
    destruct (_ && _); [done|]. destruct (negb (name_fits _)) eqn:E; [done|]. injection H as <-.
    apply negb_false_iff in E.
    intros k [e' Hk]. apply lookup_insert_Some in Hk as [[<- _]|[_ Hk]]; [done|]. by eapply Hm.
  - destruct (parse_dn s) as [[|x p]|]; try done. unfold spec_delete in H.
    repeat (case_match; try done). injection H as <-.
    intros k [e' Hk]. apply lookup_delete_Some in Hk as [_ Hk]. by eapply Hm.
  - destruct (parse_dn (m_dn r)) as [dd|]; try done. unfold spec_modify in H.
    destruct (m !! fold_dn dd) eqn:E; [|done]. destruct (apply_modify e r); try done.
    injection H as <-. intros k [e' Hk]. apply lookup_insert_Some in Hk as [[<- _]|[_ Hk]]; by eapply Hm.
  - destruct (parse_dn (md_dn r)) as [[|x p]|]; [by destruct (parse_dn (md_newrdn r)) as [[|]|]| |done].
    destruct (parse_dn (md_newrdn r)) as [[|y q]|]; try done. unfold spec_rename in H.
    destruct (bool_decide _); [done|]. destruct (m !! fold_dn (x :: p)) eqn:E; [|done].
    destruct (negb _); [done|]. destruct (apply_modify _ _); try done. cbn [rbind] in H.
    destruct (negb (name_fits _)) eqn:Ef; [done|]. injection H as <-. apply negb_false_iff in Ef.
    intros k [e' Hk]. apply lookup_insert_Some in Hk as [[<- _]|[_ Hk]]; [done|].
    apply lookup_delete_Some in Hk as [_ Hk]. by eapply Hm.
  - destruct (parse_dn (pw_user r)) as [dd|]; try done. unfold spec_password in H.
    destruct (m !! fold_dn dd) eqn:E; [|done]. destruct (check_old e (pw_old r)); try done. cbn [rbind] in H.
    destruct (apply_modify _ _); try done.
    injection H as <-. intros k [e' Hk]. apply lookup_insert_Some in Hk as [[<- _]|[_ Hk]]; by eapply Hm.
Qed.

(** ** Text suffixes *)
Lemma flat_suffix b k : b <> [] -> b `suffix_of` k -> has_suffix (flat k) (flat b) = true.
Proof using Type.
  intros Hb [x ->]. destruct x as [|y x].
  - simpl. apply has_suffix_spec. by exists [].
  - apply has_suffix_spec. exists (flat (y :: x) ++ B ",").
    revert b Hb. induction b as [|r b IH] using rev_ind; intros Hb; [done|].
    rewrite (app_assoc (y :: x) b [r]), flat_snoc by done.
    destruct b as [|r0 b].
    + rewrite app_nil_r. by rewrite <- app_assoc.
    + rewrite IH by done. rewrite (flat_snoc (r0 :: b)) by done. by rewrite <- !app_assoc.
Qed.

(** ** The order of a subtree search *)
Lemma search_order b d g s dd i e :
  base_ok b -> sim b d g -> parse_dn s = Some dd -> wf_dn dd = true ->
  g !! fold_dn dd = Some (i, e) ->
  exists l es, search d s ScopeSub = Ok (e :: es, None) /\
    Forall2 (fun j e => exists k, g !! k = Some (j, e)) l es /\ NoDup (i :: l) /\
    (forall j, j ∈ l <-> below g (fold_dn dd) j) /\ topo g (fold_dn dd) l.
Proof using HT.
  intros Hb Hs Hp Hwf Hg. unfold search, parse_normalize. rewrite Hp. cbn [fmap option_fmap option_map].
  rewrite (normalize_flat _ Hwf).
  assert (Hkwf : wf_dn (fold_dn dd) = true) by by apply fold_dn_wf.
  remember (fold_dn dd) as k eqn:Hk0. rewrite (sim_get_id _ _ _ _ Hs Hkwf), Hg.
  cbn [rbind]. rewrite (sim_id_nonzero _ _ _ _ _ _ Hs Hg).
  unfold ScopeBase, ScopeOne, ScopeSub; cbn [Z.eqb].
  destruct (subtree_spec b d g (S (size (id2ch d))) Hs (base_ne _ Hb) k i e Hg) as (l & Hl & Hnd & Hin & Ht).
  { pose proof (measure_top d g k). lia. }
  rewrite Hl. cbn [rbind fetch]. rewrite (sim_get_entry _ _ _ _ _ _ Hs Hg).
  destruct (fetch_ok b d g l Hs) as (es & Hf & Hes).
  { intros j Hj. apply Hin in Hj as (x & k' & e' & _ & _ & Hm). eauto. }
  exists l, es. rewrite Hf. split; [done|]. split; [done|]. split; [|done].
  apply NoDup_cons. split; [|done]. intros Hc. apply Hin in Hc as (x & k' & e' & Hx & -> & Hm).
  pose proof (s_inj _ _ _ Hs _ _ _ _ _ Hg Hm) as He. apply (f_equal length) in He.
  rewrite app_length in He. destruct x; [done|]. simpl in He. lia.
Qed.

(** ** Loading *)
Lemma put_one b d g e dd :
  base_ok b -> sim b d g -> (idseq d + 1 < 2 ^ 64)%N ->
  parse_dn (e_dn e) = Some dd -> wf_dn dd = true -> dd <> [] ->
  b `suffix_of` fold_dn dd -> g !! fold_dn dd = None ->
  fold_dn dd = b \/ is_Some (g !! tail (fold_dn dd)) -> name_fits (fold_dn dd) = true ->
  exists d' g', run_op (normalize b) no_faults (OpPut e) d = (Done (Ok tt), d') /\
    sim b d' g' /\ snd <$> g' = <[fold_dn dd := e]> (snd <$> g) /\ idseq d' = (idseq d + 1)%N.
Proof using HT.
  intros Hb Hs Hq Hp Hwf Hne Hsuf Hno Hpar Hfit.
  assert (Hok : op_ok (OpPut e)).
  { intros d0 Hd0. rewrite Hp in Hd0. by injection Hd0 as <-. }
  pose proof (refines_op HT b d g (OpPut e) Hb Hs Hok Hq) as Hr. unfold refines in Hr.
  assert (Hspec : spec_op b (OpPut e) (snd <$> g) = Ok (<[fold_dn dd := e]> (snd <$> g))).
  { cbn [spec_op]. rewrite Hp. destruct dd as [|x p]; [done|]. unfold spec_put.
    remember (fold_dn (x :: p)) as k eqn:Hk0.
    assert (Hkwf : wf_dn k = true) by (subst k; by apply (fold_dn_wf HT)).
    assert (Hkf : fold_dn k = k) by (subst k; apply (fold_dn_idem HT)).
    rewrite (normalize_flat k Hkwf), (normalize_flat b (base_wf _ Hb)), Hkf, (base_folded _ Hb).
    rewrite flat_suffix by (apply Hb || done). simpl negb. cbv iota.
    rewrite lookup_fmap, Hno. cbn [fmap option_fmap option_map].
    rewrite bool_decide_eq_false_2 by (intros [? ?]; done).
    assert (negb (bool_decide (k = b)) && bool_decide ((snd <$> g) !! tail k = None) = false) as ->.
    { apply andb_false_iff. destruct Hpar as [->|[y Hy]].
      - left. apply negb_false_iff. by apply bool_decide_eq_true.
      - right. apply bool_decide_eq_false. rewrite lookup_fmap, Hy. done. }
    by rewrite Hfit. }
  rewrite Hspec in Hr. destruct Hr as (g1 & d1 & Hrun & Hs1 & Hg1 & _).
  exists d1, g1. split; [done|]. split; [done|]. split; [done|].
  by apply run_put_id in Hrun as [? _].
Qed.

(** [l] with keys: each key's parent is before it or in [g0]. *)
Lemma load_list (b : dn) (es : list entry) : forall (ks : list dn) (d : db) (g : ghost),
  base_ok b -> sim b d g ->
  Forall2 (fun k e => exists dd, parse_dn (e_dn e) = Some dd /\ wf_dn dd = true /\ fold_dn dd = k) ks es ->
  NoDup ks -> (forall k, k ∈ ks -> k <> [] /\ b `suffix_of` k /\ g !! k = None /\ name_fits k = true) ->
  (forall l1 k l2, ks = l1 ++ k :: l2 -> k = b \/ tail k ∈ l1 \/ is_Some (g !! tail k)) ->
  (idseq d + N.of_nat (length es) < 2 ^ 64)%N ->
  exists d' g', load_db (normalize b) es d = (Done (Ok tt), d') /\ sim b d' g' /\
    snd <$> g' = list_to_map (zip ks es) ∪ (snd <$> g).
Proof using HT.
  induction es as [|e es IH]; intros ks d g Hb Hs HF Hnd Hks Hpar Hseq.
  - inversion HF; subst. exists d, g. split; [done|]. split; [done|]. simpl. by rewrite (left_id_L ∅ (∪)).
  - inversion HF as [|k ? ks' ? (dd & Hp & Hwf & Hk) HF']; subst. cbn [length] in Hseq.
    apply NoDup_cons in Hnd as [Hnin Hnd].
    destruct (Hks (fold_dn dd)) as (Hne & Hsuf & Hno & Hfit); [left|].
    destruct (put_one b d g e dd) as (d1 & g1 & Hrun & Hs1 & Hg1 & Hq1); try done.
    + lia.
    + intros ->. done.
    + destruct (Hpar [] (fold_dn dd) ks') as [?|[H|?]]; [done|by left| |by right].
      by apply elem_of_nil in H.
    + cbn [load_db]. rewrite Hrun.
      assert (Hg1k : forall k, k <> fold_dn dd -> g1 !! k = None <-> g !! k = None).
      { intros k Hk. assert (H : (snd <$> g1) !! k = (snd <$> g) !! k) by by rewrite Hg1, lookup_insert_ne.
        rewrite !lookup_fmap in H. destruct (g1 !! k), (g !! k); naive_solver. }
      assert (Hg1k' : is_Some (g1 !! fold_dn dd)).
      { assert (H : (snd <$> g1) !! fold_dn dd = Some e) by by rewrite Hg1, lookup_insert.
        rewrite lookup_fmap in H. destruct (g1 !! fold_dn dd); [eauto|done]. }
      destruct (IH ks' d1 g1) as (d' & g' & Hl & Hs' & Hg'); try done.
      * intros k Hk. destruct (Hks k) as (H1 & H2 & H3 & H4); [by right|].
        split; [done|]. split; [done|]. split; [|done]. apply Hg1k; [|done]. intros ->. done.
      * intros l1 k l2 ->. destruct (Hpar (fold_dn dd :: l1) k l2) as [H|[H|H]]; [done|by left| |].
        -- apply elem_of_cons in H as [H|H]; [|by right; left]. right. right. by rewrite H.
        -- right. right. destruct (g1 !! tail k) eqn:E; [eauto|]. exfalso.
           destruct (decide (tail k = fold_dn dd)) as [H'|H'].
           ++ rewrite H' in E. rewrite E in Hg1k'. by destruct Hg1k'.
           ++ apply Hg1k in E; [|done]. rewrite E in H. by destruct H.
      * lia.
      * exists d', g'. split; [done|]. split; [done|]. rewrite Hg', Hg1. simpl.
        rewrite <- insert_union_r; [by rewrite insert_union_l|].
        apply not_elem_of_list_to_map. rewrite fst_zip; [done|].
        apply Forall2_length in HF'. lia.
Qed.

Lemma nodup_bound (l : list N) n : NoDup l -> (forall j, j ∈ l -> (0 < j <= n)%N) ->
  (N.of_nat (length l) <= n)%N.
Proof using Type.
  intros Hnd Hj.
  assert (H : length (map N.to_nat l) <= length (List.seq 1 (N.to_nat n))).
  { apply NoDup_incl_length.
    - apply NoDup_ListNoDup. apply NoDup_fmap_2; [|done]. intros x y. lia.
    - intros x Hx. apply in_map_iff in Hx as (j & <- & Hin).
      apply elem_of_list_In, Hj in Hin. apply in_seq. lia. }
  rewrite map_length, seq_length in H. lia.
Qed.

(** Loading the export into an empty database. *)
Lemma export_load b d g i e :
  base_ok b -> sim b d g -> g !! b = Some (i, e) ->
  (forall k, is_Some (g !! k) -> b `suffix_of` k /\ name_fits k = true) ->
  exists es d', export_db d (normalize b) = Ok (es, None) /\
    load_db (normalize b) es empty_db = (Done (Ok tt), d') /\
    exists g', sim b d' g' /\ snd <$> g' = snd <$> g.
Proof using HT.
  intros Hb Hs Hg Hall. unfold export_db.
  assert (Hpb : parse_dn (normalize b) = Some b).
  { rewrite normalize_flat, (base_folded _ Hb) by apply Hb. apply (parse_flat HT); apply Hb. }
  pose proof (base_folded _ Hb) as Hfb.
  destruct (search_order b d g (normalize b) b i e Hb Hs Hpb (base_wf _ Hb)) as (l & es & Hse & Hes & Hnd & Hin & Ht).
  { by rewrite Hfb. }
  rewrite Hfb in Hin, Ht. rewrite Hse.
  (* keys of the list *)
  assert (Hkeys : exists ks, length ks = length es /\ forall n k, ks !! n = Some k ->
     exists j e', l !! n = Some j /\ es !! n = Some e' /\ g !! k = Some (j, e')).
  { clear -Hes. induction Hes as [|j e' l es [k Hk] Hes (ks & Hlen & IH)].
    - exists []. split; [done|]. intros n k H. by rewrite lookup_nil in H.
    - exists (k :: ks). split; [simpl; lia|]. intros [|n] k' H; simpl in H.
      + injection H as <-. eauto 10.
      + simpl. by apply IH. }
  destruct Hkeys as (ks & Hlen & Hks).
  assert (Hll : length l = length es) by by eapply Forall2_length.
  assert (Hlk : forall j, j ∈ l -> exists n k e', l !! n = Some j /\ ks !! n = Some k /\ es !! n = Some e' /\ g !! k = Some (j, e')).
  { intros j Hj. apply elem_of_list_lookup in Hj as [n Hn].
    destruct (lookup_lt_is_Some_2 ks n) as [k Hk].
    { apply lookup_lt_Some in Hn. lia. }
    destruct (Hks n k Hk) as (j' & e' & H1 & H2 & H3). rewrite Hn in H1. injection H1 as <-.
    eauto 10. }
  assert (Hnb : b ∉ ks).
  { intros Hc. apply elem_of_list_lookup in Hc as [n Hn]. destruct (Hks n b Hn) as (j & e' & H1 & _ & H3).
    rewrite Hg in H3. injection H3 as <- _. apply NoDup_cons in Hnd as [Hn' _]. apply Hn'.
    by eapply elem_of_list_lookup_2. }
  assert (Hndk : NoDup ks).
  { apply NoDup_alt. intros n n' k H1 H2. destruct (Hks _ _ H1) as (j & e1 & Hj & _ & Hg1).
    destruct (Hks _ _ H2) as (j' & e2 & Hj' & _ & Hg2). rewrite Hg1 in Hg2. injection Hg2 as <- _.
    apply NoDup_cons in Hnd as [_ Hnd]. eapply NoDup_alt; eauto. }
  destruct (load_list b (e :: es) (b :: ks) empty_db ∅) as (d' & g' & Hl & Hs' & Hg').
  - done.
  - apply sim_empty.
  - constructor; [by apply (s_dn _ _ _ Hs _ _ _ Hg)|]. apply Forall2_same_length_lookup_2; [done|].
    intros n k e' Hk He'. destruct (Hks _ _ Hk) as (j & e1 & _ & H2 & H3).
    rewrite He' in H2. injection H2 as <-. by apply (s_dn _ _ _ Hs _ _ _ H3).
  - by apply NoDup_cons.
  - intros k Hk. assert (Hk' : is_Some (g !! k)).
    { apply elem_of_cons in Hk as [->|Hk]; [by rewrite Hg|].
      apply elem_of_list_lookup in Hk as [n Hn]. destruct (Hks _ _ Hn) as (j & e1 & _ & _ & H3). by rewrite H3. }
    destruct (Hall k Hk') as [H1 H2]. destruct Hk' as [[j e1] Hk'].
    split; [apply (s_key _ _ _ Hs _ _ _ Hk')|]. split; [done|]. split; [|done]. apply lookup_empty.
  - intros l1 k l2 Heq. destruct l1 as [|b' l1].
    + injection Heq as <- _. by left.
    + injection Heq as <- Heq. right. left.
      assert (Hn : ks !! length l1 = Some k) by (rewrite Heq; by apply list_lookup_middle).
      destruct (Hks _ _ Hn) as (j & e1 & Hj & _ & Hgk).
      destruct (elem_of_list_split_length _ _ _ Hj) as (u1 & u2 & Hu & Hlu).
      destruct (Ht u1 j u2 Hu) as (r & k' & e2 & Hr & Hpar).
      pose proof (s_inj _ _ _ Hs _ _ _ _ _ Hgk Hr) as ->. cbn [tail].
      destruct Hpar as [->|(j' & e'' & Hk' & Hj')]; [left|]. right.
      apply elem_of_list_lookup in Hj' as [n' Hn'].
      pose proof (lookup_lt_Some _ _ _ Hn') as Hlt.
      assert (Hln : l !! n' = Some j') by (rewrite Hu; by rewrite lookup_app_l).
      destruct (lookup_lt_is_Some_2 ks n') as [k1 Hk1].
      { apply lookup_lt_Some in Hln. lia. }
      destruct (Hks _ _ Hk1) as (j1 & e3 & Hj1 & _ & Hg1). rewrite Hln in Hj1. injection Hj1 as <-.
      pose proof (s_inj _ _ _ Hs _ _ _ _ _ Hk' Hg1) as ->.
      rewrite Heq, lookup_app_l in Hk1 by lia. by eapply elem_of_list_lookup_2.
  - assert (H0 : idseq empty_db = 0%N) by done. rewrite H0.
    assert (Hb1 : (N.of_nat (length (i :: l)) <= idseq d)%N).
    { apply nodup_bound; [done|]. intros j Hj. apply elem_of_cons in Hj as [->|Hj].
      - by apply (s_id _ _ _ Hs _ _ _ Hg).
      - apply Hin in Hj as (x & k' & e' & _ & _ & Hm). by apply (s_id _ _ _ Hs _ _ _ Hm). }
    cbn [length] in *. pose proof (s_seq _ _ _ Hs). lia.
  - exists (e :: es), d'. split; [done|]. split; [done|]. exists g'. split; [done|].
    rewrite Hg', fmap_empty, (right_id_L ∅ (∪)). apply map_eq. intros k.
    destruct ((snd <$> g) !! k) as [e0|] eqn:E.
    + apply elem_of_list_to_map_1; [rewrite fst_zip; [by apply NoDup_cons|simpl; lia]|].
      rewrite lookup_fmap in E. destruct (g !! k) as [[j e1]|] eqn:Ek; [|done]. injection E as <-.
      destruct (Hall k ltac:(by rewrite Ek)) as [[x ->] _]. destruct x as [|y x].
      * simpl in Ek. rewrite Hg in Ek. injection Ek as <- <-. left.
      * simpl zip. right. assert (Hj : j ∈ l) by (apply Hin; exists (y :: x); eauto).
        destruct (Hlk _ Hj) as (n & k1 & e2 & H1 & H2 & H3 & H4).
        pose proof (s_inj _ _ _ Hs _ _ _ _ _ Ek H4) as Hk1. rewrite <- Hk1 in *.
        rewrite Ek in H4. injection H4 as <-.
        apply elem_of_list_lookup. exists n. by apply lookup_zip_with_Some; eauto 10.
    + apply not_elem_of_list_to_map_1. rewrite fst_zip by (simpl; lia).
      rewrite lookup_fmap in E. intros Hk. destruct (g !! k) eqn:Ek; [done|].
      apply elem_of_cons in Hk as [->|Hk]; [by rewrite Hg in Ek|].
      apply elem_of_list_lookup in Hk as [n Hn]. destruct (Hks _ _ Hn) as (j & e1 & _ & _ & H3).
      by rewrite Ek in H3.
Qed.

(** ** Modify and password change leave the indexes alone *)
Definition tx_index {A} (m : tx A) : Prop :=
  forall f d n a d' n', m f d n = Ok (a, (d', n')) -> dn2id d' = dn2id d /\ id2ch d' = id2ch d.
Lemma index_bind {A B} (m : tx A) (k : A -> tx B) :
  tx_index m -> (forall a, tx_index (k a)) -> tx_index (t_bind m k).
Proof using Type.
  intros Hm Hk f d n x d' n'. unfold t_bind.
  destruct (m f d n) as [[a [d1 n1]]| | |] eqn:E; try done.
  intros H. apply Hk in H as [-> ->]. by eapply Hm.
Qed.
Lemma index_read {A} (g : db -> res A) : tx_index (t_read g).
Proof using Type. intros f d n x d' n'. unfold t_read. destruct (g d); try done. by intros [= _ <- _]. Qed.
Lemma index_put_id2ent k v : tx_index (put_id2ent k v).
Proof using Type.
  intros f d n x d' n'. unfold put_id2ent, t_write. destruct (f n); [done|].
  destruct (key_ok k); [|done]. by intros [= _ <- _].
Qed.
Lemma index_maperr {A} e (m : tx A) : tx_index m -> tx_index (t_maperr e m).
Proof using Type.
  intros Hm f d n x d' n'. unfold t_maperr. destruct (m f d n) eqn:E; try done.
  intros [= ->]. by eapply Hm.
Qed.
Lemma index_modify_with i e r : tx_index (entry_modify_with i e r).
Proof using Type.
  unfold entry_modify_with. apply index_bind; [apply index_read|]. intros e'. apply index_put_id2ent.
Qed.
Lemma modify_keeps_index base ev o d d' :
  match o with OpModify _ | OpPassword _ => True | _ => False end ->
  run_op base ev o d = (Done (Ok tt), d') -> dn2id d' = dn2id d /\ id2ch d' = id2ch d.
Proof using Type.
  intros Ho H. unfold run_op in H.
  destruct (op_body base o) as [m| | |] eqn:E; try done. unfold update in H.
  assert (Hm : tx_index m).
  { destruct o; try done; cbn [op_body] in E.
    - unfold entry_modify in E. destruct (parse_normalize _); [|done]. injection E as <-.
      apply index_bind; [apply index_read|]. intros p. apply index_modify_with.
    - unfold update_password in E. destruct (parse_normalize _); [|done]. injection E as <-.
      apply index_bind; [apply index_read|]. intros p. apply index_bind; [apply index_read|].
      intros _. apply index_maperr, index_modify_with. }
  destruct (m (e_fault ev) d 0) as [[[] [d1 n]]| | |] eqn:Em; try done.
  destruct (e_commit ev); try done. injection H as <-. by eapply Hm.
Qed.

(** ** The password that counts *)
Lemma first_password p l :
  accepts p (get_eqfold_val (B "userPassword") l) ->
  exists l1 a l2 v vs, l = l1 ++ a :: l2 /\
    Forall (fun a => eqfold (B "userPassword") (a_name a) = false) l1 /\
    eqfold (B "userPassword") (a_name a) = true /\ a_vals a = v :: vs /\ accepts p v.
Proof using HT.
  intros H. assert (Hne : get_eqfold_val (B "userPassword") l <> []).
  { intros He. rewrite He in H. apply (validate_accepts HT) in H. done. }
  unfold get_eqfold_val in *. induction l as [|a l IH]; [done|]. cbn [get_eqfold_vals] in *.
  destruct (eqfold (B "userPassword") (a_name a)) eqn:E.
  - destruct (a_vals a) as [|v vs] eqn:Ev; [by destruct Hne|].
    exists [], a, l, v, vs. repeat split; try done.
  - destruct (IH H Hne) as (l1 & a' & l2 & v & vs & -> & Hf & H1 & H2 & H3).
    exists (a :: l1), a', l2, v, vs. repeat split; try done. by constructor.
Qed.
End more.
