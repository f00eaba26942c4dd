(** The order in which a one-level search lists the entries. *)
From stdpp Require Import sorting.
From Verif Require Import Bytes Text Dn DnProofs Res Entry EntryProofs Password PasswordProofs
  Db DbSpec IdProofs DbProofs DbOps DbSearch DbFacts DbMore IsoProofs OrderProofs.

Section listing.
Context {T : Text} {C : Crypto} (HT : TextOK T).

(** The folded name of an entry. *)
Definition key_of (e : entry) : option dn := fold_dn <$> parse_dn (e_dn e).
(** A one-level search at [s] succeeds and lists entries with these names. *)
Definition lists (d : db) (s : str) (ks : list dn) : Prop :=
  exists es, search d s ScopeOne = Ok (es, None) /\ map key_of es = map Some ks.
(** The names listed under [p] after a successful operation, from those before. *)
Definition listed_after (o : op) (p : dn) (ks : list dn) : list dn :=
  match o with
  | OpPut e =>
      match parse_dn (e_dn e) with
      | Some (r :: q) => if bool_decide (fold_dn q = p) then ks ++ [fold_dn (r :: q)] else ks
      | _ => ks
      end
  | OpDelete s =>
      match parse_dn s with
      | Some x => bfilter (fun k => negb (bool_decide (k = fold_dn x))) ks
      | None => ks
      end
  | OpModDn r =>
      match parse_dn (md_dn r), parse_dn (md_newrdn r) with
      | Some (old :: q), Some (new :: _) =>
          map (fun k => if bool_decide (k = fold_dn (old :: q)) then fold_dn (new :: q) else k) ks
      | _, _ => ks
      end
  | _ => ks
  end.

(** ** In numbers *)
Implicit Types (d : db) (g : ghost) (b k : dn).
Notation nums g := (fst <$> g : gmap dn N).
Lemma nums_lookup (g : ghost) k j : nums g !! k = Some j <-> exists e, g !! k = Some (j, e).
Proof using Type.
  rewrite lookup_fmap. destruct (g !! k) as [[i e]|]; cbn; split; try done.
  - intros [= ->]. eauto.
  - by intros [e' [= -> ->]].
  - by intros [e' ?].
Qed.
Lemma lists_pairs b d g q s dd i e0 ks : base_ok b -> sim b d g -> asc q d ->
  parse_dn s = Some dd -> wf_dn dd = true -> g !! fold_dn dd = Some (i, e0) ->
  lists d s ks <-> exists L : list (dn * N), ks = map fst L /\ StronglySorted N.lt (map snd L) /\
    forall k j, In (k, j) L <-> nums g !! k = Some j /\ exists r, k = r :: fold_dn dd.
Proof using HT.
  intros Hb Hg Ha Hp Hwf Hk.
  destruct (sim_children _ _ _ _ _ _ Hg Hk) as [Hnd Hin].
  assert (Hsort : StronglySorted N.lt (get_children d i)).
  { destruct (asc_raw _ _ i Ha) as (l & E & Sl & Ll). rewrite (children_ids i d l E); [done|].
    destruct Ha. eapply Forall_impl; [exact Ll|]. cbn. lia. }
  assert (Hse : search d s ScopeOne = Ok (fetch d (get_children d i))).
  { unfold search, parse_normalize. rewrite Hp. cbn [fmap option_fmap option_map].
    rewrite (normalize_flat _ Hwf), (sim_get_id _ _ _ _ Hg) by by apply fold_dn_wf. rewrite Hk. cbn [rbind].
    rewrite (sim_id_nonzero _ _ _ _ _ _ Hg Hk). done. }
  destruct (fetch_ok b d g (get_children d i) Hg) as (es & Hf & Hes).
  { intros j Hj. apply Hin in Hj as (r & e' & H). eauto. }
  assert (HL : forall ks', map key_of es = map Some ks' <-> Forall2 (fun k j => nums g !! k = Some j) ks' (get_children d i)).
  { clear -Hes Hg. induction Hes as [|j e l es [k G] Hes IH]; intros ks'.
    - destruct ks'; split; try done. intros H; inversion H.
    - destruct (s_dn _ _ _ Hg _ _ _ G) as (x & Hx & _ & Ex). destruct ks' as [|k' ks']; [split; [done|intros H; inversion H]|].
      cbn [map]. unfold key_of at 1. rewrite Hx. cbn [fmap option_fmap option_map]. rewrite Ex. split.
      + intros [= -> H]. constructor; [apply nums_lookup; eauto|by apply IH].
      + intros H. inversion H as [|? ? ? ? H1 H2]; subst. apply nums_lookup in H1 as [e' H1].
        pose proof (s_inj _ _ _ Hg _ _ _ _ _ G H1) as <-. f_equal. by apply IH. }
  assert (Hl : lists d s ks <-> Forall2 (fun k j => nums g !! k = Some j) ks (get_children d i)).
  { unfold lists. rewrite Hse, Hf. rewrite <- HL. split.
    - by intros (es' & [= <-] & H).
    - intros H. by exists es. }
  rewrite Hl. split.
  - intros HF. exists (zip ks (get_children d i)). pose proof (Forall2_length _ _ _ HF) as Hlen. split; [|split].
    + symmetry. apply (fst_zip ks). lia.
    + replace (map snd (zip ks (get_children d i))) with (get_children d i); [done|]. symmetry. apply (snd_zip ks). lia.
    + intros k j. rewrite <- elem_of_list_In. split.
      * intros [n Hn]%elem_of_list_lookup. apply lookup_zip_with_Some in Hn as (k' & j' & [= <- <-] & H1 & H2).
        pose proof (Forall2_lookup_lr _ _ _ _ _ _ HF H1 H2) as Hn. cbv beta in Hn. split; [exact Hn|].
        assert (Hj : j ∈ get_children d i) by exact (elem_of_list_lookup_2 _ _ _ H2). apply Hin in Hj as (r & e & Hr).
        apply nums_lookup in Hn as [e' Hn]. pose proof (s_inj _ _ _ Hg _ _ _ _ _ Hn Hr) as ->. eauto.
      * intros [Hn [r ->]]. apply nums_lookup in Hn as [e Hn]. assert (Hj : j ∈ get_children d i) by (apply Hin; eauto).
        apply elem_of_list_lookup in Hj as [n Hj]. destruct (Forall2_lookup_r _ _ _ _ _ HF Hj) as (k & Hk1 & Hk2).
        apply nums_lookup in Hk2 as [e' Hk2]. pose proof (s_inj _ _ _ Hg _ _ _ _ _ Hk2 Hn) as ->.
        apply elem_of_list_lookup. exists n. apply lookup_zip_with_Some. eauto 10.
  - intros (L & -> & HS & HM).
    assert (map snd L = get_children d i) as <-.
    { assert (AntiSymm (=) N.lt) by (intros x y; lia). apply (StronglySorted_unique N.lt); [done|done|]. apply NoDup_Permutation.
      - clear -HS. induction HS as [|x l HSl IH F]; constructor; [|done]. intros Hx. rewrite Forall_forall in F. specialize (F x Hx). lia.
      - done.
      - intros j. rewrite Hin, elem_of_list_In, in_map_iff. split.
        + intros ([k j'] & <- & Hkj). apply HM in Hkj as [Hn [r ->]]. apply nums_lookup in Hn as [e Hn]. eauto.
        + intros (r & e & Hr). exists (r :: fold_dn dd, j). split; [done|]. apply HM. split; [apply nums_lookup; eauto|eauto]. }
    apply Forall2_fmap_2. apply Forall_Forall2_diag. apply List.Forall_forall. intros [k j] H. by apply HM in H as [H _].
Qed.

(** ** What operations do to the numbers *)
Lemma nums_of b d (g : ghost) (X : gmap dn N) : sim b d g ->
  (forall k j, X !! k = Some j -> wf_dn k = true /\ (j < 2 ^ 64)%N) ->
  (forall k, wf_dn k = true -> dn2id d !! flat k = id_bytes <$> X !! k) -> nums g = X.
Proof using Type.
  intros Hg HX Hd. apply map_eq. intros k. destruct (nums g !! k) as [j|] eqn:E.
  - apply nums_lookup in E as [e E]. pose proof (gk_wf _ _ (s_key _ _ _ Hg _ _ _ E)) as Hw. specialize (Hd k Hw).
    rewrite (sim_dn2id _ _ _ _ Hg Hw), E in Hd. destruct (X !! k) as [j'|] eqn:EX; [|done].
    cbn [fmap option_fmap option_map fst] in Hd. assert (Hb2 : id_bytes j = id_bytes j') by congruence.
    apply id_bytes_inj in Hb2 as ->; [done|apply (s_lt _ _ _ _ _ _ Hg E)|apply (HX _ _ EX)].
  - destruct (X !! k) as [j'|] eqn:EX; [|done]. destruct (HX _ _ EX) as [Hw _]. specialize (Hd k Hw).
    rewrite (sim_dn2id _ _ _ _ Hg Hw), EX in Hd. rewrite lookup_fmap in E. destruct (g !! k) as [[]|]; done.
Qed.
Lemma nums_same b d (g : ghost) d' (g' : ghost) : sim b d g -> sim b d' g' -> dn2id d' = dn2id d -> nums g' = nums g.
Proof using Type.
  intros Hg Hg' E. apply (nums_of b d'); [done| |].
  - intros k j [e H]%nums_lookup. split; [apply (s_key _ _ _ Hg _ _ _ H)|apply (s_lt _ _ _ _ _ _ Hg H)].
  - intros k Hw. rewrite E, (sim_dn2id _ _ _ _ Hg Hw). by rewrite lookup_fmap.
Qed.
Lemma nums_ok b d (g : ghost) k j : sim b d g -> nums g !! k = Some j -> wf_dn k = true /\ (0 < j <= idseq d)%N /\ (j < 2 ^ 64)%N.
Proof using Type.
  intros Hg [e H]%nums_lookup. split; [apply (s_key _ _ _ Hg _ _ _ H)|]. split; [apply (s_id _ _ _ Hg _ _ _ H)|apply (s_lt _ _ _ _ _ _ Hg H)].
Qed.
Lemma nums_dn2id b d (g : ghost) k : sim b d g -> wf_dn k = true -> dn2id d !! flat k = id_bytes <$> nums g !! k.
Proof using Type. intros Hg Hw. rewrite (sim_dn2id _ _ _ _ Hg Hw). by rewrite lookup_fmap. Qed.
(** Names never change under a modification. *)
Lemma keep_names {A} n0 (m : tx A) : tpre (fun x => dn2id x = n0) (fun _ x => dn2id x = n0) m -> forall f d n a d' n',
  dn2id d = n0 -> m f d n = Ok (a, (d', n')) -> dn2id d' = n0.
Proof using Type. intros H f d n a d' n' Hd E. by eapply H. Qed.
Lemma pre_modify_with n0 i e r : tpre (fun x => dn2id x = n0) (fun _ x => dn2id x = n0) (entry_modify_with i e r).
Proof using Type.
  unfold entry_modify_with. eapply (pre_bind _ (fun _ x => dn2id x = n0)).
  - unfold t_lift. eapply pre_weak; [| |apply pre_read]; [intros x Hx; exact Hx|]. by intros a x [Hx _].
  - intros e'. apply pre_write. intros x y x' Hx. destruct (key_ok _); [|done]. by intros [= _ <-].
Qed.

(** The new numbering. *)
Definition renumber (o : op) (q : N) (X : gmap dn N) : gmap dn N :=
  match o with
  | OpPut e =>
      match parse_dn (e_dn e) with
      | Some x => <[fold_dn x := (q + 1)%N]> X
      | None => X
      end
  | OpDelete s =>
      match parse_dn s with
      | Some x => delete (fold_dn x) X
      | None => X
      end
  | OpModDn r =>
      match parse_dn (md_dn r), parse_dn (md_newrdn r) with
      | Some (old :: p), Some (new :: _) =>
          match X !! fold_dn (old :: p) with
          | Some i => <[fold_dn (new :: p) := i]> (delete (fold_dn (old :: p)) X)
          | None => X
          end
      | _, _ => X
      end
  | _ => X
  end.
Lemma run_modify_names base ev o d d' : (exists r, o = OpModify r) \/ (exists r, o = OpPassword r) ->
  run_op base ev o d = (Done (Ok tt), d') -> dn2id d' = dn2id d.
Proof using Type.
  intros Ho. unfold run_op. destruct (op_body base o) as [m| | |] eqn:Eb; try done. unfold update.
  destruct (m (e_fault ev) d 0) as [[[] [d1 n1]]| | |] eqn:E; try done.
  assert (H : dn2id d1 = dn2id d).
  { eapply keep_names; [|reflexivity|exact E].
    destruct Ho as [[r ->]|[r ->]]; cbn [op_body] in Eb; unfold entry_modify, update_password in Eb;
      destruct (parse_normalize _); try done; injection Eb as <-.
    - eapply pre_bind; [eapply pre_weak; [| |apply pre_read]; [intros x Hx; exact Hx|intros a x [Hx _]; exact Hx]|]. intros p. apply pre_modify_with.
    - eapply pre_bind; [eapply pre_weak; [| |apply pre_read]; [intros x Hx; exact Hx|intros a x [Hx _]; exact Hx]|]. intros p.
      eapply pre_bind; [unfold t_lift; eapply pre_weak; [| |apply pre_read]; [intros x Hx; exact Hx|intros a x [Hx _]; exact Hx]|]. intros [].
      intros f x n a x' n' Hx. unfold t_maperr.
      destruct (entry_modify_with _ _ _ f x n) as [[a1 [x1 n2]]| | |] eqn:E1; try done. intros [= <- <- <-]. eapply pre_modify_with; [exact Hx|exact E1]. }
  by destruct (e_commit ev); try done; intros [= <-].
Qed.
Lemma renumber_op b d g ev o d' g' : base_ok b -> sim b d g -> op_ok o -> (idseq d + 1 < 2 ^ 64)%N ->
  run_op (normalize b) ev o d = (Done (Ok tt), d') -> sim b d' g' -> nums g' = renumber o (idseq d) (nums g).
Proof using HT.
  intros Hb Hg Ho Hq Hrun Hg'.
  destruct o as [e|s|r|r|r].
  3, 5: apply (nums_same b d g d' g' Hg Hg'); eapply run_modify_names; [|exact Hrun]; eauto.
  - (* put *)
    cbn [renumber]. unfold run_op in Hrun. cbn [op_body op_ok] in Hrun, Ho. unfold entry_put in Hrun. unfold dn_text_ok in Ho.
    destruct (parse_dn (e_dn e)) as [[|x y]|] eqn:Ep; try done. specialize (Ho _ eq_refl).
    destruct (negb _); [done|]. unfold update in Hrun. destruct (entry_put_tx _ _ _ _ _ _ _) as [[[] [d1 n1]]| | |] eqn:E; try done.
    apply put_dn_exact in E as [E _]; [|done]. assert (d' = d1) as -> by (destruct (e_commit ev); try done; by injection Hrun).
    rewrite (normalize_flat _ Ho) in E. assert (Hw : wf_dn (fold_dn (x :: y)) = true) by by apply fold_dn_wf.
    apply (nums_of b d1); [done| |].
    + intros k j H. destruct (decide (k = fold_dn (x :: y))) as [->|Hne]; [rewrite lookup_insert in H; injection H as <-; split; [done|lia]|].
      rewrite lookup_insert_ne in H by done. apply (nums_ok _ _ _ _ _ Hg) in H as (? & ? & ?). done.
    + intros k Hk. rewrite E. destruct (decide (k = fold_dn (x :: y))) as [->|Hne]; [by rewrite !lookup_insert|].
      rewrite (lookup_insert_ne (nums g)) by done. rewrite lookup_insert_ne; [by apply (nums_dn2id b)|]. intros E2. apply flat_inj in E2; congruence.
  - (* delete *)
    destruct (run_op_atomic _ _ _ _ _ _ Hrun) as [[_ []]|[Hf _]]; [done|].
    cbn [renumber]. unfold run_op in Hf. cbn [op_body op_ok] in Hf, Ho. unfold entry_delete in Hf. unfold dn_text_ok in Ho.
    destruct (parse_dn s) as [[|x y]|] eqn:Ep; try done. specialize (Ho _ eq_refl).
    assert (Hwp : wf_dn y = true) by (simpl in Ho; by apply andb_true_iff in Ho as [_ ?]).
    pose proof (normalize_flat _ Ho) as Hk. pose proof (normalize_flat _ Hwp) as Hp.
    change (fold_dn y) with (tail (fold_dn (x :: y))) in Hp. rewrite Hk, Hp in Hf.
    assert (Hw : wf_dn (fold_dn (x :: y)) = true) by by apply fold_dn_wf.
    unfold update, no_faults, e_fault, e_commit in Hf. rewrite (delete_tx_run b d g) in Hf by done.
    destruct (g !! fold_dn (x :: y)) as [[i e]|]; [|done]. destruct (negb _); [done|]. destruct (g !! tail _) as [[p ep]|]; [|done].
    assert (d' = db_del d (fold_dn (x :: y)) i p) as -> by congruence. eapply nums_of; [exact Hg'| |].
    + intros k j [_ H]%lookup_delete_Some. apply (nums_ok _ _ _ _ _ Hg) in H as (? & ? & ?). done.
    + intros k Hk'. cbn [dn2id db_del]. destruct (decide (k = fold_dn (x :: y))) as [->|Hne]; [by rewrite !lookup_delete|].
      rewrite (lookup_delete_ne (nums g)) by done. rewrite lookup_delete_ne; [by apply (nums_dn2id b)|]. intros E2. apply flat_inj in E2; congruence.
  - (* rename *)
    destruct (run_op_atomic _ _ _ _ _ _ Hrun) as [[_ []]|[Hf _]]; [done|].
    cbn [renumber]. unfold run_op in Hf. cbn [op_body op_ok] in Hf, Ho. unfold entry_moddn in Hf. destruct Ho as [Ho1 Ho2]. unfold dn_text_ok in Ho1, Ho2.
    destruct (parse_dn (md_dn r)) as [[|x y]|] eqn:Ep; try done; destruct (parse_dn (md_newrdn r)) as [[|x' y']|] eqn:Ep'; try done.
    specialize (Ho1 _ eq_refl). specialize (Ho2 _ eq_refl).
    assert (Hwp : wf_dn y = true) by (simpl in Ho1; by apply andb_true_iff in Ho1 as [_ ?]).
    assert (Hwr : wf_rdn x' = true) by (simpl in Ho2; by apply andb_true_iff in Ho2 as [? _]).
    assert (Hwn : wf_dn (x' :: y) = true) by (simpl; by rewrite Hwr, Hwp).
    rewrite (normalize_flat _ Hwn), (normalize_flat _ Ho1) in Hf.
    assert (Hw : wf_dn (fold_dn (x :: y)) = true) by by apply fold_dn_wf.
    assert (Hw' : wf_dn (fold_dn (x' :: y)) = true) by by apply fold_dn_wf.
    unfold update, no_faults, e_fault, e_commit in Hf. rewrite (moddn_tx_run b d g) in Hf; [|done|done|done|by apply fold_dn_idem|done].
    destruct (g !! fold_dn (x' :: y)) as [[]|] eqn:En; [done|].
    destruct (g !! fold_dn (x :: y)) as [[i e]|] eqn:Eo; [|done]. destruct (negb _); [done|].
    destruct (apply_modify _ _) as [e'| | |]; try done. destruct (name_fits _); [|done].
    assert (d' = db_ren d (fold_dn (x :: y)) (fold_dn (x' :: y)) i e') as -> by congruence.
    assert (Hno : nums g !! fold_dn (x :: y) = Some i) by (apply nums_lookup; eauto). rewrite Hno.
    assert (Hd : fold_dn (x :: y) <> fold_dn (x' :: y)) by congruence.
    eapply nums_of; [exact Hg'| |].
    + intros k j H. destruct (decide (k = fold_dn (x' :: y))) as [->|Hne].
      * rewrite lookup_insert in H. injection H as <-. split; [done|]. by apply (nums_ok _ _ _ _ _ Hg) in Hno as (? & ? & ?).
      * rewrite lookup_insert_ne in H by done. apply lookup_delete_Some in H as [_ H]. by apply (nums_ok _ _ _ _ _ Hg) in H as (? & ? & ?).
    + intros k Hk. cbn [dn2id db_ren]. destruct (decide (k = fold_dn (x' :: y))) as [->|Hne].
      * rewrite (lookup_insert (delete _ (nums g))). rewrite lookup_delete_ne; [by rewrite lookup_insert|]. intros E2. apply flat_inj in E2; congruence.
      * rewrite (lookup_insert_ne (delete _ (nums g))) by done. destruct (decide (k = fold_dn (x :: y))) as [->|Hne2]; [by rewrite !lookup_delete|].
        rewrite (lookup_delete_ne (nums g)) by done. rewrite lookup_delete_ne; [|intros E2; apply flat_inj in E2; congruence].
        rewrite lookup_insert_ne; [by apply (nums_dn2id b)|]. intros E2; apply flat_inj in E2; congruence.
Qed.

(** ** The listing after an operation *)
Lemma sorted_snd_filter (f : dn * N -> bool) L : StronglySorted N.lt (map snd L) -> StronglySorted N.lt (map snd (bfilter f L)).
Proof using Type.
  induction L as [|[k j] L IH]; [done|]. cbn [map snd bfilter]. intros H. inversion H as [|? ? H1 H2]; subst. cbn [List.filter].
  destruct (f (k, j)); [|by apply IH]. cbn [map snd]. constructor; [by apply IH|]. apply List.Forall_forall. intros x Hx.
  rewrite List.Forall_forall in H2. apply H2. apply in_map_iff in Hx as (y & <- & Hy). apply filter_In in Hy as [Hy _]. by apply in_map.
Qed.
Lemma map_fst_filter (f : dn -> bool) (L : list (dn * N)) : map fst (bfilter (fun x => f x.1) L) = bfilter f (map fst L).
Proof using Type. induction L as [|[k j] L IH]; [done|]. cbn. destruct (f k); cbn; by rewrite IH. Qed.
Lemma lists_op b d g q ev o d' g' s dd i e0 i' e0' ks : base_ok b -> sim b d g -> asc q d -> sim b d' g' -> (exists q', asc q' d') ->
  op_ok o -> (idseq d + 1 < 2 ^ 64)%N -> run_op (normalize b) ev o d = (Done (Ok tt), d') ->
  parse_dn s = Some dd -> wf_dn dd = true -> g !! fold_dn dd = Some (i, e0) -> g' !! fold_dn dd = Some (i', e0') ->
  lists d s ks -> lists d' s (listed_after o (fold_dn dd) ks).
Proof using HT.
  intros Hb Hg Ha Hg' [q' Ha'] Ho Hq Hrun Hp Hw Hk Hk' Hl.
  pose proof (renumber_op b d g ev o d' g' Hb Hg Ho Hq Hrun Hg') as Hn.
  apply (lists_pairs b d g q s dd i e0 ks Hb Hg Ha Hp Hw Hk) in Hl as (L & -> & HS & HM).
  apply (lists_pairs b d' g' q' s dd i' e0' _ Hb Hg' Ha' Hp Hw Hk').
  rewrite Hn. assert (Hsame : forall o', listed_after o' (fold_dn dd) (map fst L) = map fst L -> renumber o' (idseq d) (nums g) = nums g ->
    exists L' : list (dn * N), listed_after o' (fold_dn dd) (map fst L) = map fst L' /\ StronglySorted N.lt (map snd L') /\
      forall k j, In (k, j) L' <-> renumber o' (idseq d) (nums g) !! k = Some j /\ exists r, k = r :: fold_dn dd).
  { intros o' -> ->. by exists L. }
  assert (HD : op_body (normalize b) o <> Panic) by (intros E; unfold run_op in Hrun; by rewrite E in Hrun).
  destruct o as [e|x|r|r|r].
  3, 5: by apply Hsame.
  - (* put *)
    cbn [listed_after renumber op_body op_ok] in *. unfold entry_put in HD. destruct (parse_dn (e_dn e)) as [[|x y]|] eqn:Ep; try done.
    assert (Hnew : nums g !! fold_dn (x :: y) = None).
    { destruct (nums g !! fold_dn (x :: y)) as [j|] eqn:E; [|done]. exfalso.
      unfold run_op in Hrun. cbn [op_body] in Hrun. unfold entry_put in Hrun. rewrite Ep in Hrun. destruct (negb _); [done|]. unfold update in Hrun.
      unfold entry_put_tx in Hrun. unfold t_bind at 1, t_read at 1 in Hrun. apply nums_lookup in E as [e1 E].
      rewrite (normalize_flat _ (Ho _ Ep)), (sim_get_id _ _ _ _ Hg) in Hrun by apply (s_key _ _ _ Hg _ _ _ E).
      rewrite E, (sim_id_nonzero _ _ _ _ _ _ Hg E) in Hrun. by destruct (e_commit ev). }
    destruct (bool_decide_reflect (fold_dn y = fold_dn dd)) as [Ey|Ey].
    + exists (L ++ [(fold_dn (x :: y), (idseq d + 1)%N)]). split; [by rewrite map_app|]. split.
      * rewrite map_app. apply sorted_app; [done|repeat constructor|]. intros u v Hu Hv. cbn in Hv. apply elem_of_list_singleton in Hv as ->.
        apply elem_of_list_In, in_map_iff in Hu as ([k j] & <- & Hu). apply HM in Hu as [Hu _]. apply (nums_ok _ _ _ _ _ Hg) in Hu. cbn. lia.
      * intros k j. rewrite in_app_iff, HM. destruct (decide (k = fold_dn (x :: y))) as [->|Hne].
        -- rewrite lookup_insert, Hnew. split.
           ++ intros [[? _]|[[= <-]|[]]]; [done|]. split; [done|]. eexists. cbn. by rewrite <- Ey.
           ++ intros [[= <-] _]. right. by left.
        -- rewrite lookup_insert_ne by done. split; [intros [H|[[= <- _]|[]]]; [done|by destruct Hne]|by left].
    + exists L. split; [done|]. split; [done|]. intros k j. rewrite HM. destruct (decide (k = fold_dn (x :: y))) as [->|Hne].
      * rewrite lookup_insert, Hnew. split; [by intros [? _]|]. intros [_ [r E]]. cbn in E. by injection E.
      * by rewrite lookup_insert_ne.
  - (* delete *)
    cbn [listed_after renumber]. destruct (parse_dn x) as [y|]; [|by exists L].
    exists (bfilter (fun z => negb (bool_decide (z.1 = fold_dn y))) L). split; [symmetry; exact (map_fst_filter (fun k => negb (bool_decide (k = fold_dn y))) L)|].
    split; [by apply sorted_snd_filter|]. intros k j. rewrite filter_In, HM, lookup_delete_Some. cbn [fst].
    destruct (bool_decide_reflect (k = fold_dn y)) as [->|Hne]; cbn; naive_solver.
  - (* rename *)
    cbn [listed_after renumber op_body op_ok] in *. unfold entry_moddn in HD.
    destruct (parse_dn (md_dn r)) as [[|x y]|] eqn:Ep, (parse_dn (md_newrdn r)) as [[|x' y']|] eqn:Ep'; try by exists L.
    destruct (nums g !! fold_dn (x :: y)) as [n|] eqn:En.
    2: { exists L. split; [|by split]. rewrite map_map. apply map_ext_in. intros [k j] Hin. cbn [fst].
         apply HM in Hin as [Hin _]. destruct (bool_decide_reflect (k = fold_dn (x :: y))) as [->|]; [congruence|done]. }
    assert (Hnew : nums g !! fold_dn (x' :: y) = None).
    { destruct (nums g !! fold_dn (x' :: y)) as [j|] eqn:E; [|done]. exfalso.
      unfold run_op in Hrun. cbn [op_body] in Hrun. unfold entry_moddn in Hrun. rewrite Ep, Ep' in Hrun. unfold update in Hrun.
      unfold entry_moddn_tx in Hrun. unfold t_bind at 1, t_read at 1 in Hrun. apply nums_lookup in E as [e1 E].
      assert (Hw2 : wf_dn (x' :: y) = true).
      { destruct Ho as [Ho1 Ho2]. specialize (Ho1 _ Ep). specialize (Ho2 _ Ep'). simpl in Ho1, Ho2 |- *.
        apply andb_true_iff in Ho1 as [_ ->], Ho2 as [-> _]. done. }
      rewrite (normalize_flat _ Hw2), (sim_get_id _ _ _ _ Hg) in Hrun by apply (s_key _ _ _ Hg _ _ _ E).
      rewrite E, (sim_id_nonzero _ _ _ _ _ _ Hg E) in Hrun. by destruct (e_commit ev). }
    assert (Hko : exists a, fold_dn (x :: y) = a :: fold_dn y) by by eexists.
    assert (Hkn : exists a, fold_dn (x' :: y) = a :: fold_dn y) by by eexists.
    clear -HM HS En Hnew Hko Hkn. revert En Hnew Hko Hkn. generalize (fold_dn (x :: y)) as ko, (fold_dn (x' :: y)) as kn.
    intros ko kn En Hnew [a Hko] [a' Hkn].
    exists (map (fun z => (if bool_decide (z.1 = ko) then kn else z.1, z.2)) L).
    split; [by rewrite !map_map|]. split; [by rewrite map_map|]. intros k j. rewrite in_map_iff. split.
    + intros ([k1 j1] & [= <- <-] & Hin). cbn [fst]. apply HM in Hin as [Hin [r0 ->]].
      destruct (bool_decide_reflect (r0 :: fold_dn dd = ko)) as [E|E].
      * rewrite lookup_insert. rewrite E in Hin. split; [congruence|]. exists a'. congruence.
      * split; [|by eexists]. rewrite lookup_insert_ne by congruence. by rewrite lookup_delete_ne.
    + intros [Hin [r0 ->]]. destruct (decide (r0 :: fold_dn dd = kn)) as [E|E].
      * rewrite E, lookup_insert in Hin. injection Hin as <-. exists (ko, n). cbn [fst snd].
        rewrite bool_decide_eq_true_2 by done. split; [by rewrite E|]. apply HM. split; [done|]. exists a. congruence.
      * rewrite lookup_insert_ne in Hin by done. apply lookup_delete_Some in Hin as [Hne Hin]. exists (r0 :: fold_dn dd, j). cbn [fst snd].
        rewrite bool_decide_eq_false_2 by done. split; [done|]. apply HM. split; [done|by eexists].
Qed.
End listing.
