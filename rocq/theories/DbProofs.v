(** The buckets simulate the abstract directory. *)
From Verif Require Import Bytes Text Dn DnProofs Res Entry EntryProofs Password Db DbSpec IdProofs.

(** The ghost state: every name with its identifier and entry. *)
Notation ghost := (gmap dn (N * entry)).

Section sim.
Context {T : Text} (HT : TextOK T) {C : Crypto}.

Record good_key (b k : dn) : Prop := {
  gk_ne : k <> [];
  gk_wf : wf_dn k = true;
  gk_fold : fold_dn k = k;
  gk_last : last_ok k = true;
  gk_len : length b <= length k
}.

Record sim (b : dn) (d : db) (m : ghost) : Prop := {
  s_key : forall k i e, m !! k = Some (i, e) -> good_key b k;
  s_dn : forall k i e, m !! k = Some (i, e) ->
    exists dd, parse_dn (e_dn e) = Some dd /\ wf_dn dd = true /\ fold_dn dd = k;
  s_id : forall k i e, m !! k = Some (i, e) -> (0 < i <= idseq d)%N;
  s_inj : forall k k' i e e', m !! k = Some (i, e) -> m !! k' = Some (i, e') -> k = k';
  s_seq : (idseq d < 2 ^ 64)%N;
  s_dn2id : forall s v, dn2id d !! s = Some v <->
    exists k i e, m !! k = Some (i, e) /\ s = flat k /\ v = id_bytes i;
  s_ent : forall v e, id2ent d !! v = Some e <->
    exists k i, m !! k = Some (i, e) /\ v = id_bytes i;
  s_ch : forall k i e, m !! k = Some (i, e) ->
    exists l, raw_children i d = concat (map id_bytes l) /\ NoDup l /\
      forall j, j ∈ l <-> exists r e', m !! (r :: k) = Some (j, e');
  s_dead : forall v w, id2ch d !! v = Some w ->
    w = [] \/ exists k i e, m !! k = Some (i, e) /\ v = id_bytes i;
  s_parent : forall r k i e, m !! (r :: k) = Some (i, e) -> is_Some (m !! k) \/ k = tail b
}.

(** ** Reading *)

Lemma s_lt b d m k i e : sim b d m -> m !! k = Some (i, e) -> (0 < i < 2 ^ 64)%N.
Proof using Type.
  intros Hs Hk. pose proof (s_id _ _ _ Hs _ _ _ Hk). pose proof (s_seq _ _ _ Hs). lia.
Qed.
Lemma sim_id_inj b d m k i e k' i' e' :
  sim b d m -> m !! k = Some (i, e) -> m !! k' = Some (i', e') ->
  id_bytes i = id_bytes i' -> k = k' /\ i = i' /\ e = e'.
Proof using Type.
  intros Hs H1 H2 Hi.
  apply id_bytes_inj in Hi;
    [|apply (s_lt _ _ _ _ _ _ Hs H1)|apply (s_lt _ _ _ _ _ _ Hs H2)].
  subst i'. assert (k = k') as <- by (eapply s_inj; eauto).
  rewrite H1 in H2. by injection H2 as <-.
Qed.
Lemma sim_dn2id b d m k : sim b d m -> wf_dn k = true ->
  dn2id d !! flat k = id_bytes <$> (fst <$> m !! k).
Proof using Type.
  intros Hs Hk. destruct (m !! k) as [[i e]|] eqn:E; simpl.
  - apply (s_dn2id _ _ _ Hs). eauto 10.
  - destruct (dn2id d !! flat k) as [v|] eqn:E'; [|done].
    apply (s_dn2id _ _ _ Hs) in E' as (k' & i & e & H1 & H2 & _).
    apply flat_inj in H2; [|done|by apply (s_key _ _ _ Hs _ _ _ H1)].
    subst k'. by rewrite H1 in E.
Qed.
Lemma sim_get_id b d m k : sim b d m -> wf_dn k = true ->
  get_id (flat k) d = Ok (match m !! k with Some (i, _) => i | None => 0%N end).
Proof using Type.
  intros Hs Hk. unfold get_id. rewrite (sim_dn2id _ _ _ _ Hs Hk).
  destruct (m !! k) as [[i e]|] eqn:E; [|done]. cbn [fmap option_fmap option_map fst].
  rewrite id_bytes_length. simpl Nat.ltb.
  rewrite take_ge by by rewrite id_bytes_length.
  rewrite id_val; [done|]. apply (s_lt _ _ _ _ _ _ Hs E).
Qed.
Lemma sim_get_entry b d m k i e : sim b d m -> m !! k = Some (i, e) -> get_entry i d = Ok e.
Proof using Type.
  intros Hs Hk. unfold get_entry.
  assert (id2ent d !! id_bytes i = Some e) as ->; [|done].
  apply (s_ent _ _ _ Hs). eauto.
Qed.
Lemma sim_id_nonzero b d m k i e : sim b d m -> m !! k = Some (i, e) -> (i =? 0)%N = false.
Proof using Type.
  intros Hs Hk. apply N.eqb_neq. pose proof (s_id _ _ _ Hs _ _ _ Hk). lia.
Qed.
Lemma sim_get_by_dn b d m k : sim b d m -> wf_dn k = true ->
  get_entry_by_dn (flat k) d =
  match m !! k with Some (i, e) => Ok (e, i) | None => Err ENotFound end.
Proof using Type.
  intros Hs Hk. unfold get_entry_by_dn. rewrite (sim_get_id _ _ _ _ Hs Hk).
  destruct (m !! k) as [[i e]|] eqn:E; [|done]. cbn [rbind].
  rewrite (sim_id_nonzero _ _ _ _ _ _ Hs E).
  by rewrite (sim_get_entry _ _ _ _ _ _ Hs E).
Qed.
Lemma sim_children b d m k i e : sim b d m -> m !! k = Some (i, e) ->
  NoDup (get_children d i) /\
  forall j, j ∈ get_children d i <-> exists r e', m !! (r :: k) = Some (j, e').
Proof using Type.
  intros Hs Hk. destruct (s_ch _ _ _ Hs _ _ _ Hk) as (l & Hl & Hnd & Hin).
  unfold get_children. rewrite Hl, chunks8_ids, ids_vals; [done|].
  apply List.Forall_forall. intros j Hj. apply elem_of_list_In, Hin in Hj as (r & e' & Hj).
  apply (s_lt _ _ _ _ _ _ Hs Hj).
Qed.

(** Leaves. *)
Lemma is_leaf_spec (m : dir) k :
  is_leaf m k = true <-> forall r, m !! (r :: k) = None.
Proof using Type.
  unfold is_leaf. rewrite forallb_forall. split.
  - intros H r. destruct (m !! (r :: k)) as [e|] eqn:E; [|done].
    specialize (H (r :: k, e)). rewrite <- elem_of_list_In in H.
    specialize (H (proj2 (elem_of_map_to_list _ _ _) E)). simpl in H.
    by rewrite bool_decide_eq_true_2 in H.
  - intros H [k' e] Hin. apply elem_of_list_In, elem_of_map_to_list in Hin. simpl.
    destruct k' as [|r t]; [done|]. simpl. apply negb_true_iff, bool_decide_eq_false.
    intros ->. by rewrite H in Hin.
Qed.
Lemma sim_leaf b d m k i e : sim b d m -> m !! k = Some (i, e) ->
  is_empty (raw_children i d) = is_leaf (snd <$> m) k.
Proof using Type.
  intros Hs Hk. destruct (s_ch _ _ _ Hs _ _ _ Hk) as (l & Hl & Hnd & Hin). rewrite Hl.
  destruct (is_leaf (snd <$> m) k) eqn:E.
  - destruct l as [|j l]; [done|]. exfalso.
    destruct (proj1 (Hin j)) as (r & e' & Hr); [left|].
    pose proof (proj1 (is_leaf_spec _ _) E r) as H. by rewrite lookup_fmap, Hr in H.
  - apply is_empty_false. intros H. apply ids_empty in H as ->.
    assert (is_leaf (snd <$> m) k = true) as Ht; [|by rewrite E in Ht].
    apply is_leaf_spec. intros r. rewrite lookup_fmap.
    destruct (m !! (r :: k)) as [[j e']|] eqn:E'; [|done].
    exfalso. apply (not_elem_of_nil j), Hin. eauto.
Qed.
Lemma sim_leaf' b d m k i e : sim b d m -> m !! k = Some (i, e) ->
  is_empty (get_children d i) = is_leaf (snd <$> m) k.
Proof using Type.
  intros Hs Hk. rewrite <- (sim_leaf _ _ _ _ _ _ Hs Hk).
  destruct (s_ch _ _ _ Hs _ _ _ Hk) as (l & Hl & Hnd & Hin).
  unfold get_children. rewrite Hl, chunks8_ids. destruct l as [|j l]; [done|].
  cbn [map concat is_empty]. pose proof (id_bytes_length j). by destruct (id_bytes j).
Qed.

(** ** Writing *)

Lemma sim_empty b : sim b empty_db ∅.
Proof using Type.
  constructor; simpl; try (intros; simplify_map_eq; done).
  - intros s v. rewrite lookup_empty. split; [done|]. intros (k & i & e & H & _). done.
  - intros v e. rewrite lookup_empty. split; [done|]. intros (k & i & H & _). done.
Qed.

(** Changing an entry in place. *)
Lemma sim_modify b d m k i e e' :
  sim b d m -> m !! k = Some (i, e) -> e_dn e' = e_dn e ->
  sim b (mkDb (dn2id d) (id2ch d) (<[id_bytes i := e']> (id2ent d)) (idseq d))
    (<[k := (i, e')]> m).
Proof using Type.
  intros Hs Hk He.
  assert (Hlk : forall k' j e1, <[k := (i, e')]> m !! k' = Some (j, e1) ->
    exists e2, m !! k' = Some (j, e2)).
  { intros k' j e1. destruct (decide (k = k')) as [<-|Hn].
    - rewrite lookup_insert. intros [= <- <-]. eauto.
    - rewrite lookup_insert_ne by done. eauto. }
  assert (Hkl : forall k' j e2, m !! k' = Some (j, e2) ->
    exists e1, <[k := (i, e')]> m !! k' = Some (j, e1)).
  { intros k' j e2 H. destruct (decide (k = k')) as [<-|Hn].
    - rewrite lookup_insert. rewrite Hk in H. injection H as <- <-. eauto.
    - rewrite lookup_insert_ne by done. eauto. }
  constructor; simpl.
  - intros k' j e1 (e2 & H)%Hlk. by apply (s_key _ _ _ Hs _ _ _ H).
  - intros k' j e1. destruct (decide (k = k')) as [<-|Hn].
    + rewrite lookup_insert. intros [= <- <-]. rewrite He. by apply (s_dn _ _ _ Hs _ _ _ Hk).
    + rewrite lookup_insert_ne by done. intros H. by apply (s_dn _ _ _ Hs _ _ _ H).
  - intros k' j e1 (e2 & H)%Hlk. by apply (s_id _ _ _ Hs _ _ _ H).
  - intros k1 k2 j e1 e2 (e3 & H1)%Hlk (e4 & H2)%Hlk. by apply (s_inj _ _ _ Hs _ _ _ _ _ H1 H2).
  - apply (s_seq _ _ _ Hs).
  - intros s v. rewrite (s_dn2id _ _ _ Hs). split.
    + intros (k' & j & e1 & (e2 & H)%Hkl & ? & ?). eauto 10.
    + intros (k' & j & e1 & (e2 & H)%Hlk & ? & ?). eauto 10.
  - intros v e1. split.
    + intros H. apply lookup_insert_Some in H as [[<- <-]|[Hn H]].
      * exists k, i. by rewrite lookup_insert.
      * apply (s_ent _ _ _ Hs) in H as (k' & j & H & ->).
        exists k', j. rewrite lookup_insert_ne; [done|]. intros <-.
        rewrite Hk in H. by injection H as <- <-.
    + intros (k' & j & H & ->). apply lookup_insert_Some in H as [[<- [= <- <-]]|[Hn H]].
      * by rewrite lookup_insert.
      * rewrite lookup_insert_ne; [apply (s_ent _ _ _ Hs); eauto|].
        intros Hi. apply Hn. by apply (sim_id_inj _ _ _ _ _ _ _ _ _ Hs Hk H).
  - intros k' j e1 (e2 & H)%Hlk. destruct (s_ch _ _ _ Hs _ _ _ H) as (l & Hl & Hnd & Hin).
    exists l. split; [done|]. split; [done|]. intros j'. rewrite Hin. split.
    + intros (r & e3 & (e4 & H4)%Hkl). eauto.
    + intros (r & e3 & (e4 & H4)%Hlk). eauto.
  - intros v w H. apply (s_dead _ _ _ Hs) in H as [H|(k' & j & e1 & (e2 & H)%Hkl & ?)]; [by left|].
    right. eauto 10.
  - intros r k' j e1 (e2 & H)%Hlk. apply (s_parent _ _ _ Hs) in H as [[[j' e3] H]|H]; [|by right].
    left. apply Hkl in H as [e4 H]. by exists (j', e4).
Qed.

(** What adding a name does to everything but the child lists. *)
Lemma sim_fresh b d m k i e : sim b d m -> m !! k = Some (i, e) -> (i <> idseq d + 1)%N.
Proof using Type. intros Hs H. pose proof (s_id _ _ _ Hs _ _ _ H). lia. Qed.
Lemma sim_no_child b d m k r :
  sim b d m -> m !! k = None -> length b <= length k -> b <> [] -> m !! (r :: k) = None.
Proof using Type.
  intros Hs Hk Hlen Hb. destruct (m !! (r :: k)) as [[i e]|] eqn:E; [|done].
  apply (s_parent _ _ _ Hs) in E as [[x H]|H].
  - by rewrite Hk in H.
  - subst k. destruct b; [done|]. simpl in Hlen. lia.
Qed.
Lemma sim_raw_fresh b d m : sim b d m -> (idseq d + 1 < 2 ^ 64)%N -> raw_children (idseq d + 1) d = [].
Proof using Type.
  intros Hs Hseq. unfold raw_children.
  destruct (id2ch d !! id_bytes (idseq d + 1)) as [w|] eqn:E; [|done].
  apply (s_dead _ _ _ Hs) in E as [->|(k & i & e & H & Hi)]; [done|].
  exfalso. apply id_bytes_inj in Hi; [|done|by apply (s_lt _ _ _ _ _ _ Hs H)].
  by apply (sim_fresh _ _ _ _ _ _ Hs H).
Qed.

Lemma sim_put b d m k e dd ch j :
  j = (idseq d + 1)%N ->
  base_ok b -> sim b d m -> good_key b k -> m !! k = None ->
  parse_dn (e_dn e) = Some dd -> wf_dn dd = true -> fold_dn dd = k ->
  (j < 2 ^ 64)%N ->
  (k = b /\ ch = id2ch d \/
   exists p ep, m !! tail k = Some (p, ep) /\
     ch = <[id_bytes p := raw_children p d ++ id_bytes j]> (id2ch d)) ->
  sim b (mkDb (<[flat k := id_bytes j]> (dn2id d)) ch (<[id_bytes j := e]> (id2ent d)) j)
    (<[k := (j, e)]> m).
Proof using Type.
  intros Hj Hb Hs Hg Hk Hdd Hwf Hfold Hlt Hch.
  assert (Hnew : forall k' i e', m !! k' = Some (i, e') -> k <> k' /\ i <> j).
  { intros k' i e' H. split.
    - intros <-. by rewrite Hk in H.
    - subst j. by apply (sim_fresh _ _ _ _ _ _ Hs H). }
  assert (Hold : forall k' i e', m !! k' = Some (i, e') -> <[k := (j, e)]> m !! k' = Some (i, e')).
  { intros k' i e' H. rewrite lookup_insert_ne; [done|]. by apply (Hnew _ _ _ H). }
  assert (Hidne : forall k' i e', m !! k' = Some (i, e') -> id_bytes i <> id_bytes j).
  { intros k' i e' H Hi. apply id_bytes_inj in Hi; [|by apply (s_lt _ _ _ _ _ _ Hs H)|done].
    by apply (Hnew _ _ _ H). }
  assert (Hbne : b <> []) by by apply base_ne.
  constructor; cbn [dn2id id2ch id2ent idseq].
  - intros k' i e' [[<- _]|[_ H]]%lookup_insert_Some; [done|]. by apply (s_key _ _ _ Hs _ _ _ H).
  - intros k' i e' [[<- [= <- <-]]|[_ H]]%lookup_insert_Some; [eauto|].
    by apply (s_dn _ _ _ Hs _ _ _ H).
  - intros k' i e' [[<- [= <- <-]]|[_ H]]%lookup_insert_Some; [lia|].
    pose proof (s_id _ _ _ Hs _ _ _ H). lia.
  - intros k1 k2 i e1 e2 [[<- [= <- <-]]|[_ H1]]%lookup_insert_Some
      [[<- Heq]|[_ H2]]%lookup_insert_Some; [done| | |].
    + destruct (Hnew _ _ _ H2) as [_ []]. done.
    + injection Heq as <- <-. destruct (Hnew _ _ _ H1) as [_ []]. done.
    + by apply (s_inj _ _ _ Hs _ _ _ _ _ H1 H2).
  - done.
  - intros s v. split.
    + intros [[<- <-]|[Hn H]]%lookup_insert_Some.
      * exists k, j, e. by rewrite lookup_insert.
      * apply (s_dn2id _ _ _ Hs) in H as (k' & i & e' & H & -> & ->). eauto 10.
    + intros (k' & i & e' & [[<- [= <- <-]]|[Hn H]]%lookup_insert_Some & -> & ->).
      * by rewrite lookup_insert.
      * rewrite lookup_insert_ne; [apply (s_dn2id _ _ _ Hs); eauto 10|].
        intros Hf. apply Hn. apply flat_inj; [apply Hg|by apply (s_key _ _ _ Hs _ _ _ H)|done].
  - intros v e'. split.
    + intros [[<- <-]|[Hn H]]%lookup_insert_Some.
      * exists k, j. by rewrite lookup_insert.
      * apply (s_ent _ _ _ Hs) in H as (k' & i & H & ->). eauto 10.
    + intros (k' & i & [[<- [= <- <-]]|[Hn H]]%lookup_insert_Some & ->).
      * by rewrite lookup_insert.
      * rewrite lookup_insert_ne; [apply (s_ent _ _ _ Hs); eauto 10|].
        intros Hf. by apply (Hidne _ _ _ H).
  - intros k' i e' [[<- [= <- <-]]|[Hn H]]%lookup_insert_Some.
    + exists []. split; [|split; [constructor|]].
      * unfold raw_children. cbn [id2ch].
        assert (Hc : ch !! id_bytes j = id2ch d !! id_bytes j).
        { destruct Hch as [[_ ->]|(p & ep & Hp & ->)]; [done|].
          rewrite lookup_insert_ne; [done|]. by apply (Hidne _ _ _ Hp). }
        rewrite Hc. subst j. by apply (sim_raw_fresh _ _ _ Hs).
      * intros j'. split; [by intros ?%elem_of_nil|]. intros (r & e' & H).
        exfalso. apply lookup_insert_Some in H as [[H _]|[_ H]].
        -- apply (f_equal length) in H. simpl in H. lia.
        -- rewrite (sim_no_child _ _ _ _ r Hs Hk) in H; [done| |done]. by apply gk_len.
    + destruct (s_ch _ _ _ Hs _ _ _ H) as (l & Hl & Hnd & Hin).
      destruct Hch as [[-> ->]|(p & ep & Hp & ->)].
      * exists l. split; [done|]. split; [done|]. intros j'. rewrite Hin. split.
        -- intros (r & e1 & H1). eauto.
        -- intros (r & e1 & [[-> [= <- <-]]|[Hn' H1]]%lookup_insert_Some); [|eauto].
           exfalso. pose proof (gk_len _ _ (s_key _ _ _ Hs _ _ _ H)) as Hle. simpl in Hle. lia.
      * destruct (decide (tail k = k')) as [<-|Hnk].
        -- rewrite Hp in H. injection H as <- <-.
           exists (l ++ [j]). split; [|split].
           ++ unfold raw_children at 1. cbn [id2ch]. rewrite lookup_insert. cbn [default from_option].
              rewrite Hl, map_app, concat_app. cbn [map concat]. by rewrite app_nil_r.
           ++ apply NoDup_app. split; [done|]. split; [|apply NoDup_singleton].
              intros j' Hj' ->%elem_of_list_singleton. apply Hin in Hj' as (r & e' & Hr).
              by apply (Hnew _ _ _ Hr).
           ++ intros j'. rewrite elem_of_app, elem_of_list_singleton, Hin. split.
              ** intros [(r & e' & Hr)| ->]; [eauto|].
                 destruct k as [|r t]; [by destruct (gk_ne _ _ Hg)|]. exists r, e. simpl.
                 by rewrite lookup_insert.
              ** intros (r & e' & [[-> [= <- <-]]|[_ Hr]]%lookup_insert_Some); [by right|].
                 left. eauto.
        -- exists l. split; [|split; [done|]].
           ++ rewrite <- Hl. unfold raw_children. cbn [id2ch]. rewrite lookup_insert_ne; [done|].
              intros Hi. apply Hnk. by apply (sim_id_inj _ _ _ _ _ _ _ _ _ Hs Hp H).
           ++ intros j'. rewrite Hin. split.
              ** intros (r & e1 & H1). eauto.
              ** intros (r & e1 & [[-> _]|[Hn' H1]]%lookup_insert_Some); [|eauto].
                 by destruct Hnk.
  - intros v w H.
    assert (Hd : id2ch d !! v = Some w \/ exists p ep, m !! tail k = Some (p, ep) /\ v = id_bytes p).
    { destruct Hch as [[_ ->]|(p & ep & Hp & ->)]; [by left|].
      apply lookup_insert_Some in H as [[<- _]|[_ H]]; [|by left]. right. eauto. }
    destruct Hd as [Hd|(p & ep & Hp & ->)].
    + apply (s_dead _ _ _ Hs) in Hd as [?|(k' & i & e' & H' & ->)]; [by left|].
      right. eauto 10.
    + right. eauto 10.
  - intros r k' i e' [[-> _]|[Hn H]]%lookup_insert_Some.
    + destruct Hch as [[<- _]|(p & ep & Hp & _)]; [by right|]. left. simpl in Hp.
      apply Hold in Hp. by exists (p, ep).
    + apply (s_parent _ _ _ Hs) in H as [[[i' e1] H]|H]; [|by right].
      left. apply Hold in H. by exists (i', e1).
Qed.

Lemma sim_del b d m k i e p ep l :
  sim b d m -> m !! k = Some (i, e) -> (forall r, m !! (r :: k) = None) ->
  m !! tail k = Some (p, ep) ->
  raw_children p d = concat (map id_bytes l) -> Forall (fun j => (j < 2 ^ 64)%N) l ->
  sim b (mkDb (delete (flat k) (dn2id d))
           (<[id_bytes p := concat (bfilter (fun c => negb (le_val c =? i)%N)
                                      (chunks8 (raw_children p d)))]> (id2ch d))
           (delete (id_bytes i) (id2ent d)) (idseq d))
    (delete k m).
Proof using Type.
  intros Hs Hk Hleaf Hp Hraw Hl64.
  assert (Hold : forall k' j e', m !! k' = Some (j, e') -> k <> k' -> delete k m !! k' = Some (j, e')).
  { intros k' j e' H Hn. by rewrite lookup_delete_ne. }
  assert (Hinv : forall k' j e', delete k m !! k' = Some (j, e') -> k <> k' /\ m !! k' = Some (j, e')).
  { intros k' j e' H. by apply lookup_delete_Some in H. }
  constructor; cbn [dn2id id2ch id2ent idseq].
  - intros k' j e' [_ H]%Hinv. by apply (s_key _ _ _ Hs _ _ _ H).
  - intros k' j e' [_ H]%Hinv. by apply (s_dn _ _ _ Hs _ _ _ H).
  - intros k' j e' [_ H]%Hinv. by apply (s_id _ _ _ Hs _ _ _ H).
  - intros k1 k2 j e1 e2 [_ H1]%Hinv [_ H2]%Hinv. by apply (s_inj _ _ _ Hs _ _ _ _ _ H1 H2).
  - apply (s_seq _ _ _ Hs).
  - intros s v. split.
    + intros [Hn H]%lookup_delete_Some.
      apply (s_dn2id _ _ _ Hs) in H as (k' & j & e' & H & -> & ->).
      exists k', j, e'. split; [|done]. apply Hold; [done|]. by intros <-.
    + intros (k' & j & e' & [Hn H]%Hinv & -> & ->).
      rewrite lookup_delete_ne; [apply (s_dn2id _ _ _ Hs); eauto 10|].
      intros Hf. apply Hn. apply flat_inj; [| |done].
      * by apply (s_key _ _ _ Hs _ _ _ Hk).
      * by apply (s_key _ _ _ Hs _ _ _ H).
  - intros v e'. split.
    + intros [Hn H]%lookup_delete_Some.
      apply (s_ent _ _ _ Hs) in H as (k' & j & H & ->).
      exists k', j. split; [|done]. apply Hold; [done|]. intros <-. apply Hn.
      rewrite Hk in H. by injection H as <- _.
    + intros (k' & j & [Hn H]%Hinv & ->).
      rewrite lookup_delete_ne; [apply (s_ent _ _ _ Hs); eauto 10|].
      intros Hf. apply Hn. by apply (sim_id_inj _ _ _ _ _ _ _ _ _ Hs Hk H).
  - intros k' j e' [Hn H]%Hinv.
    destruct (decide (tail k = k')) as [<-|Hnk].
    + rewrite Hp in H. injection H as <- <-.
      destruct (s_ch _ _ _ Hs _ _ _ Hp) as (l' & Hl' & Hnd & Hin).
      assert (l' = l) as ->.
      { assert (Hc : concat (map id_bytes l') = concat (map id_bytes l)) by congruence.
        apply (f_equal (fun s => map le_val (chunks8 s))) in Hc.
        rewrite (chunks8_ids l'), (chunks8_ids l), (ids_vals l), (ids_vals l') in Hc; [done| |done].
        apply List.Forall_forall. intros x Hx. apply elem_of_list_In, Hin in Hx as (r & e1 & Hx).
        apply (s_lt _ _ _ _ _ _ Hs Hx). }
      exists (bfilter (fun x => negb (x =? i)%N) l). split; [|split].
      * unfold raw_children at 1. cbn [id2ch]. rewrite lookup_insert. cbn [default from_option].
        by rewrite Hraw, chunks8_ids, ids_filter.
      * apply NoDup_ListNoDup, List.NoDup_filter, NoDup_ListNoDup. done.
      * intros x. rewrite elem_of_list_In, filter_In, <- elem_of_list_In, Hin.
        rewrite negb_true_iff, N.eqb_neq. split.
        -- intros [(r & e1 & H1) Hx]. exists r, e1. apply Hold; [done|].
           intros Heq. rewrite <- Heq, Hk in H1. by injection H1 as -> _.
        -- intros (r & e1 & [H1 H2]%Hinv). split; [eauto|]. intros ->.
           apply H1. by apply (s_inj _ _ _ Hs _ _ _ _ _ Hk H2).
    + destruct (s_ch _ _ _ Hs _ _ _ H) as (l' & Hl' & Hnd & Hin).
      exists l'. split; [|split; [done|]].
      * rewrite <- Hl'. unfold raw_children. cbn [id2ch]. rewrite lookup_insert_ne; [done|].
        intros Hi. apply Hnk. by apply (sim_id_inj _ _ _ _ _ _ _ _ _ Hs Hp H).
      * intros x. rewrite Hin. split.
        -- intros (r & e1 & H1). exists r, e1. apply Hold; [done|]. by intros ->.
        -- intros (r & e1 & [H1 H2]%Hinv). eauto.
  - intros v w H. apply lookup_insert_Some in H as [[<- _]|[_ H]].
    + right. exists (tail k), p, ep. split; [|done]. apply Hold; [done|].
      intros Hc. destruct k as [|r t]; [by destruct (gk_ne _ _ (s_key _ _ _ Hs _ _ _ Hk))|].
      simpl in Hc. apply (f_equal length) in Hc. simpl in Hc. lia.
    + destruct (s_dead _ _ _ Hs _ _ H) as [?|(k' & j & e1 & H1 & ->)]; [by left|].
      destruct (decide (k = k')) as [<-|Hn].
      * rewrite Hk in H1. injection H1 as <- <-. left.
        destruct (s_ch _ _ _ Hs _ _ _ Hk) as (l' & Hl' & Hnd & Hin).
        unfold raw_children in Hl'. rewrite H in Hl'. simpl in Hl'.
        destruct l' as [|x l']; [done|]. exfalso.
        destruct (proj1 (Hin x)) as (r & e1 & Hr); [left|]. by rewrite Hleaf in Hr.
      * right. eauto 10.
  - intros r k' j e' [Hn H]%Hinv. pose proof H as H0.
    apply (s_parent _ _ _ Hs) in H as [[[i' e1] H]|H]; [|by right].
    left. exists (i', e1). apply Hold; [done|]. intros <-. by rewrite Hleaf in H0.
Qed.

Lemma sim_rename b d m k i e k' e' dd :
  base_ok b -> sim b d m -> m !! k = Some (i, e) -> (forall r, m !! (r :: k) = None) ->
  m !! k' = None -> good_key b k' -> tail k' = tail k ->
  parse_dn (e_dn e') = Some dd -> wf_dn dd = true -> fold_dn dd = k' ->
  sim b (mkDb (delete (flat k) (<[flat k' := id_bytes i]> (dn2id d))) (id2ch d)
           (<[id_bytes i := e']> (id2ent d)) (idseq d))
    (<[k' := (i, e')]> (delete k m)).
Proof using Type.
  intros Hb Hs Hk Hleaf Hk' Hg Htl Hdd Hwf Hfold.
  assert (Hbne : b <> []) by by apply base_ne.
  assert (Hkk : k <> k') by (intros <-; by rewrite Hk in Hk').
  assert (Hkne : k <> []) by apply (gk_ne _ _ (s_key _ _ _ Hs _ _ _ Hk)).
  assert (Hk'ne : k' <> []) by apply (gk_ne _ _ Hg).
  assert (Hkt : k = hd [] k :: tail k) by by destruct k.
  assert (Hkt' : k' = hd [] k' :: tail k) by (destruct k'; [done|]; simpl in Htl; by subst).
  assert (Hself : forall x : dn, x <> [] -> tail x <> x).
  { intros [|r t] Hx; [done|]. simpl. intros Hc. apply (f_equal length) in Hc. simpl in Hc. lia. }
  assert (Hold : forall q j e1, m !! q = Some (j, e1) -> k <> q ->
    <[k' := (i, e')]> (delete k m) !! q = Some (j, e1)).
  { intros q j e1 H Hn. rewrite lookup_insert_ne, lookup_delete_ne; [done|done|].
    intros <-. by rewrite Hk' in H. }
  assert (Hinv : forall q j e1, <[k' := (i, e')]> (delete k m) !! q = Some (j, e1) ->
    q = k' /\ j = i /\ e1 = e' \/ q <> k' /\ q <> k /\ m !! q = Some (j, e1)).
  { intros q j e1 H. apply lookup_insert_Some in H as [[<- [= <- <-]]|[Hn H]]; [by left|].
    apply lookup_delete_Some in H as [Hn' H]. right. done. }
  constructor; cbn [dn2id id2ch id2ent idseq].
  - intros q j e1 [(-> & -> & ->)|(_ & _ & H)]%Hinv; [done|]. by apply (s_key _ _ _ Hs _ _ _ H).
  - intros q j e1 [(-> & -> & ->)|(_ & _ & H)]%Hinv; [eauto|]. by apply (s_dn _ _ _ Hs _ _ _ H).
  - intros q j e1 [(-> & -> & ->)|(_ & _ & H)]%Hinv; [by apply (s_id _ _ _ Hs _ _ _ Hk)|].
    by apply (s_id _ _ _ Hs _ _ _ H).
  - intros q1 q2 j e1 e2 [(-> & E1 & _)|(N1 & N1' & H1)]%Hinv [(-> & E2 & _)|(N2 & N2' & H2)]%Hinv;
      try subst j.
    + done.
    + destruct N2'. symmetry. by apply (s_inj _ _ _ Hs _ _ _ _ _ Hk H2).
    + destruct N1'. symmetry. by apply (s_inj _ _ _ Hs _ _ _ _ _ Hk H1).
    + by apply (s_inj _ _ _ Hs _ _ _ _ _ H1 H2).
  - apply (s_seq _ _ _ Hs).
  - intros s v. split.
    + intros [Hn H]%lookup_delete_Some. apply lookup_insert_Some in H as [[<- <-]|[Hn' H]].
      * exists k', i, e'. by rewrite lookup_insert.
      * apply (s_dn2id _ _ _ Hs) in H as (q & j & e1 & H & -> & ->).
        exists q, j, e1. split; [|done]. apply Hold; [done|]. by intros <-.
    + intros (q & j & e1 & [(-> & -> & ->)|(Hn & Hn' & H)]%Hinv & -> & ->).
      * rewrite lookup_delete_ne, lookup_insert; [done|].
        intros Hf. apply Hkk. apply flat_inj; [|apply Hg|done].
        by apply (s_key _ _ _ Hs _ _ _ Hk).
      * rewrite lookup_delete_ne, lookup_insert_ne; [apply (s_dn2id _ _ _ Hs); eauto 10| |].
        -- intros Hf. apply Hn. symmetry. apply flat_inj; [apply Hg| |done].
           by apply (s_key _ _ _ Hs _ _ _ H).
        -- intros Hf. apply Hn'. symmetry. apply flat_inj; [| |done].
           ++ by apply (s_key _ _ _ Hs _ _ _ Hk).
           ++ by apply (s_key _ _ _ Hs _ _ _ H).
  - intros v e1. split.
    + intros [[<- <-]|[Hn H]]%lookup_insert_Some.
      * exists k', i. by rewrite lookup_insert.
      * apply (s_ent _ _ _ Hs) in H as (q & j & H & ->).
        exists q, j. split; [|done]. apply Hold; [done|]. intros <-. apply Hn.
        rewrite Hk in H. by injection H as <- _.
    + intros (q & j & [(-> & -> & ->)|(Hn & Hn' & H)]%Hinv & ->).
      * by rewrite lookup_insert.
      * rewrite lookup_insert_ne; [apply (s_ent _ _ _ Hs); eauto 10|].
        intros Hi. apply Hn'. symmetry. by apply (sim_id_inj _ _ _ _ _ _ _ _ _ Hs Hk H).
  - intros q j e1 [(-> & -> & ->)|(Hn & Hn' & H)]%Hinv.
    + destruct (s_ch _ _ _ Hs _ _ _ Hk) as (l & Hl & Hnd & Hin).
      exists l. split; [done|]. split; [done|]. intros x. rewrite Hin. split.
      * intros (r & e2 & H). by rewrite Hleaf in H.
      * intros (r & e2 & [(H & _ & _)|(_ & _ & H)]%Hinv).
        -- apply (f_equal length) in H. simpl in H. lia.
        -- rewrite (sim_no_child _ _ _ _ r Hs Hk') in H; [done| |done]. by apply gk_len.
    + destruct (s_ch _ _ _ Hs _ _ _ H) as (l & Hl & Hnd & Hin).
      exists l. split; [done|]. split; [done|]. intros x. rewrite Hin. split.
      * intros (r & e2 & H2). destruct (decide (k = r :: q)) as [->|Hne].
        -- rewrite Hk in H2. injection H2 as <- <-. exists (hd [] k'), e'.
           simpl in Hkt'. rewrite <- Hkt'. by rewrite lookup_insert.
        -- exists r, e2. by apply Hold.
      * intros (r & e2 & [(H2 & -> & ->)|(_ & _ & H2)]%Hinv); [|eauto].
        exists (hd [] k), e. rewrite <- H2 in Htl. simpl in Htl. rewrite Htl, <- Hkt. done.
  - intros v w H. destruct (s_dead _ _ _ Hs _ _ H) as [?|(q & j & e1 & H1 & ->)]; [by left|].
    right. destruct (decide (k = q)) as [<-|Hn].
    + rewrite Hk in H1. injection H1 as <- <-. exists k', i, e'. by rewrite lookup_insert.
    + eauto 10.
  - intros r q j e1 H.
    assert (Hp : is_Some (m !! q) \/ q = tail b).
    { apply Hinv in H as [(H & -> & ->)|(_ & _ & H)].
      - assert (q = tail k) as ->. { rewrite <- H in Htl. by simpl in Htl. }
        rewrite Hkt in Hk. by apply (s_parent _ _ _ Hs) in Hk.
      - by apply (s_parent _ _ _ Hs) in H. }
    destruct Hp as [[[i2 e2] Hq]|Hq]; [|by right]. left.
    destruct (decide (k = q)) as [<-|Hn].
    + exfalso. apply Hinv in H as [(H & -> & ->)|(_ & _ & H)].
      * rewrite <- H in Htl. simpl in Htl. by apply (Hself k).
      * by rewrite Hleaf in H.
    + exists (i2, e2). by apply Hold.
Qed.
End sim.
