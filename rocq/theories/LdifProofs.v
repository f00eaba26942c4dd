(** Lemmas about Ldif.v. *)
From Verif Require Import Bytes Text Dn DnProofs Res Entry EntryProofs Password PasswordProofs Db Packet Filter
  FilterProofs Handler Ldif.

Section build.
Context {T : Text}.

Definition low_dn (e : entry) : str := to_lower (e_dn e).
Definition records_of (records : list (option entry)) : list entry := omap (fun o => o) records.

(** The data set after the entries [es]. *)
Record is_data (attrs : list (str * str)) (es : list entry) (d : dataset) : Prop := {
  id_nodup : NoDup (map low_dn es);
  id_heap : d_heap d = map split_entry es;
  id_tree : forall k p, d_tree d !! k = Some p <-> exists e, es !! p = Some e /\ low_dn e = k;
  id_index : d_index d = foldl (fun r pe => foldl (index_attr pe.1) r (e_attrs pe.2)) (new_register attrs)
               (imap (fun i e => (i, e)) es)
}.

Lemma build_none records : foldl add_record None records = None.
Proof using Type. induction records as [|[e|] l IH]; done. Qed.
Lemma is_data_nil attrs : is_data attrs [] (mkData [] ∅ (new_register attrs)).
Proof using Type.
  split; cbn; try done; [constructor|]. intros k p. rewrite lookup_empty. split; [done|]. by intros (e & ? & _).
Qed.
Lemma is_data_step attrs es d e : is_data attrs es d ->
  match add_record (Some d) (Some e) with
  | Some d' => is_data attrs (es ++ [e]) d'
  | None => ~ NoDup (map low_dn (es ++ [e]))
  end.
Proof using Type.
  intros [Hn Hh Ht Hi]. cbn [add_record].
  change (e_dn (l_entry (split_entry e))) with (low_dn e).
  destruct (d_tree d !! low_dn e) as [p|] eqn:E.
  - rewrite map_app, NoDup_app. intros (_ & Hx & _). apply Ht in E as (e' & He' & Hl).
    apply (Hx (low_dn e')); [|rewrite Hl; cbn; by left].
    apply elem_of_list_In, in_map_iff. exists e'. split; [done|]. apply elem_of_list_In. by eapply elem_of_list_lookup_2.
  - assert (Hnew : forall p e', es !! p = Some e' -> low_dn e' <> low_dn e).
    { intros p e' He' Hl. assert (d_tree d !! low_dn e = Some p) as Hp by (apply Ht; eauto). congruence. }
    split; cbn [d_heap d_tree d_index].
    + rewrite map_app, NoDup_app. split; [done|]. split; [|cbn; apply NoDup_singleton].
      intros x Hx Hx'. cbn in Hx'. apply elem_of_list_singleton in Hx' as ->.
      apply elem_of_list_In, in_map_iff in Hx as (e' & He' & Hin).
      apply elem_of_list_In, elem_of_list_lookup in Hin as [p Hp]. by apply (Hnew _ _ Hp).
    + rewrite Hh, map_app. done.
    + intros k p. rewrite Hh, map_length. rewrite lookup_insert_Some, Ht. split.
      * intros [[<- <-]|[Hne (e' & He' & Hk)]].
        -- exists e. split; [|done]. rewrite lookup_app_r by lia. by rewrite Nat.sub_diag.
        -- exists e'. split; [|done]. by apply lookup_app_l_Some.
      * intros (e' & He' & Hk). apply lookup_app_Some in He' as [He'|[Hle He']].
        -- right. split; [|eauto]. intros <-. by apply (Hnew _ _ He').
        -- apply list_lookup_singleton_Some in He' as [Hp <-]. left. split; [done|]. lia.
    + rewrite Hh, map_length, Hi, imap_app, foldl_app. cbn. by rewrite Nat.add_0_r.
Qed.

Lemma build_from attrs records es d : is_data attrs es d ->
  match foldl add_record (Some d) records with
  | Some d' => is_data attrs (es ++ records_of records) d'
  | None => ~ NoDup (map low_dn (es ++ records_of records))
  end.
Proof using Type.
  revert es d. induction records as [|[e|] l IH]; intros es d Hd.
  - cbn. by rewrite app_nil_r.
  - cbn [foldl records_of omap list_omap]. change (list_omap (option entry) entry (fun o => o) l) with (records_of l).
    pose proof (is_data_step attrs es d e Hd) as Hs.
    destruct (add_record (Some d) (Some e)) as [d'|].
    + specialize (IH _ _ Hs). by rewrite <- app_assoc in IH.
    + rewrite build_none. intros Hn. apply Hs. rewrite map_app in *. cbn in Hn |- *.
      rewrite cons_middle, app_assoc in Hn. by apply NoDup_app in Hn as [Hn _].
  - cbn [foldl records_of omap list_omap]. apply (IH es d Hd).
Qed.
Lemma build_spec attrs records :
  match build attrs records with
  | Some d => is_data attrs (records_of records) d
  | None => ~ NoDup (map low_dn (records_of records))
  end.
Proof using Type. apply (build_from attrs records [] _ (is_data_nil attrs)). Qed.
Lemma build_ok attrs records d : build attrs records = Some d -> is_data attrs (records_of records) d.
Proof using Type. intros H. pose proof (build_spec attrs records) as Hs. by rewrite H in Hs. Qed.

Lemma tree_get_ok attrs es d k : is_data attrs es d ->
  tree_get d k = split_entry <$> (List.find (fun e => seqb (low_dn e) k) es).
Proof using Type.
  intros Hd. unfold tree_get. destruct (d_tree d !! k) as [p|] eqn:E.
  - apply (id_tree _ _ _ Hd) in E as (e & He & Hk). rewrite (id_heap _ _ _ Hd), list_lookup_fmap, He. cbn.
    destruct (List.find _ es) as [e'|] eqn:Ef.
    + apply List.find_some in Ef as [Hin Hs]. apply seqb_eq in Hs.
      apply elem_of_list_In, elem_of_list_lookup in Hin as [q Hq].
      assert (d_tree d !! k = Some p) by (apply (id_tree _ _ _ Hd); eauto).
      assert (d_tree d !! k = Some q) by (apply (id_tree _ _ _ Hd); eauto).
      assert (p = q) as <- by congruence. cbn. congruence.
    + exfalso. apply elem_of_list_lookup_2, elem_of_list_In in He. apply (List.find_none _ _ Ef) in He.
      rewrite Hk, seqb_refl in He. done.
  - destruct (List.find _ es) as [e'|] eqn:Ef; [|done].
    apply List.find_some in Ef as [Hin Hs]. apply seqb_eq in Hs.
    apply elem_of_list_In, elem_of_list_lookup in Hin as [q Hq].
    assert (d_tree d !! k = Some q) by (apply (id_tree _ _ _ Hd); eauto). congruence.
Qed.

Lemma dn_of_ok attrs es d p e : is_data attrs es d -> es !! p = Some e -> dn_of d p = low_dn e.
Proof using Type. intros Hd He. unfold dn_of. by rewrite (id_heap _ _ _ Hd), list_lookup_fmap, He. Qed.

(** No password in the heap. *)
Lemma split_no_password e : Forall (fun a => is_userpassword (a_name a) = false) (e_attrs (l_entry (split_entry e))).
Proof using Type.
  apply List.Forall_forall. intros a Ha. apply filter_In in Ha as [_ Ha]. by apply negb_true_iff in Ha.
Qed.
End build.

(** * The index *)
Section index.
Context {T : Text}.

Lemma bag_get_insert (k k' : str) (l : list nat) (m : bag) : bag_get k' (<[k := l]> m) = if seqb k k' then l else bag_get k' m.
Proof using Type.
  unfold bag_get. destruct (seqb k k') eqn:E.
  - apply seqb_eq in E as ->. by rewrite lookup_insert.
  - rewrite lookup_insert_ne; [done|]. intros ->. by rewrite seqb_refl in E.
Qed.
Lemma bag_add_mono (key : str -> str) (vs : list str) (p : nat) (m : bag) (k : str) (q : nat) : q ∈ bag_get k m -> q ∈ bag_get k (bag_add key vs p m).
Proof using Type.
  unfold bag_add. revert m. induction vs as [|v vs IH]; intros m H; [done|]. cbn [foldl]. apply IH.
  rewrite bag_get_insert. destruct (seqb (key v) k) eqn:E; [|done].
  apply seqb_eq in E as <-. apply elem_of_app. by left.
Qed.
Lemma bag_add_in (key : str -> str) (vs : list str) (p : nat) (m : bag) (v : str) : v ∈ vs -> p ∈ bag_get (key v) (bag_add key vs p m).
Proof using Type.
  unfold bag_add. revert m. induction vs as [|w vs IH]; intros m H; [by apply elem_of_nil in H|].
  cbn [foldl]. apply elem_of_cons in H as [->|H]; [|by apply IH].
  apply (bag_add_mono key vs p). rewrite bag_get_insert, seqb_refl. apply elem_of_app. right. by apply elem_of_list_singleton.
Qed.
Lemma bag_add_from (key : str -> str) (vs : list str) (p : nat) (m : bag) (k : str) (q : nat) : q ∈ bag_get k (bag_add key vs p m) -> q = p \/ q ∈ bag_get k m.
Proof using Type.
  unfold bag_add. revert m. induction vs as [|v vs IH]; intros m H; [auto|]. cbn [foldl] in H.
  apply IH in H as [H|H]; [auto|]. rewrite bag_get_insert in H. destruct (seqb (key v) k) eqn:E; [|auto].
  apply seqb_eq in E as <-. apply elem_of_app in H as [H|H]; [auto|]. apply elem_of_list_singleton in H. auto.
Qed.

(** The pointers of an index. *)
Definition bag_in (q : nat) (m : bag) : Prop := exists k, q ∈ bag_get k m.
Definition idx_in (q : nat) (i : idx) : Prop :=
  match i with IMap m => bag_in q m | ISub a b c => bag_in q a \/ bag_in q b \/ bag_in q c end.
Lemma idx_add_from vs p i q : idx_in q (idx_add vs p i) -> q = p \/ idx_in q i.
Proof using Type.
  assert (Hb : forall (key : str -> str) (ws : list str) (m : bag), bag_in q (bag_add key ws p m) -> q = p \/ bag_in q m).
  { intros key ws m [k Hk]. apply bag_add_from in Hk as [?|?]; [auto|]. right. by exists k. }
  destruct i as [m|a b c]; cbn [idx_add idx_in].
  - apply Hb.
  - intros [H|[H|H]]; apply Hb in H as [?|?]; auto.
Qed.

(** [i] finds the pointer for a value: under the exact folded key, or by
    presence. *)
Definition finds (v : str) (p : nat) (i : idx) : Prop :=
  match i with IMap m => p ∈ bag_get (to_lower v) m | ISub a _ _ => p ∈ bag_get [] a end.
Definition is_map (i : idx) : bool := match i with IMap _ => true | ISub _ _ _ => false end.

Variable (HT : TextOK T).
Lemma lower_nil : to_lower [] = [].
Proof using HT. rewrite (lower_ascii_ok _ HT) by constructor. done. Qed.

Lemma idx_add_finds vs p i v : v ∈ vs \/ is_map i = false -> finds v p (idx_add vs p i).
Proof using HT.
  destruct i as [m|a b c]; cbn [finds idx_add is_map].
  - intros [H|H]; [|done]. apply (bag_add_in to_lower vs p m v H).
  - intros _. pose proof (bag_add_in to_lower [[]] p a []) as H. rewrite lower_nil in H. apply H.
    by apply elem_of_list_singleton.
Qed.
Lemma idx_add_mono vs p i v q : finds v q i -> finds v q (idx_add vs p i).
Proof using Type. destruct i as [m|a b c]; cbn [finds idx_add]; apply bag_add_mono. Qed.
Lemma idx_add_map vs p i : is_map (idx_add vs p i) = is_map i.
Proof using Type. by destruct i. Qed.

(** Registers: keys and kinds stay. *)
Definition kinds (r : gmap str idx) : gmap str bool := is_map <$> r.
Lemma register_add_kinds n o vs p r : kinds (register_add n o vs p r) = kinds r.
Proof using Type.
  unfold register_add, kinds. destruct (r !! index_key n o) as [i|] eqn:E; [|done].
  rewrite fmap_insert, idx_add_map. apply insert_id. by rewrite lookup_fmap, E.
Qed.
Lemma index_attr_kinds p r a : kinds (index_attr p r a) = kinds r.
Proof using Type. unfold index_attr. by rewrite !register_add_kinds. Qed.
Lemma index_attrs_kinds p r l : kinds (foldl (index_attr p) r l) = kinds r.
Proof using Type.
  revert r. induction l as [|a l IH]; intros r; [done|]. cbn [foldl]. by rewrite IH, index_attr_kinds.
Qed.
Definition index_all (r : gmap str idx) (pes : list (nat * entry)) : gmap str idx :=
  foldl (fun r pe => foldl (index_attr pe.1) r (e_attrs pe.2)) r pes.
Lemma index_all_kinds r pes : kinds (index_all r pes) = kinds r.
Proof using Type.
  unfold index_all. revert r. induction pes as [|pe l IH]; intros r; [done|]. cbn [foldl]. by rewrite IH, index_attrs_kinds.
Qed.

(** What is found stays found. *)
Definition rfinds (k : str) (v : str) (p : nat) (r : gmap str idx) : Prop :=
  forall i, r !! k = Some i -> finds v p i.
Lemma register_add_mono n o vs p r k v q : rfinds k v q r -> rfinds k v q (register_add n o vs p r).
Proof using Type.
  intros H i. unfold register_add. destruct (r !! index_key n o) as [j|] eqn:E; [|apply H].
  intros Hi. apply lookup_insert_Some in Hi as [[<- <-]|[_ Hi]]; [|by apply H].
  apply idx_add_mono. by apply H.
Qed.
Lemma register_add_finds n o vs p r v :
  v ∈ vs \/ (forall i, r !! index_key n o = Some i -> is_map i = false) ->
  rfinds (index_key n o) v p (register_add n o vs p r).
Proof using HT.
  intros H i. unfold register_add. destruct (r !! index_key n o) as [j|] eqn:E.
  - intros Hi. rewrite lookup_insert in Hi. injection Hi as <-. apply idx_add_finds. destruct H as [H|H]; auto.
  - intros Hi. congruence.
Qed.
Lemma index_attr_mono p r a k v q : rfinds k v q r -> rfinds k v q (index_attr p r a).
Proof using Type. intros H. unfold index_attr. by repeat apply register_add_mono. Qed.
Lemma index_attrs_mono p r l k v q : rfinds k v q r -> rfinds k v q (foldl (index_attr p) r l).
Proof using Type. revert r. induction l as [|a l IH]; intros r H; [done|]. cbn [foldl]. apply IH. by apply index_attr_mono. Qed.
Lemma index_all_mono r pes k v q : rfinds k v q r -> rfinds k v q (index_all r pes).
Proof using Type.
  unfold index_all. revert r. induction pes as [|pe l IH]; intros r H; [done|]. cbn [foldl]. apply IH. by apply index_attrs_mono.
Qed.

Lemma kinds_lookup r k : kinds r !! k = is_map <$> (r !! k).
Proof using Type. apply lookup_fmap. Qed.
Lemma kinds_sub r r' k : kinds r = kinds r' ->
  (forall i, r !! k = Some i -> is_map i = false) -> forall i, r' !! k = Some i -> is_map i = false.
Proof using Type.
  intros Hk H i Hi. pose proof (kinds_lookup r k) as H1. pose proof (kinds_lookup r' k) as H2.
  rewrite Hk, H2, Hi in H1. cbn in H1. destruct (r !! k) as [j|] eqn:E; cbn in H1; [|done].
  injection H1 as ->. by apply H.
Qed.

(** Every entry is found by its attributes. *)
Lemma index_attr_finds p r a :
  (forall v, v ∈ a_vals a -> rfinds (index_key (a_name a) (B "eq")) v p (index_attr p r a)) /\
  rfinds (index_key (a_name a) (B "pres")) [] p (index_attr p r a) /\
  ((forall i, r !! index_key (a_name a) (B "sub") = Some i -> is_map i = false) ->
   forall v, rfinds (index_key (a_name a) (B "sub")) v p (index_attr p r a)).
Proof using HT.
  split; [|split].
  - intros v Hv. unfold index_attr. apply register_add_mono, register_add_mono. apply register_add_finds. auto.
  - unfold index_attr. apply register_add_mono. apply register_add_finds. left. by apply elem_of_list_singleton.
  - intros Hs v. unfold index_attr. apply register_add_finds. right.
    eapply kinds_sub; [|exact Hs]. by rewrite !register_add_kinds.
Qed.
Lemma index_all_finds r pes p e a : (p, e) ∈ pes -> a ∈ e_attrs e ->
  (forall v, v ∈ a_vals a -> rfinds (index_key (a_name a) (B "eq")) v p (index_all r pes)) /\
  rfinds (index_key (a_name a) (B "pres")) [] p (index_all r pes) /\
  ((forall i, r !! index_key (a_name a) (B "sub") = Some i -> is_map i = false) ->
   forall v, rfinds (index_key (a_name a) (B "sub")) v p (index_all r pes)).
Proof using HT.
  intros Hpe Ha. apply elem_of_list_split in Hpe as (l1 & l2 & ->). apply elem_of_list_split in Ha as (a1 & a2 & Ha).
  unfold index_all. rewrite foldl_app. cbn [foldl fst snd]. rewrite Ha, foldl_app. cbn [foldl].
  set (r1 := foldl (index_attr p) (foldl (fun r pe => foldl (index_attr pe.1) r (e_attrs pe.2)) r l1) a1).
  destruct (index_attr_finds p r1 a) as (H1 & H2 & H3).
  split; [|split].
  - intros v Hv. apply (index_all_mono _ l2), index_attrs_mono. by apply H1.
  - apply (index_all_mono _ l2), index_attrs_mono, H2.
  - intros Hs v. apply (index_all_mono _ l2), index_attrs_mono, H3.
    eapply kinds_sub; [|exact Hs]. unfold r1. rewrite index_attrs_kinds. symmetry. apply (index_all_kinds r l1).
Qed.

(** All pointers of the index are given ones. *)
Definition rin (q : nat) (r : gmap str idx) : Prop := exists k i, r !! k = Some i /\ idx_in q i.
Lemma register_add_from n o vs p r q : rin q (register_add n o vs p r) -> q = p \/ rin q r.
Proof using Type.
  unfold register_add. destruct (r !! index_key n o) as [j|] eqn:E; [|auto].
  intros (k & i & Hi & Hq). apply lookup_insert_Some in Hi as [[<- <-]|[_ Hi]].
  - apply idx_add_from in Hq as [?|?]; [auto|]. right. exists (index_key n o), j. done.
  - right. by exists k, i.
Qed.
Lemma index_attrs_from p l r q : rin q (foldl (index_attr p) r l) -> q = p \/ rin q r.
Proof using Type.
  revert r. induction l as [|a l IH]; intros r; [auto|]. cbn [foldl]. intros H. apply IH in H as [H|H]; [auto|].
  unfold index_attr in H. repeat (apply register_add_from in H as [H|H]; [auto|]). auto.
Qed.
Lemma index_all_from pes r q : rin q (index_all r pes) -> (exists e, (q, e) ∈ pes) \/ rin q r.
Proof using Type.
  unfold index_all. revert r. induction pes as [|[p e] l IH]; intros r; [auto|]. cbn [foldl fst snd]. intros H.
  apply IH in H as [[e' H]|H].
  - left. exists e'. apply elem_of_cons. auto.
  - apply index_attrs_from in H as [->|H]; [|auto]. left. exists e. apply elem_of_cons. auto.
Qed.

(** The empty register. *)
Definition idx_empty (i : idx) : Prop := i = IMap ∅ \/ i = ISub ∅ ∅ ∅.
Lemma idx_empty_in q i : idx_empty i -> ~ idx_in q i.
Proof using Type.
  assert (H : ~ bag_in q ∅). { intros [k Hk]. unfold bag_get in Hk. rewrite lookup_empty in Hk. by apply elem_of_nil in Hk. }
  intros [-> | ->]; cbn; [done|]. intros [?|[?|?]]; done.
Qed.
Definition good_register (r : gmap str idx) : Prop :=
  forall k i, r !! k = Some i -> exists n op, k = index_key n op /\ new_index op = Some i.
Lemma good_register_insert r n op i : good_register r -> new_index op = Some i ->
  good_register (<[index_key n op := i]> r).
Proof using Type.
  intros Hr Hi k j H. apply lookup_insert_Some in H as [[<- <-]|[_ H]]; [by exists n, op|by apply Hr].
Qed.
Lemma new_register_good attrs : good_register (new_register attrs).
Proof using Type.
  unfold new_register. assert (H : good_register ∅) by (intros k i Hk; by rewrite lookup_empty in Hk).
  revert H. generalize (∅ : gmap str idx). induction attrs as [|[n ops] l IH]; intros r Hr; [done|].
  cbn [foldl fst snd]. apply IH. revert r Hr. induction (Bytes.split ","%char ops) as [|op l' IH']; intros r Hr; [done|].
  cbn [foldl]. apply IH'. destruct (new_index op) eqn:E; [|done]. by apply good_register_insert.
Qed.
Lemma new_register_lookup attrs k i : new_register attrs !! k = Some i -> idx_empty i.
Proof using Type.
  intros H. apply new_register_good in H as (n & op & _ & Ho). unfold new_index in Ho.
  destruct (seqb op _); [injection Ho as <-; by right|]. destruct (_ || _); [|done]. injection Ho as <-. by left.
Qed.
Lemma index_key_op n n' op op' : index_key n op = index_key n' op' ->
  new_index op <> None -> new_index op' <> None -> op = op'.
Proof using Type.
  intros Hk. unfold new_index, index_key in *.
  assert (Hops : forall o, (if seqb o (B "sub") then Some (ISub ∅ ∅ ∅)
    else if seqb o (B "pres") || seqb o (B "eq") then Some (IMap ∅) else None) <> None ->
    o = B "sub" \/ o = B "pres" \/ o = B "eq").
  { intros o. destruct (seqb o (B "sub")) eqn:E1; [apply seqb_eq in E1; auto|].
    destruct (seqb o (B "pres")) eqn:E2; [apply seqb_eq in E2; auto|].
    destruct (seqb o (B "eq")) eqn:E3; [apply seqb_eq in E3; auto|]. done. }
  intros H1%Hops H2%Hops. apply (f_equal (@rev _)) in Hk. rewrite !rev_app_distr in Hk.
  destruct H1 as [-> | [-> | ->]], H2 as [-> | [-> | ->]]; cbn in Hk; done.
Qed.
Lemma sub_kind attrs n i : new_register attrs !! index_key n (B "sub") = Some i -> is_map i = false.
Proof using Type.
  intros H. pose proof (new_register_good attrs _ _ H) as (n' & op & Hk & Ho).
  assert (B "sub" = op) as <-. { eapply index_key_op; [exact Hk|done|congruence]. }
  cbn in Ho. by injection Ho as <-.
Qed.
Lemma map_kind attrs n op i : op = B "eq" \/ op = B "pres" ->
  new_register attrs !! index_key n op = Some i -> is_map i = true.
Proof using Type.
  intros Hop H. pose proof (new_register_good attrs _ _ H) as (n' & op' & Hk & Ho).
  assert (op = op') as <-.
  { eapply index_key_op; [exact Hk| |congruence]. by destruct Hop as [-> | ->]. }
  destruct Hop as [-> | ->]; cbn in Ho; by injection Ho as <-.
Qed.
(** Which indexes there are. *)
Definition has_index (attrs : list (str * str)) (a op : str) : Prop :=
  exists n ops, In (n, ops) attrs /\ to_lower n = to_lower a /\ In op (Bytes.split ","%char ops).
Lemma new_register_some attrs a op : new_index op <> None -> has_index attrs a op ->
  new_register attrs !! index_key a op <> None.
Proof using Type.
  intros Hop (n & ops & Hin & Hn & Ho). unfold new_register.
  assert (Hk : index_key a op = index_key n op) by (unfold index_key; by rewrite Hn). rewrite Hk. clear Hk Hn.
  set (k := index_key n op).
  assert (Hkeep2 : forall m os (r : gmap str idx), r !! k <> None ->
    foldl (fun r op => match new_index op with Some i => <[index_key m op := i]> r | None => r end) r os !! k <> None).
  { intros m os. induction os as [|o os IH]; intros r Hr; [done|]. cbn [foldl]. apply IH.
    destruct (new_index o); [|done]. destruct (decide (index_key m o = k)) as [->|Hne].
    - by rewrite lookup_insert.
    - by rewrite lookup_insert_ne. }
  assert (Hkeep : forall l (r : gmap str idx), r !! k <> None ->
    foldl (fun m a => foldl (fun m op => match new_index op with Some i => <[index_key a.1 op := i]> m | None => m end) m
      (Bytes.split ","%char a.2)) r l !! k <> None).
  { induction l as [|[m os] l IH]; intros r Hr; [done|]. cbn [foldl]. apply IH. by apply Hkeep2. }
  apply in_split in Hin as (l1 & l2 & ->). rewrite foldl_app. cbn [foldl]. apply Hkeep. cbn [fst snd].
  apply in_split in Ho as (o1 & o2 & ->). rewrite foldl_app. cbn [foldl]. apply Hkeep2.
  destruct (new_index op); [|done]. unfold k. by rewrite lookup_insert.
Qed.
End index.

(** * What the pump sends *)
Section pump.
Context {T : Text} {Tr : Trees} (HTr : TreesOK Tr).

Lemma walk_elem {A} (p : str -> bool) (t : gmap str A) x :
  x ∈ walk p t <-> exists k, p k = true /\ t !! k = Some x.
Proof using HTr.
  unfold walk. rewrite elem_of_list_omap. split.
  - intros (k & Hk & Hx). exists k. split; [|done].
    rewrite (HTr _) in Hk. apply elem_of_list_In, filter_In in Hk. apply Hk.
  - intros (k & Hp & Hx). exists k. split; [|done]. rewrite (HTr _). apply elem_of_list_In, filter_In. split; [|done].
    apply elem_of_list_In. unfold keys_of. apply elem_of_list_fmap. exists (k, x). split; [done|].
    by apply elem_of_map_to_list.
Qed.
Lemma walk_nodup {A} (p : str -> bool) (t : gmap str A) :
  (forall k k' x, t !! k = Some x -> t !! k' = Some x -> k = k') -> NoDup (walk p t).
Proof using HTr.
  intros Hinj. unfold walk.
  assert (Hnd : NoDup (visit (bfilter p (keys_of t)))).
  { rewrite (HTr _). apply NoDup_ListNoDup, List.NoDup_filter, NoDup_ListNoDup. apply NoDup_fst_map_to_list. }
  induction Hnd as [|k l Hk Hl IH]; [constructor|]. cbn. destruct (t !! k) as [x|] eqn:E; [|done].
  constructor; [|done]. intros Hx. apply elem_of_list_omap in Hx as (k' & Hk' & Hx').
  assert (k = k') as <- by by eapply Hinj. done.
Qed.

Lemma uncached_elem d base cache ps q :
  q ∈ uncached d base cache ps <-> q ∈ ps /\ q ∉ cache /\ has_suffix (dn_of d q) base = true.
Proof using Type.
  revert cache. induction ps as [|p ps IH]; intros cache; cbn [uncached].
  { split; [intros H; by apply elem_of_nil in H|]. intros (H & _). by apply elem_of_nil in H. }
  destruct (existsb (Nat.eqb p) cache) eqn:E.
  - apply existsb_exists in E as (p' & Hin & Hp). apply Nat.eqb_eq in Hp as <-. apply elem_of_list_In in Hin.
    rewrite IH, elem_of_cons. split.
    + intros (? & ? & ?). auto.
    + intros ([->|?] & ? & ?); done.
  - assert (Hp : p ∉ cache).
    { intros Hp. apply elem_of_list_In in Hp. assert (existsb (Nat.eqb p) cache = true) as H; [|congruence].
      apply existsb_exists. exists p. split; [done|apply Nat.eqb_refl]. }
    rewrite elem_of_app, IH, not_elem_of_cons, elem_of_cons. split.
    + intros [H|(H1 & [H2 H3] & H4)]; [|auto]. destruct (has_suffix (dn_of d p) base) eqn:Es; [|by apply elem_of_nil in H].
      apply elem_of_list_singleton in H as ->. auto.
    + intros (H1 & H2 & H3). destruct (decide (q = p)) as [->|Hne].
      * left. rewrite H3. by apply elem_of_list_singleton.
      * right. destruct H1 as [?|?]; [done|]. auto.
Qed.
Lemma uncached_nodup d base cache ps : NoDup (uncached d base cache ps).
Proof using Type.
  revert cache. induction ps as [|p ps IH]; intros cache; cbn [uncached]; [constructor|].
  destruct (existsb _ _); [apply IH|]. destruct (has_suffix _ _); [|apply IH]. cbn. constructor; [|apply IH].
  rewrite uncached_elem. intros (_ & H & _). apply H. apply elem_of_cons. auto.
Qed.

Lemma idx_load_in f i l q : idx_load f i = Some l -> q ∈ l -> idx_in q i.
Proof using HTr.
  destruct i as [m|a b c]; cbn [idx_load idx_in].
  - intros [= <-] Hq. by eexists.
  - destruct (lf_op f) as [| |tag]; [done..|].
    assert (Hw : forall (p : str -> bool) (m : bag), q ∈ concat (walk p m) -> bag_in q m).
    { intros p m H. apply elem_of_list_In, in_concat in H as (l' & Hl' & Hq'). apply elem_of_list_In in Hl', Hq'.
      apply walk_elem in Hl' as (k & _ & Hk). exists k. unfold bag_get. by rewrite Hk. }
    destruct (tag =? SubAny)%N; [intros [= <-] Hq; left; by eexists|].
    destruct (tag =? SubInitial)%N; [intros [= <-] Hq; right; left; by eapply Hw|].
    destruct (tag =? SubFinal)%N; [|done]. intros [= <-] Hq. right. right. by eapply Hw.
Qed.
Lemma load_all_elem fs r ps : load_all fs r = Some ps ->
  forall q, q ∈ ps <-> exists f l, f ∈ fs /\ register_load f r = Some l /\ q ∈ l.
Proof using Type.
  revert ps. induction fs as [|f fs IH]; intros ps; cbn [load_all].
  { intros [= <-] q. split; [intros H; by apply elem_of_nil in H|]. intros (f & l & H & _). by apply elem_of_nil in H. }
  destruct (register_load f r) as [l|] eqn:El; [|done]. destruct (load_all fs r) as [l'|] eqn:El'; [|done].
  intros [= <-] q. rewrite elem_of_app, (IH l' eq_refl q). split.
  - intros [H|(f' & m & H1 & H2 & H3)]; [exists f, l|exists f', m]; rewrite elem_of_cons; auto.
  - intros (f' & m & H1 & H2 & H3). apply elem_of_cons in H1 as [->|H1].
    + left. congruence.
    + right. eauto.
Qed.

Variable (attrs : list (str * str)) (es : list entry) (d : dataset).
Hypothesis (Hd : is_data attrs es d).

Lemma index_ptr q : rin q (d_index d) -> exists e, es !! q = Some e.
Proof using Hd.
  rewrite (id_index _ _ _ Hd). intros H. apply index_all_from in H as [[e H]|(k & i & Hi & Hq)].
  - apply elem_of_lookup_imap in H as (i & x & [= -> ->] & H). eauto.
  - by apply new_register_lookup, (idx_empty_in q) in Hi.
Qed.
Lemma candidates_elem base fs q : q ∈ candidates d base fs ->
  exists e, es !! q = Some e /\ has_suffix (low_dn e) (to_lower base) = true.
Proof using Hd HTr.
  unfold candidates.
  assert (Hall : q ∈ walk (fun k => has_suffix k (to_lower base)) (d_tree d) ->
    exists e, es !! q = Some e /\ has_suffix (low_dn e) (to_lower base) = true).
  { intros H. apply walk_elem in H as (k & Hs & Hk). apply (id_tree _ _ _ Hd) in Hk as (e & He & <-). eauto. }
  destruct (is_empty fs); [done|]. destruct (load_all fs (d_index d)) as [ps|] eqn:El; [|done].
  rewrite uncached_elem. intros (Hq & _ & Hs). apply (load_all_elem _ _ _ El) in Hq as (f & l & Hf & Hl & Hq).
  unfold register_load in Hl. destruct (d_index d !! _) as [i|] eqn:Ei; [|done].
  destruct (index_ptr q) as [e He]. { eexists _, i. split; [exact Ei|]. by eapply idx_load_in. }
  exists e. split; [done|]. by rewrite (dn_of_ok _ _ _ _ _ Hd He) in Hs.
Qed.
Lemma candidates_nodup base fs : NoDup (candidates d base fs).
Proof using Hd HTr.
  unfold candidates.
  assert (Hall : NoDup (walk (fun k => has_suffix k (to_lower base)) (d_tree d))).
  { apply walk_nodup. intros k k' x H1 H2. apply (id_tree _ _ _ Hd) in H1 as (e & He & <-).
    apply (id_tree _ _ _ Hd) in H2 as (e' & He' & <-). congruence. }
  destruct (is_empty fs); [done|]. destruct (load_all fs (d_index d)); [|done]. apply uncached_nodup.
Qed.
(** Without an index: all entries under the base. *)
Lemma candidates_scan base fs q e :
  fs = [] \/ load_all fs (d_index d) = None ->
  es !! q = Some e -> has_suffix (low_dn e) (to_lower base) = true -> q ∈ candidates d base fs.
Proof using Hd HTr.
  intros Hfs He Hs. unfold candidates.
  assert (Hall : q ∈ walk (fun k => has_suffix k (to_lower base)) (d_tree d)).
  { apply walk_elem. exists (low_dn e). split; [done|]. apply (id_tree _ _ _ Hd). eauto. }
  destruct Hfs as [-> | Hfs]; [done|]. rewrite Hfs. by destruct (is_empty fs).
Qed.

(** ** Leaves that find their entries *)
Variable (HT : TextOK T).
(** What a leaf asserts. *)
Definition hits (f : leaf) (e : entry) : Prop :=
  match lf_op f with
  | LEq => match_equality (lf_attr f) (lf_val f) (e_attrs e) = true
  | LPres => match_present (lf_attr f) (e_attrs e) = true
  | LSub tag => tag = SubAny /\ match_present (lf_attr f) (e_attrs e) = true
  end.
(** The two ways of ignoring case agree on the attributes of an entry and a
    leaf. *)
Definition cases_agree (f : leaf) (e : entry) : Prop :=
  forall a, In a (e_attrs e) ->
    (eqfold (a_name a) (lf_attr f) = true -> to_lower (a_name a) = to_lower (lf_attr f)) /\
    (forall v, In v (a_vals a) -> eqfold v (lf_val f) = true -> to_lower v = to_lower (lf_val f)).

Lemma index_all_data : d_index d = index_all (new_register attrs) (imap (fun i e => (i, e)) es).
Proof using Hd. apply (id_index _ _ _ Hd). Qed.
Lemma leaf_finds f q e l :
  es !! q = Some e -> hits f (l_entry (split_entry e)) -> cases_agree f (l_entry (split_entry e)) ->
  (lf_op f = LPres -> lf_val f = []) ->
  register_load f (d_index d) = Some l -> q ∈ l.
Proof using Hd HT.
  intros He Hh Hc Hv Hl. unfold register_load in Hl.
  destruct (d_index d !! index_key (lf_attr f) (op_name (lf_op f))) as [i|] eqn:Ei; [|done].
  assert (Hpe : (q, e) ∈ imap (fun i e => (i, e)) es) by (apply elem_of_lookup_imap; eauto).
  assert (Hsub : forall a, In a (e_attrs (l_entry (split_entry e))) -> a ∈ e_attrs e).
  { intros a Ha. apply filter_In in Ha as [Ha _]. by apply elem_of_list_In. }
  assert (Hkind : kinds (d_index d) = kinds (new_register attrs)).
  { rewrite index_all_data. apply index_all_kinds. }
  assert (Hnew : exists j, new_register attrs !! index_key (lf_attr f) (op_name (lf_op f)) = Some j /\ is_map j = is_map i).
  { pose proof (kinds_lookup (d_index d) (index_key (lf_attr f) (op_name (lf_op f)))) as H1.
    rewrite Hkind, kinds_lookup, Ei in H1. cbn in H1.
    destruct (new_register attrs !! _) as [j|]; cbn in H1; [|done]. injection H1 as H1. eauto. }
  destruct Hnew as (j & Hj & Hji).
  destruct f as [fa op fv]. unfold hits in Hh. cbn [lf_attr lf_op lf_val] in *. destruct op as [| |tag]; cbn [op_name] in *.
  - (* equality *)
    apply existsb_exists in Hh as (a & Ha & [Hn Hx]%andb_true_iff). apply existsb_exists in Hx as (v & Hin & Hx).
    destruct (Hc a Ha) as [Hcn Hcv]. apply Hcn in Hn. apply (Hcv v Hin) in Hx. cbn in Hn, Hx.
    destruct (index_all_finds HT (new_register attrs) _ q e a Hpe (Hsub a Ha)) as (H1 & _ & _).
    apply elem_of_list_In in Hin. specialize (H1 v Hin i).
    rewrite <- index_all_data in H1. unfold index_key in H1. rewrite Hn in H1. fold (index_key fa (B "eq")) in H1.
    specialize (H1 Ei). apply map_kind in Hj; [|auto]. rewrite Hj in Hji.
    destruct i as [m|]; [|done]. cbn [finds idx_load lf_val] in *. rewrite Hx in H1. by injection Hl as <-.
  - (* presence *)
    apply existsb_exists in Hh as (a & Ha & Hn). destruct (Hc a Ha) as [Hcn _]. apply Hcn in Hn. cbn in Hn.
    destruct (index_all_finds HT (new_register attrs) _ q e a Hpe (Hsub a Ha)) as (_ & H1 & _).
    specialize (H1 i). rewrite <- index_all_data in H1. unfold index_key in H1. rewrite Hn in H1. fold (index_key fa (B "pres")) in H1.
    specialize (H1 Ei). apply map_kind in Hj; [|auto]. rewrite Hj in Hji.
    destruct i as [m|]; [|done]. cbn [finds idx_load lf_val] in *. rewrite (Hv eq_refl) in Hl. by injection Hl as <-.
  - (* substring in the middle *)
    destruct Hh as [-> Hh]. apply existsb_exists in Hh as (a & Ha & Hn). destruct (Hc a Ha) as [Hcn _]. apply Hcn in Hn. cbn in Hn.
    destruct (index_all_finds HT (new_register attrs) _ q e a Hpe (Hsub a Ha)) as (_ & _ & H1).
    specialize (H1 (fun i => sub_kind attrs (a_name a) i) [] i). rewrite <- index_all_data in H1.
    unfold index_key in H1. rewrite Hn in H1. fold (index_key fa (B "sub")) in H1.
    specialize (H1 Ei). apply sub_kind in Hj. rewrite Hj in Hji.
    destruct i as [|a1 a2 a3]; [done|]. cbn [finds idx_load lf_op] in *.
    change (SubAny =? SubAny)%N with true in Hl. cbn iota in Hl. by injection Hl as <-.
Qed.
End pump.

(** * Filters and leaves *)
Section leaves.
Context {T : Text}.

Definition leaves_all := (fix all (l : list packet) : res (list leaf) :=
  match l with
  | [] => Ok []
  | c :: l' => x <-- leaves c ;; y <-- all l' ;; Ok (x ++ y)
  end).
Lemma leaves_and l : leaves (filter_packet (FAnd l)) = leaves_all (map filter_packet l).
Proof using Type. reflexivity. Qed.
Lemma leaves_or l : leaves (filter_packet (FOr l)) = leaves_all (map filter_packet l).
Proof using Type. reflexivity. Qed.
Lemma leaves_all_inv l ls : leaves_all (map filter_packet l) = Ok ls ->
  forall f, In f l -> exists lf, leaves (filter_packet f) = Ok lf /\ incl lf ls.
Proof using Type.
  revert ls. induction l as [|g l IH]; intros ls; cbn [map leaves_all]; [done|].
  destruct (leaves (filter_packet g)) as [x| | |] eqn:Eg; try done. cbn [rbind].
  change (leaves_all (map filter_packet l)) with (leaves_all (map filter_packet l)) in *.
  destruct (leaves_all (map filter_packet l)) as [y| | |] eqn:Ey; try done. cbn [rbind]. intros [= <-] f [<-|Hf].
  - exists x. split; [done|]. by apply incl_appl, incl_refl.
  - destruct (IH y eq_refl f Hf) as (lf & H1 & H2). exists lf. split; [done|]. by apply incl_appr.
Qed.

(** Whatever the filter accepts is found by a leaf that was kept. *)
Fixpoint covered (keep : leaf -> bool) (f : flt) : bool :=
  match f with
  | FEq a v => keep (mkLeaf a LEq v)
  | FPres a => keep (mkLeaf a LPres [])
  | FSub a [(t, v)] => (t =? SubAny)%N && keep (mkLeaf a (LSub SubAny) v)
  | FSub _ _ => false
  | FAnd l => existsb (covered keep) l
  | FOr l => forallb (covered keep) l
  | FNot _ | FOther _ => false
  end.
Lemma apply_and_true l e : apply_filter (filter_packet (FAnd l)) e = Ok true ->
  forall f, In f l -> apply_filter (filter_packet f) e = Ok true.
Proof using Type.
  cbn [filter_packet apply_filter]. cbn [N.eqb Pos.eqb FAndTag FOrTag FNotTag FEqualityTag FPresentTag FSubstringsTag].
  induction l as [|g l IH]; [done|]. cbn [map]. destruct (apply_filter (filter_packet g) e) as [[|]| | |] eqn:Eg; try done.
  cbn [rbind]. intros H f [<-|Hf]; [done|]. by apply IH.
Qed.
Lemma apply_or_true l e : apply_filter (filter_packet (FOr l)) e = Ok true ->
  exists f, In f l /\ apply_filter (filter_packet f) e = Ok true.
Proof using Type.
  cbn [filter_packet apply_filter]. cbn [N.eqb Pos.eqb FAndTag FOrTag FNotTag FEqualityTag FPresentTag FSubstringsTag].
  assert (H : forall acc, ((fix any (l : list packet) (acc : bool) : res bool :=
       match l with
       | [] => Ok acc
       | c :: l' => ok <-- apply_filter c e ;; any l' (acc || ok)
       end) (map filter_packet l) acc) = Ok true -> acc = true \/ exists f, In f l /\ apply_filter (filter_packet f) e = Ok true).
  { induction l as [|g l IH]; intros acc; [intros [= ->]; auto|]. cbn [map].
    destruct (apply_filter (filter_packet g) e) as [b| | |] eqn:Eg; try done. cbn [rbind]. intros H.
    apply IH in H as [H|(f & H1 & H2)].
    - apply orb_true_iff in H as [->| ->]; [auto|]. right. exists g. split; [by left|done].
    - right. exists f. split; [by right|done]. }
  intros Hx. apply H in Hx as [Hx|Hx]; done.
Qed.
Lemma covered_hits keep f e ls : leaves (filter_packet f) = Ok ls -> covered keep f = true ->
  apply_filter (filter_packet f) e = Ok true ->
  exists l, In l ls /\ keep l = true /\ hits l e /\ (lf_op l = LPres -> lf_val l = []).
Proof using Type.
  revert ls. induction f as [l IH|l IH|f IH|a v|a ps|a|t] using flt_ind'; intros ls Hl Hc Ha; try done.
  - cbn [covered] in Hc. apply existsb_exists in Hc as (f & Hf & Hc). rewrite leaves_and in Hl.
    destruct (leaves_all_inv l ls Hl f Hf) as (lf & Hlf & Hincl).
    pose proof (proj1 (List.Forall_forall _ _) IH f Hf lf Hlf Hc (apply_and_true l e Ha f Hf)) as (x & Hx & Hr). exists x. split; [by apply Hincl|done].
  - cbn [covered] in Hc. apply apply_or_true in Ha as (f & Hf & Ha). rewrite leaves_or in Hl.
    destruct (leaves_all_inv l ls Hl f Hf) as (lf & Hlf & Hincl).
    pose proof (proj1 (forallb_forall _ _) Hc f Hf) as Hcf.
    pose proof (proj1 (List.Forall_forall _ _) IH f Hf lf Hlf Hcf Ha) as (x & Hx & Hr). exists x. split; [by apply Hincl|done].
  - injection Hl as <-. exists (mkLeaf a LEq v). split; [by left|]. split; [done|]. split; [by injection Ha|done].
  - destruct ps as [|[t v] [|? ?]]; try done. cbn [covered] in Hc. apply andb_true_iff in Hc as [Ht Hk]. apply N.eqb_eq in Ht as ->.
    injection Hl as <-. exists (mkLeaf a (LSub SubAny) v). split; [by left|]. split; [done|]. split; [|done]. split; [done|].
    injection Ha as Ha. cbn [lf_attr]. unfold match_present.
    apply existsb_exists in Ha as (x & Hx & [Hn _]%andb_true_iff). apply existsb_exists. eauto.
  - injection Hl as <-. exists (mkLeaf a LPres []). split; [by left|]. split; [done|]. split; [by injection Ha|done].
Qed.

(** What is kept of the leaves. *)
Definition kept (ls : list leaf) (f : leaf) : bool :=
  negb ((1 <? length ls) && existsb (fun f => negb (is_objectclass f)) ls) || negb (is_objectclass f).
Lemma kept_in ls f : In f ls -> kept ls f = true -> f ∈ drop_objectclass ls.
Proof using Type.
  intros Hin Hk. unfold kept in Hk. unfold drop_objectclass.
  destruct ((1 <? length ls) && existsb (fun f => negb (is_objectclass f)) ls); apply elem_of_list_In; [|done].
  apply filter_In. split; [done|]. done.
Qed.
Lemma drop_in ls f : f ∈ drop_objectclass ls -> In f ls.
Proof using Type.
  unfold drop_objectclass. intros H. apply elem_of_list_In in H. destruct (_ && _); [|done]. by apply filter_In in H as [? _].
Qed.
End leaves.

(** * Searching *)
Section search.
Context {T : Text} {C : Crypto} {W : Wire} {Tr : Trees}.

(** The entry returned for a pointer, if any. *)
Definition sel (d : dataset) (flt : packet) (r : search_req) (p : nat) : option entry :=
  match d_heap d !! p with
  | Some x => match take_entry flt r (l_entry x) with Ok o => o | _ => None end
  | None => None
  end.
(** Filter and scope check fail on none of the entries. *)
Definition judged (d : dataset) (flt : packet) (r : search_req) (ps : list nat) : Prop :=
  Forall (fun p => exists x o, d_heap d !! p = Some x /\ take_entry flt r (l_entry x) = Ok o) ps.

Lemma take_all_unlimited d flt r ps n : (sr_size r <= 0)%Z -> judged d flt r ps ->
  take_all d flt r ps n = Ok (omap (sel d flt r) ps).
Proof using Type.
  intros Hs Hj. revert n. induction Hj as [|p ps (x & o & Hx & Ho) _ IH]; intros n; [done|].
  cbn [take_all omap list_omap]. unfold sel at 1. rewrite Hx, Ho. cbn [rbind]. destruct o as [e|]; [|apply IH].
  unfold enough. destruct (Z.ltb_spec 0 (sr_size r)); [lia|]. cbn [andb orb]. rewrite IH. done.
Qed.
Lemma take_all_limited d flt r ps n : (0 < sr_size r)%Z -> judged d flt r ps ->
  n < Nat.max 1 (Z.to_nat (u32 (sr_size r))) ->
  take_all d flt r ps n = Ok (take (Nat.max 1 (Z.to_nat (u32 (sr_size r))) - n) (omap (sel d flt r) ps)).
Proof using Type.
  intros Hs Hj. revert n. induction Hj as [|p ps (x & o & Hx & Ho) _ IH]; intros n Hn; [cbn; by rewrite firstn_nil|].
  cbn [take_all omap list_omap]. unfold sel at 1. rewrite Hx, Ho. cbn [rbind]. destruct o as [e|]; [|by apply IH].
  assert (Hu : (0 <= u32 (sr_size r))%Z). { unfold u32. apply Z.mod_pos_bound. lia. }
  unfold enough. destruct (Z.ltb_spec 0 (sr_size r)); [|lia]. cbn [andb orb].
  destruct (Z.leb_spec (u32 (sr_size r)) (Z.of_nat (S n))).
  - assert (Nat.max 1 (Z.to_nat (u32 (sr_size r))) - n = 1) as -> by lia. cbn. by rewrite take_0.
  - rewrite IH by lia. cbn [rbind]. replace (Nat.max 1 (Z.to_nat (u32 (sr_size r))) - n) with
      (S (Nat.max 1 (Z.to_nat (u32 (sr_size r))) - S n)) by lia. done.
Qed.
(** Whatever is returned comes from the heap. *)
Lemma take_entry_some flt r e e' : take_entry flt r e = Ok (Some e') ->
  e' = select_attributes (sr_attrs r) e /\ apply_filter flt e = Ok true /\
  filter_scope (sr_base r) (sr_scope r) e = Ok true.
Proof using Type.
  unfold take_entry. destruct (apply_filter flt e) as [[|]| | |]; try done. cbn [rbind negb].
  destruct (filter_scope _ _ e) as [[|]| | |]; try done. cbn [rbind negb]. by intros [= <-].
Qed.
Lemma take_all_from d flt r ps n l : take_all d flt r ps n = Ok l ->
  Forall (fun e => exists p x, p ∈ ps /\ d_heap d !! p = Some x /\ take_entry flt r (l_entry x) = Ok (Some e)) l.
Proof using Type.
  revert n l. induction ps as [|p ps IH]; intros n l; cbn [take_all]; [intros [= <-]; constructor|].
  destruct (d_heap d !! p) as [x|] eqn:Ex; [|done]. destruct (take_entry flt r (l_entry x)) as [[e|]| | |] eqn:Et; try done; cbn [rbind].
  - assert (Hmono : forall l', Forall (fun e => exists p x, p ∈ ps /\ d_heap d !! p = Some x /\ take_entry flt r (l_entry x) = Ok (Some e)) l' ->
      Forall (fun e => exists q x, q ∈ p :: ps /\ d_heap d !! q = Some x /\ take_entry flt r (l_entry x) = Ok (Some e)) l').
    { intros l' H. eapply Forall_impl; [exact H|]. intros e' (q & y & Hq & Hr). exists q, y. split; [|done]. apply elem_of_cons. auto. }
    assert (He : exists q y, q ∈ p :: ps /\ d_heap d !! q = Some y /\ take_entry flt r (l_entry y) = Ok (Some e)).
    { exists p, x. split; [apply elem_of_cons; auto|done]. }
    destruct (enough _ _ _); [intros [= <-]; by constructor|].
    destruct (take_all d flt r ps (S n)) as [l'| | |] eqn:El; try done. cbn [rbind]. intros [= <-].
    constructor; [done|]. apply Hmono. by eapply IH.
  - intros H. apply IH in H. eapply Forall_impl; [exact H|]. intros e' (q & y & Hq & Hr). exists q, y. split; [|done]. apply elem_of_cons. auto.
Qed.
Lemma take_all_err d flt r ps n e : take_all d flt r ps n = Err e ->
  exists p x, p ∈ ps /\ d_heap d !! p = Some x /\ take_entry flt r (l_entry x) = Err e.
Proof using Type.
  revert n. induction ps as [|p ps IH]; intros n; cbn [take_all]; [done|].
  destruct (d_heap d !! p) as [x|] eqn:Ex; [|done]. destruct (take_entry flt r (l_entry x)) as [[y|]|y| |] eqn:Et; try done; cbn [rbind].
  - destruct (enough _ _ _); [done|]. destruct (take_all d flt r ps (S n)) as [l'|y'| |] eqn:El; try done. cbn [rbind]. intros [= ->].
    apply IH in El as (q & z & Hq & Hr). exists q, z. split; [apply elem_of_cons; auto|done].
  - intros H. apply IH in H as (q & z & Hq & Hr). exists q, z. split; [apply elem_of_cons; auto|done].
  - intros [= ->]. exists p, x. split; [apply elem_of_cons; auto|done].
Qed.

(** A search that finds something. *)
Lemma ldif_search_found c local bound r d f : (ldif_search c local bound r d).1 = HRet f ->
  (f_entries f = [] /\ f_err f = true) \/
  exists flt fs es, search_checks c local bound r = inr (flt, fs) /\
    take_all d flt r (candidates d (sr_base r) fs) 0 = Ok es /\ f = mkFound es Success false.
Proof using Type.
  unfold ldif_search. cbn [fst]. destruct (search_checks c local bound r) as [x|[flt fs]] eqn:Ec.
  - intros Hx. left. subst x. unfold search_checks, refused in Ec.
    destruct (negb _); [injection Ec as <-; done|]. destruct (compile_filter _); [|injection Ec as <-; done].
    destruct (index_filter _); [destruct (has_suffix _ _); [done|]|..]; injection Ec as Ec; try done; by subst f.
  - destruct (take_all d flt r (candidates d (sr_base r) fs) 0) as [es|e| |] eqn:Et; cbn [ldif_found]; try done.
    + intros [= <-]. right. exists flt, fs, es. done.
    + destruct e; intros [= <-]; left; done.
Qed.

(** Selecting attributes never adds any. *)
Lemma select_subset req e a : In a (e_attrs (select_attributes req e)) -> In a (e_attrs e).
Proof using Type.
  assert (Hf : forall req, In a (filter_attributes req (e_attrs e)) -> In a (e_attrs e)).
  { intros rq. unfold filter_attributes. rewrite in_flat_map. intros (b & Hb & H). apply in_flat_map in H as (q & _ & H).
    destruct (_ || _); [|done]. destruct H as [<-|[]]. done. }
  unfold select_attributes. destruct req as [|r [|r' req]]; cbn [e_attrs]; [done| |apply Hf].
  destruct (is_empty r); [done|]. apply Hf.
Qed.
End search.

(** * Data sets that differ in passwords only *)
Section passwords.
Context {T : Text}.

Definition strip (e : entry) : entry :=
  mkEntry (e_dn e) (bfilter (fun a => negb (is_userpassword (a_name a))) (e_attrs e)).
Definition unindexed (attrs : list (str * str)) : Prop :=
  forall op, new_register attrs !! (B "userpassword" ++ B "," ++ op) = None.

Lemma register_add_none n o vs p r : r !! index_key n o = None -> register_add n o vs p r = r.
Proof using Type. unfold register_add. by intros ->. Qed.
Lemma index_attr_password p r a : (forall op, r !! (B "userpassword" ++ B "," ++ op) = None) ->
  is_userpassword (a_name a) = true -> index_attr p r a = r.
Proof using Type.
  intros Hr Ha. apply seqb_eq in Ha. unfold index_attr.
  assert (Hk : forall op, r !! index_key (a_name a) op = None) by (intros op; unfold index_key; by rewrite Ha).
  rewrite (register_add_none _ _ _ _ r (Hk _)), (register_add_none _ _ _ _ r (Hk _)). apply register_add_none, Hk.
Qed.
Lemma kinds_none r r' k : kinds r = kinds r' -> r !! k = None -> r' !! k = None.
Proof using Type.
  intros Hk Hr. pose proof (kinds_lookup r k) as H1. pose proof (kinds_lookup r' k) as H2.
  rewrite Hk, H2, Hr in H1. by destruct (r' !! k).
Qed.
Lemma index_attrs_strip p r l : (forall op, r !! (B "userpassword" ++ B "," ++ op) = None) ->
  foldl (index_attr p) r l = foldl (index_attr p) r (bfilter (fun a => negb (is_userpassword (a_name a))) l).
Proof using Type.
  revert r. induction l as [|a l IH]; intros r Hr; [done|]. cbn [foldl bfilter]. cbn [List.filter].
  destruct (is_userpassword (a_name a)) eqn:Ea; cbn [negb].
  - rewrite index_attr_password by done. by apply IH.
  - cbn [foldl]. apply IH. intros op. eapply kinds_none; [|apply Hr]. symmetry. apply index_attr_kinds.
Qed.
Lemma index_all_strip r pes : (forall op, r !! (B "userpassword" ++ B "," ++ op) = None) ->
  index_all r pes = index_all r (map (fun pe => (pe.1, strip pe.2)) pes).
Proof using Type.
  unfold index_all. revert r. induction pes as [|[p e] l IH]; intros r Hr; [done|]. cbn [map foldl fst snd].
  rewrite <- IH.
  - f_equal. by apply index_attrs_strip.
  - intros op. eapply kinds_none; [|apply Hr]. symmetry. apply (index_attrs_kinds).
Qed.
Lemma imap_strip es k : map (fun pe : nat * entry => (pe.1, strip pe.2)) (imap (fun i e => (k + i, e)) es) =
  imap (fun i e => (k + i, e)) (map strip es).
Proof using Type.
  revert k. induction es as [|e es IH]; intros k; [done|]. cbn. f_equal.
  assert (Hs : forall l : list entry, imap ((fun i e => (k + i, e)) ∘ S) l = imap (fun i e => (S k + i, e)) l).
  { intros l. apply imap_ext. intros i x _. unfold compose. f_equal. lia. }
  rewrite !Hs. apply IH.
Qed.
Lemma data_same attrs es es' d d' : unindexed attrs -> map strip es = map strip es' ->
  is_data attrs es d -> is_data attrs es' d' ->
  d_index d = d_index d' /\ d_tree d = d_tree d' /\ map l_entry (d_heap d) = map l_entry (d_heap d').
Proof using Type.
  intros Hu Heq Hd Hd'.
  assert (Hlow : forall l, map low_dn l = map low_dn (map strip l)).
  { intros l. rewrite map_map. reflexivity. }
  assert (Hheap : forall l, map l_entry (map split_entry l) = map l_entry (map split_entry (map strip l))).
  { intros l. rewrite !map_map. apply map_ext. intros e. unfold split_entry. cbn [l_entry strip e_dn e_attrs]. f_equal.
    induction (e_attrs e) as [|a l' IH]; [done|]. cbn [List.filter].
    destruct (negb (is_userpassword (a_name a))) eqn:E; [|done]. cbn [List.filter]. rewrite E. f_equal. done. }
  split; [|split].
  - rewrite (index_all_data attrs es d Hd), (index_all_data attrs es' d' Hd').
    rewrite (index_all_strip _ (imap _ es)), (index_all_strip _ (imap _ es')) by apply Hu.
    pose proof (imap_strip es 0) as H1. pose proof (imap_strip es' 0) as H2. cbn in H1, H2. rewrite H1, H2, Heq. done.
  - apply map_eq. intros k. apply option_eq. intros p. rewrite (id_tree _ _ _ Hd), (id_tree _ _ _ Hd').
    assert (Hh : forall e, es !! p = Some e -> exists e', es' !! p = Some e' /\ low_dn e' = low_dn e).
    { intros e He. assert (Hm : map strip es !! p = Some (strip e)) by by rewrite list_lookup_fmap, He.
      rewrite Heq, list_lookup_fmap in Hm. destruct (es' !! p) as [e'|]; [|done]. injection Hm as Hm _. exists e'.
      unfold low_dn. by rewrite Hm. }
    assert (Hh' : forall e, es' !! p = Some e -> exists e', es !! p = Some e' /\ low_dn e' = low_dn e).
    { intros e He. assert (Hm : map strip es' !! p = Some (strip e)) by by rewrite list_lookup_fmap, He.
      rewrite <- Heq, list_lookup_fmap in Hm. destruct (es !! p) as [e'|]; [|done]. injection Hm as Hm _. exists e'.
      unfold low_dn. by rewrite Hm. }
    split; intros (e & He & Hk); [apply Hh in He as (e' & He' & Hk')|apply Hh' in He as (e' & He' & Hk')];
      exists e'; (split; [done|]); congruence.
  - rewrite (id_heap _ _ _ Hd), (id_heap _ _ _ Hd'), Hheap, Heq, <- Hheap. done.
Qed.
Lemma heap_same (h h' : list lentry) (p : nat) : map l_entry h = map l_entry h' ->
  option_map l_entry (h !! p) = option_map l_entry (h' !! p).
Proof using Type.
  intros H. pose proof (list_lookup_fmap l_entry h p) as H1. pose proof (list_lookup_fmap l_entry h' p) as H2.
  change (map l_entry h !! p = option_map l_entry (h !! p)) in H1. change (map l_entry h' !! p = option_map l_entry (h' !! p)) in H2.
  congruence.
Qed.
Lemma take_all_same {C : Crypto} {W : Wire} {Tr : Trees} d d' flt r ps n : map l_entry (d_heap d) = map l_entry (d_heap d') ->
  take_all d flt r ps n = take_all d' flt r ps n.
Proof using Type.
  intros Hh. revert n. induction ps as [|p ps IH]; intros n; [done|]. cbn [take_all].
  pose proof (heap_same _ _ p Hh) as Hp.
  destruct (d_heap d !! p) as [x|], (d_heap d' !! p) as [x'|]; cbn in Hp; try done. injection Hp as ->.
  destruct (take_entry flt r (l_entry x')) as [[e|]| | |]; cbn [rbind]; try done. destruct (enough _ _ _); [done|]. by rewrite IH.
Qed.
Lemma candidates_same {Tr : Trees} d d' base fs : d_index d = d_index d' -> d_tree d = d_tree d' ->
  map l_entry (d_heap d) = map l_entry (d_heap d') -> candidates d base fs = candidates d' base fs.
Proof using Type.
  intros Hi Ht Hh. unfold candidates. rewrite Hi, Ht.
  assert (Hdn : forall p, dn_of d p = dn_of d' p).
  { intros p. unfold dn_of. pose proof (heap_same _ _ p Hh) as Hp.
    destruct (d_heap d !! p) as [x|], (d_heap d' !! p) as [x'|]; cbn in Hp; try done. by injection Hp as ->. }
  destruct (is_empty fs); [done|]. destruct (load_all fs (d_index d')) as [ps|]; [|done].
  generalize (@nil nat). induction ps as [|p ps IH]; intros cache; [done|]. cbn [uncached]. rewrite Hdn.
  destruct (existsb _ _); [apply IH|]. by rewrite IH.
Qed.
End passwords.
