(** Lemmas about Entry.v. *)
From Coq Require Import Sorted.
From Verif Require Import Bytes Text Dn Res Entry.

Lemma flat_map_app_ {A B} (f : A -> list B) l1 l2 :
  flat_map f (l1 ++ l2) = flat_map f l1 ++ flat_map f l2.
Proof. induction l1; simpl; [done|]. by rewrite IHl1, app_assoc. Qed.

Section entry.
Context {T : Text}.

Lemma same_eq x y : same x y = true <-> fold x = fold y.
Proof. unfold same. apply seqb_eq. Qed.
Lemma same_neq x y : same x y = false <-> fold x <> fold y.
Proof.
  rewrite <- same_eq. destruct (same x y); split; congruence.
Qed.
Lemma same_sym x y : same x y = same y x.
Proof. unfold same. apply seqb_sym. Qed.
Lemma same_refl x : same x x = true.
Proof. by apply same_eq. Qed.
Lemma same_congr x y z : fold x = fold y -> same x z = same y z.
Proof. unfold same. by intros ->. Qed.

(** ** Untouched attributes *)

(** Attributes not selected by [p] are all kept when the changed type is one
    that [p] excludes. *)
Lemma replace_values_filter (p : attr -> bool) ea t vs :
  (forall a, same (a_name a) t = true -> p a = false) ->
  bfilter p (replace_values ea t vs) = bfilter p ea.
Proof.
  intros Hp. unfold replace_values.
  assert (Hupd : bfilter p (flat_map (fun a =>
    if same (a_name a) t
    then if is_empty vs then [] else [mkAttr (a_name a) vs]
    else [a]) ea) = bfilter p ea).
  { induction ea as [|a ea IH]; [done|]. cbn [flat_map]. rewrite List.filter_app, IH.
    cbn [List.filter]. destruct (same (a_name a) t) eqn:E.
    - rewrite (Hp a E). destruct (is_empty vs); [done|]. cbn [List.filter].
      by rewrite (Hp (mkAttr (a_name a) vs) E).
    - cbn [List.filter]. by destruct (p a). }
  destruct (existsb _ ea); [done|].
  destruct (is_empty vs); [done|].
  rewrite List.filter_app, Hupd. cbn [List.filter].
  rewrite (Hp (mkAttr t vs)); [|apply same_refl]. by rewrite app_nil_r.
Qed.

Lemma apply_change_shape r old cur c new :
  apply_change r old cur c = Ok new ->
  exists vs, new = replace_values cur (c_type c) vs.
Proof.
  unfold apply_change. destruct (c_op c).
  - intros [= <-]. eauto.
  - destruct (delete_allowed _ _ _); intros [= <-]; eauto.
  - destruct (replace_allowed _ _ _); intros [= <-]; eauto.
Qed.

Lemma apply_changes_untouched r old cs all cur new :
  (forall c, In c cs -> In c all) ->
  apply_changes r old cur cs = Ok new ->
  bfilter (fun a => negb (named_by all a)) new = bfilter (fun a => negb (named_by all a)) cur.
Proof.
  revert cur. induction cs as [|c cs IH]; intros cur Hin H; simpl in H.
  - by injection H as <-.
  - destruct (apply_change r old cur c) as [cur'| | |] eqn:E; try done.
    simpl in H. rewrite (IH cur'); [|by intros; apply Hin; right|done].
    apply apply_change_shape in E as [vs ->].
    apply replace_values_filter. intros a Ha. apply negb_false_iff.
    unfold named_by. apply existsb_exists. exists c. split; [|done]. apply Hin. by left.
Qed.

Lemma apply_modify_inv old m new :
  apply_modify old m = Ok new ->
  exists r od md attrs,
    parse_dn (e_dn old) = Some (r :: od) /\ parse_dn (m_dn m) = Some md /\
    dn_eqfold (r :: od) md = true /\
    apply_changes r (e_attrs old) (e_attrs old) (m_changes m) = Ok attrs /\
    new = mkEntry (e_dn old) attrs.
Proof.
  unfold apply_modify. destruct (parse_dn (e_dn old)) as [[|r od]|]; [done| |done].
  destruct (parse_dn (m_dn m)) as [md|]; [|done].
  destruct (dn_eqfold (r :: od) md) eqn:E; [|done]. simpl.
  destruct (apply_changes _ _ _ _) as [attrs| | |] eqn:Ea; try done.
  simpl. intros [= <-]. by exists r, od, md, attrs.
Qed.

Lemma modify_untouched old m new :
  apply_modify old m = Ok new ->
  e_dn new = e_dn old /\
  bfilter (fun a => negb (named_by (m_changes m) a)) (e_attrs new) =
  bfilter (fun a => negb (named_by (m_changes m) a)) (e_attrs old).
Proof.
  intros H. apply apply_modify_inv in H as (r & od & md & attrs & _ & _ & _ & H & ->).
  split; [done|]. by eapply apply_changes_untouched.
Qed.

(** ** Values of the changed attribute *)
Lemma vals_of_none t l :
  existsb (fun a => same (a_name a) t) l = false -> vals_of t l = [].
Proof.
  unfold vals_of. intros H. induction l as [|a l IH]; [done|].
  cbn [existsb] in H. apply orb_false_iff in H as [H1 H2]. cbn [List.filter].
  rewrite H1. by apply IH.
Qed.
Lemma vals_of_other t u ea vs :
  fold t <> fold u -> vals_of u (replace_values ea t vs) = vals_of u ea.
Proof.
  intros Hne. unfold vals_of. f_equal. apply replace_values_filter.
  intros a Ha. apply same_neq. apply same_eq in Ha. congruence.
Qed.
Lemma vals_of_fold t u l : fold t = fold u -> vals_of t l = vals_of u l.
Proof. intros H. unfold vals_of, same. by rewrite H. Qed.
Lemma nodup_unique t a l :
  NoDup (map (fun a => fold (a_name a)) (a :: l)) -> fold (a_name a) = fold t ->
  existsb (fun a => same (a_name a) t) l = false.
Proof.
  intros Hnd Ht. apply not_true_iff_false. intros H.
  apply existsb_exists in H as (b & Hb & Hs). apply same_eq in Hs.
  simpl in Hnd. apply NoDup_cons in Hnd as [Hn _]. apply Hn.
  apply elem_of_list_In, in_map_iff. exists b. split; [congruence|done].
Qed.
Lemma replace_notin_id t vs l :
  existsb (fun a => same (a_name a) t) l = false ->
  flat_map (fun a =>
    if same (a_name a) t
    then if is_empty vs then [] else [mkAttr (a_name a) vs]
    else [a]) l = l.
Proof.
  induction l as [|a l IH]; [done|]. cbn [existsb flat_map]. intros H.
  apply orb_false_iff in H as [H1 H2]. rewrite H1, IH by done. done.
Qed.
Lemma vals_of_replaced t ea vs :
  NoDup (map (fun a => fold (a_name a)) ea) ->
  vals_of t (replace_values ea t vs) = if is_empty vs then [] else [vs].
Proof.
  intros Hnd. unfold replace_values.
  destruct (existsb (fun a => same (a_name a) t) ea) eqn:E.
  - induction ea as [|a ea IH]; [done|]. cbn [flat_map].
    unfold vals_of. rewrite List.filter_app, map_app.
    destruct (same (a_name a) t) eqn:Ea.
    + assert (Hn : existsb (fun a => same (a_name a) t) ea = false)
        by (eapply nodup_unique; [done|by apply same_eq]).
      rewrite replace_notin_id by done.
      change (map a_vals (bfilter (fun a => same (a_name a) t) ea)) with (vals_of t ea).
      rewrite (vals_of_none t ea Hn), app_nil_r.
      destruct (is_empty vs); [done|]. cbn [List.filter a_name]. by rewrite Ea.
    + cbn [List.filter]. rewrite Ea. simpl in E, Hnd. rewrite Ea in E. simpl in E.
      apply NoDup_cons in Hnd as [_ Hnd]. by apply IH.
  - rewrite replace_notin_id by done. destruct (is_empty vs) eqn:Ev.
    + by apply vals_of_none.
    + unfold vals_of. rewrite List.filter_app, map_app.
      change (map a_vals (bfilter (fun a => same (a_name a) t) ea)) with (vals_of t ea).
      rewrite (vals_of_none _ _ E). cbn [List.filter a_name]. by rewrite same_refl.
Qed.

(** [names_ok] is preserved. *)
Lemma replace_names_incl ea t vs n :
  In n (map (fun a => fold (a_name a)) (replace_values ea t vs)) ->
  In n (map (fun a => fold (a_name a)) ea) \/ n = fold t.
Proof.
  intros H. apply in_map_iff in H as (a & <- & Ha). unfold replace_values in Ha.
  assert (Hupd : forall b, In b (flat_map (fun a =>
    if same (a_name a) t
    then if is_empty vs then [] else [mkAttr (a_name a) vs]
    else [a]) ea) -> In (fold (a_name b)) (map (fun a => fold (a_name a)) ea)).
  { intros b Hb. apply in_flat_map in Hb as (c & Hc & Hb).
    apply in_map_iff. exists c. split; [|done].
    destruct (same (a_name c) t); [destruct (is_empty vs)|]; [done| |];
      destruct Hb as [<-|[]]; done. }
  destruct (existsb _ ea); [by left; apply Hupd|].
  destruct (is_empty vs); [by left; apply Hupd|].
  apply in_app_or in Ha as [Ha|[<-|[]]]; [by left; apply Hupd|by right].
Qed.
Lemma replace_names_ok ea t vs :
  asciis t -> names_ok ea -> names_ok (replace_values ea t vs).
Proof.
  intros Ht [Ha Hnd].
  set (upd := flat_map (fun a =>
    if same (a_name a) t
    then if is_empty vs then [] else [mkAttr (a_name a) vs]
    else [a]) ea).
  assert (Hsub : forall n, In n (map (fun a => fold (a_name a)) upd) ->
     In n (map (fun a => fold (a_name a)) ea)).
  { intros n Hn. apply in_map_iff in Hn as (b & <- & Hb). subst upd.
    apply in_flat_map in Hb as (c & Hc & Hb).
    apply in_map_iff. exists c. split; [|done].
    destruct (same (a_name c) t); [destruct (is_empty vs)|]; [done| |];
      destruct Hb as [<-|[]]; done. }
  assert (Hu : names_ok upd).
  { split.
    - apply List.Forall_forall. intros b Hb. subst upd.
      apply in_flat_map in Hb as (c & Hc & Hb).
      pose proof (proj1 (List.Forall_forall _ _) Ha c Hc).
      destruct (same (a_name c) t); [destruct (is_empty vs)|]; [done| |];
        destruct Hb as [<-|[]]; done.
    - subst upd. clear Ha Hsub. induction ea as [|a ea IH]; [constructor|].
      cbn [flat_map]. simpl in Hnd. apply NoDup_cons in Hnd as [Hn Hnd].
      rewrite map_app.
      assert (Hrest : fold (a_name a) ∉ map (fun a0 => fold (a_name a0))
        (flat_map (fun a => if same (a_name a) t
          then if is_empty vs then [] else [mkAttr (a_name a) vs] else [a]) ea)).
      { intros Hx. apply Hn. apply elem_of_list_In in Hx.
        apply in_map_iff in Hx as (b & Hbe & Hb).
        apply in_flat_map in Hb as (c & Hc & Hb).
        apply elem_of_list_In, in_map_iff. exists c. split; [|done].
        destruct (same (a_name c) t); [destruct (is_empty vs)|]; [done| |];
          destruct Hb as [<-|[]]; done. }
      destruct (same (a_name a) t); [destruct (is_empty vs)|]; simpl.
      + by apply IH.
      + apply NoDup_cons. split; [exact Hrest|by apply IH].
      + apply NoDup_cons. split; [exact Hrest|by apply IH]. }
  unfold replace_values. fold upd.
  destruct (existsb (fun a => same (a_name a) t) ea) eqn:E; [done|].
  destruct (is_empty vs); [done|].
  destruct Hu as [Hu1 Hu2]. split.
  - apply Forall_app. split; [done|]. by repeat constructor.
  - rewrite map_app. apply NoDup_app. split; [done|]. split; [|apply NoDup_singleton].
    intros n Hn Hn'. apply elem_of_list_singleton in Hn'. simpl in Hn'. subst n.
    apply elem_of_list_In, Hsub, in_map_iff in Hn as (b & Hb & Hbe).
    apply not_true_iff_false in E. apply E. apply existsb_exists.
    exists b. split; [done|]. by apply same_eq.
Qed.

Section laws.
Context (HT : TextOK T).
Lemma fold_asciis t : asciis t -> asciis (fold t).
Proof using HT. intros H. rewrite (fold_ascii _ HT) by done. by apply lower_asciis. Qed.

(** The library lookup agrees with [vals_of]. *)
Lemma get_vals t l :
  asciis t -> Forall (fun a => asciis (a_name a)) l ->
  get_eqfold_vals (fold t) l = match vals_of t l with v :: _ => v | [] => [] end.
Proof using HT.
  intros Ht Hl. induction Hl as [|a l Ha Hl IH]; [done|].
  unfold vals_of. cbn [get_eqfold_vals List.filter].
  rewrite (eqfold_fold_ascii HT) by (try apply fold_asciis; done).
  rewrite (fold_idem _ HT). fold (same t (a_name a)). rewrite same_sym.
  destruct (same (a_name a) t); [done|]. apply IH.
Qed.
Lemma get_vals_other t u ea vs :
  asciis t -> asciis u -> names_ok ea -> fold t <> fold u ->
  get_eqfold_vals (fold u) (replace_values ea t vs) = get_eqfold_vals (fold u) ea.
Proof using HT.
  intros Ht Hu Hea Hne.
  rewrite !get_vals; try done.
  - by rewrite vals_of_other.
  - apply Hea.
  - by apply replace_names_ok.
Qed.

(** ** has_value and vals_of *)
Lemma vals_of_at_most_one t l :
  NoDup (map (fun a => fold (a_name a)) l) ->
  vals_of t l = [] \/ exists vs, vals_of t l = [vs].
Proof using Type.
  induction l as [|a l IH]; intros Hnd; [by left|].
  unfold vals_of. cbn [List.filter].
  destruct (same (a_name a) t) eqn:E.
  - right. exists (a_vals a). simpl.
    assert (Hn : existsb (fun a => same (a_name a) t) l = false)
      by (eapply nodup_unique; [done|by apply same_eq]).
    change (map a_vals (bfilter (fun a => same (a_name a) t) l)) with (vals_of t l).
    by rewrite vals_of_none.
  - apply IH. simpl in Hnd. by apply NoDup_cons in Hnd as [_ ?].
Qed.
Lemma has_value_vals t v l :
  has_value t v l <-> exists vs x, In vs (vals_of t l) /\ In x vs /\ fold x = fold v.
Proof using Type.
  unfold has_value, vals_of. split.
  - intros (a & x & Ha & Hn & Hx & Hv). exists (a_vals a), x.
    split; [|split; [by apply elem_of_list_In|done]].
    apply in_map_iff. exists a. split; [done|].
    apply filter_In. split; [by apply elem_of_list_In|by apply same_eq].
  - intros (vs & x & Hvs & Hx & Hv). apply in_map_iff in Hvs as (a & <- & Ha).
    apply filter_In in Ha as [Ha Hs]. exists a, x.
    split; [by apply elem_of_list_In|]. split; [by apply same_eq|].
    split; [by apply elem_of_list_In|done].
Qed.

Lemma mod_add_spec cur add :
  mod_add cur add = cur ++ bfilter (fun n => negb (existsb (same n) cur)) add.
Proof using Type.
  unfold mod_add. assert (H : forall acc,
    fold_left (fun acc n => if existsb (same n) cur then acc else acc ++ [n]) add acc =
    acc ++ bfilter (fun n => negb (existsb (same n) cur)) add).
  { induction add as [|n add IH]; intros acc; simpl; [by rewrite app_nil_r|].
    rewrite IH. destruct (existsb (same n) cur); simpl; [done|].
    by rewrite <- app_assoc. }
  apply H.
Qed.

(** One change keeps the naming values. *)
Lemma apply_change_keeps r old cur c new t v :
  asciis (c_type c) -> names_ok old -> names_ok cur ->
  In (t, v) r -> has_value t v old -> has_value t v cur ->
  apply_change r old cur c = Ok new -> has_value t v new.
Proof using HT.
  intros Hct Hold Hcur Hr Ho Hc H.
  destruct (decide (fold (c_type c) = fold t)) as [He|Hne].
  2:{ apply apply_change_shape in H as [vs ->]. apply has_value_vals.
      rewrite vals_of_other by done. by apply has_value_vals. }
  assert (Hset : forall vs, (exists x, In x vs /\ fold x = fold v) ->
     has_value t v (replace_values cur (c_type c) vs)).
  { intros vs (x & Hx & Hv). apply has_value_vals. exists vs, x. split; [|done].
    rewrite <- (vals_of_fold (c_type c) t) by done.
    rewrite vals_of_replaced by apply Hcur. destruct vs; [done|]. by left. }
  assert (Hst : same (c_type c) t = true) by by apply same_eq.
  assert (Hfirst : forall l, names_ok l -> has_value t v l ->
    exists x, In x (get_eqfold_vals (fold (c_type c)) l) /\ fold x = fold v).
  { intros l Hl Hv. rewrite get_vals by (try apply Hl; done).
    rewrite (vals_of_fold _ t) by done.
    apply has_value_vals in Hv as (vs & x & Hvs & Hx & Hv).
    destruct (vals_of_at_most_one t l) as [E|[ws E]]; [apply Hl| |].
    - by rewrite E in Hvs.
    - rewrite E in Hvs. destruct Hvs as [<-|[]]. rewrite E. by exists x. }
  unfold apply_change in H. destruct (c_op c).
  - injection H as <-. apply Hset. rewrite mod_add_spec.
    destruct (Hfirst cur Hcur Hc) as (x & Hx & Hv). exists x. split; [|done].
    apply in_or_app. by left.
  - destruct (delete_allowed r (c_type c) (c_vals c)) eqn:E; [|done].
    injection H as <-. apply Hset.
    unfold delete_allowed in E. rewrite forallb_forall in E. specialize (E _ Hr).
    cbn [fst snd] in E. rewrite Hst in E. apply andb_true_iff in E as [E1 E2].
    apply negb_true_iff in E1, E2.
    destruct (Hfirst old Hold Ho) as (x & Hx & Hv). exists x. split; [|done].
    unfold mod_delete. rewrite E1. apply filter_In. split; [done|].
    apply negb_true_iff. rewrite <- E2. unfold same. by rewrite Hv.
  - destruct (replace_allowed r (c_type c) (c_vals c)) eqn:E; [|done].
    injection H as <-. apply Hset.
    unfold replace_allowed in E. rewrite forallb_forall in E. specialize (E _ Hr).
    cbn [fst snd] in E. rewrite Hst in E. apply existsb_exists in E as (x & Hx & Hs).
    exists x. split; [done|]. symmetry. by apply same_eq.
Qed.
Lemma apply_change_names_ok r old cur c new :
  asciis (c_type c) -> names_ok cur -> apply_change r old cur c = Ok new -> names_ok new.
Proof using Type.
  intros Hct Hcur H. apply apply_change_shape in H as [vs ->]. by apply replace_names_ok.
Qed.
Lemma apply_changes_names_ok r old cs cur new :
  Forall (fun c => asciis (c_type c)) cs ->
  names_ok cur -> apply_changes r old cur cs = Ok new -> names_ok new.
Proof using Type.
  intros Hcs. revert cur. induction Hcs as [|c cs Hc Hcs IH]; intros cur Hcur H.
  - by injection H as <-.
  - simpl in H. destruct (apply_change r old cur c) as [cur'| | |] eqn:E; try done.
    eapply IH; [|exact H]. by eapply apply_change_names_ok.
Qed.
Lemma apply_changes_keeps r old cs cur new t v :
  Forall (fun c => asciis (c_type c)) cs -> names_ok old -> names_ok cur ->
  In (t, v) r -> has_value t v old -> has_value t v cur ->
  apply_changes r old cur cs = Ok new -> has_value t v new.
Proof using HT.
  intros Hcs Hold. revert cur. induction Hcs as [|c cs Hc Hcs IH]; intros cur Hcur Hr Ho Hv H.
  - by injection H as <-.
  - simpl in H. destruct (apply_change r old cur c) as [cur'| | |] eqn:E; try done.
    apply (IH cur'); try done.
    + by eapply apply_change_names_ok.
    + by apply (apply_change_keeps r old cur c).
Qed.
Lemma modify_keeps_rdn old m new r od t v :
  names_ok (e_attrs old) -> Forall (fun c => asciis (c_type c)) (m_changes m) ->
  parse_dn (e_dn old) = Some (r :: od) -> In (t, v) r -> has_value t v (e_attrs old) ->
  apply_modify old m = Ok new -> has_value t v (e_attrs new).
Proof using HT.
  intros Hn Hcs Hp Hr Ho H.
  apply apply_modify_inv in H as (r' & od' & md & attrs & Hp' & _ & _ & H & ->).
  rewrite Hp in Hp'. injection Hp' as <- <-. by eapply apply_changes_keeps.
Qed.

(** The refusal: a single replace or delete that would drop a naming value. *)
Lemma modify_refuses old m r od md t v c :
  parse_dn (e_dn old) = Some (r :: od) -> parse_dn (m_dn m) = Some md ->
  dn_eqfold (r :: od) md = true -> In (t, v) r -> m_changes m = [c] ->
  fold (c_type c) = fold t ->
  (c_op c = MReplace /\ ~ (exists x, In x (c_vals c) /\ fold x = fold v)) \/
  (c_op c = MDelete /\ (c_vals c = [] \/ exists x, In x (c_vals c) /\ fold x = fold v)) ->
  apply_modify old m = Err (ELdap NotAllowedOnRDN true).
Proof using Type.
  intros Hp Hm He Hr Hc Ht H. unfold apply_modify. rewrite Hp, Hm, He, Hc. simpl.
  unfold apply_change. assert (Hst : same (c_type c) t = true) by by apply same_eq.
  destruct H as [[Hop Hno]|[Hop Hyes]]; rewrite Hop.
  - assert (replace_allowed r (c_type c) (c_vals c) = false) as ->; [|done].
    apply not_true_iff_false. intros E. unfold replace_allowed in E.
    rewrite forallb_forall in E. specialize (E _ Hr). cbn [fst snd] in E.
    rewrite Hst in E. apply existsb_exists in E as (x & Hx & Hs). apply Hno.
    exists x. split; [done|]. symmetry. by apply same_eq.
  - assert (delete_allowed r (c_type c) (c_vals c) = false) as ->; [|done].
    apply not_true_iff_false. intros E. unfold delete_allowed in E.
    rewrite forallb_forall in E. specialize (E _ Hr). cbn [fst snd] in E.
    rewrite Hst in E. apply andb_true_iff in E as [E1 E2].
    apply negb_true_iff in E1, E2.
    destruct Hyes as [Hv|(x & Hx & Hv)]; [by rewrite Hv in E1|].
    apply not_true_iff_false in E2. apply E2. apply existsb_exists.
    exists x. split; [done|]. by apply same_eq.
Qed.

(** ** Single changes *)
Definition cur_vals (t : str) (l : list attr) : list str :=
  concat (vals_of t l).
Lemma cur_vals_get t l :
  asciis t -> names_ok l -> get_eqfold_vals (fold t) l = cur_vals t l.
Proof using HT.
  intros Ht [Ha Hn]. rewrite get_vals by done. unfold cur_vals.
  destruct (vals_of_at_most_one t l Hn) as [->|[vs ->]]; [done|]. simpl.
  by rewrite app_nil_r.
Qed.

Lemma single_replace old m new t vs :
  names_ok (e_attrs old) -> m_changes m = [mkChange MReplace t vs] ->
  apply_modify old m = Ok new ->
  vals_of t (e_attrs new) = if is_empty vs then [] else [vs].
Proof using Type.
  intros [_ Hn] Hc H. apply apply_modify_inv in H as (r & od & md & attrs & _ & _ & _ & H & ->).
  rewrite Hc in H. simpl in H. unfold apply_change in H. simpl in H.
  destruct (replace_allowed r t vs); [|done]. injection H as <-. simpl.
  by apply vals_of_replaced.
Qed.
Lemma single_add old m new t vs :
  asciis t -> names_ok (e_attrs old) -> m_changes m = [mkChange MAdd t vs] ->
  apply_modify old m = Ok new ->
  let cur := concat (vals_of t (e_attrs old)) in
  let now := cur ++ bfilter (fun n => negb (existsb (same n) cur)) vs in
  vals_of t (e_attrs new) = if is_empty now then [] else [now].
Proof using HT.
  intros Ht Hn Hc H cur now.
  apply apply_modify_inv in H as (r & od & md & attrs & _ & _ & _ & H & ->).
  rewrite Hc in H. simpl in H. unfold apply_change in H. simpl in H.
  injection H as <-. simpl. rewrite vals_of_replaced by apply Hn.
  rewrite cur_vals_get, mod_add_spec by done. done.
Qed.
Lemma single_delete old m new t vs :
  asciis t -> names_ok (e_attrs old) -> m_changes m = [mkChange MDelete t vs] ->
  apply_modify old m = Ok new ->
  let cur := concat (vals_of t (e_attrs old)) in
  let now := if is_empty vs then []
             else bfilter (fun c => negb (existsb (same c) vs)) cur in
  vals_of t (e_attrs new) = if is_empty now then [] else [now].
Proof using HT.
  intros Ht Hn Hc H cur now.
  apply apply_modify_inv in H as (r & od & md & attrs & _ & _ & _ & H & ->).
  rewrite Hc in H. simpl in H. unfold apply_change in H. simpl in H.
  destruct (delete_allowed r t vs); [|done]. injection H as <-. simpl.
  rewrite vals_of_replaced by apply Hn.
  rewrite cur_vals_get by done. done.
Qed.

(** When single changes are accepted. *)
Lemma single_accepted old m r od md c :
  parse_dn (e_dn old) = Some (r :: od) -> parse_dn (m_dn m) = Some md ->
  dn_eqfold (r :: od) md = true -> m_changes m = [c] ->
  Forall (fun p => fold (c_type c) = fold p.1 ->
    match c_op c with
    | MAdd => True
    | MReplace => exists x, In x (c_vals c) /\ fold x = fold p.2
    | MDelete => c_vals c <> [] /\ ~ exists x, In x (c_vals c) /\ fold x = fold p.2
    end) r ->
  exists new, apply_modify old m = Ok new.
Proof using Type.
  intros Hp Hm He Hc Hr. unfold apply_modify. rewrite Hp, Hm, He, Hc. simpl.
  unfold apply_change. rewrite List.Forall_forall in Hr. destruct (c_op c).
  - eexists. reflexivity.
  - assert (delete_allowed r (c_type c) (c_vals c) = true) as ->; [|by eexists].
    unfold delete_allowed. apply forallb_forall. intros p Hin.
    destruct (same (c_type c) p.1) eqn:E; [|done]. apply same_eq in E.
    destruct (Hr p Hin E) as [H1 H2]. apply andb_true_iff. split.
    + apply negb_true_iff. by destruct (c_vals c).
    + apply negb_true_iff, not_true_iff_false. intros Hx.
      apply existsb_exists in Hx as (x & Hx & Hs). apply H2. exists x. split; [done|].
      symmetry. by apply same_eq.
  - assert (replace_allowed r (c_type c) (c_vals c) = true) as ->; [|by eexists].
    unfold replace_allowed. apply forallb_forall. intros p Hin.
    destruct (same (c_type c) p.1) eqn:E; [|done]. apply same_eq in E.
    destruct (Hr p Hin E) as (x & Hx & Hs). apply existsb_exists.
    exists x. split; [done|]. by apply same_eq.
Qed.

(** ** Sequential composition *)
Definition agree_off (seen : list str) (old cur : list attr) : Prop :=
  forall t, asciis t -> existsb (same t) seen = false ->
    get_eqfold_vals (fold t) old = get_eqfold_vals (fold t) cur.

Lemma apply_changes_seq r old cur cs seen :
  Forall (fun c => asciis (c_type c)) cs ->
  names_ok cur -> agree_off seen old cur -> fresh_deletes seen cs = true ->
  apply_changes r old cur cs =
  match cs with
  | [] => Ok cur
  | c :: cs' => cur' <-- apply_change r cur cur c ;; apply_changes r cur' cur' cs'
  end.
Proof using HT.
  intros Hcs. revert old cur seen.
  induction Hcs as [|c cs Hc Hcs IH]; intros old cur seen Hn Ha Hf; [done|].
  simpl in Hf. apply andb_true_iff in Hf as [Hf1 Hf2].
  assert (Heq : apply_change r old cur c = apply_change r cur cur c).
  { unfold apply_change. destruct (c_op c); [done| |done].
    rewrite (Ha (c_type c)); [done|done|]. by apply negb_true_iff. }
  cbn [apply_changes]. rewrite Heq.
  destruct (apply_change r cur cur c) as [cur'| | |] eqn:E; try done. simpl.
  assert (Hn' : names_ok cur') by by eapply apply_change_names_ok.
  assert (Hag : agree_off (c_type c :: seen) old cur').
  { intros t Ht Hx. simpl in Hx. apply orb_false_iff in Hx as [Hx1 Hx2].
    rewrite (Ha t Ht Hx2). apply apply_change_shape in E as [vs ->].
    symmetry. apply get_vals_other; try done.
    apply same_neq in Hx1. congruence. }
  rewrite (IH old cur' (c_type c :: seen) Hn' Hag Hf2).
  assert (Hag' : agree_off (c_type c :: seen) cur' cur') by by intros ???.
  by rewrite (IH cur' cur' (c_type c :: seen) Hn' Hag' Hf2).
Qed.

Lemma one_by_one_attrs dnt r od md cs e :
  parse_dn (e_dn e) = Some (r :: od) -> parse_dn dnt = Some md ->
  dn_eqfold (r :: od) md = true ->
  Forall (fun c => asciis (c_type c)) cs -> names_ok (e_attrs e) ->
  forall seen, fresh_deletes seen cs = true ->
  one_by_one e dnt cs =
  (attrs <-- apply_changes r (e_attrs e) (e_attrs e) cs ;; Ok (mkEntry (e_dn e) attrs)).
Proof using HT.
  intros Hp Hm He Hcs. revert e Hp. induction Hcs as [|c cs Hc Hcs IH]; intros e Hp Hn seen Hf.
  - simpl. by destruct e.
  - rewrite (apply_changes_seq r (e_attrs e) (e_attrs e) (c :: cs) seen);
      [|by constructor|done|by intros ???|done].
    cbn [one_by_one]. unfold apply_modify. simpl. rewrite Hp, Hm, He. simpl.
    destruct (apply_change r (e_attrs e) (e_attrs e) c) as [cur'| | |] eqn:E; try done. simpl.
    simpl in Hf. apply andb_true_iff in Hf as [_ Hf].
    erewrite (IH (mkEntry (e_dn e) cur') Hp); [done| |exact Hf].
    by eapply apply_change_names_ok.
Qed.

Lemma modify_sequential e dnt r od md cs :
  parse_dn (e_dn e) = Some (r :: od) -> parse_dn dnt = Some md ->
  dn_eqfold (r :: od) md = true ->
  Forall (fun c => asciis (c_type c)) cs -> names_ok (e_attrs e) ->
  fresh_deletes [] cs = true ->
  apply_modify e (mkModify dnt cs) = one_by_one e dnt cs.
Proof using HT.
  intros Hp Hm He Hcs Hn Hf. rewrite (one_by_one_attrs dnt r od md cs e Hp Hm He Hcs Hn [] Hf).
  unfold apply_modify. simpl. by rewrite Hp, Hm, He.
Qed.
End laws.
End entry.

(** ** Entries from add requests *)
Lemma str_ltb_irrefl a : str_ltb a a = false.
Proof. induction a as [|c a IH]; [done|]. simpl. by rewrite N.ltb_irrefl. Qed.
Lemma str_ltb_trans a b c : str_ltb a b = true -> str_ltb b c = true -> str_ltb a c = true.
Proof.
  revert b c. induction a as [|x a IH]; intros [|y b] [|z c]; simpl; try done.
  destruct (code x <? code y)%N eqn:E1.
  - intros _. destruct (code y <? code z)%N eqn:E2.
    + intros _. replace (code x <? code z)%N with true by lia. done.
    + destruct (code z <? code y)%N eqn:E3; [done|]. intros _.
      replace (code x <? code z)%N with true by lia. done.
  - destruct (code y <? code x)%N eqn:E2; [done|]. intros H1.
    assert (code x = code y) as -> by lia.
    destruct (code y <? code z)%N; [done|]. destruct (code z <? code y)%N; [done|].
    by apply IH.
Qed.
Lemma str_ltb_total a b : str_ltb a b = false -> a <> b -> str_ltb b a = true.
Proof.
  revert b. induction a as [|x a IH]; intros [|y b]; simpl; try done.
  destruct (code x <? code y)%N eqn:E1; [done|].
  destruct (code y <? code x)%N eqn:E2; [done|].
  intros H Hne. apply IH; [done|]. intros ->. apply Hne. f_equal.
  apply code_inj. lia.
Qed.

Definition before (a b : attr) : Prop := str_ltb (a_name a) (a_name b) = true.

Lemma sorted_put_in k v l a :
  StronglySorted before l ->
  In a (sorted_put k v l) <-> a = mkAttr k v \/ (In a l /\ a_name a <> k).
Proof.
  intros Hs. induction Hs as [|b l Hs IH Hb]; simpl.
  - split; [intros [<-|[]]; by left|]. intros [->|[[] _]]; by left.
  - rewrite List.Forall_forall in Hb. destruct (seqb k (a_name b)) eqn:E.
    + apply seqb_eq in E. subst k. simpl. split.
      * intros [<-|H]; [by left|]. right. split; [by right|].
        intros Heq. specialize (Hb a H). unfold before in Hb. rewrite Heq, str_ltb_irrefl in Hb. done.
      * intros [->|[[<-|H] Hne]]; [by left|done|by right].
    + destruct (str_ltb k (a_name b)) eqn:El; simpl.
      * split.
        -- intros [<-|[<-|H]]; [by left| |].
           ++ right. split; [by left|]. intros Heq. rewrite Heq, str_ltb_irrefl in El. done.
           ++ right. split; [by right|]. intros Heq. specialize (Hb a H). unfold before in Hb.
              pose proof (str_ltb_trans _ _ _ El Hb) as Hx. rewrite Heq, str_ltb_irrefl in Hx. done.
        -- intros [->|[[<-|H] Hne]]; auto.
      * rewrite IH. split.
        -- intros [<-|[->|[H Hne]]]; auto. right. split; [by left|].
           intros Heq. rewrite Heq, seqb_refl in E. done.
        -- intros [->|[[<-|H] Hne]]; auto.
Qed.
Lemma sorted_put_sorted k v l :
  StronglySorted before l -> StronglySorted before (sorted_put k v l).
Proof.
  intros Hs. induction Hs as [|b l Hs IH Hb]; simpl; [by repeat constructor|].
  destruct (seqb k (a_name b)) eqn:E.
  - apply seqb_eq in E. subst k. by constructor.
  - destruct (str_ltb k (a_name b)) eqn:El.
    + constructor; [by constructor|]. constructor; [done|].
      rewrite List.Forall_forall in *. intros a Ha. specialize (Hb a Ha).
      unfold before in *. simpl. by eapply str_ltb_trans.
    + constructor; [done|]. rewrite List.Forall_forall in *. intros a Ha.
      apply sorted_put_in in Ha as [->|[Ha _]]; [|by apply Hb|done].
      unfold before. simpl. apply str_ltb_total; [done|].
      intros ->. by rewrite seqb_refl in E.
Qed.

Lemma from_add_in l acc :
  StronglySorted before acc ->
  let r := fold_left (fun l p => sorted_put p.1 p.2 l) l acc in
  StronglySorted before r /\
  forall n vs, In (mkAttr n vs) r <->
    last_given n vs l \/ (In (mkAttr n vs) acc /\ ~ In n (map fst l)).
Proof.
  revert acc. induction l as [|[k v] l IH]; intros acc Hs; simpl.
  - split; [done|]. intros n vs. split; [intros H; right; split; [exact H|tauto]|].
    intros [(l1 & l2 & H & _)|[H _]]; [|done]. by destruct l1.
  - destruct (IH (sorted_put k v acc)) as [H1 H2]; [by apply sorted_put_sorted|].
    split; [done|]. intros n vs. rewrite H2, sorted_put_in by done. simpl.
    split.
    + intros [(l1 & l2 & -> & Hn)|[[[= -> ->]|[Ha Hne]] Hn]].
      * left. by exists ((k, v) :: l1), l2.
      * left. by exists [], l.
      * right. split; [done|]. intros [<-|Hx]; [done|by apply Hn].
    + intros [([|p l1] & l2 & [= ? ?] & Hn)|[Ha Hn]].
      * simplify_eq. right. split; [by left|done].
      * simplify_eq. left. by exists l1, l2.
      * right. split; [right; split; [done|]|]; naive_solver.
Qed.
Lemma sorted_nodup l : StronglySorted before l -> NoDup (map a_name l).
Proof.
  intros H. induction H as [|a l Hs IH Ha]; [constructor|]. simpl.
  apply NoDup_cons. split; [|done]. intros Hx. apply elem_of_list_In in Hx.
  apply in_map_iff in Hx as (b & Hb & Hin). rewrite List.Forall_forall in Ha.
  specialize (Ha b Hin). unfold before in Ha. rewrite Hb, str_ltb_irrefl in Ha. done.
Qed.
Lemma entry_from_add_spec r :
  e_dn (entry_from_add r) = ad_dn r /\
  NoDup (map a_name (e_attrs (entry_from_add r))) /\
  forall n vs, In (mkAttr n vs) (e_attrs (entry_from_add r)) <-> last_given n vs (ad_attrs r).
Proof.
  destruct (from_add_in (ad_attrs r) []) as [H1 H2]; [constructor|].
  split; [done|]. split; [by apply sorted_nodup|].
  intros n vs. rewrite H2. simpl. naive_solver.
Qed.
