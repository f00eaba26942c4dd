(** The values of an entry after a rename, exactly. *)
From Verif Require Import Bytes Text Dn DnProofs Res Entry EntryProofs Password PasswordProofs Db DbSpec
  IdProofs DbProofs DbOps DbSearch DbFacts DbMore.

Section values.
Context {T : Text} (HT : TextOK T).

Lemma has_get t v l : asciis t -> names_ok l ->
  has_value t v l <-> exists x, In x (get_eqfold_vals (fold t) l) /\ fold x = fold v.
Proof using HT.
  intros Ht [Ha Hn]. rewrite has_value_vals, (get_vals HT) by done.
  destruct (vals_of_at_most_one t l Hn) as [->|[vs ->]].
  - split; [by intros (? & ? & [] & _)|by intros (? & [] & _)].
  - split.
    + intros (ws & x & [<-|[]] & Hx). by exists x.
    + intros (x & Hx). exists vs, x. split; [by left|done].
Qed.
Lemma has_replaced t u v l vs : names_ok l ->
  has_value u v (replace_values l t vs) <->
  if decide (fold t = fold u) then exists x, In x vs /\ fold x = fold v else has_value u v l.
Proof using Type.
  intros [Ha Hn]. rewrite has_value_vals. destruct (decide (fold t = fold u)) as [He|Hne].
  - rewrite <- (vals_of_fold t u) by done. rewrite vals_of_replaced by done. split.
    + intros (ws & x & Hw & Hx). exists x. destruct vs; [done|]. destruct Hw as [<-|[]]. done.
    + intros (x & Hx & Hf). exists vs, x. destruct vs; [done|]. split; [by left|done].
  - rewrite vals_of_other by done. by rewrite has_value_vals.
Qed.
Lemma has_added r0 old cur t v new u w : asciis t -> names_ok cur ->
  apply_change r0 old cur (mkChange MAdd t [v]) = Ok new ->
  has_value u w new <-> has_value u w cur \/ (fold u = fold t /\ fold w = fold v).
Proof using HT.
  intros Ht Hn [= <-]. cbn [c_type c_vals]. rewrite (has_replaced t u w) by done.
  destruct (decide (fold t = fold u)) as [He|Hne]; [|split; [by left|intros [?|[? _]]; [done|congruence]]].
  assert (Hu : has_value u w cur <-> has_value t w cur). { rewrite !has_value_vals. by rewrite (vals_of_fold t u). }
  rewrite Hu, (has_get t w cur) by done. rewrite mod_add_spec. set (g := get_eqfold_vals (fold t) cur). split.
  - intros (x & Hx & Hf). apply in_app_or in Hx as [Hx|Hx]; [left; by exists x|]. right.
    cbn in Hx. destruct (negb _); [|done]. destruct Hx as [<-|[]]. done.
  - intros [(x & Hx & Hf)|[_ Hf]]; [exists x; split; [apply in_or_app; by left|done]|].
    destruct (existsb (same v) g) eqn:E.
    + apply existsb_exists in E as (x & Hx & Hs). apply same_eq in Hs. exists x.
      split; [apply in_or_app; by left|congruence].
    + exists v. split; [|done]. apply in_or_app. right. cbn. rewrite E. by left.
Qed.
Lemma has_deleted r0 old cur t v new u w : asciis t -> names_ok cur -> names_ok old ->
  apply_change r0 old cur (mkChange MDelete t [v]) = Ok new ->
  has_value u w new <-> if decide (fold t = fold u) then has_value u w old /\ fold w <> fold v else has_value u w cur.
Proof using HT.
  intros Ht Hn Hno H. unfold apply_change in H. cbn [c_op c_type c_vals] in H.
  destruct (delete_allowed _ _ _); [|done]. injection H as <-.
  rewrite (has_replaced t u w) by done. destruct (decide (fold t = fold u)) as [He|Hne]; [|done].
  assert (has_value u w old <-> has_value t w old) as ->. { rewrite !has_value_vals. by rewrite (vals_of_fold t u). }
  rewrite (has_get t w old) by done. unfold mod_delete. cbn [is_empty]. split.
  - intros (x & Hx & Hf). apply filter_In in Hx as [Hx Hs]. cbn in Hs. rewrite orb_false_r in Hs.
    apply negb_true_iff, same_neq in Hs. split; [by exists x|congruence].
  - intros [(x & Hx & Hf) Hne]. exists x. split; [|done]. apply filter_In. split; [done|].
    cbn. rewrite orb_false_r. apply negb_true_iff, same_neq. congruence.
Qed.
(** The pair (t, v) is one of [r], up to case folding. *)
Definition in_rdn (t v : str) (r : rdn) : Prop := exists t' v', In (t', v') r /\ fold t = fold t' /\ fold v = fold v'.
Lemma has_adds r0 old r cur new u w : Forall (fun p => asciis p.1) r -> names_ok cur ->
  apply_changes r0 old cur (adds r) = Ok new ->
  has_value u w new <-> has_value u w cur \/ in_rdn u w r.
Proof using HT.
  revert cur. induction r as [|[t v] r IH]; intros cur Ha Hn H.
  - cbn in H. injection H as <-. split; [by left|]. intros [?|(? & ? & [] & _)]. done.
  - inversion Ha as [|? ? Ht Hr]; subst. cbn [adds map apply_changes fst snd] in H. cbn in Ht.
    destruct (apply_change r0 old cur _) as [cur'| | |] eqn:E; [|done..]. cbn [rbind] in H.
    assert (Hn' : names_ok cur') by (eapply (apply_change_names_ok); [|exact Hn|exact E]; done).
    rewrite (IH cur' Hr Hn' H), (has_added _ _ _ _ _ _ u w Ht Hn E). unfold in_rdn. split.
    + intros [[?|[? ?]]|(t' & v' & Hin & ?)]; [by left|right; exists t, v; split; [by left|done]|].
      right. exists t', v'. split; [by right|done].
    + intros [?|(t' & v' & [[= <- <-]|Hin] & ?)]; [left; by left|left; by right|]. right. by exists t', v'.
Qed.
Definition dels (r : rdn) : list change := map (fun p => mkChange MDelete p.1 [p.2]) r.
Lemma has_dels r0 old r cur new u w : Forall (fun p => asciis p.1) r -> names_ok cur -> names_ok old ->
  NoDup (map (fun p => fold p.1) r) -> (forall t v x, In (t, v) r -> has_value t x cur <-> has_value t x old) ->
  apply_changes r0 old cur (dels r) = Ok new ->
  has_value u w new <-> has_value u w cur /\ ~ in_rdn u w r.
Proof using HT.
  revert cur. induction r as [|[t v] r IH]; intros cur Ha Hn Hno Hnd Hco H.
  - cbn in H. injection H as <-. split; [|by intros [? _]]. intros ?. split; [done|]. by intros (? & ? & [] & _).
  - inversion Ha as [|? ? Ht Hr]; subst. cbn [dels map apply_changes fst snd] in H. cbn in Ht.
    cbn [map fst] in Hnd. inversion Hnd as [|? ? Hnt Hnr]; subst.
    destruct (apply_change r0 old cur _) as [cur'| | |] eqn:E; [|done..]. cbn [rbind] in H.
    assert (Hn' : names_ok cur') by (eapply (apply_change_names_ok); [|exact Hn|exact E]; done).
    assert (Hother : forall t' v', In (t', v') r -> fold t <> fold t').
    { intros t' v' Hin He. apply Hnt. rewrite He. apply elem_of_list_In, in_map_iff. by exists (t', v'). }
    rewrite (IH cur' Hr Hn' Hno Hnr) by
      (try exact H; intros t' v' x Hin; rewrite (has_deleted _ _ _ _ _ _ t' x Ht Hn Hno E);
       rewrite decide_False by (by eapply Hother); apply (Hco t' v'); by right).
    rewrite (has_deleted _ _ _ _ _ _ u w Ht Hn Hno E).
    assert (Hcu : fold t = fold u -> has_value u w cur <-> has_value u w old).
    { intros He. assert (Hx : forall l, has_value u w l <-> has_value t w l).
      { intros l. rewrite !has_value_vals. by rewrite (vals_of_fold t u). }
      rewrite !Hx. apply (Hco t v). by left. }
    unfold in_rdn. destruct (decide (fold t = fold u)) as [He|Hne].
    + rewrite <- (Hcu He). split.
      * intros [[Hv Hne] Hno']. split; [done|]. intros (t' & v' & [[= <- <-]|Hin] & Hf1 & Hf2); [done|].
        apply Hno'. by exists t', v'.
      * intros [Hv Hno']. split; [split; [done|]|].
        -- intros Hf. apply Hno'. exists t, v. split; [by left|done].
        -- intros (t' & v' & Hin & Hf). apply Hno'. exists t', v'. split; [by right|done].
    + split; intros [Hv Hno']; (split; [done|]).
      * intros (t' & v' & [[= <- <-]|Hin] & Hf1 & Hf2); [by symmetry in Hf1|]. apply Hno'. by exists t', v'.
      * intros (t' & v' & Hin & Hf). apply Hno'. exists t', v'. split; [by right|done].
Qed.
(** The values of an entry after a rename. *)
Lemma renamed_values (e e' : entry) (n : str) (oldr newr : rdn) (delold : bool) u w :
  wf_rdn oldr = true -> wf_rdn newr = true -> names_ok (e_attrs e) ->
  NoDup (map (fun p => fold p.1) oldr) ->
  apply_modify (mkEntry n (e_attrs e))
    (mkModify n ((if delold then map (fun p => mkChange MDelete p.1 [p.2]) oldr else [])
                 ++ map (fun p => mkChange MAdd p.1 [p.2]) newr)) = Ok e' ->
  has_value u w (e_attrs e') <->
  (has_value u w (e_attrs e) /\ ~ (delold = true /\ in_rdn u w oldr)) \/ in_rdn u w newr.
Proof using HT.
  intros Ho Hw Hn Hnd H. apply apply_modify_inv in H as (r & od & md & attrs & _ & _ & _ & H & ->).
  cbn [e_dn e_attrs m_changes] in *. rewrite apply_changes_app in H.
  destruct (apply_changes r (e_attrs e) (e_attrs e) (if delold then _ else _)) as [cur| | |] eqn:E;
    [|done..]. cbn [rbind] in H.
  assert (Hnc : names_ok cur).
  { eapply apply_changes_names_ok; [|exact Hn|exact E]. destruct delold; [|done].
    rewrite Forall_map. by apply wf_rdn_asciis. }
  rewrite (has_adds r (e_attrs e) newr cur attrs u w (wf_rdn_asciis _ Hw) Hnc H).
  destruct delold.
  - rewrite (has_dels r (e_attrs e) oldr (e_attrs e) cur u w (wf_rdn_asciis _ Ho) Hn Hn Hnd); [|done|done].
    split; (intros [[? Hx]|?]; [left; split; [done|]|by right]); [by intros [_ ?]|]. intros ?. by apply Hx.
  - cbn in E. injection E as <-. split; (intros [?|?]; [left|by right]); [|by destruct H0]. split; [done|]. by intros [? _].
Qed.
Lemma get_vals' t l : asciis t -> Forall (fun a => asciis (a_name a)) l ->
  get_eqfold_vals t l = match vals_of t l with v :: _ => v | [] => [] end.
Proof using HT.
  intros Ht Hl. unfold vals_of. induction Hl as [|a l Ha Hl IH]; [done|].
  cbn [List.filter get_eqfold_vals]. rewrite (eqfold_fold_ascii HT), seqb_sym by done. fold (same (a_name a) t).
  by destruct (same (a_name a) t).
Qed.
Lemma vals_of_filter t (P : attr -> bool) l : (forall a, same (a_name a) t = true -> P a = true) ->
  vals_of t (bfilter P l) = vals_of t l.
Proof using Type.
  intros HP. unfold vals_of. f_equal. induction l as [|a l IH]; [done|]. cbn [List.filter].
  destruct (P a) eqn:E; cbn [List.filter].
  - by rewrite IH.
  - destruct (same (a_name a) t) eqn:Es; [|done]. rewrite HP in E; done.
Qed.
(** The first value of a type that no RDN of a rename has. *)
Lemma renamed_other (e e' : entry) (n t : str) (oldr newr : rdn) (delold : bool) :
  wf_rdn oldr = true -> wf_rdn newr = true -> names_ok (e_attrs e) -> asciis t ->
  (forall u v, In (u, v) (oldr ++ newr) -> fold u <> fold t) ->
  apply_modify (mkEntry n (e_attrs e))
    (mkModify n ((if delold then map (fun p => mkChange MDelete p.1 [p.2]) oldr else [])
                 ++ map (fun p => mkChange MAdd p.1 [p.2]) newr)) = Ok e' ->
  get_eqfold_val t (e_attrs e') = get_eqfold_val t (e_attrs e).
Proof using HT.
  intros Ho Hw Hn Ht Hne H. destruct (modify_untouched _ _ _ H) as [_ Hu].
  apply apply_modify_inv in H as (r & od & md & attrs & _ & _ & _ & H & ->). cbn [e_dn e_attrs m_changes] in *.
  assert (Hn' : names_ok attrs).
  { eapply apply_changes_names_ok; [|exact Hn|exact H]. apply Forall_app. split.
    - destruct delold; [|done]. rewrite Forall_map. by apply wf_rdn_asciis.
    - rewrite Forall_map. by apply wf_rdn_asciis. }
  unfold get_eqfold_val. rewrite !get_vals' by (try apply Hn; try apply Hn'; done).
  assert (Hv : vals_of t attrs = vals_of t (e_attrs e)); [|by rewrite Hv].
  set (cs := (if delold then _ else _) ++ _) in *.
  assert (Hcs : forall a, same (a_name a) t = true -> negb (named_by cs a) = true).
  { intros a Ha. apply negb_true_iff, not_true_iff_false. intros Hx. unfold named_by in Hx.
    apply existsb_exists in Hx as (ch & Hin & Hs). apply same_eq in Ha, Hs.
    assert (Hpair : exists u v, In (u, v) (oldr ++ newr) /\ c_type ch = u).
    { apply in_app_or in Hin as [Hin|Hin].
      - destruct delold; [|done]. apply in_map_iff in Hin as ([u v] & <- & Hin). exists u, v.
        split; [apply in_or_app; by left|done].
      - apply in_map_iff in Hin as ([u v] & <- & Hin). exists u, v. split; [apply in_or_app; by right|done]. }
    destruct Hpair as (u & v & Hp & Hu'). apply (Hne u v Hp). congruence. }
  rewrite <- (vals_of_filter t _ attrs Hcs), <- (vals_of_filter t _ (e_attrs e) Hcs). by rewrite Hu.
Qed.
End values.
