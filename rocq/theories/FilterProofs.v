(** Lemmas about Filter.v. *)
From Verif Require Import Bytes Text Dn DnProofs Res Entry EntryProofs Password Db DbSpec
  Packet Filter.

(** Induction over filters with lists of sub-filters. *)
Lemma flt_ind' (P : flt -> Prop) :
  (forall l, Forall P l -> P (FAnd l)) -> (forall l, Forall P l -> P (FOr l)) ->
  (forall f, P f -> P (FNot f)) -> (forall a v, P (FEq a v)) ->
  (forall a ps, P (FSub a ps)) -> (forall a, P (FPres a)) -> (forall t, P (FOther t)) ->
  forall f, P f.
Proof.
  intros HA HO HN HE HS HP HX. fix IH 1.
  intros [l|l|f|a v|a ps|a|t]; [apply HA|apply HO|apply HN|apply HE|apply HS|apply HP|apply HX].
  - induction l; constructor; [apply IH|done].
  - induction l; constructor; [apply IH|done].
  - apply IH.
Qed.

Section proofs.
Context {T : Text}.

(** ** Leaves *)
Lemma existsb_spec {A} (f : A -> bool) l : existsb f l = true <-> exists x, In x l /\ f x = true.
Proof using Type. apply existsb_exists. Qed.
Lemma match_equality_sat a v e :
  match_equality a v (e_attrs e) = true <-> sat e (FEq a v).
Proof using Type.
  unfold match_equality. rewrite existsb_exists. simpl. split.
  - intros (x & Hx & [Ha Hv]%andb_true_iff). apply existsb_exists in Hv as (y & Hy & Hv). eauto 10.
  - intros (x & y & Hx & Hy & Ha & Hv). exists x. split; [done|]. rewrite Ha. simpl.
    apply existsb_exists. eauto.
Qed.
Lemma match_present_sat a e : match_present a (e_attrs e) = true <-> sat e (FPres a).
Proof using Type. unfold match_present. by rewrite existsb_exists. Qed.
Lemma match_sub_value_spec t v y :
  match_sub_value t v y = true <-> sub_matches (fold y) [(t, v)].
Proof using Type.
  unfold match_sub_value, sub_matches.
  destruct (t =? SubInitial)%N eqn:E0.
  { rewrite has_prefix_spec. split.
    - intros [b Hb]. exists b. split; [done|constructor].
    - intros (b & Hb & _). by exists b. }
  destruct (t =? SubAny)%N eqn:E1.
  { apply N.eqb_eq in E1 as ->. rewrite contains_spec. split.
    - intros (a & b & H). eapply io_any; [exact H|constructor].
    - intros H. inversion H; subst. eauto. }
  destruct (t =? SubFinal)%N eqn:E2.
  { apply N.eqb_eq in E2 as ->. rewrite has_suffix_spec. split.
    - intros [a H]. by eapply io_final.
    - intros H. inversion H; subst. eauto. }
  split; [done|]. intros H. inversion H; subst; done.
Qed.
Lemma match_substring_sat a t v e :
  match_substring a t v (e_attrs e) = true <-> sat e (FSub a [(t, v)]).
Proof using Type.
  unfold match_substring. rewrite existsb_exists. cbn [sat folded map fst snd]. split.
  - intros (x & Hx & [Ha Hv]%andb_true_iff). apply existsb_exists in Hv as (y & Hy & Hv).
    apply match_sub_value_spec in Hv. eauto 10.
  - intros (x & y & Hx & Hy & Ha & Hv). exists x. split; [done|]. rewrite Ha. simpl.
    apply existsb_exists. exists y. split; [done|]. by apply match_sub_value_spec.
Qed.

(** ** Connectives *)
Definition all_filters (e : entry) := fix all (l : list packet) : res bool :=
  match l with
  | [] => Ok true
  | c :: l' => ok <-- apply_filter c e ;; if (ok : bool) then all l' else Ok false
  end.
Definition any_filter (e : entry) := fix any (l : list packet) (acc : bool) : res bool :=
  match l with
  | [] => Ok acc
  | c :: l' => ok <-- apply_filter c e ;; any l' (acc || ok)
  end.
Lemma apply_and c k v s l e : apply_filter (Pkt c k FAndTag v s l) e = all_filters e l.
Proof using Type. done. Qed.
Lemma apply_or c k v s l e : apply_filter (Pkt c k FOrTag v s l) e = any_filter e l false.
Proof using Type. done. Qed.

Lemma sat_and e l : sat e (FAnd l) <-> Forall (sat e) l.
Proof using Type.
  simpl. induction l as [|f l IH]; simpl; [by split|]. rewrite IH. split.
  - intros [? ?]. by constructor.
  - intros H. by inversion H.
Qed.
Lemma sat_or e l : sat e (FOr l) <-> Exists (sat e) l.
Proof using Type.
  simpl. induction l as [|f l IH]; simpl.
  - split; [done|]. intros H. inversion H.
  - rewrite IH. split.
    + intros [?|?]; [by left|by right].
    + intros H. inversion H; auto.
Qed.

Lemma all_filters_sat e l :
  Forall (fun p => exists b, apply_filter p.1 e = Ok b /\ (b = true <-> sat e p.2)) l ->
  exists b, all_filters e (map fst l) = Ok b /\ (b = true <-> Forall (sat e) (map snd l)).
Proof using Type.
  induction 1 as [|[c f] l (b & Hb & Hs) Hl (b' & Hb' & Hs')]; simpl.
  - exists true. split; [done|]. split; [constructor|done].
  - simpl in *. rewrite Hb. cbn [rbind]. destruct b.
    + exists b'. split; [exact Hb'|]. rewrite Hs'. split.
      * intros H. constructor; [by apply Hs|done].
      * intros H. by inversion H.
    + exists false. split; [done|]. split; [done|]. intros H. inversion H; subst. by apply Hs.
Qed.
Lemma any_filter_sat e l acc :
  Forall (fun p => exists b, apply_filter p.1 e = Ok b /\ (b = true <-> sat e p.2)) l ->
  exists b, any_filter e (map fst l) acc = Ok b /\
    (b = true <-> acc = true \/ Exists (sat e) (map snd l)).
Proof using Type.
  intros H. revert acc. induction H as [|[c f] l (b & Hb & Hs) Hl IH]; intros acc; simpl.
  - exists acc. split; [done|]. split; [auto|]. intros [H|H]; [done|inversion H].
  - simpl in *. rewrite Hb. cbn [rbind]. destruct (IH (acc || b)) as (b' & Hb' & Hs').
    exists b'. split; [exact Hb'|]. rewrite Hs', orb_true_iff, Hs. split.
    + intros [[H|H]|H]; [by left|right; by left|right; by right].
    + intros [H|H]; [by left; left|]. inversion H; subst; auto.
Qed.

(** ** The theorem *)
Lemma apply_filter_sat f e : evaluable f = true ->
  exists b, apply_filter (filter_packet f) e = Ok b /\ (b = true <-> sat e (first_only f)).
Proof using Type.
  assert (Hpairs : forall l, map fst (map (fun f => (filter_packet f, first_only f)) l)
    = map filter_packet l /\ map snd (map (fun f => (filter_packet f, first_only f)) l) = map first_only l).
  { intros l. by rewrite !map_map. }
  induction f as [l IH|l IH|f IH|a v|a ps|a|t] using flt_ind'; intros Hev; cbn [filter_packet first_only].
  - rewrite apply_and. setoid_rewrite sat_and. destruct (Hpairs l) as [<- <-].
    apply all_filters_sat. apply Forall_map. cbn [evaluable] in Hev. apply forallb_Forall in Hev.
    rewrite List.Forall_forall in IH, Hev |- *. simpl. intros f Hf. apply IH; [done|by apply Hev].
  - rewrite apply_or. setoid_rewrite sat_or. destruct (Hpairs l) as [<- <-].
    destruct (any_filter_sat e (map (fun f => (filter_packet f, first_only f)) l) false) as (b & Hb & Hs).
    { apply Forall_map. cbn [evaluable] in Hev. apply forallb_Forall in Hev.
      rewrite List.Forall_forall in IH, Hev |- *. simpl. intros f Hf. apply IH; [done|by apply Hev]. }
    exists b. split; [done|]. rewrite Hs. split; [|auto]. by intros [?|?].
  - destruct (IH Hev) as (b & Hb & Hs). exists (negb b). cbn [apply_filter N.eqb].
    change (FNotTag =? FEqualityTag)%N with false. cbn [FNotTag FEqualityTag FPresentTag FAndTag FOrTag N.eqb Pos.eqb].
    rewrite Hb. cbn [rbind]. split; [done|]. cbn [sat]. rewrite negb_true_iff. rewrite <- Hs.
    by destruct b.
  - exists (match_equality a v (e_attrs e)). split; [done|]. apply match_equality_sat.
  - destruct ps as [|[t v] ps]; [done|].
    exists (match_substring a t v (e_attrs e)). split; [done|].
    replace (take 1 ((t, v) :: ps)) with [(t, v)] by (destruct ps; done).
    apply match_substring_sat.
  - exists (match_present a (e_attrs e)). split; [done|]. apply match_present_sat.
  - done.
Qed.
Lemma supported_evaluable f : supported f = true -> evaluable f = true.
Proof using Type.
  induction f as [l IH|l IH|f IH|a v|a ps|a|t] using flt_ind'; cbn [supported evaluable]; try done.
  - intros H. apply forallb_Forall. apply forallb_Forall in H.
    rewrite List.Forall_forall in *. intros f Hf. apply IH; auto.
  - intros H. apply forallb_Forall. apply forallb_Forall in H.
    rewrite List.Forall_forall in *. intros f Hf. apply IH; auto.
  - by destruct ps.
Qed.
Lemma supported_first_only f : supported f = true -> first_only f = f.
Proof using Type.
  induction f as [l IH|l IH|f IH|a v|a ps|a|t] using flt_ind'; cbn [supported first_only]; try done.
  - intros H. f_equal. apply forallb_Forall in H. rewrite <- (map_id l) at 2. apply map_ext_in.
    rewrite List.Forall_forall in *. intros f Hf. apply IH; auto.
  - intros H. f_equal. apply forallb_Forall in H. rewrite <- (map_id l) at 2. apply map_ext_in.
    rewrite List.Forall_forall in *. intros f Hf. apply IH; auto.
  - intros H. by rewrite IH.
  - destruct ps as [|p [|q ps]]; done.
Qed.

(** ** Attributes *)
Lemma filter_attributes_nil l : filter_attributes [] l = [].
Proof using Type. unfold filter_attributes. induction l; done. Qed.
Lemma inner_count req a :
  flat_map (fun r => if seqb r (B "*") || eqfold (a_name a) r then [a] else []) req =
  repeat a (length (bfilter (fun r => seqb r (B "*") || eqfold (a_name a) r) req)).
Proof using Type.
  induction req as [|r req IH]; [done|]. cbn [flat_map List.filter].
  rewrite IH. by destruct (seqb r (B "*") || eqfold (a_name a) r).
Qed.

(** ** The search loop *)

(** What one entry contributes. *)
Definition judged (flt : packet) (r : search_req) (e : entry) (b : bool) : Prop :=
  (apply_filter flt e = Ok false /\ b = false) \/
  (apply_filter flt e = Ok true /\ filter_scope (sr_base r) (sr_scope r) e = Ok b).
Lemma judged_loop flt r e b ok es i :
  judged flt r e b ->
  search_loop true flt r ok (e :: es) i =
  if b then
    if (0 <? sr_size r)%Z && (sr_size r <=? Z.of_nat i)%Z then ([], perr SizeLimitExceeded)
    else if ok i then
      let '(l, x) := search_loop true flt r ok es (S i) in
      (select_attributes (sr_attrs r) e :: l, x)
    else ([], perr OperationsError)
  else search_loop true flt r ok es i.
Proof using Type.
  intros [[H ->]|[H H']]; cbn [search_loop]; rewrite H; [done|]. rewrite H'. by destruct b.
Qed.
Lemma loop_unlimited flt r (keep : entry -> bool) es i :
  Forall (fun e => judged flt r e (keep e)) es -> (sr_size r <= 0)%Z ->
  search_loop true flt r (fun _ => true) es i =
  (map (select_attributes (sr_attrs r)) (bfilter keep es), Ok tt).
Proof using Type.
  intros H Hz. revert i. induction H as [|e es He H IH]; intros i; [done|].
  rewrite (judged_loop _ _ _ _ _ _ _ He). cbn [List.filter].
  assert ((0 <? sr_size r)%Z = false) as -> by (apply Z.ltb_ge; lia). cbn [andb].
  destruct (keep e); [|by apply IH]. by rewrite IH.
Qed.
Lemma loop_limited flt r (keep : entry -> bool) es i :
  Forall (fun e => judged flt r e (keep e)) es -> (0 < sr_size r)%Z ->
  (Z.of_nat i <= sr_size r)%Z ->
  let n := Z.to_nat (sr_size r) - i in
  search_loop true flt r (fun _ => true) es i =
  (map (select_attributes (sr_attrs r)) (take n (bfilter keep es)),
   if length (bfilter keep es) <=? n then Ok tt else perr SizeLimitExceeded).
Proof using Type.
  intros H Hz. revert i. induction H as [|e es He H IH]; intros i Hi n.
  { cbn [search_loop List.filter take]. destruct n; done. }
  rewrite (judged_loop _ _ _ _ _ _ _ He). cbn [List.filter].
  assert ((0 <? sr_size r)%Z = true) as -> by by apply Z.ltb_lt. cbn [andb].
  destruct (keep e); [|by apply IH].
  destruct (sr_size r <=? Z.of_nat i)%Z eqn:E.
  - apply Z.leb_le in E. assert (n = 0) as -> by (unfold n; lia). done.
  - apply Z.leb_gt in E. rewrite IH by lia.
    assert (Hn : n = S (Z.to_nat (sr_size r) - S i)) by (unfold n; lia).
    rewrite Hn. done.
Qed.
End proofs.
