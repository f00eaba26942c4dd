(** Which requests make the process panic. *)
From Verif Require Import Bytes Text Dn DnProofs Res Entry EntryProofs Password PasswordProofs
  Db DbSpec IdProofs DbProofs DbOps DbSearch DbFacts Packet Filter FilterProofs Handler Server ServerProofs.

(** * The shapes of request packets *)

Definition octet_text (p : packet) (s : str) : Prop :=
  p_cls p = ClassUniversal /\ p_con p = false /\ p_tag p = TagOctetString /\ p_val p = VStr s.
Definition set_of_texts (p : packet) (vs : list str) : Prop :=
  p_cls p = ClassUniversal /\ p_con p = true /\ p_tag p = TagSet /\
  Forall2 (fun x s => p_val x = VStr s) (p_kids p) vs.
Definition sequence (p : packet) : Prop :=
  p_cls p = ClassUniversal /\ p_con p = true /\ p_tag p = TagSequence.
(** Attribute type and values; in a modify request the values may be absent. *)
Definition attr_shape (p : packet) (a : str * list str) : Prop :=
  exists t v, p_kids p = [t; v] /\ octet_text t a.1 /\ set_of_texts v a.2.
Definition partial_shape (p : packet) (a : str * list str) : Prop :=
  attr_shape p a \/ exists t, p_kids p = [t] /\ octet_text t a.1 /\ a.2 = [].
(** A change of a modify request: complete, or cut off. *)
Definition op_byte (p : packet) : Prop := exists c rest, p_data p = c :: rest /\ (code c <= 2)%N.
Definition change_fine (p : packet) : Prop :=
  exists o a rest x, p_kids p = o :: a :: rest /\ op_byte o /\ partial_shape a x.
Definition change_torn (p : packet) : Prop :=
  p_kids p = [] \/ (exists o rest, p_kids p = o :: rest /\ p_data o = []) \/
  (exists o, p_kids p = [o] /\ op_byte o).
Definition torn_modify {T : Text} (req : packet) : Prop :=
  exists x l s dd pre p post, p_kids req = [x; l] /\ p_val x = VStr s /\ parse_dn s = Some dd /\
    sequence l /\ p_kids l = pre ++ p :: post /\ Forall change_fine pre /\ change_torn p.
(** Requests on the empty name. *)
Definition root_add {T : Text} (req : packet) : Prop :=
  exists x l s attrs, p_kids req = [x; l] /\ p_val x = VStr s /\ parse_dn s = Some [] /\
    sequence l /\ Forall2 attr_shape (p_kids l) attrs.
Definition root_delete {T : Text} (req : packet) : Prop :=
  p_kids req = [] /\ parse_dn (p_data req) = Some [].
Definition root_moddn {T : Text} (req : packet) : Prop :=
  exists x n o sx sn dx dn b, p_kids req = [x; n; o] /\ p_val x = VStr sx /\ p_val n = VStr sn /\
    p_val o = VBool b /\ parse_dn sx = Some dx /\ parse_dn sn = Some dn /\ (dx = [] \/ dn = []).
(** The fields of a password modification: the last one of each kind counts. *)
Definition field (k : N) (l : list packet) : str :=
  match bfilter (fun p => (p_tag p =? k)%N) (rev l) with p :: _ => p_data p | [] => [] end.
Definition pw_message {W : Wire} (body : option packet) (r : pw_req) : Prop :=
  let inner := match body with Some p => decode_inner (p_data p) | None => None end in
  match inner with
  | None => r = mkPw [] [] []
  | Some q => length (p_kids q) <= 3 /\
      Forall (fun p => p_cls p = ClassContext /\ (p_tag p <= 2)%N) (p_kids q) /\
      r = mkPw (field 0 (p_kids q)) (field 1 (p_kids q)) (field 2 (p_kids q))
  end.
Definition pw_request {W : Wire} (req : packet) (r : pw_req) : Prop :=
  exists o rest, p_kids req = o :: rest /\ p_cls o = ClassContext /\ p_tag o = 0%N /\
    p_data o = pwmod_oid /\
    ((rest = [] /\ pw_message None r) \/
     exists b, rest = [b] /\ p_cls b = ClassContext /\ p_tag b = 1%N /\ pw_message (Some b) r).

(** Evaluating the filter comes to a substring assertion without components. *)
Fixpoint bare_sub (f : flt) : bool :=
  match f with
  | FAnd l | FOr l => existsb bare_sub l
  | FNot g => bare_sub g
  | FSub _ ps => is_empty ps
  | _ => false
  end.
(** ... certainly, because it is the first thing evaluated. *)
Fixpoint leading_bare_sub (f : flt) : bool :=
  match f with
  | FAnd (g :: _) | FOr (g :: _) => leading_bare_sub g
  | FNot g => leading_bare_sub g
  | FSub _ ps => is_empty ps
  | _ => false
  end.

(** * Parsers *)
Section parsers.
Context {T : Text}.

Lemma opt_inv {A} code (o : option A) x : opt code o = Ok x <-> o = Some x.
Proof using Type. destruct o; cbn; split; try done; by intros [= ->]. Qed.
Lemma opt_calm {A} code (o : option A) : opt code o <> Panic /\ opt code o <> Diverge.
Proof using Type. by destruct o. Qed.
Definition calmr {A} (r : res A) : Prop := r <> Panic /\ r <> Diverge.
Lemma calmr_bind {A B} (m : res A) (k : A -> res B) :
  calmr m -> (forall a, m = Ok a -> calmr (k a)) -> calmr (rbind m k).
Proof using Type. intros [H1 H2] Hk. destruct m; cbn; [by apply Hk|done..]. Qed.

Lemma parse_vals_ok l vs : parse_vals l = Ok vs <-> Forall2 (fun x s => p_val x = VStr s) l vs.
Proof using Type.
  revert vs. induction l as [|p l IH]; intros vs; cbn [parse_vals].
  { split; [intros [= <-]; constructor|]. intros H. by apply Forall2_nil_inv_l in H as ->. }
  split.
  - destruct (as_str (p_val p)) as [s|] eqn:Es; [|done]. apply as_str_inv in Es. cbn [opt rbind].
    destruct (parse_vals l) as [r| | |]; try done. intros [= <-]. constructor; [done|]. by apply IH.
  - intros H. apply Forall2_cons_inv_l in H as (s & r & Hs & Hr & ->). rewrite Hs. cbn [as_str opt rbind].
    apply IH in Hr. by rewrite Hr.
Qed.
Lemma parse_vals_calm l : calmr (parse_vals l).
Proof using Type.
  induction l as [|p l IH]; [done|]. cbn [parse_vals]. apply calmr_bind; [apply opt_calm|]. intros s _.
  apply calmr_bind; [done|]. done.
Qed.
Lemma parse_attr_values_ok p vs : parse_attr_values p = Ok vs <-> set_of_texts p vs.
Proof using Type.
  unfold parse_attr_values, set_of_texts.
  destruct (p_cls p =? ClassUniversal)%N eqn:E1; [apply N.eqb_eq in E1|apply N.eqb_neq in E1; by split; [|intros (? & _)]].
  destruct (p_con p); [|by split; [|intros (_ & ? & _)]].
  destruct (p_tag p =? TagSet)%N eqn:E3; [apply N.eqb_eq in E3|apply N.eqb_neq in E3; by split; [|intros (_ & _ & ? & _)]].
  cbn [andb]. rewrite parse_vals_ok. split; [auto|by intros (_ & _ & _ & ?)].
Qed.
Lemma parse_attr_values_calm p : calmr (parse_attr_values p).
Proof using Type. unfold parse_attr_values. destruct (_ && _); [apply parse_vals_calm|done]. Qed.
Lemma parse_attr_type_ok p s : parse_attr_type p = Ok s <-> octet_text p s.
Proof using Type.
  unfold parse_attr_type, octet_text.
  destruct (p_cls p =? ClassUniversal)%N eqn:E1; [apply N.eqb_eq in E1|apply N.eqb_neq in E1; by split; [|intros (? & _)]].
  destruct (p_con p); [by split; [|intros (_ & ? & _)]|].
  destruct (p_tag p =? TagOctetString)%N eqn:E3; [apply N.eqb_eq in E3|apply N.eqb_neq in E3; by split; [|intros (_ & _ & ? & _)]].
  cbn [andb negb]. rewrite opt_inv. split.
  - intros H. apply as_str_inv in H. done.
  - by intros (_ & _ & _ & ->).
Qed.
Lemma parse_attr_type_calm p : calmr (parse_attr_type p).
Proof using Type. unfold parse_attr_type. destruct (_ && _); [apply opt_calm|done]. Qed.
Lemma parse_attribute_calm b p : calmr (parse_attribute b p).
Proof using Type.
  unfold parse_attribute. destruct (p_kids p) as [|t [|v [|w l]]]; try done.
  - destruct b; [|done]. apply calmr_bind; [apply parse_attr_type_calm|done].
  - apply calmr_bind; [apply parse_attr_type_calm|]. intros n _.
    apply calmr_bind; [apply parse_attr_values_calm|done].
Qed.
Lemma parse_two_ok t v x :
  (n <-- parse_attr_type t ;; vs <-- parse_attr_values v ;; Ok (n, vs)) = Ok x <->
  octet_text t x.1 /\ set_of_texts v x.2.
Proof using Type.
  rewrite <- parse_attr_type_ok, <- parse_attr_values_ok. destruct x as [n vs]. cbn [fst snd].
  destruct (parse_attr_type t) as [n'| | |]; cbn [rbind]; try by (split; [|intros [? _]]).
  destruct (parse_attr_values v) as [vs'| | |]; cbn [rbind]; try by (split; [|intros [_ ?]]).
  split; [by intros [= -> ->]|]. by intros [[= ->] [= ->]].
Qed.
Lemma parse_attribute_full p x : parse_attribute false p = Ok x <-> attr_shape p x.
Proof using Type.
  unfold parse_attribute, attr_shape. destruct (p_kids p) as [|t [|v [|w l]]].
  - split; [done|]. by intros (? & ? & ? & _).
  - split; [done|]. by intros (? & ? & ? & _).
  - rewrite parse_two_ok. split; [eauto|]. by intros (? & ? & [= <- <-] & ?).
  - split; [done|]. by intros (? & ? & ? & _).
Qed.
Lemma parse_attribute_partial p x : parse_attribute true p = Ok x <-> partial_shape p x.
Proof using Type.
  unfold partial_shape, parse_attribute, attr_shape. destruct (p_kids p) as [|t [|v [|w l]]].
  - split; [done|]. by intros [(? & ? & ? & _)|(? & ? & _)].
  - destruct x as [n vs]. cbn [fst snd]. split.
    + destruct (parse_attr_type t) as [n'| | |] eqn:Et; cbn [rbind]; try done. intros [= -> <-].
      apply parse_attr_type_ok in Et. right. eauto.
    + intros [(? & ? & ? & _)|(? & [= <-] & Ht & ->)]; [done|]. apply parse_attr_type_ok in Ht. by rewrite Ht.
  - rewrite parse_two_ok. split; [intros [? ?]; left; eauto|]. by intros [(? & ? & [= <- <-] & ?)|(? & ? & _)].
  - split; [done|]. by intros [(? & ? & ? & _)|(? & ? & _)].
Qed.
Lemma parse_attrs_ok l xs : parse_attrs l = Ok xs <-> Forall2 attr_shape l xs.
Proof using Type.
  revert xs. induction l as [|p l IH]; intros xs; cbn [parse_attrs].
  { split; [intros [= <-]; constructor|]. intros H. by apply Forall2_nil_inv_l in H as ->. }
  split.
  - destruct (parse_attribute false p) as [a| | |] eqn:Ea; try done. apply parse_attribute_full in Ea. cbn [rbind].
    destruct (parse_attrs l) as [r| | |]; try done. intros [= <-]. constructor; [done|]. by apply IH.
  - intros H. apply Forall2_cons_inv_l in H as (a & r & Ha & Hr & ->). apply parse_attribute_full in Ha.
    rewrite Ha. cbn [rbind]. apply IH in Hr. by rewrite Hr.
Qed.
Lemma parse_attrs_calm l : calmr (parse_attrs l).
Proof using Type.
  induction l as [|p l IH]; [done|]. cbn [parse_attrs]. apply calmr_bind; [apply parse_attribute_calm|]. intros a _.
  apply calmr_bind; [done|]. done.
Qed.
Lemma is_sequence_spec p : is_sequence p = true <-> sequence p.
Proof using Type.
  unfold is_sequence, sequence. rewrite !andb_true_iff, !N.eqb_eq. tauto.
Qed.
Lemma parse_attr_list_ok p xs : parse_attr_list p = Ok xs <-> sequence p /\ Forall2 attr_shape (p_kids p) xs.
Proof using Type.
  unfold parse_attr_list. destruct (is_sequence p) eqn:E.
  - apply is_sequence_spec in E. rewrite parse_attrs_ok. tauto.
  - split; [done|]. intros [H _]. apply is_sequence_spec in H. by rewrite E in H.
Qed.
Lemma parse_attr_list_calm p : calmr (parse_attr_list p).
Proof using Type. unfold parse_attr_list. destruct (is_sequence p); [apply parse_attrs_calm|done]. Qed.
Lemma parse_dn_field_ok p s : parse_dn_field p = Ok s <-> p_val p = VStr s /\ exists dd, parse_dn s = Some dd.
Proof using Type.
  unfold parse_dn_field, check_dn. split.
  - destruct (as_str (p_val p)) as [s'|] eqn:Es; [|done]. apply as_str_inv in Es. cbn [opt rbind].
    destruct (parse_dn s') as [dd|] eqn:Ed; [|done]. intros [= <-]. eauto.
  - intros [-> [dd Hd]]. cbn [as_str opt rbind]. by rewrite Hd.
Qed.
Lemma parse_dn_field_calm p : calmr (parse_dn_field p).
Proof using Type.
  unfold parse_dn_field. apply calmr_bind; [apply opt_calm|]. intros s _. unfold check_dn. by destruct (parse_dn s).
Qed.

Lemma parse_add_calm req : calmr (parse_add req).
Proof using Type.
  unfold parse_add. destruct (p_kids req) as [|d [|a [|? ?]]]; try done.
  apply calmr_bind; [apply parse_dn_field_calm|]. intros s _.
  apply calmr_bind; [apply parse_attr_list_calm|done].
Qed.
Lemma parse_add_root req : root_add req <-> exists r, parse_add req = Ok r /\ parse_dn (ad_dn r) = Some [].
Proof using Type.
  split.
  - intros (x & l & s & attrs & Hk & Hx & Hd & Hl & Ha). exists (mkAdd s attrs). split; [|done].
    unfold parse_add. rewrite Hk. assert (parse_dn_field x = Ok s) as -> by (apply parse_dn_field_ok; eauto).
    cbn [rbind]. assert (parse_attr_list l = Ok attrs) as -> by by apply parse_attr_list_ok. done.
  - intros (r & Hr & Hd). unfold parse_add in Hr. destruct (p_kids req) as [|x [|l [|? ?]]] eqn:Hk; try done.
    destruct (parse_dn_field x) as [s| | |] eqn:Ex; try done. apply parse_dn_field_ok in Ex as [Ex _]. cbn [rbind] in Hr.
    destruct (parse_attr_list l) as [attrs| | |] eqn:El; try done. apply parse_attr_list_ok in El as [El1 El2].
    injection Hr as <-. cbn in Hd. exists x, l, s, attrs. done.
Qed.
Lemma parse_delete_calm req : calmr (parse_delete req).
Proof using Type. unfold parse_delete, check_dn. destruct (p_kids req); [|done]. by destruct (parse_dn _). Qed.
Lemma parse_delete_root req : root_delete req <-> exists s, parse_delete req = Ok s /\ parse_dn s = Some [].
Proof using Type.
  unfold root_delete, parse_delete, check_dn. split.
  - intros [-> Hd]. exists (p_data req). by rewrite Hd.
  - intros (s & Hs & Hd). destruct (p_kids req); [|done]. destruct (parse_dn (p_data req)) eqn:E; [|done].
    injection Hs as <-. rewrite Hd in E. by injection E as <-.
Qed.
Lemma parse_moddn_calm req : calmr (parse_moddn req).
Proof using Type.
  unfold parse_moddn. destruct (p_kids req) as [|d [|n [|o rest]]]; try done.
  destruct (1 <? length rest); [done|]. apply calmr_bind; [apply parse_dn_field_calm|]. intros s _.
  apply calmr_bind; [apply parse_dn_field_calm|]. intros nr _. apply calmr_bind; [apply opt_calm|]. intros b _.
  by destruct rest.
Qed.
Lemma parse_moddn_ok req r : parse_moddn req = Ok r -> exists dx dn, parse_dn (md_dn r) = Some dx /\
  parse_dn (md_newrdn r) = Some dn /\ (dx = [] \/ dn = [] -> root_moddn req).
Proof using Type.
  unfold parse_moddn. destruct (p_kids req) as [|x [|n [|o rest]]] eqn:Hk; try done.
  destruct (1 <? length rest); [done|]. destruct (parse_dn_field x) as [s| | |] eqn:Ex; try done.
  apply parse_dn_field_ok in Ex as [Ex [dx Hx]]. cbn [rbind].
  destruct (parse_dn_field n) as [nr| | |] eqn:En; try done.
  apply parse_dn_field_ok in En as [En [dn Hn]]. cbn [rbind].
  destruct (as_bool (p_val o)) as [b|] eqn:Eo; [|done]. cbn [opt rbind]. destruct rest; [|done]. intros [= <-].
  exists dx, dn. cbn [md_dn md_newrdn]. split; [done|]. split; [done|]. intros Hr. exists x, n, o, s, nr, dx, dn, b.
  destruct (p_val o); try done. injection Eo as ->. done.
Qed.
Lemma root_moddn_ok req : root_moddn req -> exists r dx dn, parse_moddn req = Ok r /\
  parse_dn (md_dn r) = Some dx /\ parse_dn (md_newrdn r) = Some dn /\ (dx = [] \/ dn = []).
Proof using Type.
  intros (x & n & o & sx & sn & dx & dn & b & Hk & Hx & Hn & Ho & Hdx & Hdn & Hr).
  exists (mkModDn sx sn b), dx, dn. split; [|done]. unfold parse_moddn. rewrite Hk. cbn [length Nat.ltb Nat.leb].
  assert (parse_dn_field x = Ok sx) as -> by (apply parse_dn_field_ok; eauto). cbn [rbind].
  assert (parse_dn_field n = Ok sn) as -> by (apply parse_dn_field_ok; eauto). cbn [rbind].
  by rewrite Ho.
Qed.

Lemma op_byte_spec p : op_byte p <-> exists o, parse_change_op p = Ok o.
Proof using Type.
  unfold op_byte, parse_change_op. destruct (p_data p) as [|c rest].
  { split; [by intros (? & ? & ? & _)|by intros [? ?]]. }
  split.
  - intros (c' & r & [= <- <-] & Hc).
    destruct (code c =? 0)%N eqn:E0; [eauto|]. destruct (code c =? 1)%N eqn:E1; [eauto|].
    destruct (code c =? 2)%N eqn:E2; [eauto|]. apply N.eqb_neq in E0, E1, E2. lia.
  - intros [o Ho]. exists c, rest. split; [done|].
    destruct (code c =? 0)%N eqn:E0; [apply N.eqb_eq in E0; lia|].
    destruct (code c =? 1)%N eqn:E1; [apply N.eqb_eq in E1; lia|].
    destruct (code c =? 2)%N eqn:E2; [apply N.eqb_eq in E2; lia|done].
Qed.
Lemma parse_change_op_panic p : (parse_change_op p = Panic <-> p_data p = []) /\ parse_change_op p <> Diverge.
Proof using Type.
  unfold parse_change_op. destruct (p_data p); [done|]. repeat (case_match; try done).
Qed.
Lemma parse_change_fine p : (exists c, parse_change p = Ok c) <-> change_fine p.
Proof using Type.
  unfold parse_change, change_fine. split.
  - intros [c H]. destruct (p_kids p) as [|o rest]; [done|].
    destruct (parse_change_op o) as [op| | |] eqn:Eo; try done. cbn [rbind] in H.
    destruct rest as [|a rest]; [done|]. destruct (parse_attribute true a) as [x| | |] eqn:Ea; try done.
    apply parse_attribute_partial in Ea. exists o, a, rest, x. split; [done|]. split; [|done]. apply op_byte_spec. eauto.
  - intros (o & a & rest & x & -> & Ho & Ha). apply op_byte_spec in Ho as [op ->]. cbn [rbind].
    apply parse_attribute_partial in Ha. rewrite Ha. cbn [rbind]. eauto.
Qed.
Lemma parse_change_torn p : (parse_change p = Panic <-> change_torn p) /\ parse_change p <> Diverge.
Proof using Type.
  unfold parse_change, change_torn. destruct (p_kids p) as [|o rest].
  { split; [|done]. split; auto. }
  destruct (parse_change_op_panic o) as [Hp Hd].
  destruct (parse_change_op o) as [op| | |] eqn:Eo; cbn [rbind].
  - destruct rest as [|a rest].
    + split; [|done]. split; [|done]. intros _. right; right. exists o. split; [done|]. apply op_byte_spec. eauto.
    + destruct (parse_attribute_calm true a) as [H1 H2]. destruct (parse_attribute true a) as [x| | |]; try done;
        (split; [|done]); (split; [done|]); intros [?|[(o' & r' & [= <- <-] & Ho)|(o' & [=] & _)]]; try done;
        apply Hp in Ho; done.
  - split; [|done]. split; [done|]. intros [?|[(o' & r' & [= <- <-] & Ho)|(o' & [= <- ->] & Ho)]]; try done.
    + by apply Hp in Ho.
    + apply op_byte_spec in Ho as [? Ho]. by rewrite Eo in Ho.
  - split; [|done]. split; [|done]. intros _. right; left. exists o, rest. split; [done|]. by apply Hp.
  - done.
Qed.
Lemma parse_changes_torn l :
  (parse_changes l = Panic <-> exists pre p post, l = pre ++ p :: post /\ Forall change_fine pre /\ change_torn p) /\
  parse_changes l <> Diverge.
Proof using Type.
  induction l as [|p l [IH1 IH2]]; cbn [parse_changes].
  { split; [|done]. split; [done|]. intros (pre & p & post & H & _). by destruct pre. }
  destruct (parse_change_torn p) as [Hp Hd].
  destruct (parse_change p) as [c| | |] eqn:Ec; cbn [rbind].
  - assert (Hf : change_fine p) by (apply parse_change_fine; eauto). split.
    + split.
      * destruct (parse_changes l) as [r| | |]; try done. intros _.
        destruct (proj1 IH1 eq_refl) as (pre & q & post & -> & Hpre & Hq).
        exists (p :: pre), q, post. split; [done|]. split; [by constructor|done].
      * intros (pre & q & post & Hl & Hpre & Hq). destruct pre as [|x pre]; injection Hl as -> Hl.
        { by apply Hp in Hq. }
        apply Forall_cons in Hpre as [_ Hpre]. assert (parse_changes l = Panic) as -> by (apply IH1; eauto 10). done.
    + destruct (parse_changes l); done.
  - split; [|done]. split; [done|]. intros (pre & q & post & Hl & Hpre & Hq). destruct pre as [|x pre]; injection Hl as -> Hl.
    + by apply Hp in Hq.
    + apply Forall_cons in Hpre as [Hx _]. apply parse_change_fine in Hx as [? Hx]. by rewrite Ec in Hx.
  - split; [|done]. split; [|done]. intros _. exists [], p, l. split; [done|]. split; [constructor|]. by apply Hp.
  - done.
Qed.
Lemma parse_modify_torn req : (parse_modify req = Panic <-> torn_modify req) /\ parse_modify req <> Diverge.
Proof using Type.
  unfold parse_modify. destruct (p_kids req) as [|x [|l [|? ?]]] eqn:Hk;
    try by (split; [split; [done|]|done]; intros (? & ? & ? & ? & ? & ? & ? & Hk' & _); rewrite Hk in Hk').
  destruct (parse_dn_field_calm x) as [Hc1 Hc2].
  destruct (parse_dn_field x) as [s| | |] eqn:Ex; cbn [rbind]; try done.
  - apply parse_dn_field_ok in Ex as [Ex [dd Hd]]. unfold parse_mod_list.
    destruct (is_sequence l) eqn:El.
    + apply is_sequence_spec in El. destruct (parse_changes_torn (p_kids l)) as [H1 H2]. split.
      * split.
        -- destruct (parse_changes (p_kids l)); try done. intros _.
           destruct (proj1 H1 eq_refl) as (pre & q & post & H). exists x, l, s, dd, pre, q, post. done.
        -- intros (x' & l' & s' & dd' & pre & q & post & Hk' & _ & _ & _ & H). rewrite Hk in Hk'. injection Hk' as <- <-.
           assert (parse_changes (p_kids l) = Panic) as -> by (apply H1; eauto). done.
      * by destruct (parse_changes (p_kids l)).
    + split; [|done]. split; [done|]. intros (x' & l' & s' & dd' & pre & q & post & Hk' & _ & _ & Hs & _).
      rewrite Hk in Hk'. injection Hk' as <- <-. apply is_sequence_spec in Hs. by rewrite El in Hs.
  - split; [|done]. split; [done|]. intros (x' & l' & s' & dd' & pre & q & post & Hk' & Hv & Hd & _).
    rewrite Hk in Hk'. injection Hk' as <- <-.
    assert (parse_dn_field x = Ok s') as H by (apply parse_dn_field_ok; eauto). by rewrite Ex in H.
Qed.

Lemma pw_fields_ok l r x :
  parse_pw_fields l r = Ok x <->
  Forall (fun p => p_cls p = ClassContext /\ (p_tag p <= 2)%N) l /\
  x = mkPw (match bfilter (fun p => (p_tag p =? 0)%N) (rev l) with p :: _ => p_data p | [] => pw_user r end)
           (match bfilter (fun p => (p_tag p =? 1)%N) (rev l) with p :: _ => p_data p | [] => pw_old r end)
           (match bfilter (fun p => (p_tag p =? 2)%N) (rev l) with p :: _ => p_data p | [] => pw_new r end).
Proof using Type.
  revert r. induction l as [|p l IH]; intros r; cbn [parse_pw_fields].
  { cbn. split; [intros [= <-]; split; [constructor|by destruct r]|]. intros [_ ->]. by destruct r. }
  rewrite Forall_cons. cbn [rev].
  destruct (p_cls p =? ClassContext)%N eqn:Ec; cbn [negb];
    [apply N.eqb_eq in Ec|apply N.eqb_neq in Ec; split; [done|]; by intros [[[? _] _] _]].
  assert (Hs : forall k, bfilter (fun p => (p_tag p =? k)%N) (rev l ++ [p]) =
    bfilter (fun p => (p_tag p =? k)%N) (rev l) ++ (if (p_tag p =? k)%N then [p] else [])).
  { intros k. by rewrite List.filter_app. }
  rewrite !Hs.
  destruct (p_tag p =? 0)%N eqn:E0.
  { apply N.eqb_eq in E0. rewrite E0. cbn [N.eqb]. rewrite IH. cbn [pw_user pw_old pw_new]. rewrite !app_nil_r.
    assert (Hm : forall A (l1 : list packet) (a : A) f, match l1 ++ [p] with q :: _ => f q | [] => a end =
      match l1 with q :: _ => f q | [] => f p end) by (intros ? [|? ?]; done).
    rewrite Hm. split; [intros [H ->]; split; [split; [split; [done|lia]|done]|done]|by intros [[_ H] ->]]. }
  destruct (p_tag p =? 1)%N eqn:E1.
  { apply N.eqb_eq in E1. rewrite E1. cbn [N.eqb Pos.eqb]. rewrite IH. cbn [pw_user pw_old pw_new]. rewrite !app_nil_r.
    assert (Hm : forall A (l1 : list packet) (a : A) f, match l1 ++ [p] with q :: _ => f q | [] => a end =
      match l1 with q :: _ => f q | [] => f p end) by (intros ? [|? ?]; done).
    rewrite Hm. split; [intros [H ->]; split; [split; [split; [done|lia]|done]|done]|by intros [[_ H] ->]]. }
  destruct (p_tag p =? 2)%N eqn:E2.
  { apply N.eqb_eq in E2. rewrite E2. rewrite IH. cbn [pw_user pw_old pw_new]. rewrite !app_nil_r.
    assert (Hm : forall A (l1 : list packet) (a : A) f, match l1 ++ [p] with q :: _ => f q | [] => a end =
      match l1 with q :: _ => f q | [] => f p end) by (intros ? [|? ?]; done).
    rewrite Hm. split; [intros [H ->]; split; [split; [split; [done|lia]|done]|done]|by intros [[_ H] ->]]. }
  apply N.eqb_neq in E0, E1, E2. split; [done|]. intros [[[_ H] _] _]. lia.
Qed.
Lemma pw_fields_calm l r : calmr (parse_pw_fields l r).
Proof using Type. revert r. induction l as [|p l IH]; intros r; cbn [parse_pw_fields]; [done|]. repeat (case_match; try done; try apply IH). Qed.
Lemma parse_pwmod_ok {W : Wire} body r : parse_pwmod body = Ok r <-> pw_message body r.
Proof using Type.
  unfold parse_pwmod, pw_message. destruct body as [p|]; [|by split; [intros [= <-]|intros ->]].
  destruct (decode_inner (p_data p)) as [q|]; [|by split; [intros [= <-]|intros ->]].
  destruct (3 <? length (p_kids q)) eqn:El.
  - apply Nat.ltb_lt in El. split; [done|]. intros [? _]. lia.
  - apply Nat.ltb_ge in El. rewrite pw_fields_ok. unfold field. cbn [pw_user pw_old pw_new]. tauto.
Qed.
Lemma parse_pwmod_calm {W : Wire} body : calmr (parse_pwmod body).
Proof using Type.
  unfold parse_pwmod. destruct body as [p|]; [|done]. destruct (decode_inner (p_data p)) as [q|]; [|done].
  destruct (3 <? _); [done|apply pw_fields_calm].
Qed.
(** NewError always carries an error. *)
Lemma parse_pwmod_err {W : Wire} body e : parse_pwmod body = Err e -> exists code, e = ELdap code true.
Proof using Type.
  unfold parse_pwmod. destruct body as [p|]; [|done]. destruct (decode_inner (p_data p)) as [q|]; [|done].
  destruct (3 <? _); [intros [= <-]; eauto|]. generalize (mkPw [] [] []).
  induction (p_kids q) as [|x l IH]; intros r; cbn [parse_pw_fields]; [done|].
  repeat case_match; intros H'; try (injection H' as <-; eauto); try by eapply IH.
Qed.
Lemma parse_extended_calm req : calmr (parse_extended req).
Proof using Type. unfold parse_extended. repeat (case_match; try done). Qed.
Lemma parse_sel_calm l : calmr (parse_sel l).
Proof using Type.
  induction l as [|p l IH]; [done|]. cbn [parse_sel]. apply calmr_bind; [apply opt_calm|]. intros s _.
  apply calmr_bind; [done|]. done.
Qed.
Lemma parse_search_calm {W : Wire} req : calmr (parse_search req).
Proof using Type.
  unfold parse_search. destruct (p_kids req) as [|b [|s [|a [|z [|t [|o [|f [|l [|? ?]]]]]]]]]; try done.
  do 5 (apply calmr_bind; [apply opt_calm|intros ? _]).
  apply calmr_bind; [destruct (p_val o); done|intros ? _].
  apply calmr_bind; [apply opt_calm|intros ? _]. apply calmr_bind; [apply parse_sel_calm|done].
Qed.
End parsers.

(** * Transactions that do not panic *)
Section calm.
Context {T : Text} {C : Crypto}.

Definition calm {A} (P : db -> Prop) (m : tx A) (Q : A -> db -> Prop) : Prop :=
  forall f d n, P d ->
    match m f d n with
    | Ok (a, (d', _)) => Q a d'
    | Err _ => True
    | _ => False
    end.
Lemma calm_bind {A B} P (m : tx A) Q (k : A -> tx B) R :
  calm P m Q -> (forall a, calm (Q a) (k a) R) -> calm P (t_bind m k) R.
Proof using Type.
  intros Hm Hk f d n Hd. unfold t_bind. specialize (Hm f d n Hd).
  destruct (m f d n) as [[a [d' n']]| | |]; try done. by apply Hk.
Qed.
Lemma calm_err {A} P e (Q : A -> db -> Prop) : calm P (t_err e) Q.
Proof using Type. done. Qed.
Lemma calm_ret {A} (P : db -> Prop) (a : A) (Q : A -> db -> Prop) : (forall d, P d -> Q a d) -> calm P (t_ret a) Q.
Proof using Type. intros H f d n Hd. by apply H. Qed.
Lemma calm_read {A} (P : db -> Prop) (g : db -> res A) (Q : A -> db -> Prop) :
  (forall d, P d -> match g d with Ok a => Q a d | Err _ => True | _ => False end) -> calm P (t_read g) Q.
Proof using Type. intros H f d n Hd. unfold t_read. specialize (H d Hd). by destruct (g d). Qed.
Lemma calm_if {A} (b : bool) P (m1 m2 : tx A) Q : calm P m1 Q -> calm P m2 Q -> calm P (if b then m1 else m2) Q.
Proof using Type. by destruct b. Qed.

(** Every name leads to eight bytes. *)
Definition ids_ok (d : db) : Prop := forall s v, dn2id d !! s = Some v -> length v = 8.
Lemma get_id_calm s : calm ids_ok (t_read (get_id s)) (fun _ => ids_ok).
Proof using Type.
  apply calm_read. intros d Hd. unfold get_id. destruct (dn2id d !! s) as [v|] eqn:E; [|done].
  by rewrite (Hd _ _ E).
Qed.
Lemma raw_calm i : calm ids_ok (t_read (fun d => Ok (raw_children i d))) (fun _ => ids_ok).
Proof using Type. by apply calm_read. Qed.
Lemma next_seq_calm : calm ids_ok next_seq (fun _ => ids_ok).
Proof using Type. intros f d n Hd. unfold next_seq, t_write. by destruct (f n). Qed.
Lemma put_id2ent_calm k v : calm ids_ok (put_id2ent k v) (fun _ => ids_ok).
Proof using Type. intros f d n Hd. unfold put_id2ent, t_write. destruct (f n); [done|]. by destruct (key_ok k). Qed.
Lemma put_id2ch_calm k v : calm ids_ok (put_id2ch k v) (fun _ => ids_ok).
Proof using Type. intros f d n Hd. unfold put_id2ch, t_write. destruct (f n); [done|]. by destruct (key_ok k). Qed.
Lemma put_dn2id_calm (P : db -> Prop) k v : calm P (put_dn2id k v) (fun _ _ => True).
Proof using Type. intros f d n Hd. unfold put_dn2id, t_write. destruct (f n); [done|]. by destruct (key_ok k). Qed.
Lemma del_dn2id_calm (P : db -> Prop) k : calm P (del_dn2id k) (fun _ _ => True).
Proof using Type. intros f d n Hd. unfold del_dn2id, t_write. by destruct (f n). Qed.
Lemma del_id2ent_calm (P : db -> Prop) k : calm P (del_id2ent k) (fun _ _ => True).
Proof using Type. intros f d n Hd. unfold del_id2ent, t_write. by destruct (f n). Qed.

Lemma entry_put_calm base e ndn pdn : calm ids_ok (entry_put_tx base e ndn pdn) (fun _ _ => True).
Proof using Type.
  unfold entry_put_tx. eapply calm_bind; [apply get_id_calm|]. intros i. cbn beta. apply calm_if; [apply calm_err|].
  eapply calm_bind; [apply next_seq_calm|]. intros j. cbn beta. eapply calm_bind; [apply put_id2ent_calm|]. intros ?. cbn beta.
  apply (calm_bind _ _ (fun _ => ids_ok)); [|intros ?; apply put_dn2id_calm].
  apply calm_if; [by apply calm_ret|]. unfold add_child. eapply calm_bind; [apply get_id_calm|]. intros k. cbn beta.
  apply calm_if; [apply calm_err|]. eapply calm_bind; [apply raw_calm|]. intros raw. cbn beta. apply put_id2ch_calm.
Qed.
Lemma entry_delete_calm ndn pdn : calm ids_ok (entry_delete_tx ndn pdn) (fun _ _ => True).
Proof using Type.
  unfold entry_delete_tx. eapply calm_bind; [apply get_id_calm|]. intros i. cbn beta. apply calm_if; [apply calm_err|].
  eapply calm_bind; [apply raw_calm|]. intros raw. cbn beta. apply calm_if; [apply calm_err|].
  eapply calm_bind; [apply get_id_calm|]. intros k. cbn beta. apply calm_if; [apply calm_err|].
  eapply calm_bind; [apply raw_calm|]. intros praw. cbn beta. eapply calm_bind; [apply put_id2ch_calm|]. intros ?. cbn beta.
  eapply calm_bind; [apply del_dn2id_calm|]. intros ?. apply del_id2ent_calm.
Qed.
Lemma apply_changes_calm r old cur cs : calmr (apply_changes r old cur cs).
Proof using Type.
  revert cur. induction cs as [|c cs IH]; intros cur; cbn [apply_changes]; [done|].
  apply calmr_bind; [|intros a _; apply IH]. unfold apply_change. repeat (case_match; try done).
Qed.
Lemma apply_modify_calm e m : parse_dn (e_dn e) <> Some [] -> calmr (apply_modify e m).
Proof using Type.
  intros H. unfold apply_modify. destruct (parse_dn (e_dn e)) as [[|r od]|]; [done| |done].
  destruct (parse_dn (m_dn m)); [|done]. destruct (negb _); [done|].
  apply calmr_bind; [apply apply_changes_calm|done].
Qed.
Lemma modify_with_calm P i e req : parse_dn (e_dn e) <> Some [] ->
  calm P (entry_modify_with i e req) (fun _ _ => True).
Proof using Type.
  intros H. unfold entry_modify_with. eapply calm_bind.
  - apply calm_read. intros d _. destruct (apply_modify_calm e req H) as [H1 H2].
    destruct (apply_modify e req); try done. instantiate (1 := fun _ _ => True). done.
  - intros e'. intros f d n _. unfold put_id2ent, t_write. destruct (f n); [done|]. by destruct (key_ok _).
Qed.
Lemma update_calm ev m d : calm (eq d) m (fun _ _ => True) ->
  e_commit ev <> CrashBefore -> e_commit ev <> CrashAfter ->
  exists r, (update ev m d).1 = Done r /\ calmr r.
Proof using Type.
  intros Hm H1 H2. unfold update. specialize (Hm (e_fault ev) d 0 eq_refl).
  destruct (m (e_fault ev) d 0) as [[a [d' n']]| | |]; try done.
  - destruct (e_commit ev); [by exists (Ok tt)|by exists (Err EIo)|done|done].
  - by exists (Err e).
Qed.
End calm.

Section crash.
Context {T : Text} {C : Crypto} (HT : TextOK T).

Lemma calm_weaken {A} (P P' : db -> Prop) (m : tx A) Q : (forall d, P d -> P' d) -> calm P' m Q -> calm P m Q.
Proof using Type. intros H Hm f d n Hd. by apply Hm, H. Qed.
Lemma sim_ids_ok b d g : sim b d g -> ids_ok d.
Proof using Type.
  intros Hs s v H. apply (s_dn2id _ _ _ Hs) in H as (k & i & e & _ & _ & ->). apply id_bytes_length.
Qed.
(** The entry stored under a normalised name. *)
Definition stored (d : db) (n : str) (e : entry) : Prop :=
  exists v, dn2id d !! n = Some v /\ id2ent d !! v = Some e.
Lemma sim_get_id' b d g s : sim b d g ->
  get_id s d = Ok 0%N \/ exists k i e, g !! k = Some (i, e) /\ s = flat k /\ get_id s d = Ok i.
Proof using Type.
  intros Hs. destruct (dn2id d !! s) as [v|] eqn:E.
  - right. apply (s_dn2id _ _ _ Hs) in E as (k & i & e & Hk & -> & ->). exists k, i, e. split; [done|]. split; [done|].
    rewrite (sim_get_id _ _ _ _ Hs) by by apply (s_key _ _ _ Hs _ _ _ Hk). by rewrite Hk.
  - left. unfold get_id. by rewrite E.
Qed.
Lemma sim_by_dn b d g s : sim b d g ->
  (get_entry_by_dn s d = Err ENotFound /\ forall e, ~ stored d s e) \/
  exists e i, get_entry_by_dn s d = Ok (e, i) /\ stored d s e /\ parse_dn (e_dn e) <> Some [].
Proof using Type.
  intros Hs. destruct (sim_get_id' b d g s Hs) as [H0|(k & i & e & Hk & -> & Hi)].
  - left. split; [unfold get_entry_by_dn; by rewrite H0|]. intros e (v & Hv & _).
    apply (s_dn2id _ _ _ Hs) in Hv as (k & i & e' & Hk & -> & ->).
    rewrite (sim_get_id _ _ _ _ Hs) in H0 by by apply (s_key _ _ _ Hs _ _ _ Hk). rewrite Hk in H0. injection H0 as H0.
    pose proof (s_id _ _ _ Hs _ _ _ Hk). lia.
  - right. exists e, i. unfold get_entry_by_dn. rewrite Hi. cbn [rbind]. rewrite (sim_id_nonzero _ _ _ _ _ _ Hs Hk).
    rewrite (sim_get_entry _ _ _ _ _ _ Hs Hk). split; [done|]. split.
    + exists (id_bytes i). split; [apply (s_dn2id _ _ _ Hs); eauto 10|]. apply (s_ent _ _ _ Hs). eauto.
    + destruct (s_dn _ _ _ Hs _ _ _ Hk) as (dd & Hp & _ & Hf). rewrite Hp. intros [= ->].
      pose proof (gk_ne _ _ (s_key _ _ _ Hs _ _ _ Hk)) as Hne. cbn in Hf. by subst k.
Qed.
Lemma stored_by_dn b d g s e : sim b d g -> stored d s e ->
  exists i, get_entry_by_dn s d = Ok (e, i).
Proof using Type.
  intros Hs He. destruct (sim_by_dn b d g s Hs) as [[_ H]|(e' & i & H & (v & Hv & He') & _)]; [by apply H in He|].
  destruct He as (v' & Hv' & He). rewrite Hv in Hv'. injection Hv' as <-. rewrite He' in He. injection He as <-. eauto.
Qed.

Lemma in_norm_avas r0 a0 r : r <> [] -> In "="%char (norm_avas r0 a0 r).
Proof using Type.
  destruct r as [|[t v] r]; [done|]. intros _. cbn [norm_avas]. rewrite !in_app_iff. right; right; left. by left.
Qed.
Lemma parse_normalize_root r dd : r <> [] -> parse_dn (normalize (r :: dd)) <> Some [].
Proof using HT.
  intros Hr. unfold parse_dn, normalize. cbn [norm_rdns].
  destruct (is_empty (trim_dn (norm_avas true true r ++ norm_rdns false dd))) eqn:E.
  - apply is_empty_true in E. exfalso. revert E. apply (trim_dn_keeps _ HT). apply in_app_iff. left. by apply in_norm_avas.
  - intros H. assert (Hl : forall s esc cur ty avas rdns d, dn_loop s esc cur ty avas rdns = Some d -> d <> []).
    { clear. induction s as [|c s IH]; intros esc cur ty avas rdns d; cbn [dn_loop].
      - destruct (is_empty ty); [done|]. destruct (decode_value (rev cur)); [|done]. intros [= <-] H.
        apply (f_equal (@length _)) in H. cbn [rev] in H. rewrite app_length in H. cbn in H. lia.
      - repeat case_match; try done; eauto. }
    by apply Hl in H.
Qed.

(** The operations that panic. *)
Definition op_panics (d : db) (o : op) : Prop :=
  match o with
  | OpPut e => parse_dn (e_dn e) = Some [] \/ parse_dn (e_dn e) = None
  | OpDelete s => parse_dn s = Some []
  | OpModify _ => False
  | OpModDn r => exists dx dn, parse_dn (md_dn r) = Some dx /\ parse_dn (md_newrdn r) = Some dn /\ (dx = [] \/ dn = [])
  | OpPassword r => exists n e, parse_normalize (pw_user r) = Some n /\ stored d n e /\ pw_old r <> [] /\
      chokes (pw_old r) (get_eqfold_val (B "userPassword") (e_attrs e))
  end.
Lemma validate_nodiv p h : validate p h <> Diverge.
Proof using Type.
  unfold validate. destruct h; [done|]. destruct (split_scheme _) as [alg rest]. repeat (case_match; try done).
Qed.
Lemma check_old_panics e old :
  (check_old e old = Panic <-> old <> [] /\ chokes old (get_eqfold_val (B "userPassword") (e_attrs e))) /\
  check_old e old <> Diverge.
Proof using HT.
  unfold check_old. destruct (is_empty old) eqn:Eo.
  - apply is_empty_true in Eo as ->. split; [|done]. split; [done|]. by intros [? _].
  - apply is_empty_false in Eo. rewrite <- (validate_chokes HT).
    pose proof (validate_nodiv old (get_eqfold_val (B "userPassword") (e_attrs e))).
    destruct (validate old _) as [[|]| | |]; split; try done; split; try done; by intros [_ ?].
Qed.
Lemma run_op_panics b d g base ev o :
  sim b d g -> e_commit ev <> CrashBefore -> e_commit ev <> CrashAfter ->
  ((run_op base ev o d).1 = Done Panic <-> op_panics d o) /\
  (run_op base ev o d).1 <> Done Diverge /\ (run_op base ev o d).1 <> Crashed.
Proof using HT.
  intros Hs H1 H2. pose proof (sim_ids_ok _ _ _ Hs) as Hids.
  assert (Hupd : forall m, calm (eq d) m (fun _ _ => True) ->
    ((update ev m d).1 = Done Panic <-> False) /\
    (update ev m d).1 <> Done Diverge /\ (update ev m d).1 <> Crashed).
  { intros m Hm. destruct (update_calm ev m d Hm H1 H2) as (r & -> & Hr1 & Hr2). split; [|split].
    - split; [|done]. by intros [= ->].
    - by intros [= ->].
    - done. }
  assert (Hids' : forall m : tx unit, calm ids_ok m (fun _ _ => True) -> calm (eq d) m (fun _ _ => True)).
  { intros m. apply calm_weaken. by intros ? <-. }
  unfold run_op. destruct o as [e|s|r|r|r]; cbn [op_body op_panics].
  - unfold entry_put. destruct (parse_dn (e_dn e)) as [[|x parent]|].
    + cbn. split; [|done]. split; auto.
    + destruct (negb _).
      * cbn. split; [|done]. split; [done|]. by intros [?|?].
      * destruct (Hupd _ (Hids' _ (entry_put_calm base e (normalize (x :: parent)) (normalize parent)))) as [Ha Hb].
        split; [|done]. rewrite Ha. split; [done|]. by intros [?|?].
    + cbn. split; [|done]. split; auto.
  - unfold entry_delete. destruct (parse_dn s) as [[|x parent]|].
    + done.
    + destruct (Hupd _ (Hids' _ (entry_delete_calm (normalize (x :: parent)) (normalize parent)))) as [Ha Hb].
      split; [|done]. by rewrite Ha.
    + done.
  - unfold entry_modify. destruct (parse_normalize (m_dn r)) as [n|]; [|done]. apply Hupd.
    eapply (calm_bind _ _ (fun p _ => parse_dn (e_dn p.1) <> Some [])).
    + apply calm_read. intros ? <-. destruct (sim_by_dn b d g n Hs) as [[-> _]|(e & i & -> & _ & He)]; done.
    + intros [e i]. intros f d' k He. by apply (modify_with_calm (fun _ => True)).
  - unfold entry_moddn. destruct (parse_dn (md_dn r)) as [dx|] eqn:Ex; [|cbn; split; [|done]; split; [done|]; by intros (? & ? & ? & _)].
    destruct (parse_dn (md_newrdn r)) as [dn|] eqn:En.
    2:{ destruct dx; cbn; (split; [|done]); (split; [done|]); by intros (? & ? & _ & ? & _). }
    destruct dx as [|x parent], dn as [|y rest]; cbn [fst]; try (split; [|done]; split; [|done]; intros _; eauto 10).
    destruct (Hupd (entry_moddn_tx (normalize (x :: parent)) (normalize (y :: parent)) (md_delold r) x y)) as [Ha Hb].
    { unfold entry_moddn_tx. eapply (calm_bind _ _ (fun _ => eq d)).
      { apply calm_read. intros ? <-. destruct (sim_get_id' b d g (normalize (y :: parent)) Hs) as [->|(? & ? & ? & _ & _ & ->)]; done. }
      intros i. apply calm_if; [apply calm_err|]. eapply (calm_bind _ _ (fun _ _ => True)).
      { apply calm_read. intros ? <-. destruct (sim_by_dn b d g (normalize (x :: parent)) Hs) as [[-> _]|(e & j & -> & _ & He)]; done. }
      intros [e j]. eapply (calm_bind _ _ (fun _ _ => True)); [by apply calm_read|]. intros ch. apply calm_if; [apply calm_err|].
      eapply calm_bind; [apply modify_with_calm; cbn [e_dn]; apply parse_normalize_root|].
      { pose proof (parse_dn_shape _ _ En) as Hsh. by apply Forall_cons in Hsh as [? _]. }
      intros ?. eapply calm_bind; [apply put_dn2id_calm|]. intros ?. apply del_dn2id_calm. }
    split; [|done]. rewrite Ha. split; [done|]. by intros (? & ? & [= <-] & [= <-] & [?|?]).
  - unfold update_password. destruct (parse_normalize (pw_user r)) as [n|] eqn:En.
    2:{ cbn. split; [|done]. split; [done|]. by intros (? & ? & ? & _). }
    unfold update at 1 2 3. unfold t_bind at 1 3 5. unfold t_read at 1 2 3.
    destruct (sim_by_dn b d g n Hs) as [[Hn Hno]|(e & i & Hn & Hst & He)]; rewrite Hn.
    { cbn. split; [|done]. split; [done|]. intros (? & ? & [= <-] & Hst & _). by apply Hno in Hst. }
    unfold t_bind, t_lift, t_read. cbn [fst snd].
    destruct (check_old_panics e (pw_old r)) as [Hc Hd].
    assert (Hiff : op_panics d (OpPassword r) <-> check_old e (pw_old r) = Panic).
    { cbn [op_panics]. rewrite Hc. split.
      - intros (n' & e' & Hn' & Hst' & Hold). rewrite En in Hn'. injection Hn' as <-.
        destruct (stored_by_dn _ _ _ _ _ Hs Hst') as [i' Hi']. rewrite Hn in Hi'. by injection Hi' as <- _.
      - intros Hold. exists n, e. done. }
    cbn [op_panics] in Hiff. rewrite En in Hiff. rewrite Hiff.
    destruct (check_old e (pw_old r)) as [[]| | |]; try done.
    unfold t_maperr.
    pose proof (modify_with_calm (fun _ => True) i e
      (mkModify (pw_user r) [mkChange MReplace (B "userPassword") [pw_new r]]) He (e_fault ev) d 0 I) as Hm.
    destruct (entry_modify_with i e _ (e_fault ev) d 0) as [[[] [d' k]]| | |]; try done.
    by destruct (e_commit ev).
Qed.

(** Searching never panics. *)
Lemma search_calm b d g s scope : base_ok b -> sim b d g ->
  exists es x, search d s scope = Ok (es, x).
Proof using Type.
  intros Hb Hs. unfold search. destruct (parse_normalize s) as [n|]; [|eauto].
  destruct (sim_get_id' b d g n Hs) as [->|(k & i & e & Hk & -> & ->)]; cbn [rbind]; [eauto|].
  rewrite (sim_id_nonzero _ _ _ _ _ _ Hs Hk).
  assert (Hf : forall l, exists es x, Ok (fetch d l) = Ok (es, x)) by (intros l; destruct (fetch d l); eauto).
  destruct (scope =? ScopeBase)%Z; [apply Hf|]. destruct (scope =? ScopeOne)%Z; [apply Hf|].
  destruct (scope =? ScopeSub)%Z; [|eauto].
  destruct (subtree_spec b d g (S (size (id2ch d))) Hs (base_ne _ Hb) k i e Hk) as (l & Hl & _).
  { pose proof (measure_top d g k). lia. }
  rewrite Hl. apply Hf.
Qed.

(** Filters. *)
Lemma filter_panics f e :
  (apply_filter (filter_packet f) e = Panic -> bare_sub f = true) /\
  (leading_bare_sub f = true -> apply_filter (filter_packet f) e = Panic) /\
  apply_filter (filter_packet f) e <> Diverge.
Proof using Type.
  induction f as [l IH|l IH|f IH|a v|a ps|a|t] using flt_ind'; cbn [filter_packet bare_sub leading_bare_sub].
  - cbn [apply_filter N.eqb FEqualityTag FPresentTag FAndTag].
    induction IH as [|f l (H1 & H2 & H3) Hl (IH1 & IH2 & IH3)]; [done|]. cbn [map existsb].
    destruct (apply_filter (filter_packet f) e) as [b| | |] eqn:Ef; cbn [rbind].
    + split; [|split].
      * intros H. destruct b; [|done]. apply orb_true_iff. right. by apply IH1.
      * intros H. by apply H2 in H.
      * destruct b; [|done]. apply IH3.
    + split; [done|]. split; [|done]. intros H. by apply H2 in H.
    + rewrite H1 by done. done.
    + done.
  - cbn [apply_filter N.eqb FEqualityTag FPresentTag FAndTag FOrTag Pos.eqb].
    assert (Hgen : forall acc, let r := (fix any (l : list packet) (acc : bool) : res bool :=
       match l with
       | [] => Ok acc
       | c :: l' => ok <-- apply_filter c e ;; any l' (acc || ok)
       end) (map filter_packet l) acc in
       (r = Panic -> existsb bare_sub l = true) /\
       (match l with g :: _ => leading_bare_sub g | [] => false end = true -> r = Panic) /\ r <> Diverge).
    { induction IH as [|f l (H1 & H2 & H3) Hl IHl]; intros acc; [done|]. cbn [map existsb].
      destruct (apply_filter (filter_packet f) e) as [b| | |] eqn:Ef; cbn [rbind].
      + destruct (IHl (acc || b)) as (IH1 & IH2 & IH3). split; [|split].
        * intros H. apply orb_true_iff. right. by apply IH1.
        * intros H. by apply H2 in H.
        * apply IH3.
      + split; [done|]. split; [|done]. intros H. by apply H2 in H.
      + rewrite H1 by done. done.
      + done. }
    apply (Hgen false).
  - cbn [apply_filter N.eqb FEqualityTag FPresentTag FAndTag FOrTag FNotTag Pos.eqb].
    destruct IH as (H1 & H2 & H3).
    destruct (apply_filter (filter_packet f) e) as [b| | |]; cbn [rbind]; [..|done].
    + split; [done|]. split; [|done]. intros H. by apply H2 in H.
    + split; [done|]. split; [|done]. intros H. by apply H2 in H.
    + split; [by intros _; apply H1|]. done.
  - done.
  - cbn [apply_filter N.eqb FEqualityTag FPresentTag FAndTag FOrTag FNotTag FSubstringsTag Pos.eqb octets field p_val p_kids].
    destruct ps; done.
  - done.
  - destruct t as [[] ? ?|]; done.
Qed.
Lemma filter_scope_calm base scope e : calmr (filter_scope base scope e).
Proof using Type. unfold filter_scope. repeat (case_match; try done). Qed.
Lemma search_loop_panics f r ok es i :
  ((search_loop true (filter_packet f) r ok es i).2 = Panic -> bare_sub f = true /\ es <> []) /\
  (search_loop true (filter_packet f) r ok es i).2 <> Diverge.
Proof using Type.
  revert i. induction es as [|e es IH]; intros i; [done|]. cbn [search_loop].
  destruct (filter_panics f e) as (H1 & _ & H3).
  destruct (apply_filter (filter_packet f) e) as [[|]| | |]; try done.
  - destruct (filter_scope_calm (sr_base r) (sr_scope r) e) as [H4 H5].
    destruct (filter_scope (sr_base r) (sr_scope r) e) as [[|]| | |]; try done.
    + destruct (_ && _); [done|]. destruct (ok i); [|done].
      specialize (IH (S i)). destruct (search_loop _ _ _ _ _ _) as [l x]. cbn [snd] in *. destruct IH as [IH1 IH2].
      split; [|done]. intros H. split; [by apply IH1|done].
    + specialize (IH i). destruct IH as [IH1 IH2]. split; [|done]. intros H. split; [by apply IH1|done].
  - specialize (IH i). destruct IH as [IH1 IH2]. split; [|done]. intros H. split; [by apply IH1|done].
  - split; [|done]. intros _. split; [by apply H1|done].
Qed.
Lemma search_loop_off flt r ok es i : calmr (search_loop false flt r ok es i).2.
Proof using Type.
  revert i. induction es as [|e es IH]; intros i; [done|]. cbn [search_loop]. destruct (ok i); [|done].
  specialize (IH (S i)). by destruct (search_loop _ _ _ _ _ _).
Qed.
End crash.

(** * Fatal requests *)
Section fatal.
Context {T : Text} {C : Crypto} {W : Wire}.

(** What the environment is assumed not to do: kill the process, hand out
    random numbers out of range, or give the library calls other results than
    documented.  The length of generated passwords is not negative. *)
Definition quiet (cfg : server_cfg) (ev : renv env) : Prop :=
  e_commit (re_h ev) <> CrashBefore /\ e_commit (re_h ev) <> CrashAfter /\
  (0 <= sv_genlen cfg)%Z /\ Forall (fun i => i < 74) (re_draws ev) /\
  (forall pw salt, argon2_hash pw salt <> LPanic) /\
  (forall s q, compile_filter s = Some q -> exists f, q = filter_packet f).

(** Decoding one of the controls panics. *)
Definition bad_control (p : packet) : Prop :=
  exists i req cs rest k, p_kids p = i :: req :: cs :: rest /\ In k (p_kids cs) /\
    (decode_control k = Panic \/ decode_control k = Diverge).
(** The new password of a request, given or generated. *)
Definition new_password (cfg : server_cfg) (ev : renv env) (r : pw_req) (pw : str) : Prop :=
  (pw_new r <> [] /\ pw = pw_new r) \/
  (pw_new r = [] /\ generate_password (sv_genlen cfg) (re_draws ev) = Ok pw).
(** The name whose password is to be changed. *)
Definition target (bound : str) (r : pw_req) : str :=
  if is_empty (pw_user r) then bound else pw_user r.

(** The requests that end the process; [sub] says which filters do. *)
Inductive fatal (sub : flt -> bool) (cfg : server_cfg) (c : bolt_cfg) (ev : renv env) (bound : str)
    (p : packet) (d : db) : Prop :=
| fatal_control id req : envelope p id req -> bad_control p -> fatal sub cfg c ev bound p d
| fatal_root id req : envelope p id req -> ~ bad_control p -> bound = bc_admin c -> bound <> [] ->
    (p_tag req = AddRequest /\ root_add req) \/ (p_tag req = DelRequest /\ root_delete req) \/
    (p_tag req = ModifyDNRequest /\ root_moddn req) -> fatal sub cfg c ev bound p d
| fatal_changes id req : envelope p id req -> ~ bad_control p -> bound <> [] ->
    p_tag req = ModifyRequest -> torn_modify req -> fatal sub cfg c ev bound p d
| fatal_denied id req r pw h u : envelope p id req -> ~ bad_control p -> bound <> [] ->
    p_tag req = ExtendedRequest -> pw_request req r -> new_password cfg ev r pw ->
    argon2_hash pw (re_salt ev) = LOk h -> parse_normalize (target bound r) = Some u ->
    u <> bound -> bound <> bc_admin c -> fatal sub cfg c ev bound p d
| fatal_old id req r pw h u e : envelope p id req -> ~ bad_control p -> bound <> [] ->
    p_tag req = ExtendedRequest -> pw_request req r -> new_password cfg ev r pw ->
    argon2_hash pw (re_salt ev) = LOk h -> parse_normalize (target bound r) = Some u ->
    u = bound \/ bound = bc_admin c -> pw_old r <> [] -> stored d u e ->
    chokes (pw_old r) (get_eqfold_val (B "userPassword") (e_attrs e)) -> fatal sub cfg c ev bound p d
| fatal_filter id req r f es x : envelope p id req -> ~ bad_control p ->
    p_tag req = SearchRequest -> parse_search req = Ok r -> sv_enforce cfg = true ->
    compile_filter (sr_filter r) = Some (filter_packet f) ->
    search d (sr_base r) (sr_scope r) = Ok (es, x) -> es <> [] -> sub f = true ->
    fatal sub cfg c ev bound p d.

Lemma decode_controls_spec l : decode_controls l = true <->
  forall k, In k l -> decode_control k <> Panic /\ decode_control k <> Diverge.
Proof using Type.
  induction l as [|x l IH]; cbn [decode_controls]; [done|]. split.
  - intros H k [<-|Hk]; destruct (decode_control x) eqn:E; try done; by apply (proj1 IH H k Hk).
  - intros H. destruct (H x (or_introl eq_refl)) as [H1 H2].
    destruct (decode_control x); try done; apply IH; intros k Hk; apply H; by right.
Qed.
Lemma gen_loop_calm n draws : Forall (fun i => i < 74) draws -> calmr (gen_loop n draws).
Proof using Type.
  intros H. revert n. induction H as [|i draws Hi Hd IH]; intros [|n]; cbn [gen_loop]; try done.
  destruct (pw_chars !! i) eqn:E.
  - apply calmr_bind; [apply IH|done].
  - apply lookup_ge_None in E. change (length pw_chars) with 74 in E. lia.
Qed.

Variable (HT : TextOK T) (cfg : server_cfg) (c : bolt_cfg).

Lemma bolt_write_dead b d g ev o tr : sim b d g ->
  e_commit ev <> CrashBefore -> e_commit ev <> CrashAfter ->
  ((bolt_write c ev o tr d).1 = HPanic <-> op_panics d o) /\ (bolt_write c ev o tr d).1 <> HKill.
Proof using HT.
  intros Hs H1 H2. destruct (run_op_panics HT b d g (bc_base c) ev o Hs H1 H2) as (Ha & Hb & Hc).
  unfold bolt_write. destruct (run_op (bc_base c) ev o d) as [[[u|e| |]|] d']; cbn [fst] in *; try done.
  - split; [|done]. split; [done|]. by intros H%Ha.
  - split; [|done]. split; [done|]. by intros H%Ha.
  - split; [|done]. by split; [intros _; apply Ha|].
Qed.

Lemma write_allowed_spec bound : write_allowed c bound = true <-> bound = bc_admin c /\ bound <> [].
Proof using Type.
  unfold write_allowed. rewrite andb_true_iff, negb_true_iff, is_empty_false, seqb_eq.
  split; intros [H1 H2]; subst; done.
Qed.

Lemma parse_extended_pw req : p_kids req <> [] \/ True -> forall r,
  pw_request req r <-> exists body, parse_extended req = Ok (pwmod_oid, body) /\ parse_pwmod body = Ok r.
Proof using Type.
  intros _ r. unfold pw_request, parse_extended. split.
  - intros (o & rest & -> & Hc & Ht & Hd & Hr). rewrite Hc, Ht. cbn [N.eqb].
    destruct Hr as [[-> Hm]|(b & -> & Hbc & Hbt & Hm)]; cbn [length Nat.ltb Nat.leb].
    + exists None. change (ClassContext =? ClassContext)%N with true. cbn [andb]. rewrite Hd. split; [done|]. by apply parse_pwmod_ok.
    + exists (Some b). rewrite Hbc, Hbt. change (ClassContext =? ClassContext)%N with true.
      change (1 =? 1)%N with true. cbn [andb]. rewrite Hd. split; [done|]. by apply parse_pwmod_ok.
  - intros (body & He & Hp). apply parse_pwmod_ok in Hp. destruct (p_kids req) as [|o rest]; [done|].
    destruct (1 <? length rest) eqn:El; [done|]. apply Nat.ltb_ge in El.
    destruct (p_cls o =? ClassContext)%N eqn:E1; [|done]. destruct (p_tag o =? 0)%N eqn:E2; [|done]. cbn [andb] in He.
    apply N.eqb_eq in E1, E2. exists o, rest. split; [done|]. split; [done|]. split; [done|].
    destruct rest as [|b rest].
    + injection He as -> <-. split; [done|]. by left.
    + destruct (p_cls b =? ClassContext)%N eqn:E3; [|done]. destruct (p_tag b =? 1)%N eqn:E4; [|done]. cbn [andb] in He.
      apply N.eqb_eq in E3, E4. injection He as -> <-. split; [done|]. right. exists b.
      destruct rest; [done|]. cbn in El. lia.
Qed.

Lemma handle_dead ev bound p d :
  r_next (handle cfg (bolt_handler c) ev bound p d) = Dead <->
  exists id req, envelope p id req /\
    (bad_control p \/
     (~ bad_control p /\ r_next (dispatch cfg (bolt_handler c) ev bound id req d) = Dead)).
Proof using Type.
  assert (Hctl : forall i req cs rest, p_kids p = i :: req :: cs :: rest ->
    (bad_control p <-> decode_controls (p_kids cs) = false)).
  { intros i req cs rest Hk. split.
    - intros (i' & req' & cs' & rest' & k & Hk' & Hin & Hd). rewrite Hk in Hk'. injection Hk' as <- <- <- <-.
      apply not_true_is_false. rewrite decode_controls_spec. intros H. destruct (H k Hin). by destruct Hd.
    - intros Hf. exists i, req, cs, rest. assert (Hx : exists k, In k (p_kids cs) /\ (decode_control k = Panic \/ decode_control k = Diverge)).
      { clear Hk. revert Hf. induction (p_kids cs) as [|x l IH]; cbn [decode_controls]; [done|]. intros Hf.
        destruct (decode_control x) eqn:E.
        - destruct (IH Hf) as (k & ? & ?). exists k. split; [by right|done].
        - destruct (IH Hf) as (k & ? & ?). exists k. split; [by right|done].
        - exists x. split; [by left|auto].
        - exists x. split; [by left|auto]. }
      destruct Hx as (k & ? & ?). exists k. done. }
  unfold handle. split.
  - destruct (p_kids p) as [|i [|req rest]] eqn:Hk; [done..|].
    destruct (as_int (p_val i)) as [id|] eqn:Ei; [|done]. apply as_int_inv in Ei.
    destruct (p_cls req =? ClassApplication)%N eqn:Ec; [|done]. apply N.eqb_eq in Ec. cbn [negb].
    intros H. exists id, req. split; [exists i, rest; done|]. destruct rest as [|cs rest].
    + right. split; [|done]. intros (i' & req' & cs' & rest' & k & Hk' & _). congruence.
    + destruct (decode_controls (p_kids cs)) eqn:Ed.
      * right. split; [|done]. rewrite (Hctl _ _ _ _ eq_refl). by rewrite Ed.
      * left. by apply (Hctl _ _ _ _ eq_refl).
  - intros (id & req & (i & rest & Hk & Hi & Hc) & Hd). rewrite Hk, Hi. cbn [as_int]. rewrite Hc.
    change (ClassApplication =? ClassApplication)%N with true. cbn [negb].
    destruct rest as [|cs rest].
    + destruct Hd as [(i' & req' & cs' & rest' & k & Hk' & _)|[_ Hd]]; [|done]. congruence.
    + destruct Hd as [Hb|[Hn Hd]].
      * apply (Hctl _ _ _ _ Hk) in Hb. by rewrite Hb.
      * assert (decode_controls (p_kids cs) = true) as ->; [|done].
        apply not_false_is_true. by rewrite <- (Hctl _ _ _ _ Hk).
Qed.

(** The password modification. *)
Lemma pwmod_dead b d g ev bound req : sim b d g -> quiet cfg ev ->
  ((handle_extended cfg (bolt_handler c) ev bound req d).1 = HPanic \/
   (handle_extended cfg (bolt_handler c) ev bound req d).1 = HKill) <->
  bound <> [] /\ exists r pw h u, pw_request req r /\ new_password cfg ev r pw /\
    argon2_hash pw (re_salt ev) = LOk h /\ parse_normalize (target bound r) = Some u /\
    ((u <> bound /\ bound <> bc_admin c) \/
     ((u = bound \/ bound = bc_admin c) /\ pw_old r <> [] /\
      exists e, stored d u e /\ chokes (pw_old r) (get_eqfold_val (B "userPassword") (e_attrs e)))).
Proof using HT.
  intros Hs (Hq1 & Hq2 & Hq3 & Hq4 & Hq5 & _).
  assert (Hbp : bound <> [] -> forall r hash u, parse_normalize (target bound r) = Some u ->
    let x := (bolt_password c (re_h ev) bound (mkPw (target bound r) (pw_old r) hash) d).1 in
    (x = HPanic <-> (u = bound \/ bound = bc_admin c) /\ pw_old r <> [] /\
      exists e, stored d u e /\ chokes (pw_old r) (get_eqfold_val (B "userPassword") (e_attrs e))) /\
    x <> HKill /\
    ((exists code, x = HRet (code, false) /\ code <> Success) <-> u <> bound /\ bound <> bc_admin c)).
  { intros Hb r hash u Hu. cbv zeta. unfold bolt_password. cbn [pw_user pw_old].
    assert (is_empty bound = false) as -> by by apply is_empty_false.
    assert (Hte : is_empty (target bound r) = false).
    { unfold target. destruct (is_empty (pw_user r)) eqn:E; [by apply is_empty_false|done]. }
    rewrite Hte, Hu.
    destruct (bolt_write_dead b d g (re_h ev) (OpPassword (mkPw (target bound r) (pw_old r) hash))
      (fun _ => (ResultOther, true)) Hs Hq1 Hq2) as [Hw1 Hw2].
    assert (Hret : forall code err, (bolt_write c (re_h ev) (OpPassword (mkPw (target bound r) (pw_old r) hash))
      (fun _ => (ResultOther, true)) d).1 = HRet (code, err) -> err = false -> code = Success).
    { unfold bolt_write. destruct (run_op _ _ _ _) as [[[?|?| |]|] ?]; cbn [fst]; intros code err; try done;
        intros [= <- <-]; done. }
    destruct (negb (seqb bound u) && negb (seqb bound (bc_admin c))) eqn:Ed; cbn [fst].
    - apply andb_true_iff in Ed as [E1 E2]. apply negb_true_iff in E1, E2.
      assert (N1 : u <> bound) by (intros ->; by rewrite seqb_refl in E1).
      assert (N2 : bound <> bc_admin c) by (intros H; rewrite H, seqb_refl in E2; done).
      split; [|split; [done|]].
      + split; [done|]. intros ([?|?] & _); done.
      + split; [done|]. intros _. exists InsufficientAccessRights. done.
    - assert (Hor : u = bound \/ bound = bc_admin c).
      { apply andb_false_iff in Ed as [E|E]; apply negb_false_iff, seqb_eq in E; auto. }
      split; [|split; [done|]].
      + rewrite Hw1. cbn [op_panics pw_user pw_old]. rewrite Hu. split.
        * intros (n & e & [= <-] & ? & ? & ?). eauto 10.
        * intros (_ & ? & e & ? & ?). exists u, e. done.
      + split.
        * intros (code & Hx & Hne). by apply Hret in Hx.
        * intros [N1 N2]. by destruct Hor. }
  unfold handle_extended. split.
  - intros H. destruct (parse_extended_calm req) as [Hc1 Hc2].
    destruct (parse_extended req) as [[oid body]| | |] eqn:Ex; try done; [|by destruct H].
    destruct (seqb oid pwmod_oid) eqn:Eo; [|by destruct H]. apply seqb_eq in Eo as ->.
    unfold handle_pwmod in H. destruct (is_empty bound) eqn:Eb; [by destruct H|]. apply is_empty_false in Eb.
    split; [done|]. destruct (parse_pwmod_calm body) as [Hp1 Hp2].
    destruct (parse_pwmod body) as [r|e| |] eqn:Ep; try done.
    2:{ apply parse_pwmod_err in Ep as [code ->]. cbn [negb andb] in H. rewrite andb_false_r in H. by destruct H. }
    fold (target bound r) in H.
    assert (Hgen : exists x, (if is_empty (pw_new r) then generate_password (sv_genlen cfg) (re_draws ev) else Ok (pw_new r)) = x /\
      calmr x /\ forall pw, x = Ok pw -> new_password cfg ev r pw).
    { eexists. split; [done|]. destruct (is_empty (pw_new r)) eqn:En.
      - apply is_empty_true in En. split; [|intros pw ?; by right]. unfold generate_password.
        destruct (Z.ltb_spec (sv_genlen cfg) 0); [lia|]. by apply gen_loop_calm.
      - apply is_empty_false in En. split; [done|]. intros pw [= <-]. by left. }
    destruct Hgen as (x & Hx & [Hx1 Hx2] & Hnew). rewrite Hx in H.
    destruct x as [pw|e| |]; try done; [|by destruct H]. specialize (Hnew pw eq_refl).
    unfold hash_password in H. change (seqb (B "{ARGON2}") [] || seqb (B "{ARGON2}") (B "{CLEARTEXT}")) with false in H.
    rewrite seqb_refl in H. cbn iota in H. pose proof (Hq5 pw (re_salt ev)) as Hnp.
    destruct (argon2_hash pw (re_salt ev)) as [hh| |] eqn:Eh; [|by destruct H|done].
    cbn [h_password bolt_handler] in H.
    assert (Hreq : pw_request req r) by (apply parse_extended_pw; [auto|]; eauto).
    destruct (parse_normalize (target bound r)) as [u|] eqn:Eu.
    + destruct (Hbp Eb r (B "{ARGON2}" ++ hh) u Eu) as (B1 & B2 & B3).
      exists r, pw, hh, u. repeat (split; [done|]).
      destruct (bolt_password c (re_h ev) bound _ d) as [[[code err]| |] d']; cbn [fst] in *.
      * destruct (code =? Success)%N eqn:Ec; cbn [fst negb andb] in H; [by destruct H|].
        rewrite Ec in H. cbn [negb andb] in H. destruct err; cbn [negb] in H; [by destruct H|]. left. apply B3. exists code. split; [done|].
        by apply N.eqb_neq.
      * right. by apply B1.
      * done.
    + exfalso. unfold bolt_password in H. cbn [pw_user] in H.
      assert (is_empty bound = false) as Hbe by by apply is_empty_false. rewrite Hbe in H.
      assert (Hte : is_empty (target bound r) = false).
      { unfold target. destruct (is_empty (pw_user r)) eqn:E; [done|done]. }
      rewrite Hte, Eu in H. cbn in H. by destruct H.
  - intros (Hb & r & pw & hh & u & Hreq & Hnew & Hh & Hu & Hcase).
    apply parse_extended_pw in Hreq as (body & He & Hp); [|auto]. rewrite He, seqb_refl.
    unfold handle_pwmod. assert (is_empty bound = false) as -> by by apply is_empty_false. rewrite Hp.
    fold (target bound r).
    assert ((if is_empty (pw_new r) then generate_password (sv_genlen cfg) (re_draws ev) else Ok (pw_new r)) = Ok pw) as ->.
    { destruct Hnew as [[Hn ->]|[-> Hg]]; [|done]. by apply is_empty_false in Hn as ->. }
    unfold hash_password. change (seqb (B "{ARGON2}") [] || seqb (B "{ARGON2}") (B "{CLEARTEXT}")) with false.
    rewrite seqb_refl, Hh. cbn [h_password bolt_handler].
    destruct (Hbp Hb r (B "{ARGON2}" ++ hh) u Hu) as (B1 & B2 & B3). left. destruct Hcase as [Hd|Ho].
    + apply B3 in Hd as (code & Hx & Hne). destruct (bolt_password c (re_h ev) bound _ d) as [a d']. cbn [fst] in Hx. subst a.
      apply N.eqb_neq in Hne. rewrite Hne. cbn [negb andb]. rewrite Hne. done.
    + apply B1 in Ho. destruct (bolt_password c (re_h ev) bound _ d) as [a d']. cbn [fst] in Ho. subst a. done.
Qed.

(** Requests are told apart by their tag. *)
Lemma fin_dead (ev : renv env) id tag bound (r : hout answer * db) :
  r_next (finish ev id tag bound r) = Dead <-> r.1 = HPanic \/ r.1 = HKill.
Proof using Type. apply finish_dead. Qed.
Lemma write_dead {A} b d g (ev : renv env) bound (pr : res A) mk tr :
  sim b d g -> quiet cfg ev -> pr <> Diverge ->
  let x := (if is_empty bound then (HRet (InsufficientAccessRights, true), d)
     else lift_res pr (fun r => if write_allowed c bound then bolt_write c (re_h ev) (mk r) tr d
       else (HRet (InsufficientAccessRights, false), d)) d) in
  (x.1 = HPanic \/ x.1 = HKill) <->
  bound <> [] /\ (pr = Panic \/ (bound = bc_admin c /\ exists r, pr = Ok r /\ op_panics d (mk r))).
Proof using HT.
  intros Hs (Hq1 & Hq2 & _) Hnd. cbv zeta. destruct (is_empty bound) eqn:Eb.
  { apply is_empty_true in Eb. cbn. split; [by intros [?|?]|by intros [? _]]. }
  apply is_empty_false in Eb. destruct pr as [r|e| |]; cbn [lift_res].
  - destruct (write_allowed c bound) eqn:Ew.
    + apply write_allowed_spec in Ew as [Ew _].
      destruct (bolt_write_dead b d g (re_h ev) (mk r) tr Hs Hq1 Hq2) as [H1 H2]. rewrite H1. split.
      * intros [H|H]; [|done]. split; [done|]. right. eauto.
      * intros [_ [?|(_ & r' & [= <-] & H)]]; [done|]. by left.
    + cbn. split; [by intros [?|?]|]. intros [_ [?|(Ha & _)]]; [done|].
      assert (write_allowed c bound = true) as H by by apply write_allowed_spec. by rewrite Ew in H.
  - destruct e; cbn; (split; [by intros [?|?]|]); by intros [_ [?|(_ & r & ? & _)]].
  - cbn. split; auto.
  - done.
Qed.

Lemma bind_alive b d g (ev : renv env) req : base_ok b -> sim b d g ->
  exists code, (handle_bind (bolt_handler c) ev req d).1 = HRet code /\
    (code = Success -> exists v x a rest s, p_kids req = v :: x :: a :: rest /\ p_val x = VStr s).
Proof using Type.
  intros Hb Hs. unfold handle_bind. destruct (p_kids req) as [|v rest]; [by exists OperationsError|].
  destruct (as_int (p_val v)) as [n|]; [|by exists ProtocolError].
  destruct (negb (n =? 3)%Z); [by exists InappropriateAuthentication|].
  destruct rest as [|x rest]; [by exists OperationsError|].
  destruct (as_str (p_val x)) as [s|] eqn:Ex; [|by exists ProtocolError]. apply as_str_inv in Ex.
  destruct rest as [|a rest]; [by exists OperationsError|].
  destruct (negb (p_tag a =? 0)%N); [by exists InappropriateAuthentication|].
  destruct (negb (is_empty rest)); [by exists InappropriateAuthentication|].
  assert (Hk : exists c0, match h_bind (bolt_handler c) (re_h ev) s (p_data a) d with
    | (HRet (code, false), s') => (HRet code, s')
    | (HRet (_, true), s') => (HRet OperationsError, s')
    | (HPanic, s') => (HRet OperationsError, s')
    | (HKill, s') => (HKill, s')
    end.1 = HRet c0).
  { cbn [h_bind bolt_handler]. assert (Hv : forall n0, bolt_validate n0 (p_data a) d <> HKill).
    { intros n0. unfold bolt_validate. destruct (search_calm b d g n0 ScopeBase Hb Hs) as (es & y & ->).
      destruct es as [|e [|? ?]], y; try done. pose proof (validate_nodiv (p_data a) (get_eqfold_val (B "userPassword") (e_attrs e))).
      by destruct (validate _ _) as [[|]| | |]. }
    unfold bolt_bind. repeat case_match; simplify_eq; eauto; exfalso; by eapply Hv. }
  destruct Hk as [c0 Hk]. exists c0. split; [exact Hk|]. intros _. exists v, x, a, rest, s. done.
Qed.

Lemma search_dead b d g ev bound req : base_ok b -> sim b d g -> quiet cfg ev ->
  (forall es s', handle_search cfg (bolt_handler c) ev bound req d = (es, HPanic, s') \/
                 handle_search cfg (bolt_handler c) ev bound req d = (es, HKill, s') ->
   exists r f l x, parse_search req = Ok r /\ sv_enforce cfg = true /\
    compile_filter (sr_filter r) = Some (filter_packet f) /\
    search d (sr_base r) (sr_scope r) = Ok (l, x) /\ l <> [] /\ bare_sub f = true) /\
  (forall r f l x, parse_search req = Ok r -> sv_enforce cfg = true ->
    compile_filter (sr_filter r) = Some (filter_packet f) ->
    search d (sr_base r) (sr_scope r) = Ok (l, x) -> l <> [] -> leading_bare_sub f = true ->
    handle_search cfg (bolt_handler c) ev bound req d = ([], HPanic, d)).
Proof using Type.
  intros Hb Hs (_ & _ & _ & _ & _ & Hq). split.
  - intros es s' H. unfold handle_search in H. destruct (parse_search_calm req) as [Hc1 Hc2].
    destruct (parse_search req) as [r| | |] eqn:Er; try done; [|by destruct H].
    destruct (search_calm b d g (sr_base r) (sr_scope r) Hb Hs) as (l & x & Hl).
    cbn [h_search bolt_handler] in H. unfold bolt_search in H. rewrite Hl in H. cbn [f_err f_entries] in H.
    destruct (sv_enforce cfg).
    + destruct (compile_filter (sr_filter r)) as [q|] eqn:Eq; [|by destruct H]. destruct (Hq _ _ Eq) as [f ->].
      destruct (search_loop_panics f r (re_send ev) l 0) as [H1 H2].
      destruct (search_loop true (filter_packet f) r (re_send ev) l 0) as [o [u|e| |]]; cbn [snd] in *; [by destruct H| | |done].
      * destruct e; by destruct H.
      * destruct (H1 eq_refl) as [Hbs Hne]. exists r, f, l, x. done.
    + destruct (search_loop_off (Pkt 0 false 0 VNil [] []) r (re_send ev) l 0) as [H1 H2].
      destruct (search_loop false _ r (re_send ev) l 0) as [o [u|e| |]]; cbn [snd] in *; try done; [by destruct H|].
      destruct e; by destruct H.
  - intros r f l x Hr He Hc Hl Hne Hlead. unfold handle_search. rewrite Hr, He, Hc.
    cbn [h_search bolt_handler]. unfold bolt_search. rewrite Hl. cbn [f_err f_entries].
    destruct l as [|e l]; [done|]. cbn [search_loop].
    destruct (filter_panics f e) as (_ & H & _). by rewrite (H Hlead).
Qed.

Theorem dead_iff b d g ev bound p : base_ok b -> sim b d g -> quiet cfg ev ->
  (r_next (handle cfg (bolt_handler c) ev bound p d) = Dead -> fatal bare_sub cfg c ev bound p d) /\
  (fatal leading_bare_sub cfg c ev bound p d -> r_next (handle cfg (bolt_handler c) ev bound p d) = Dead).
Proof using HT.
  intros Hb Hs Hq.
  (* what each kind of request does *)
  assert (Hadd : forall req, (handle_add (bolt_handler c) ev bound req d).1 = HPanic \/
      (handle_add (bolt_handler c) ev bound req d).1 = HKill <-> bound <> [] /\ bound = bc_admin c /\ root_add req).
  { intros req. unfold handle_add. cbn [h_add bolt_handler]. unfold bolt_add.
    rewrite (write_dead b d g ev bound (parse_add req) (fun r => OpPut (entry_from_add r)) plain_error Hs Hq) by apply parse_add_calm.
    rewrite parse_add_root. cbn [op_panics entry_from_add e_dn]. split.
    - intros (Hne & [Hp|(Ha & r & Hr & [Hd|Hd])]).
      + by apply parse_add_calm in Hp.
      + eauto 10.
      + exfalso. unfold parse_add in Hr. destruct (p_kids req) as [|x [|l [|? ?]]]; try done.
        destruct (parse_dn_field x) as [s| | |] eqn:Ex; try done. apply parse_dn_field_ok in Ex as [_ [dd Hdd]]. cbn [rbind] in Hr.
        destruct (parse_attr_list l); try done. injection Hr as <-. cbn in Hd. congruence.
    - intros (Hne & Ha & r & Hr & Hd). split; [done|]. right. eauto 10. }
  assert (Hdel : forall req, (handle_delete (bolt_handler c) ev bound req d).1 = HPanic \/
      (handle_delete (bolt_handler c) ev bound req d).1 = HKill <-> bound <> [] /\ bound = bc_admin c /\ root_delete req).
  { intros req. unfold handle_delete. cbn [h_delete bolt_handler]. unfold bolt_delete.
    rewrite (write_dead b d g ev bound (parse_delete req) OpDelete plain_error Hs Hq) by apply parse_delete_calm.
    rewrite parse_delete_root. cbn [op_panics]. split.
    - intros (Hne & [Hp|(Ha & r & Hr & Hd)]); [by apply parse_delete_calm in Hp|]. eauto.
    - intros (Hne & Ha & r & Hr & Hd). eauto 10. }
  assert (Hmdn : forall req, (handle_moddn (bolt_handler c) ev bound req d).1 = HPanic \/
      (handle_moddn (bolt_handler c) ev bound req d).1 = HKill <-> bound <> [] /\ bound = bc_admin c /\ root_moddn req).
  { intros req. unfold handle_moddn. cbn [h_moddn bolt_handler]. unfold bolt_moddn.
    rewrite (write_dead b d g ev bound (parse_moddn req) OpModDn ldap_error Hs Hq) by apply parse_moddn_calm.
    cbn [op_panics]. split.
    - intros (Hne & [Hp|(Ha & r & Hr & dx & dn & Hdx & Hdn & Hd)]); [by apply parse_moddn_calm in Hp|].
      split; [done|]. split; [done|]. apply parse_moddn_ok in Hr as (dx' & dn' & Hdx' & Hdn' & Hr). apply Hr.
      rewrite Hdx in Hdx'. rewrite Hdn in Hdn'. by injection Hdx' as <-; injection Hdn' as <-.
    - intros (Hne & Ha & Hr). apply root_moddn_ok in Hr as (r & dx & dn & Hr & Hdx & Hdn & Hd). eauto 15. }
  assert (Hmod : forall req, (handle_modify (bolt_handler c) ev bound req d).1 = HPanic \/
      (handle_modify (bolt_handler c) ev bound req d).1 = HKill <-> bound <> [] /\ torn_modify req).
  { intros req. destruct (parse_modify_torn req) as [Ht Hnd]. unfold handle_modify. cbn [h_modify bolt_handler]. unfold bolt_modify.
    rewrite (write_dead b d g ev bound (parse_modify req) OpModify ldap_error Hs Hq Hnd).
    cbn [op_panics]. rewrite Ht. split.
    - intros (Hne & [Hp|(_ & ? & _ & [])]). done.
    - intros [? ?]. auto. }
  split.
  - intros H. apply handle_dead in H as (id & req & Henv & [Hbc|[Hnc H]]); [by eapply fatal_control|].
    unfold dispatch in H.
    destruct (p_tag req =? AddRequest)%N eqn:E1.
    { apply N.eqb_eq in E1. apply fin_dead, Hadd in H as (H1 & H2 & H3). eapply fatal_root; eauto. }
    destruct (p_tag req =? BindRequest)%N eqn:E2.
    { destruct (bind_alive b d g ev req Hb Hs) as (code & Hc & Hsucc).
      destruct (handle_bind (bolt_handler c) ev req d) as [o s']. cbn [fst] in Hc. subst o.
      destruct (code =? Success)%N eqn:Ec.
      - apply N.eqb_eq in Ec. destruct (Hsucc Ec) as (v & x & a & rest & s & Hk & Hx). rewrite Hk, Hx in H.
        cbn [as_str] in H. destruct (parse_normalize s); [|done].
        unfold send_final in H. by destruct (re_send ev 0).
      - unfold send_final in H. by destruct (re_send ev 0). }
    destruct (p_tag req =? CompareRequest)%N. { unfold send_final in H. by destruct (re_send ev 0). }
    destruct (p_tag req =? DelRequest)%N eqn:E3.
    { apply N.eqb_eq in E3. apply fin_dead, Hdel in H as (H1 & H2 & H3). eapply fatal_root; eauto 10. }
    destruct (p_tag req =? ExtendedRequest)%N eqn:E4.
    { apply N.eqb_eq in E4.
      assert (Hx : (handle_extended cfg (bolt_handler c) ev bound req d).1 = HPanic \/
        (handle_extended cfg (bolt_handler c) ev bound req d).1 = HKill).
      { destruct (handle_extended cfg (bolt_handler c) ev bound req d) as [[[code v]| |] s']; cbn [fst]; auto.
        unfold send_final in H. by destruct (re_send ev 0). }
      apply (pwmod_dead b d g) in Hx as (Hne & r & pw & h & u & H1 & H2 & H3 & H4 & [[H5 H6]|(H5 & H6 & e & H7 & H8)]); [..|done|done].
      - eapply fatal_denied; eauto.
      - eapply fatal_old; eauto. }
    destruct (p_tag req =? ModifyDNRequest)%N eqn:E5.
    { apply N.eqb_eq in E5. apply fin_dead, Hmdn in H as (H1 & H2 & H3). eapply fatal_root; eauto 10. }
    destruct (p_tag req =? ModifyRequest)%N eqn:E6.
    { apply N.eqb_eq in E6. apply fin_dead, Hmod in H as (H1 & H2). eapply fatal_changes; eauto. }
    destruct (p_tag req =? SearchRequest)%N eqn:E7; [|done]. apply N.eqb_eq in E7.
    destruct (search_dead b d g ev bound req Hb Hs Hq) as [Hsd _].
    destruct (handle_search cfg (bolt_handler c) ev bound req d) as [[es [o| |]] s'].
    + unfold send_final in H. destruct (re_send ev _); [|done]. by destruct o.
    + destruct (Hsd es s') as (r & f & l & x & H1 & H2 & H3 & H4 & H5 & H6); [auto|]. eapply fatal_filter; eauto.
    + destruct (Hsd es s') as (r & f & l & x & H1 & H2 & H3 & H4 & H5 & H6); [auto|]. eapply fatal_filter; eauto.
  - intros Hf. apply handle_dead. destruct Hf as [id req Henv Hbc|id req Henv Hbc Ha Hne Hr|id req Henv Hbc Hne Ht Htorn
      |id req r pw h u Henv Hbc Hne Ht Hreq Hnew Hh Hu H1 H2|id req r pw h u e Henv Hbc Hne Ht Hreq Hnew Hh Hu H1 H2 H3 H4
      |id req r f es x Henv Hbc Ht Hr He Hc Hl Hes Hsub]; exists id, req; (split; [done|]); [by left|..]; right; (split; [done|]);
      unfold dispatch.
    + destruct Hr as [[Ht Hr]|[[Ht Hr]|[Ht Hr]]]; rewrite Ht;
        cbn [N.eqb Pos.eqb AddRequest BindRequest CompareRequest DelRequest ExtendedRequest ModifyDNRequest ModifyRequest SearchRequest];
        apply fin_dead; [apply Hadd|apply Hdel|apply Hmdn]; done.
    + rewrite Ht. cbn [N.eqb Pos.eqb AddRequest BindRequest CompareRequest DelRequest ExtendedRequest ModifyDNRequest ModifyRequest SearchRequest].
      apply fin_dead, Hmod. done.
    + rewrite Ht. cbn [N.eqb Pos.eqb AddRequest BindRequest CompareRequest DelRequest ExtendedRequest ModifyDNRequest ModifyRequest SearchRequest].
      destruct (proj2 (pwmod_dead b d g ev bound req Hs Hq)) as [Hx|Hx].
      { split; [done|]. exists r, pw, h, u. auto 10. }
      * by destruct (handle_extended cfg (bolt_handler c) ev bound req d) as [[[code v]| |] s'].
      * by destruct (handle_extended cfg (bolt_handler c) ev bound req d) as [[[code v]| |] s'].
    + rewrite Ht. cbn [N.eqb Pos.eqb AddRequest BindRequest CompareRequest DelRequest ExtendedRequest ModifyDNRequest ModifyRequest SearchRequest].
      destruct (proj2 (pwmod_dead b d g ev bound req Hs Hq)) as [Hx|Hx].
      { split; [done|]. exists r, pw, h, u. eauto 15. }
      * by destruct (handle_extended cfg (bolt_handler c) ev bound req d) as [[[code v]| |] s'].
      * by destruct (handle_extended cfg (bolt_handler c) ev bound req d) as [[[code v]| |] s'].
    + rewrite Ht. cbn [N.eqb Pos.eqb AddRequest BindRequest CompareRequest DelRequest ExtendedRequest ModifyDNRequest ModifyRequest SearchRequest].
      destruct (search_dead b d g ev bound req Hb Hs Hq) as [_ Hsd]. by rewrite (Hsd r f es x).
Qed.
End fatal.
