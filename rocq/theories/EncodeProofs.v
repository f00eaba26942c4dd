(** The request parsers read exactly what the packets say. *)
From Verif Require Import Bytes Text Dn Res Entry Password Db Packet Encode.

Lemma octets_test p : (p_cls p =? ClassUniversal)%N && negb (p_con p) && (p_tag p =? TagOctetString)%N = true
  <-> is_octets p.
Proof.
  unfold is_octets. rewrite !andb_true_iff, !N.eqb_eq, negb_true_iff. tauto.
Qed.
Lemma seq_test p : is_sequence p = true <-> is_seq p.
Proof. unfold is_sequence, is_seq. rewrite !andb_true_iff, !N.eqb_eq. tauto. Qed.
Lemma set_test p : (p_cls p =? ClassUniversal)%N && p_con p && (p_tag p =? TagSet)%N = true <-> is_set p.
Proof. unfold is_set. rewrite !andb_true_iff, !N.eqb_eq. tauto. Qed.
Lemma as_str_iff v s : as_str v = Some s <-> v = VStr s.
Proof. destruct v; split; try done; by intros [= ->]. Qed.
Lemma as_int_iff v s : as_int v = Some s <-> v = VInt s.
Proof. destruct v; split; try done; by intros [= ->]. Qed.
Lemma as_bool_iff v s : as_bool v = Some s <-> v = VBool s.
Proof. destruct v; split; try done; by intros [= ->]. Qed.

(** Inverting a sequence of steps. *)
Lemma bind_ok {A B} (r : res A) (f : A -> res B) b :
  rbind r f = Ok b <-> exists a, r = Ok a /\ f a = Ok b.
Proof.
  destruct r as [a| | |]; cbn [rbind]; split; try done; try by intros (? & ? & ?).
  - intros H. by exists a.
  - by intros (a' & [= <-] & H).
Qed.
Lemma opt_ok {A} c (o : option A) a : opt c o = Ok a <-> o = Some a.
Proof. destruct o; cbn [opt]; split; try done; by intros [= ->]. Qed.
(** Errors with the code [c] only. *)
Definition fails {A} (c : N) (r : res A) : Prop := r = perr c.

Lemma texts_iff l vs : parse_vals l = Ok vs <-> Forall2 says_text l vs.
Proof.
  revert vs. induction l as [|p l IH]; intros vs; cbn [parse_vals].
  - split; [by intros [= <-]|]. by inversion 1.
  - rewrite bind_ok. split.
    + intros (s & Hs & H). apply bind_ok in H as (r & Hr & [= <-]).
      apply opt_ok, as_str_iff in Hs. constructor; [done|]. by apply IH.
    + inversion 1 as [|? s ? r Hs Hr]; subst. exists s. split; [by apply opt_ok, as_str_iff|].
      apply bind_ok. exists r. split; [by apply IH|done].
Qed.
Lemma sel_iff l vs : parse_sel l = Ok vs <-> Forall2 says_text l vs.
Proof. apply (texts_iff l vs). Qed.
Lemma texts_else l : fails ProtocolError (parse_vals l) \/ exists vs, parse_vals l = Ok vs.
Proof.
  induction l as [|p l IH]; cbn [parse_vals]; [right; by eexists|].
  destruct (as_str (p_val p)) as [s|]; [|by left]. cbn [opt rbind].
  destruct IH as [->|[vs ->]]; [by left|right; by eexists].
Qed.
Lemma type_iff t n : parse_attr_type t = Ok n <-> is_octets t /\ says_text t n.
Proof.
  unfold parse_attr_type. destruct (_ && _ && _) eqn:E.
  - apply octets_test in E. rewrite opt_ok, as_str_iff. unfold says_text. tauto.
  - split; [done|]. intros [H _]. apply octets_test in H. congruence.
Qed.
Lemma values_iff v vs : parse_attr_values v = Ok vs <-> is_set v /\ Forall2 says_text (p_kids v) vs.
Proof.
  unfold parse_attr_values. destruct (_ && _ && _) eqn:E.
  - apply set_test in E. rewrite texts_iff. tauto.
  - split; [done|]. intros [H _]. apply set_test in H. congruence.
Qed.
Lemma attr_iff p a : parse_attribute false p = Ok a <-> says_attr p a.
Proof.
  unfold parse_attribute, says_attr.
  destruct (p_kids p) as [|t [|v [|w l]]].
  1,2,4: split; [done|]; intros (t' & v' & ? & _); done.
  rewrite bind_ok. split.
  - intros (n & Hn & H). apply bind_ok in H as (vs & Hv & [= <-]). apply type_iff in Hn as [Ho Ht].
    apply values_iff in Hv as [Hs Hv]. exists t, v. done.
  - intros (t' & v' & [= <- <-] & Ho & Ht & Hs & Hv). exists a.1. split; [by apply type_iff|].
    apply bind_ok. exists a.2. split; [by apply values_iff|]. by destruct a.
Qed.
Lemma partial_iff p a : parse_attribute true p = Ok a <-> says_partial p a.
Proof.
  unfold says_partial. destruct (p_kids p) as [|t [|v l]] eqn:Ek.
  - unfold parse_attribute. rewrite Ek. split; [done|].
    intros [(t & v & H & _)|(t & H & _)]; congruence.
  - unfold parse_attribute. rewrite Ek, bind_ok. split.
    + intros (n & Hn & [= <-]). apply type_iff in Hn as [Ho Ht]. right. by exists t.
    + intros [(t' & v & H & _)|(t' & [= <-] & Ho & Ht & He)]; [congruence|].
      exists a.1. split; [by apply type_iff|]. destruct a as [n vs]. cbn in He |- *. by subst.
  - assert (parse_attribute true p = parse_attribute false p) as ->
      by (unfold parse_attribute; by rewrite Ek).
    rewrite attr_iff. split; [by left|]. intros [H|(t' & H & _)]; [done|congruence].
Qed.
Lemma attrs_iff l as' : parse_attrs l = Ok as' <-> Forall2 says_attr l as'.
Proof.
  revert as'. induction l as [|p l IH]; intros as'; cbn [parse_attrs].
  - split; [by intros [= <-]|]. by inversion 1.
  - rewrite bind_ok. split.
    + intros (a & Ha & H). apply bind_ok in H as (r & Hr & [= <-]).
      constructor; [by apply attr_iff|]. by apply IH.
    + inversion 1 as [|? a ? r Ha Hr]; subst. exists a. split; [by apply attr_iff|].
      apply bind_ok. exists r. split; [by apply IH|done].
Qed.
Lemma type_else t : fails ProtocolError (parse_attr_type t) \/ exists n, parse_attr_type t = Ok n.
Proof.
  unfold parse_attr_type. destruct (_ && _ && _); [|by left].
  destruct (as_str (p_val t)); [right; by eexists|by left].
Qed.
Lemma values_else v : fails ProtocolError (parse_attr_values v) \/ exists vs, parse_attr_values v = Ok vs.
Proof. unfold parse_attr_values. destruct (_ && _ && _); [apply texts_else|by left]. Qed.
Lemma attr_else b p : fails ProtocolError (parse_attribute b p) \/ exists a, parse_attribute b p = Ok a.
Proof.
  unfold parse_attribute. destruct (p_kids p) as [|t [|v [|w l]]]; [by left| | |by left].
  - destruct b; [|by left]. destruct (type_else t) as [->|[n ->]]; [by left|right; by eexists].
  - destruct (type_else t) as [->|[n ->]]; [by left|]. cbn [rbind].
    destruct (values_else v) as [->|[vs ->]]; [by left|right; by eexists].
Qed.
Lemma attrs_else l : fails ProtocolError (parse_attrs l) \/ exists a, parse_attrs l = Ok a.
Proof.
  induction l as [|p l IH]; cbn [parse_attrs]; [right; by eexists|].
  destruct (attr_else false p) as [->|[a ->]]; [by left|]. cbn [rbind].
  destruct IH as [->|[r ->]]; [by left|right; by eexists].
Qed.

Section parse.
Context {T : Text}.

Lemma dn_iff p s : parse_dn_field p = Ok s <-> says_dn p s.
Proof using Type.
  unfold parse_dn_field, says_dn, says_text, check_dn. rewrite bind_ok. split.
  - intros (s' & Hs & H). apply opt_ok, as_str_iff in Hs.
    destruct (parse_dn s') eqn:E; [|done]. injection H as <-. split; [done|]. by eexists.
  - intros [Hs [d Hd]]. exists s. split; [by apply opt_ok, as_str_iff|]. by rewrite Hd.
Qed.
Lemma dn_else p : fails ProtocolError (parse_dn_field p) \/ exists s, parse_dn_field p = Ok s.
Proof using Type.
  unfold parse_dn_field, check_dn. destruct (as_str (p_val p)) as [s|]; [|by left]. cbn [opt rbind].
  destruct (parse_dn s); [right; by eexists|by left].
Qed.

Lemma add_iff p r : parse_add p = Ok r <-> says_add p r.
Proof using Type.
  unfold parse_add, says_add, parse_attr_list.
  destruct (p_kids p) as [|d [|l [|x k]]].
  1,2,4: split; [done|]; intros (d' & l' & ? & _); done.
  rewrite bind_ok. split.
  - intros (s & Hs & H). apply bind_ok in H as (a & Ha & [= <-]).
    destruct (is_sequence l) eqn:E; [|done]. apply seq_test in E. apply attrs_iff in Ha.
    apply dn_iff in Hs. exists d, l. done.
  - intros (d' & l' & [= <- <-] & Hd & Hl & Ha). exists (ad_dn r). split; [by apply dn_iff|].
    apply seq_test in Hl. rewrite Hl. apply attrs_iff in Ha. rewrite Ha. by destruct r.
Qed.
Lemma add_else p : parse_add p = perr ProtocolError \/ exists r, parse_add p = Ok r.
Proof using Type.
  unfold parse_add, parse_attr_list. destruct (p_kids p) as [|d [|l [|x k]]]; [by left..| |by left].
  destruct (dn_else d) as [->|[s ->]]; [by left|]. cbn [rbind].
  destruct (is_sequence l); [|by left].
  destruct (attrs_else (p_kids l)) as [->|[a ->]]; [by left|right; by eexists].
Qed.

Lemma delete_iff p s : parse_delete p = Ok s <-> says_delete p s.
Proof using Type.
  unfold parse_delete, says_delete, check_dn. destruct (p_kids p); [|split; [done|by intros [? _]]].
  destruct (parse_dn (p_data p)) as [d|] eqn:E; split; try done.
  - intros [= <-]. split; [done|]. split; [done|]. rewrite E. by eexists.
  - by intros (_ & -> & _).
  - intros (_ & <- & [d Hd]). congruence.
Qed.
Lemma delete_else p : parse_delete p = perr ProtocolError \/ exists r, parse_delete p = Ok r.
Proof using Type.
  unfold parse_delete, check_dn. destruct (p_kids p); [|by left].
  destruct (parse_dn (p_data p)); [right; by eexists|by left].
Qed.

Lemma op_iff o op : parse_change_op o = Ok op <-> exists x data, p_data o = x :: data /\ code x = op_number op.
Proof using Type.
  unfold parse_change_op. destruct (p_data o) as [|x data].
  { split; [done|]. by intros (x & data & ? & _). }
  assert (Hx : (exists y data', x :: data = y :: data' /\ code y = op_number op) <-> code x = op_number op).
  { split; [by intros (y & data' & [= <- <-] & H)|]. intros H. by exists x, data. }
  rewrite Hx. clear Hx. destruct (N.eqb_spec (code x) 0) as [->|H0].
  { destruct op; split; try done. }
  destruct (N.eqb_spec (code x) 1) as [->|H1]; [destruct op; split; done|].
  destruct (N.eqb_spec (code x) 2) as [->|H2]; [destruct op; split; done|].
  split; [done|]. by destruct op.
Qed.
Lemma change_iff p c : parse_change p = Ok c <-> says_change p c.
Proof using Type.
  unfold parse_change, says_change. destruct (p_kids p) as [|o rest].
  { split; [done|]. by intros (? & ? & ? & ? & ? & ? & _). }
  rewrite bind_ok. split.
  - intros (op & Ho & H). destruct rest as [|a rest]; [done|]. apply op_iff in Ho as (x & data & Hd & Hx).
    apply bind_ok in H as ([n vs] & Ha & [= <-]). apply partial_iff in Ha.
    exists o, a, rest, x, data. done.
  - intros (o' & a & rest' & x & data & [= <- ->] & Hd & Hx & Ha). exists (c_op c). split.
    { apply op_iff. by exists x, data. }
    apply partial_iff in Ha. rewrite Ha. by destruct c.
Qed.
Lemma changes_iff l cs : parse_changes l = Ok cs <-> Forall2 says_change l cs.
Proof using Type.
  revert cs. induction l as [|p l IH]; intros cs; cbn [parse_changes].
  - split; [by intros [= <-]|]. by inversion 1.
  - rewrite bind_ok. split.
    + intros (a & Ha & H). apply bind_ok in H as (r & Hr & [= <-]).
      constructor; [by apply change_iff|]. by apply IH.
    + inversion 1 as [|? a ? r Ha Hr]; subst. exists a. split; [by apply change_iff|].
      apply bind_ok. exists r. split; [by apply IH|done].
Qed.
Lemma modify_iff p r : parse_modify p = Ok r <-> says_modify p r.
Proof using Type.
  unfold parse_modify, says_modify, parse_mod_list.
  destruct (p_kids p) as [|d [|l [|x k]]].
  1,2,4: split; [done|]; intros (d' & l' & ? & _); done.
  rewrite bind_ok. split.
  - intros (s & Hs & H). apply bind_ok in H as (a & Ha & [= <-]).
    destruct (is_sequence l) eqn:E; [|done]. apply seq_test in E. apply changes_iff in Ha.
    apply dn_iff in Hs. exists d, l. done.
  - intros (d' & l' & [= <- <-] & Hd & Hl & Ha). exists (m_dn r). split; [by apply dn_iff|].
    apply seq_test in Hl. rewrite Hl. apply changes_iff in Ha. rewrite Ha. by destruct r.
Qed.
(** The list of changes is refused, cut off, or read. *)
Lemma changes_else l :
  parse_changes l = Panic \/ parse_changes l = perr ProtocolError \/ parse_changes l = perr DecodingError \/
  exists cs, parse_changes l = Ok cs.
Proof using Type.
  induction l as [|p l IH]; cbn [parse_changes]; [do 3 right; by eexists|].
  unfold parse_change. destruct (p_kids p) as [|o rest]; [by left|].
  unfold parse_change_op. destruct (p_data o) as [|x data]; [by left|].
  assert (forall op, let r := (c <-- (op' <-- Ok op;; match rest with [] => Panic
      | a :: _ => y <-- parse_attribute true a ;; Ok (mkChange op' y.1 y.2) end);;
      r <-- parse_changes l ;; Ok (c :: r)) in
      r = Panic \/ r = perr ProtocolError \/ r = perr DecodingError \/ exists cs, r = Ok cs) as Hop.
  { intros op. cbn [rbind]. destruct rest as [|a rest]; [by left|].
    destruct (attr_else true a) as [->|[y ->]]; [by right; left|]. cbn [rbind].
    destruct IH as [->|[->|[->|[r ->]]]]; [by left|by right; left|by right; right; left|].
    do 3 right. by eexists. }
  destruct (code x =? 0)%N; [apply Hop|]. destruct (code x =? 1)%N; [apply Hop|].
  destruct (code x =? 2)%N; [apply Hop|]. by right; right; left.
Qed.
Lemma modify_else p :
  parse_modify p = Panic \/ parse_modify p = perr ProtocolError \/ parse_modify p = perr DecodingError \/
  exists r, parse_modify p = Ok r.
Proof using Type.
  unfold parse_modify, parse_mod_list. destruct (p_kids p) as [|d [|l [|x k]]]; try (by right; left).
  destruct (dn_else d) as [->|[s ->]]; [by right; left|]. cbn [rbind].
  destruct (is_sequence l); [|by right; left].
  destruct (changes_else (p_kids l)) as [->|[->|[->|[r ->]]]]; [by left|by right; left|by right; right; left|].
  do 3 right. by eexists.
Qed.

Lemma moddn_iff p r : parse_moddn p = Ok r <-> says_moddn p r.
Proof using Type.
  unfold parse_moddn, says_moddn. destruct (p_kids p) as [|d [|n [|o rest]]].
  1-3: split; [done|]; by intros (? & ? & ? & ? & _).
  destruct (1 <? length rest) eqn:El.
  { split; [done|]. intros (d' & n' & o' & [= <- <- <- ->] & _). done. }
  rewrite bind_ok. split.
  - intros (s & Hs & H). apply bind_ok in H as (nr & Hn & H). apply bind_ok in H as (b & Hb & H).
    destruct rest as [|x rest]; [|done]. injection H as <-.
    apply dn_iff in Hs. apply dn_iff in Hn. apply opt_ok, as_bool_iff in Hb. exists d, n, o. done.
  - intros (d' & n' & o' & [= <- <- <- ->] & Hd & Hn & Hb). exists (md_dn r).
    apply dn_iff in Hd, Hn. rewrite Hd, Hn, Hb. split; [done|]. cbn. by destruct r.
Qed.
Lemma moddn_else p :
  parse_moddn p = perr ProtocolError \/ parse_moddn p = perr UnwillingToPerform \/
  exists r, parse_moddn p = Ok r.
Proof using Type.
  unfold parse_moddn. destruct (p_kids p) as [|d [|n [|o rest]]]; [by left..|].
  destruct (1 <? length rest); [by left|].
  destruct (dn_else d) as [->|[s ->]]; [by left|]. cbn [rbind].
  destruct (dn_else n) as [->|[s' ->]]; [by left|]. cbn [rbind].
  destruct (as_bool (p_val o)); [|by left]. cbn [opt rbind].
  destruct rest; [right; right; by eexists|by right; left].
Qed.

Lemma search_iff {W : Wire} p r : parse_search p = Ok r <-> says_search p r.
Proof using Type.
  unfold parse_search, says_search.
  destruct (p_kids p) as [|b [|s [|a [|z [|t [|o [|f [|l [|x k]]]]]]]]].
  1-8,10: split; [done|]; by intros (? & ? & ? & ? & ? & ? & ? & ? & ? & ? & ? & _).
  split.
  - intros H. apply bind_ok in H as (base & Hb & H). apply bind_ok in H as (scope & Hs & H).
    apply bind_ok in H as (da & Ha & H). apply bind_ok in H as (size & Hz & H).
    apply bind_ok in H as (ti & Ht & H). apply bind_ok in H as (types & Ho & H).
    apply bind_ok in H as (flt & Hf & H). apply bind_ok in H as (attrs & Hl & [= <-]).
    apply opt_ok, as_str_iff in Hb. apply opt_ok, as_int_iff in Hs, Ha, Hz, Ht. apply opt_ok in Hf.
    apply sel_iff in Hl. exists b, s, a, z, t, o, f, l, da, ti. repeat (split; [done|]).
    split; [|done]. cbn. destruct (p_val o) eqn:E; cbn in Ho; try done.
    + right. by injection Ho as <-.
    + left. by injection Ho as <-.
  - intros (b' & s' & a' & z' & t' & o' & f' & l' & da & ti & [= <- <- <- <- <- <- <- <-] & Hb & Hs & Ha & Hz & Ht & Ho & Hf & Hl).
    unfold says_text in Hb. rewrite Hb, Hs, Ha, Hz, Ht, Hf. cbn [as_str as_int opt rbind].
    apply sel_iff in Hl. rewrite Hl. destruct r as [rb rs rz rt rf ra]. cbn in *.
    destruct Ho as [->|[-> ->]]; done.
Qed.
End parse.

(** The packets a client builds say what they were built from. *)
Lemma enc_attr_says a : says_attr (enc_attr a) a.
Proof.
  exists (p_octets a.1), (p_set (map p_octets a.2)). repeat (split; [done|]).
  cbn [p_kids p_set]. induction a.2 as [|v vs IH]; [constructor|]. by constructor.
Qed.
Lemma enc_attrs_say l : Forall2 says_attr (map enc_attr l) l.
Proof. induction l; constructor; [apply enc_attr_says|done]. Qed.
Lemma enc_change_says c : says_change (enc_change c) c.
Proof.
  exists (p_enum (op_number (c_op c))), (enc_attr (c_type c, c_vals c)), [], (ascii_of_N (op_number (c_op c))), [].
  split; [done|]. split; [done|]. split; [by destruct (c_op c)|]. left. apply enc_attr_says.
Qed.
Lemma enc_changes_say l : Forall2 says_change (map enc_change l) l.
Proof. induction l; constructor; [apply enc_change_says|done]. Qed.
Lemma enc_texts_say l : Forall2 says_text (map p_octets l) l.
Proof. induction l; by constructor. Qed.

(** The fields of a password modification: all context-specific with a tag up
    to 2, and of several with the same tag the last one counts. *)
Lemma pw_fields_iff l r0 r :
  parse_pw_fields l r0 = Ok r <->
  Forall (fun p => p_cls p = ClassContext /\ (p_tag p <= 2)%N) l /\
  r = mkPw (from_option id (pw_user r0) (last_field 0 l)) (from_option id (pw_old r0) (last_field 1 l))
           (from_option id (pw_new r0) (last_field 2 l)).
Proof.
  revert r0. induction l as [|p l IH]; intros r0; cbn [parse_pw_fields].
  { split; [intros [= <-]; split; [constructor|by destruct r0]|]. intros [_ ->]. by destruct r0. }
  assert (Hlast : forall t, last_field t (p :: l) =
    match last_field t l with Some s => Some s | None => if (p_tag p =? t)%N then Some (p_data p) else None end).
  { intros t. unfold last_field. cbn [List.filter]. destruct (p_tag p =? t)%N; cbn [map];
      [|by destruct (last _)].
    rewrite last_cons. by destruct (last _). }
  rewrite !Hlast. rewrite Forall_cons.
  destruct (N.eqb_spec (p_cls p) ClassContext) as [Hc|Hc]; cbn [negb].
  2:{ split; [done|]. by intros [[[? _] _] _]. }
  destruct (N.eqb_spec (p_tag p) 0) as [H0|H0].
  { rewrite IH, H0. change (0 =? 1)%N with false. change (0 =? 2)%N with false. cbn [pw_user pw_old pw_new].
    assert (0 <= 2)%N by lia.
    destruct (last_field 0 l), (last_field 1 l), (last_field 2 l); cbn; tauto. }
  destruct (N.eqb_spec (p_tag p) 1) as [H1|H1].
  { rewrite IH, H1. change (1 =? 2)%N with false. cbn [pw_user pw_old pw_new].
    assert (1 <= 2)%N by lia.
    destruct (last_field 0 l), (last_field 1 l), (last_field 2 l); cbn; tauto. }
  destruct (N.eqb_spec (p_tag p) 2) as [H2|H2].
  { rewrite IH, H2. cbn [pw_user pw_old pw_new].
    assert (2 <= 2)%N by lia.
    destruct (last_field 0 l), (last_field 1 l), (last_field 2 l); cbn; tauto. }
  split; [done|]. intros [[[_ ?] _] _]. lia.
Qed.
Lemma pw_fields_else l r0 : parse_pw_fields l r0 = perr DecodingError \/ exists r, parse_pw_fields l r0 = Ok r.
Proof.
  revert r0. induction l as [|p l IH]; intros r0; cbn [parse_pw_fields]; [right; by eexists|].
  destruct (p_cls p =? ClassContext)%N; [|by left]. cbn [negb].
  destruct (p_tag p =? 0)%N; [apply IH|]. destruct (p_tag p =? 1)%N; [apply IH|].
  destruct (p_tag p =? 2)%N; [apply IH|]. by left.
Qed.
