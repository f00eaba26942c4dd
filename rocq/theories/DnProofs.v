(** Lemmas about Dn.v: escaping round trip, parser/printer round trip,
    injectivity of the normal form. *)
From Verif Require Import Bytes Text Dn.

(** The normal form without folding, written with joins. *)
Definition flat_ava (p : ava) : str := p.1 ++ B "=" ++ encode_rdn_value p.2.
Definition flat_rdn (r : rdn) : str := join (B "+") (map flat_ava r).
Definition flat (d : dn) : str := join (B ",") (map flat_rdn d).

Definition plain_char (c : ascii) : bool :=
  negb (aeqb c "\"%char) && negb (aeqb c ","%char) &&
  negb (aeqb c "+"%char) && negb (aeqb c ";"%char).

Lemma hex2_plain c :
  match hex_enc c with
  | [a; b] => plain_char b = true /\ dn_special a = false /\
              is_print a = true /\ is_print b = true /\ b <> space
  | _ => False
  end.
Proof.
  assert (H : (match hex_enc c with
    | [a; b] => plain_char b && negb (dn_special a) && is_print a && is_print b
                && negb (aeqb b space)
    | _ => false end) = true).
  { revert c. apply ascii_forall. vm_compute. reflexivity. }
  destruct (hex_enc c) as [|a [|b [|? ?]]]; try done.
  rewrite !andb_true_iff, !negb_true_iff in H.
  destruct H as ((((? & ?) & ?) & ?) & ?). repeat split; try done.
  by apply aeqb_neq.
Qed.

Lemma enc_special_plain c :
  enc_special c = false -> aeqb c "#"%char = false -> plain_char c = true.
Proof.
  intros H1 H2.
  assert (H : (enc_special c || plain_char c) = true).
  { revert c H1 H2. intros c _ _. revert c. apply ascii_forall. vm_compute. reflexivity. }
  by rewrite H1 in H.
Qed.
Lemma enc_special_dn c : enc_special c = true -> dn_special c = true.
Proof.
  intros H1. assert (H : (negb (enc_special c) || dn_special c) = true).
  { revert c H1. intros c _. revert c. apply ascii_forall. vm_compute. reflexivity. }
  by rewrite H1 in H.
Qed.
Lemma enc_special_print c : enc_special c = true -> is_print c = true.
Proof.
  intros H1. assert (H : (negb (enc_special c) || is_print c) = true).
  { revert c H1. intros c _. revert c. apply ascii_forall. vm_compute. reflexivity. }
  by rewrite H1 in H.
Qed.
Lemma enc_special_nospace c : enc_special c = true -> c <> space.
Proof. intros H ->. vm_compute in H. done. Qed.

(** The five shapes of an encoded byte. *)
Inductive token (first : bool) (c : ascii) (last : bool) : str -> Prop :=
| tok_sp : c = space -> token first c last ["\"%char; c]
| tok_hash : c = "#"%char -> token first c last ["\"%char; c]
| tok_esc : enc_special c = true -> token first c last ["\"%char; c]
| tok_hex : forall a b, c <> space -> hex_enc c = [a; b] -> token first c last ["\"%char; a; b]
| tok_plain : plain_char c = true -> aeqb c "#"%char = false -> is_print c = true ->
    (first = true -> c <> space) -> (last = true -> c <> space) ->
    token first c last [c].

Lemma enc_loop_cons first c s :
  exists t, token first c (is_empty s) t /\
    enc_loop first (c :: s) = t ++ enc_loop false s.
Proof.
  cbn [enc_loop].
  destruct ((first && aeqb c space) || aeqb c "#"%char) eqn:E1.
  { exists ["\"%char; c]. split; [|done].
    apply orb_true_iff in E1 as [E1|E1].
    - apply andb_true_iff in E1 as [_ E1]. apply tok_sp. by apply aeqb_eq.
    - apply tok_hash. by apply aeqb_eq. }
  apply orb_false_iff in E1 as [E1 E1'].
  destruct (is_empty s && aeqb c space) eqn:E2.
  { exists ["\"%char; c]. split; [|done].
    apply andb_true_iff in E2 as [_ E2]. apply tok_sp. by apply aeqb_eq. }
  destruct (enc_special c) eqn:E3.
  { exists ["\"%char; c]. split; [|done]. by apply tok_esc. }
  destruct ((code c <? 32)%N || (126 <? code c)%N) eqn:E4.
  { pose proof (hex2_plain c) as H. destruct (hex_enc c) as [|a [|b [|? ?]]] eqn:E; try done.
    exists ["\"%char; a; b]. split; [|done]. apply tok_hex; [|done]. intros ->. vm_compute in E4. done. }
  exists [c]. split; [|done]. apply tok_plain; try done.
  - by apply enc_special_plain.
  - unfold is_print. apply orb_false_iff in E4 as [E4 E5].
    apply N.ltb_ge in E4, E5. apply andb_true_iff. split; apply N.leb_le; done.
  - intros ->. simpl in E1. by apply aeqb_neq.
  - intros H. rewrite H in E2. simpl in E2. by apply aeqb_neq.
Qed.

Lemma enc_prints first s : prints (enc_loop first s).
Proof.
  revert first. induction s as [|c s IH]; intros first; [constructor|].
  destruct (enc_loop_cons first c s) as (t & Ht & ->).
  apply Forall_app. split; [|apply IH].
  destruct Ht as [ -> | -> |Hc|a b Hnsp Hh|? ? Hp].
  - repeat constructor.
  - repeat constructor.
  - repeat constructor. by apply enc_special_print.
  - pose proof (hex2_plain c) as H. rewrite Hh in H.
    destruct H as (_ & _ & ? & ? & _). repeat constructor; done.
  - repeat constructor; done.
Qed.

Lemma decode_enc first s : decode_loop (enc_loop first s) = Some s.
Proof.
  revert first. induction s as [|c s IH]; intros first; [done|].
  destruct (enc_loop_cons first c s) as (t & Ht & ->).
  destruct Ht as [ -> | -> |Hc|a b Hnsp Hh|Hp ? ?].
  - simpl. by rewrite IH.
  - simpl. by rewrite IH.
  - simpl. rewrite (enc_special_dn _ Hc). by rewrite IH.
  - pose proof (hex2_plain c) as H. pose proof (hex_roundtrip c) as Hr.
    rewrite Hh in H, Hr. destruct H as (_ & Ha & _).
    simpl. rewrite Ha, Hr, IH. done.
  - unfold plain_char in Hp. simpl.
    destruct (aeqb c "\"%char); [done|]. by rewrite IH.
Qed.

(** No raw blank at either end, except an escaped one at the end. *)
Lemma enc_head s :
  match enc_loop true s with [] => True | c :: _ => c <> space /\ c <> "#"%char end.
Proof.
  destruct s as [|c s]; [done|].
  destruct (enc_loop_cons true c s) as (t & Ht & ->).
  destruct Ht as [ -> | -> |Hc|a b Hnsp Hh|Hp Hh ? Hf ?]; simpl; try (split; done).
  split; [by apply Hf|by apply aeqb_neq].
Qed.

Lemma ends_with_app c a b : b <> [] -> ends_with c (a ++ b) = ends_with c b.
Proof.
  intros Hb. unfold ends_with. rewrite rev_app_distr.
  destruct (rev b) eqn:E; [|done].
  exfalso. apply Hb. rewrite <- (rev_involutive b), E. done.
Qed.
Lemma ends_with_nil c : ends_with c [] = false.
Proof. done. Qed.
Lemma ends_with_true c s : ends_with c s = true <-> exists t, s = t ++ [c].
Proof.
  unfold ends_with. split.
  - destruct (rev s) as [|d r] eqn:E; [done|]. intros H. apply aeqb_eq in H as ->.
    exists (rev r). rewrite <- (rev_involutive s), E. done.
  - intros [t ->]. rewrite rev_app_distr. simpl. apply aeqb_refl.
Qed.

Lemma enc_nonempty first s : s <> [] -> enc_loop first s <> [].
Proof.
  destruct s as [|c s]; [done|]. intros _.
  destruct (enc_loop_cons first c s) as (t & Ht & ->).
  by destruct Ht.
Qed.

(** Encoding ends in a blank exactly when the value does, and then the blank is
    preceded by a backslash. *)
Lemma enc_ends first s :
  if ends_with space s
  then exists t, enc_loop first s = t ++ ["\"%char; space]
  else ends_with space (enc_loop first s) = false.
Proof.
  revert first. induction s as [|c s IH]; intros first; [done|].
  destruct (enc_loop_cons first c s) as (t & Ht & ->).
  destruct s as [|d s].
  - simpl enc_loop. rewrite app_nil_r. simpl in Ht.
    unfold ends_with at 1. simpl.
    destruct Ht as [ -> | -> |Hc|a b Hnsp Hh|Hp Hh ? ? Hl].
    + simpl. by exists [].
    + done.
    + pose proof (enc_special_nospace _ Hc) as Hn. apply aeqb_neq in Hn. rewrite Hn.
      unfold ends_with. simpl. by rewrite Hn.
    + assert (aeqb c space = false) as -> by by apply aeqb_neq.
      pose proof (hex2_plain c) as H. rewrite Hh in H. destruct H as (_ & _ & _ & _ & Hb).
      unfold ends_with. simpl. by apply aeqb_neq.
    + assert (aeqb c space = false) as -> by (apply aeqb_neq; by apply Hl).
      unfold ends_with. simpl. apply aeqb_neq. by apply Hl.
  - specialize (IH false).
    assert (ends_with space (c :: d :: s) = ends_with space (d :: s)) as ->.
    { change (c :: d :: s) with ([c] ++ d :: s). by apply ends_with_app. }
    destruct (ends_with space (d :: s)).
    + destruct IH as [u Hu]. exists (t ++ u). rewrite Hu. by rewrite app_assoc.
    + rewrite ends_with_app; [done|]. by apply enc_nonempty.
Qed.

Section roundtrip.
Context {T : Text} (HT : TextOK T).

Lemma strip_enc s : strip (enc_loop true s) = enc_loop true s.
Proof using HT.
  unfold strip. rewrite (trim_val_print _ HT) by apply enc_prints.
  pose proof (enc_head s) as Hh. pose proof (enc_ends true s) as He.
  unfold trim_sp.
  assert (ltrim (enc_loop true s) = enc_loop true s) as ->.
  { apply ltrim_nospace. destruct (enc_loop true s); [done|]. by destruct Hh. }
  destruct (ends_with space s).
  - destruct He as [t He]. rewrite He.
    assert (rtrim (t ++ ["\"%char; space]) = t ++ ["\"%char]) as ->.
    { change (t ++ ["\"%char; space]) with (t ++ ["\"%char] ++ [space]).
      rewrite app_assoc. apply rtrim_snoc_space. rewrite rev_app_distr. done. }
    assert (ends_with "\"%char (t ++ ["\"%char]) = true) as ->.
    { apply ends_with_true. by exists t. }
    assert (ends_with space (t ++ ["\"%char; space]) = true) as ->.
    { apply ends_with_true. exists (t ++ ["\"%char]). by rewrite <- app_assoc. }
    simpl. by rewrite <- app_assoc.
  - rewrite rtrim_nospace.
    + rewrite He. by rewrite andb_false_r.
    + unfold ends_with in He. destruct (rev (enc_loop true s)); [done|].
      by apply aeqb_neq.
Qed.

Lemma decode_value_enc v : decode_value (encode_rdn_value v) = Some v.
Proof using HT.
  unfold decode_value, encode_rdn_value. pose proof (enc_head v) as Hh.
  assert (Hd : decode_string (enc_loop true v) = Some v).
  { unfold decode_string. rewrite strip_enc, (runes_ascii _ HT).
    - apply decode_enc.
    - apply prints_asciis, enc_prints. }
  destruct (enc_loop true v) as [|c r]; [done|].
  destruct Hh as [_ Hh]. apply aeqb_neq in Hh. by rewrite Hh.
Qed.

(** Encoded values are passed over by the DN scanner. *)
Lemma plain_char_inv c : plain_char c = true ->
  aeqb c "\"%char = false /\ aeqb c ","%char = false /\
  aeqb c "+"%char = false /\ aeqb c ";"%char = false.
Proof using Type.
  unfold plain_char. rewrite !andb_true_iff, !negb_true_iff. tauto.
Qed.
Lemma dn_loop_plain c s cur ty avas rdns :
  plain_char c = true -> ty <> [] ->
  dn_loop (c :: s) false cur ty avas rdns = dn_loop s false (c :: cur) ty avas rdns.
Proof using Type.
  intros (H1 & H2 & H3 & H4)%plain_char_inv Hty. simpl.
  rewrite H1, H2, H3, H4. apply is_empty_false in Hty. rewrite Hty.
  by rewrite andb_false_r.
Qed.
Lemma dn_loop_enc first v rest cur ty avas rdns :
  ty <> [] ->
  dn_loop (enc_loop first v ++ rest) false cur ty avas rdns =
  dn_loop rest false (rev (enc_loop first v) ++ cur) ty avas rdns.
Proof using Type.
  intros Hty. revert first cur. induction v as [|c s IH]; intros first cur; [done|].
  destruct (enc_loop_cons first c s) as (t & Ht & ->).
  rewrite rev_app_distr, <- !app_assoc.
  destruct Ht as [ -> | -> |Hc|a b Hnsp Hh|Hp ? ?]; simpl app; simpl rev.
  - change (dn_loop (enc_loop false s ++ rest) false (space :: "\"%char :: cur) ty avas rdns =
      dn_loop rest false (rev (enc_loop false s) ++ [space; "\"%char] ++ cur) ty avas rdns).
    by rewrite IH.
  - change (dn_loop (enc_loop false s ++ rest) false ("#"%char :: "\"%char :: cur) ty avas rdns =
      dn_loop rest false (rev (enc_loop false s) ++ ["#"%char; "\"%char] ++ cur) ty avas rdns).
    by rewrite IH.
  - change (dn_loop (enc_loop false s ++ rest) false (c :: "\"%char :: cur) ty avas rdns =
      dn_loop rest false (rev (enc_loop false s) ++ [c; "\"%char] ++ cur) ty avas rdns).
    by rewrite IH.
  - pose proof (hex2_plain c) as H. rewrite Hh in H. destruct H as (Hb & _).
    change (dn_loop (b :: enc_loop false s ++ rest) false (a :: "\"%char :: cur) ty avas rdns =
      dn_loop rest false (rev (enc_loop false s) ++ [b; a; "\"%char] ++ cur) ty avas rdns).
    rewrite dn_loop_plain by done. by rewrite IH.
  - change (dn_loop (c :: enc_loop false s ++ rest) false cur ty avas rdns =
      dn_loop rest false (rev (enc_loop false s) ++ [c] ++ cur) ty avas rdns).
    rewrite dn_loop_plain by done. by rewrite IH.
Qed.

(** Descriptors. *)
Lemma descr_char_facts c : descr_char c = true ->
  is_print c = true /\ plain_char c = true /\ aeqb c "="%char = false /\ c <> space /\
  descr_char (lower_ch c) = true.
Proof using Type.
  intros Hc. assert (H : (negb (descr_char c) || (is_print c && plain_char c &&
    negb (aeqb c "="%char) && negb (aeqb c space) && descr_char (lower_ch c))) = true).
  { revert c Hc. intros c _. revert c. apply ascii_forall. vm_compute. reflexivity. }
  rewrite Hc in H. simpl in H. rewrite !andb_true_iff, !negb_true_iff in H.
  destruct H as ((((? & ?) & ?) & ?) & ?). repeat split; try done. by apply aeqb_neq.
Qed.
Lemma descr_inv t : descr t = true ->
  t <> [] /\ Forall (fun c => descr_char c = true) t.
Proof using Type.
  unfold descr. rewrite andb_true_iff, negb_true_iff. intros [H1 H2].
  split; [by apply is_empty_false|]. by apply forallb_Forall.
Qed.
Lemma descr_prints t : descr t = true -> prints t.
Proof using Type.
  intros [_ H]%descr_inv. eapply Forall_impl; [exact H|].
  intros c Hc. by apply descr_char_facts.
Qed.
Lemma descr_lower t : descr t = true -> descr (lower_ascii t) = true.
Proof using Type.
  intros [Hn H]%descr_inv. unfold descr. apply andb_true_iff. split.
  - by destruct t.
  - apply forallb_forall. intros c Hc. unfold lower_ascii in Hc.
    apply in_map_iff in Hc as (c' & <- & Hc').
    rewrite List.Forall_forall in H. specialize (H _ Hc'). by apply descr_char_facts.
Qed.
Lemma descr_fold t : descr t = true -> descr (fold t) = true.
Proof using HT.
  intros H. rewrite (fold_ascii _ HT); [by apply descr_lower|].
  by apply prints_asciis, descr_prints.
Qed.
Lemma descr_decode_loop t : Forall (fun c => descr_char c = true) t -> decode_loop t = Some t.
Proof using Type.
  induction 1 as [|c t Hc Ht IH]; [done|].
  simpl. apply descr_char_facts in Hc as (_ & (Hp & _)%plain_char_inv & _).
  by rewrite Hp, IH.
Qed.
Lemma descr_strip t : descr t = true -> strip t = t.
Proof using HT.
  intros Hd. pose proof (descr_prints _ Hd) as Hp.
  apply descr_inv in Hd as [Hn Hd]. unfold strip. rewrite (trim_val_print _ HT) by done.
  unfold trim_sp. rewrite ltrim_nospace.
  2:{ destruct t; [done|]. inversion Hd; subst. by apply descr_char_facts. }
  assert (Hr : Forall (fun c => descr_char c = true) (rev t)).
  { by apply Forall_revl. }
  rewrite rtrim_nospace.
  2:{ destruct (rev t); [done|]. inversion Hr; subst. by apply descr_char_facts. }
  assert (ends_with "\"%char t = false) as ->; [|done].
  unfold ends_with. destruct (rev t) as [|c r]; [done|]. inversion Hr; subst.
  by apply plain_char_inv, descr_char_facts.
Qed.
Lemma descr_decode_string t : descr t = true -> decode_string t = Some t.
Proof using HT.
  intros Hd. unfold decode_string. rewrite descr_strip by done.
  rewrite (runes_ascii _ HT) by by apply prints_asciis, descr_prints.
  apply descr_decode_loop. by apply descr_inv.
Qed.
Lemma dn_loop_descr_chars t s cur avas rdns :
  Forall (fun c => descr_char c = true) t ->
  dn_loop (t ++ s) false cur [] avas rdns = dn_loop s false (rev t ++ cur) [] avas rdns.
Proof using Type.
  intros H. revert cur. induction H as [|c t Hc Ht IH]; intros cur; [done|].
  simpl. apply descr_char_facts in Hc as (_ & (H1 & H2 & H3 & H4)%plain_char_inv & H5 & _).
  rewrite H1, H2, H3, H4, H5. simpl. rewrite IH. by rewrite <- app_assoc.
Qed.
Lemma dn_loop_type t s avas rdns :
  descr t = true ->
  dn_loop (t ++ B "=" ++ s) false [] [] avas rdns = dn_loop s false [] t avas rdns.
Proof using HT.
  intros Hd. rewrite dn_loop_descr_chars by by apply descr_inv.
  rewrite app_nil_r. simpl. rewrite rev_involutive, descr_decode_string by done. done.
Qed.

(** One type/value pair, one RDN, one DN. *)
Lemma dn_loop_ava t v s avas rdns :
  descr t = true ->
  dn_loop (flat_ava (t, v) ++ s) false [] [] avas rdns =
  dn_loop s false (rev (encode_rdn_value v)) t avas rdns.
Proof using HT.
  intros Hd. unfold flat_ava. simpl fst; simpl snd. rewrite <- !app_assoc.
  rewrite dn_loop_type by done. unfold encode_rdn_value.
  rewrite dn_loop_enc by by apply descr_inv. by rewrite app_nil_r.
Qed.
Lemma dn_loop_end v t avas rdns :
  descr t = true ->
  dn_loop [] false (rev (encode_rdn_value v)) t avas rdns =
  Some (rev (rev ((t, v) :: avas) :: rdns)).
Proof using HT.
  intros [Hn _]%descr_inv. simpl. apply is_empty_false in Hn. rewrite Hn.
  by rewrite rev_involutive, decode_value_enc.
Qed.
Lemma dn_loop_comma v t s avas rdns :
  descr t = true ->
  dn_loop ("," :: s)%char false (rev (encode_rdn_value v)) t avas rdns =
  dn_loop s false [] [] [] (rev ((t, v) :: avas) :: rdns).
Proof using HT.
  intros [Hn _]%descr_inv. cbn [dn_loop].
  apply is_empty_false in Hn. rewrite Hn.
  change (aeqb "," "\")%char with false. change (aeqb "," "=")%char with false.
  change (aeqb "," ",")%char with true. change (aeqb "," "+")%char with false.
  cbn [andb orb]. by rewrite rev_involutive, decode_value_enc.
Qed.
Lemma dn_loop_plus v t s avas rdns :
  descr t = true ->
  dn_loop ("+" :: s)%char false (rev (encode_rdn_value v)) t avas rdns =
  dn_loop s false [] [] ((t, v) :: avas) rdns.
Proof using HT.
  intros [Hn _]%descr_inv. cbn [dn_loop].
  apply is_empty_false in Hn. rewrite Hn.
  change (aeqb "+" "\")%char with false. change (aeqb "+" "=")%char with false.
  change (aeqb "+" ",")%char with false. change (aeqb "+" "+")%char with true.
  cbn [andb orb]. by rewrite rev_involutive, decode_value_enc.
Qed.

Lemma wf_rdn_inv r : wf_rdn r = true ->
  r <> [] /\ Forall (fun p => descr p.1 = true) r.
Proof using Type.
  unfold wf_rdn. rewrite andb_true_iff, negb_true_iff. intros [H1 H2].
  split; [by apply is_empty_false|]. by apply forallb_Forall.
Qed.

Lemma dn_loop_rdn r s avas rdns :
  wf_rdn r = true ->
  exists t v i, descr t = true /\ rev r = (t, v) :: i /\
  dn_loop (flat_rdn r ++ s) false [] [] avas rdns =
  dn_loop s false (rev (encode_rdn_value v)) t (i ++ avas) rdns.
Proof using HT.
  intros [Hn H]%wf_rdn_inv. revert avas.
  induction r as [|[t v] r IH]; [done|]; intros avas.
  inversion H as [|? ? Ht Hr]; subst. simpl in Ht.
  destruct r as [|p r].
  - exists t, v, []. split; [done|]. split; [done|].
    change (flat_rdn [(t, v)]) with (flat_ava (t, v)).
    by rewrite dn_loop_ava.
  - specialize (IH ltac:(done) Hr ((t, v) :: avas)) as (t' & v' & i & Ht' & Hl & IH).
    exists t', v', (i ++ [(t, v)]). split; [done|]. split.
    { change (rev ((t, v) :: p :: r)) with (rev (p :: r) ++ [(t, v)]). by rewrite Hl. }
    change (flat_rdn ((t, v) :: p :: r)) with
      (flat_ava (t, v) ++ B "+" ++ flat_rdn (p :: r)).
    rewrite <- !app_assoc. rewrite dn_loop_ava by done.
    change (B "+" ++ flat_rdn (p :: r) ++ s) with ("+"%char :: (flat_rdn (p :: r) ++ s)).
    rewrite dn_loop_plus by done. by rewrite IH.
Qed.

Lemma dn_loop_flat d rdns :
  d <> [] -> wf_dn d = true ->
  dn_loop (flat d) false [] [] [] rdns = Some (rev rdns ++ d).
Proof using HT.
  intros Hn Hwf. revert rdns. induction d as [|r d IH]; [done|]; intros rdns.
  simpl in Hwf. apply andb_true_iff in Hwf as [Hr Hd].
  destruct d as [|r' d].
  - change (flat [r]) with (flat_rdn r).
    destruct (dn_loop_rdn r [] [] rdns Hr) as (t & v & i & Ht & Hl & He).
    rewrite !app_nil_r in He. rewrite He, dn_loop_end by done.
    rewrite <- Hl, rev_involutive. done.
  - change (flat (r :: r' :: d)) with (flat_rdn r ++ B "," ++ flat (r' :: d)).
    destruct (dn_loop_rdn r (B "," ++ flat (r' :: d)) [] rdns Hr) as (t & v & i & Ht & Hl & He).
    rewrite He.
    change (B "," ++ flat (r' :: d)) with (","%char :: flat (r' :: d)).
    rewrite dn_loop_comma by done. rewrite IH by done. f_equal.
    rewrite app_nil_r, <- Hl, rev_involutive.
    simpl. by rewrite <- app_assoc.
Qed.

(** The printed text is printable and has no blank at its ends. *)
Lemma flat_ava_prints p : descr p.1 = true -> prints (flat_ava p).
Proof using Type.
  intros H. unfold flat_ava. apply Forall_app. split; [by apply descr_prints|].
  apply Forall_app. split; [repeat constructor|]. apply enc_prints.
Qed.
Lemma join_prints sep l : prints sep -> Forall prints l -> prints (join sep l).
Proof using Type.
  intros Hs. induction 1 as [|x l Hx Hl IH]; [constructor|].
  destruct l; [done|]. simpl. apply Forall_app. split; [done|].
  apply Forall_app. done.
Qed.
Lemma flat_rdn_prints r : wf_rdn r = true -> prints (flat_rdn r).
Proof using Type.
  intros [_ H]%wf_rdn_inv. apply join_prints; [repeat constructor|].
  apply Forall_map. eapply Forall_impl; [exact H|]. intros. by apply flat_ava_prints.
Qed.
Lemma flat_prints d : wf_dn d = true -> prints (flat d).
Proof using Type.
  unfold wf_dn. rewrite forallb_forall. intros H. apply join_prints; [repeat constructor|].
  apply Forall_map, Forall_forall. intros r Hr. apply flat_rdn_prints, H.
  by apply elem_of_list_In.
Qed.
Lemma flat_head d : d <> [] -> wf_dn d = true ->
  exists c s, flat d = c :: s /\ descr_char c = true.
Proof using Type.
  destruct d as [|r d]; [done|]. intros _ Hwf. simpl in Hwf.
  apply andb_true_iff in Hwf as [Hr _]. apply wf_rdn_inv in Hr as [Hn Hr].
  destruct r as [|[t v] r]; [done|]. inversion Hr as [|? ? Ht _]; subst. simpl in Ht.
  apply descr_inv in Ht as [Hn' Ht]. destruct t as [|c t]; [done|].
  inversion Ht; subst. exists c.
  assert (exists u, flat_rdn ((c :: t, v) :: r) = c :: u) as [u Hu].
  { unfold flat_rdn. simpl. destruct (map flat_ava r); simpl; eauto. }
  destruct d as [|r' d].
  - change (flat [(c :: t, v) :: r]) with (flat_rdn ((c :: t, v) :: r)). rewrite Hu. eauto.
  - change (flat (((c :: t, v) :: r) :: r' :: d)) with
      (flat_rdn ((c :: t, v) :: r) ++ B "," ++ flat (r' :: d)). rewrite Hu. simpl. eauto.
Qed.
Lemma flat_ends d : d <> [] -> wf_dn d = true -> last_ok d = true ->
  ends_with space (flat d) = false.
Proof using Type.
  intros Hn Hwf Hl. induction d as [|r d IH]; [done|].
  simpl in Hwf. apply andb_true_iff in Hwf as [Hr Hd].
  destruct d as [|r' d].
  - change (flat [r]) with (flat_rdn r).
    assert (Hl' : match last r with Some (_, v) => ends_with space v = false | None => True end).
    { unfold last_ok in Hl. simpl in Hl. destruct (last r) as [[? ?]|]; [|done].
      by apply negb_true_iff. }
    clear Hl IH Hn Hd. apply wf_rdn_inv in Hr as [Hn Hr].
    induction r as [|[t v] r IH]; [done|]. inversion Hr as [|? ? Ht Hr']; subst.
    destruct r as [|p r].
    + change (flat_rdn [(t, v)]) with (t ++ B "=" ++ encode_rdn_value v).
      rewrite app_assoc. simpl in Hl'.
      destruct (encode_rdn_value v) as [|c s] eqn:E.
      * rewrite app_nil_r. rewrite ends_with_app by done. done.
      * rewrite ends_with_app by done. rewrite <- E.
        pose proof (enc_ends true v) as He. rewrite Hl' in He. done.
    + change (flat_rdn ((t, v) :: p :: r)) with
        (flat_ava (t, v) ++ B "+" ++ flat_rdn (p :: r)).
      rewrite app_assoc, ends_with_app; [by apply IH|].
      intros E. assert (flat_rdn (p :: r) = []) as E' by done. clear E.
      inversion Hr' as [|? ? Hp ?]; subst. apply descr_inv in Hp as [Hp _].
      destruct p as [[|c t'] v']; [done|].
      unfold flat_rdn in E'. simpl in E'. destruct (map flat_ava r); done.
  - change (flat (r :: r' :: d)) with (flat_rdn r ++ B "," ++ flat (r' :: d)).
    destruct (flat_head (r' :: d) ltac:(done) Hd) as (c & s & Hf & _).
    rewrite app_assoc, ends_with_app by by rewrite Hf.
    apply IH; done.
Qed.
Lemma trim_flat d : d <> [] -> wf_dn d = true -> last_ok d = true ->
  trim_dn (flat d) = flat d.
Proof using HT.
  intros Hn Hwf Hl. rewrite (trim_dn_print _ HT) by by apply flat_prints.
  destruct (flat_head d Hn Hwf) as (c & s & Hf & Hc).
  pose proof (flat_ends d Hn Hwf Hl) as He.
  unfold trim_sp. rewrite ltrim_nospace.
  2:{ rewrite Hf. by apply descr_char_facts. }
  apply rtrim_nospace. unfold ends_with in He.
  destruct (rev (flat d)); [done|]. by apply aeqb_neq.
Qed.

Theorem parse_flat d :
  wf_dn d = true -> last_ok d = true -> parse_dn (flat d) = Some d.
Proof using HT.
  intros Hwf Hl. destruct d as [|r d].
  - unfold parse_dn. change (flat []) with (@nil ascii).
    rewrite (trim_dn_print _ HT) by constructor. done.
  - unfold parse_dn. rewrite trim_flat by done.
    destruct (flat_head (r :: d) ltac:(done) Hwf) as (c & s & Hf & _).
    rewrite Hf at 1. simpl is_empty. cbn match.
    by rewrite dn_loop_flat.
Qed.

(** A text that ends in an escaped blank does not parse: the blank is trimmed
    off and leaves a dangling backslash. *)
Lemma enc_space first v :
  exists w, enc_loop first (v ++ [space]) = w ++ ["\"%char; space] /\
    (forall rest cur ty avas rdns, ty <> [] ->
       dn_loop (w ++ rest) false cur ty avas rdns =
       dn_loop rest false (rev w ++ cur) ty avas rdns) /\
    decode_loop (w ++ ["\"%char]) = None.
Proof using Type.
  revert first. induction v as [|c v IH]; intros first.
  - exists []. split; [|done]. by destruct first.
  - destruct (IH false) as (w & Hw & Hl & Hd).
    change ((c :: v) ++ [space]) with (c :: (v ++ [space])).
    destruct (enc_loop_cons first c (v ++ [space])) as (t & Ht & ->).
    exists (t ++ w). rewrite Hw, app_assoc. split; [done|].
    destruct Ht as [ -> | -> |Hc|a b Hnsp Hh|Hp ? ?].
    + split; [|simpl; by rewrite Hd].
      intros rest cur ty avas rdns Hty.
      change (dn_loop (w ++ rest) false (space :: "\"%char :: cur) ty avas rdns =
        dn_loop rest false (rev (["\"%char; space] ++ w) ++ cur) ty avas rdns).
      rewrite Hl by done. by rewrite rev_app_distr, <- app_assoc.
    + split; [|simpl; by rewrite Hd].
      intros rest cur ty avas rdns Hty.
      change (dn_loop (w ++ rest) false ("#"%char :: "\"%char :: cur) ty avas rdns =
        dn_loop rest false (rev (["\"%char; "#"%char] ++ w) ++ cur) ty avas rdns).
      rewrite Hl by done. by rewrite rev_app_distr, <- app_assoc.
    + split; [|simpl; by rewrite (enc_special_dn _ Hc), Hd].
      intros rest cur ty avas rdns Hty.
      change (dn_loop (w ++ rest) false (c :: "\"%char :: cur) ty avas rdns =
        dn_loop rest false (rev (["\"%char; c] ++ w) ++ cur) ty avas rdns).
      rewrite Hl by done. by rewrite rev_app_distr, <- app_assoc.
    + pose proof (hex2_plain c) as H. pose proof (hex_roundtrip c) as Hr.
      rewrite Hh in H, Hr. destruct H as (Hb & Ha & _).
      split; [|simpl; by rewrite Ha, Hr, Hd].
      intros rest cur ty avas rdns Hty.
      change (dn_loop (b :: w ++ rest) false (a :: "\"%char :: cur) ty avas rdns =
        dn_loop rest false (rev (["\"%char; a; b] ++ w) ++ cur) ty avas rdns).
      rewrite dn_loop_plain by done.
      rewrite Hl by done. by rewrite rev_app_distr, <- app_assoc.
    + split.
      * intros rest cur ty avas rdns Hty.
        change (dn_loop (c :: w ++ rest) false cur ty avas rdns =
          dn_loop rest false (rev ([c] ++ w) ++ cur) ty avas rdns).
        rewrite dn_loop_plain by done.
        rewrite Hl by done. by rewrite rev_app_distr, <- app_assoc.
      * unfold plain_char in Hp. simpl. destruct (aeqb c "\"%char); [done|]. by rewrite Hd.
Qed.
Lemma decode_value_dangling v w :
  enc_loop true (v ++ [space]) = w ++ ["\"%char; space] ->
  decode_loop (w ++ ["\"%char]) = None ->
  decode_value (w ++ ["\"%char]) = None.
Proof using HT.
  intros Hw Hd. pose proof (enc_head (v ++ [space])) as Hh. pose proof (enc_prints true (v ++ [space])) as Hp.
  rewrite Hw in Hh, Hp.
  assert (Hp' : prints (w ++ ["\"%char])).
  { apply Forall_app in Hp as [Hp _]. apply Forall_app. split; [done|]. repeat constructor. }
  assert (Hs : decode_string (w ++ ["\"%char]) = None).
  { unfold decode_string, strip. rewrite (trim_val_print _ HT) by done.
    assert (trim_sp (w ++ ["\"%char]) = w ++ ["\"%char]) as ->.
    { unfold trim_sp. rewrite ltrim_nospace.
      - apply rtrim_nospace. rewrite rev_app_distr. done.
      - destruct w; [done|]. by destruct Hh. }
    assert (ends_with space (w ++ ["\"%char]) = false) as ->.
    { unfold ends_with. by rewrite rev_app_distr. }
    rewrite andb_false_r, (runes_ascii _ HT); [done|]. by apply prints_asciis. }
  destruct w as [|c w]; [done|]. simpl in Hh |- *. destruct Hh as [_ Hh].
  apply aeqb_neq in Hh. rewrite Hh. done.
Qed.
Lemma flat_rdn_app a b : a <> [] -> b <> [] ->
  flat_rdn (a ++ b) = flat_rdn a ++ B "+" ++ flat_rdn b.
Proof using Type.
  intros Ha Hb. induction a as [|x a IH]; [done|].
  destruct a as [|y a].
  - destruct b; [done|]. done.
  - change (flat_rdn ((x :: y :: a) ++ b)) with (flat_ava x ++ B "+" ++ flat_rdn ((y :: a) ++ b)).
    rewrite IH by done.
    change (flat_rdn (x :: y :: a)) with (flat_ava x ++ B "+" ++ flat_rdn (y :: a)).
    by rewrite <- !app_assoc.
Qed.
Lemma dn_loop_dangling d rdns :
  d <> [] -> wf_dn d = true -> last_ok d = false ->
  exists u, flat d = u ++ ["\"%char; space] /\
    dn_loop (u ++ ["\"%char]) false [] [] [] rdns = None.
Proof using HT.
  intros Hn Hwf Hl. revert rdns. induction d as [|r d IH]; [done|]; intros rdns.
  simpl in Hwf. apply andb_true_iff in Hwf as [Hr Hd].
  destruct d as [|r' d].
  - change (flat [r]) with (flat_rdn r). clear IH Hd Hn.
    unfold last_ok in Hl. simpl in Hl.
    destruct (last r) as [[t v]|] eqn:El; [|done].
    apply negb_false_iff, ends_with_true in Hl as [v0 ->].
    apply last_Some in El as [r0 ->].
    assert (Ht : descr t = true).
    { apply wf_rdn_inv in Hr as [_ Hr]. apply Forall_app in Hr as [_ Hr].
      by inversion Hr. }
    destruct (enc_space true v0) as (w & Hw & Hlo & Hde).
    pose proof (decode_value_dangling v0 w Hw Hde) as Hdv.
    assert (Hone : forall avas, dn_loop (t ++ B "=" ++ w ++ ["\"%char]) false [] [] avas rdns = None).
    { intros avas. rewrite dn_loop_type by done.
      destruct (descr_inv _ Ht) as [Hne _].
      rewrite Hlo by done. cbn [dn_loop]. rewrite (aeqb_refl "\"%char).
      apply is_empty_false in Hne. rewrite Hne.
      rewrite app_nil_r. change (rev ("\"%char :: rev w)) with (rev (rev w) ++ ["\"%char]).
      rewrite rev_involutive, Hdv. done. }
    destruct r0 as [|p r0].
    + exists (t ++ B "=" ++ w). split.
      * change (flat_rdn ([] ++ [(t, v0 ++ [space])])) with
          (t ++ B "=" ++ encode_rdn_value (v0 ++ [space])).
        unfold encode_rdn_value. rewrite Hw. by rewrite <- !app_assoc.
      * rewrite <- !app_assoc. apply Hone.
    + rewrite flat_rdn_app by done.
      exists (flat_rdn (p :: r0) ++ B "+" ++ t ++ B "=" ++ w). split.
      * change (flat_rdn [(t, v0 ++ [space])]) with
          (t ++ B "=" ++ encode_rdn_value (v0 ++ [space])).
        unfold encode_rdn_value. rewrite Hw. by rewrite <- !app_assoc.
      * assert (Hr0 : wf_rdn (p :: r0) = true).
        { unfold wf_rdn in *. rewrite forallb_app in Hr. rewrite !andb_true_iff in *.
          destruct Hr as [_ [Hr _]]. done. }
        rewrite <- !app_assoc.
        destruct (dn_loop_rdn (p :: r0) (B "+" ++ t ++ B "=" ++ w ++ ["\"%char]) [] rdns Hr0)
          as (t' & v' & i & Ht' & Hi & ->).
        change (B "+" ++ t ++ B "=" ++ w ++ ["\"%char]) with
          ("+"%char :: (t ++ B "=" ++ w ++ ["\"%char])).
        rewrite dn_loop_plus by done. apply Hone.
  - destruct (dn_loop_rdn r [] [] rdns Hr) as (t & v & i & Ht & Hi & _).
    specialize (IH ltac:(done) Hd).
    assert (Hl' : last_ok (r' :: d) = false) by done.
    specialize (IH Hl').
    destruct (IH (rev ((t, v) :: i) :: rdns)) as (u & Hu & Hnone).
    exists (flat_rdn r ++ B "," ++ u). split.
    + change (flat (r :: r' :: d)) with (flat_rdn r ++ B "," ++ flat (r' :: d)).
      rewrite Hu. by rewrite <- !app_assoc.
    + rewrite <- !app_assoc.
      destruct (dn_loop_rdn r (B "," ++ u ++ ["\"%char]) [] rdns Hr)
        as (t1 & v1 & i1 & Ht1 & Hi1 & ->).
      rewrite Hi in Hi1. injection Hi1 as <- <- <-.
      change (B "," ++ u ++ ["\"%char]) with (","%char :: (u ++ ["\"%char])).
      rewrite dn_loop_comma by done. by rewrite app_nil_r.
Qed.
Lemma parse_flat_dangling d :
  wf_dn d = true -> last_ok d = false -> parse_dn (flat d) = None.
Proof using HT.
  intros Hwf Hl. destruct (decide (d = [])) as [ -> |Hn]; [done|].
  destruct (dn_loop_dangling d [] Hn Hwf Hl) as (u & Hu & Hnone).
  unfold parse_dn. rewrite (trim_dn_print _ HT) by by apply flat_prints.
  destruct (flat_head d Hn Hwf) as (c & s & Hf & Hc).
  assert (trim_sp (flat d) = u ++ ["\"%char]) as ->.
  { unfold trim_sp. rewrite ltrim_nospace.
    2:{ rewrite Hf. by apply descr_char_facts. }
    rewrite Hu. change (u ++ ["\"%char; space]) with (u ++ ["\"%char] ++ [space]).
    rewrite app_assoc. apply rtrim_snoc_space. rewrite rev_app_distr. done. }
  rewrite Hnone. by destruct u.
Qed.
Lemma flat_ends_iff d : d <> [] -> wf_dn d = true ->
  ends_with space (flat d) = negb (last_ok d).
Proof using HT.
  intros Hn Hwf. destruct (last_ok d) eqn:Hl; [by apply flat_ends|].
  destruct (dn_loop_dangling d [] Hn Hwf Hl) as (u & -> & _).
  simpl. apply ends_with_true. exists (u ++ ["\"%char]). by rewrite <- app_assoc.
Qed.

(** [normalize] is [flat] of the folded DN. *)
Lemma norm_avas_flat r0 a0 l :
  l <> [] ->
  norm_avas r0 a0 l =
  (if negb a0 then B "+" else if negb r0 then B "," else []) ++
  flat_rdn (map (fun p => (fold p.1, fold p.2)) l).
Proof using Type.
  revert a0. induction l as [|[t v] l IH]; [done|]. intros a0 _.
  destruct l as [|p l].
  - simpl norm_avas. rewrite app_nil_r. done.
  - change (norm_avas r0 a0 ((t, v) :: p :: l)) with
      ((if negb a0 then B "+" else if negb r0 then B "," else [])
      ++ fold t ++ B "=" ++ encode_rdn_value (fold v)
      ++ norm_avas r0 false (p :: l)).
    rewrite IH by done. f_equal.
    change (flat_rdn (map (fun p0 => (fold p0.1, fold p0.2)) ((t, v) :: p :: l))) with
     (flat_ava (fold t, fold v) ++ B "+" ++ flat_rdn (map (fun p0 => (fold p0.1, fold p0.2)) (p :: l))).
    unfold flat_ava. simpl fst; simpl snd. by rewrite <- !app_assoc.
Qed.
Lemma normalize_flat d : wf_dn d = true -> normalize d = flat (fold_dn d).
Proof using Type.
  unfold normalize. assert (H : forall r0, wf_dn d = true ->
    norm_rdns r0 d = (if r0 then [] else if is_empty d then [] else B ",") ++ flat (fold_dn d)).
  { induction d as [|r d IH]; intros r0 Hwf; [by destruct r0|].
    simpl in Hwf. apply andb_true_iff in Hwf as [Hr Hd].
    apply wf_rdn_inv in Hr as [Hn _].
    cbn [norm_rdns]. rewrite norm_avas_flat by done. rewrite IH by done.
    cbn [negb is_empty]. rewrite <- app_assoc. f_equal; [by destruct r0|].
    destruct d as [|r' d]; [by rewrite app_nil_r|]. done. }
  intros Hwf. by rewrite H.
Qed.
Lemma fold_dn_wf d : wf_dn d = true -> wf_dn (fold_dn d) = true.
Proof using HT.
  unfold wf_dn, fold_dn. rewrite !forallb_forall. intros H r Hr.
  apply in_map_iff in Hr as (r0 & <- & Hr0). specialize (H _ Hr0).
  unfold wf_rdn in *. apply andb_true_iff in H as [H1 H2].
  apply andb_true_iff. split; [by destruct r0|].
  rewrite forallb_forall in *. intros p Hp. apply in_map_iff in Hp as (q & <- & Hq).
  simpl. apply descr_fold. by apply H2.
Qed.
Lemma fold_dn_idem d : fold_dn (fold_dn d) = fold_dn d.
Proof using HT.
  unfold fold_dn. rewrite map_map. apply map_ext. intros r.
  rewrite map_map. apply map_ext. intros [t v]. simpl.
  by rewrite !(fold_idem _ HT).
Qed.

Lemma parse_normalized d : wf_dn d = true -> last_ok (fold_dn d) = true ->
  parse_dn (normalize d) = Some (fold_dn d).
Proof using HT.
  intros Hwf Hl. rewrite normalize_flat by done.
  apply parse_flat; [by apply fold_dn_wf|done].
Qed.
Lemma normalize_fold d : wf_dn d = true -> normalize (fold_dn d) = normalize d.
Proof using HT.
  intros Hwf. rewrite !normalize_flat, fold_dn_idem by (try apply fold_dn_wf; done). done.
Qed.
End roundtrip.

(** Injectivity of [flat]: append one more RDN so that the last value is
    harmless, and parse. *)
Lemma flat_snoc d r : d <> [] -> flat (d ++ [r]) = flat d ++ B "," ++ flat_rdn r.
Proof.
  intros Hn. induction d as [|x d IH]; [done|].
  destruct d as [|y d]; [done|].
  change ((x :: y :: d) ++ [r]) with (x :: (y :: d) ++ [r]).
  change (flat (x :: (y :: d) ++ [r])) with (flat_rdn x ++ B "," ++ flat ((y :: d) ++ [r])).
  rewrite IH by done.
  change (flat (x :: y :: d)) with (flat_rdn x ++ B "," ++ flat (y :: d)).
  by rewrite <- !app_assoc.
Qed.
Lemma wf_dn_app a b : wf_dn (a ++ b) = wf_dn a && wf_dn b.
Proof. apply forallb_app. Qed.
Lemma flat_nil_inv d : wf_dn d = true -> flat d = [] -> d = [].
Proof.
  intros Hwf H. destruct d as [|r d]; [done|].
  destruct (flat_head (r :: d) ltac:(done) Hwf) as (c & s & Hf & _). by rewrite H in Hf.
Qed.
Lemma flat_inj d1 d2 :
  wf_dn d1 = true -> wf_dn d2 = true -> flat d1 = flat d2 -> d1 = d2.
Proof.
  intros H1 H2 He. destruct d1 as [|r1 d1].
  { symmetry. apply flat_nil_inv; [done|]. by rewrite <- He. }
  destruct d2 as [|r2 d2].
  { apply flat_nil_inv; done. }
  set (x := [(B "x", @nil ascii)] : rdn).
  assert (Hx : flat ((r1 :: d1) ++ [x]) = flat ((r2 :: d2) ++ [x])).
  { rewrite !flat_snoc by done. by rewrite He. }
  assert (Hp1 : parse_dn (T:=ascii_text) (flat ((r1 :: d1) ++ [x])) = Some ((r1 :: d1) ++ [x])).
  { apply parse_flat; [apply ascii_text_ok| |].
    - rewrite wf_dn_app, H1. done.
    - unfold last_ok. by rewrite last_snoc. }
  assert (Hp2 : parse_dn (T:=ascii_text) (flat ((r2 :: d2) ++ [x])) = Some ((r2 :: d2) ++ [x])).
  { apply parse_flat; [apply ascii_text_ok| |].
    - rewrite wf_dn_app, H2. done.
    - unfold last_ok. by rewrite last_snoc. }
  rewrite Hx, Hp2 in Hp1. apply (inj Some) in Hp1.
  apply (app_inj_tail (r2 :: d2) (r1 :: d1)) in Hp1 as [-> _]. done.
Qed.

Section inj.
Context {T : Text} (HT : TextOK T).
Lemma normalize_inj d1 d2 :
  wf_dn d1 = true -> wf_dn d2 = true ->
  normalize d1 = normalize d2 <-> fold_dn d1 = fold_dn d2.
Proof using HT.
  intros H1 H2. rewrite !normalize_flat by done. split; [|by intros ->].
  apply flat_inj; by apply fold_dn_wf.
Qed.
Lemma fold_dn_Forall2 d1 d2 :
  fold_dn d1 = fold_dn d2 <->
  Forall2 (Forall2 (fun p q => fold p.1 = fold q.1 /\ fold p.2 = fold q.2)) d1 d2.
Proof using Type.
  unfold fold_dn. revert d2. induction d1 as [|r1 d1 IH]; intros [|r2 d2]; simpl.
  - split; [constructor|done].
  - split; [done|]. intros H; inversion H.
  - split; [done|]. intros H; inversion H.
  - rewrite Forall2_cons, <- IH.
    assert (Hr : map (fun p => (fold p.1, fold p.2)) r1 = map (fun p => (fold p.1, fold p.2)) r2
       <-> Forall2 (fun p q => fold p.1 = fold q.1 /\ fold p.2 = fold q.2) r1 r2).
    { clear. revert r2. induction r1 as [|p r1 IH]; intros [|q r2]; simpl.
      - split; [constructor|done].
      - split; [done|]. intros H; inversion H.
      - split; [done|]. intros H; inversion H.
      - rewrite Forall2_cons, <- IH. split.
        + intros [= ? ? ?]. done.
        + intros [[-> ->] ->]. done. }
    rewrite <- Hr. split.
    + intros [= ? ?]. done.
    + intros [-> ->]. done.
Qed.

(** Shape of parser results. *)
Lemma dn_loop_shape s esc cur ty avas rdns d :
  dn_loop s esc cur ty avas rdns = Some d ->
  Forall (fun r => r <> []) rdns -> d <> [] /\ Forall (fun r => r <> []) d.
Proof using Type.
  revert esc cur ty avas rdns. induction s as [|c s IH]; intros esc cur ty avas rdns H Hr;
    cbn [dn_loop] in H.
  - destruct (is_empty ty); [done|]. destruct (decode_value (rev cur)) as [v|]; [|done].
    injection H as <-. split.
    + apply snoc_ne.
    + apply Forall_app. split; [by apply Forall_revl|]. repeat constructor. apply snoc_ne.
  - destruct esc; [by eapply IH|].
    destruct (aeqb c "\"%char); [by eapply IH|].
    destruct (aeqb c "="%char && is_empty ty).
    { destruct (decode_string (rev cur)); [|done]. by eapply IH. }
    destruct (aeqb c ","%char || aeqb c "+"%char || aeqb c ";"%char); [|by eapply IH].
    destruct (is_empty ty); [done|]. destruct (decode_value (rev cur)) as [v|]; [|done].
    destruct (aeqb c "+"%char); eapply IH; eauto.
    constructor; [|done].
    apply snoc_ne.
Qed.
Lemma parse_dn_shape s d : parse_dn s = Some d -> Forall (fun r => r <> []) d.
Proof using Type.
  unfold parse_dn. destruct (is_empty (trim_dn s)).
  - intros [= <-]. constructor.
  - intros H. eapply dn_loop_shape; eauto.
Qed.
End inj.

(** * Separators *)

(** The separators of a DN text that are not preceded by a backslash
    (specification vocabulary). *)
Fixpoint bare_seps (s : str) : list ascii :=
  match s with
  | [] => []
  | c :: s' =>
      if aeqb c "\"%char then match s' with [] => [] | _ :: s'' => bare_seps s'' end
      else if existsb (aeqb c) (B ",+;") then c :: bare_seps s'
      else bare_seps s'
  end.
Lemma plain_sep c : plain_char c = true ->
  aeqb c "\"%char = false /\ existsb (aeqb c) (B ",+;") = false.
Proof.
  intros H. assert (Hc : (negb (plain_char c) || (negb (aeqb c "\"%char)
    && negb (existsb (aeqb c) (B ",+;")))) = true).
  { clear H. revert c. apply ascii_forall. vm_compute. reflexivity. }
  rewrite H in Hc. simpl in Hc. apply andb_true_iff in Hc as [H1 H2].
  by rewrite negb_true_iff in H1, H2.
Qed.
Lemma bare_seps_plain c s : plain_char c = true -> bare_seps (c :: s) = bare_seps s.
Proof. intros H. apply plain_sep in H as [H1 H2]. cbn [bare_seps]. by rewrite H1, H2. Qed.
Lemma bare_seps_esc c s : bare_seps ("\"%char :: c :: s) = bare_seps s.
Proof. done. Qed.
Lemma enc_no_seps first s : bare_seps (enc_loop first s) = [].
Proof.
  revert first. induction s as [|c s IH]; intros first; [done|].
  destruct (enc_loop_cons first c s) as (t & Ht & ->).
  destruct Ht as [ -> | -> |Hc|a b Hnsp Hh|Hp ? ?]; simpl app.
  - by rewrite bare_seps_esc.
  - by rewrite bare_seps_esc.
  - by rewrite bare_seps_esc.
  - pose proof (hex2_plain c) as H. rewrite Hh in H. destruct H as (Hb & _).
    by rewrite bare_seps_esc, bare_seps_plain.
  - by rewrite bare_seps_plain.
Qed.

Section ctx.
Context {T : Text} (HT : TextOK T).
Lemma parse_ctx t v :
  descr t = true ->
  parse_dn (t ++ B "=" ++ encode_rdn_value v ++ B ",o=x") =
  Some [[(t, v)]; [(B "o", B "x")]].
Proof using HT.
  intros Ht. assert (H : t ++ B "=" ++ encode_rdn_value v ++ B ",o=x" =
    flat [[(t, v)]; [(B "o", B "x")]]).
  { unfold flat, flat_rdn, flat_ava. simpl. by rewrite <- app_assoc. }
  rewrite H. apply (parse_flat HT); [|done]. unfold wf_dn, wf_rdn. cbn [forallb fst is_empty negb andb]. by rewrite Ht.
Qed.
Lemma normalise_stable s d n :
  parse_dn s = Some d -> wf_dn d = true -> last_ok (fold_dn d) = true ->
  parse_normalize s = Some n ->
  parse_dn n = Some (fold_dn d) /\ parse_normalize n = Some n.
Proof using HT.
  unfold parse_normalize. intros Hp Hwf Hl Hn. rewrite Hp in Hn. simpl in Hn.
  injection Hn as <-. rewrite (parse_normalized HT) by done. split; [done|].
  simpl. by rewrite (normalize_fold HT).
Qed.
Lemma normalise_collide d1 d2 :
  wf_dn d1 = true -> wf_dn d2 = true ->
  normalize d1 = normalize d2 <->
  Forall2 (Forall2 (fun p q => fold p.1 = fold q.1 /\ fold p.2 = fold q.2)) d1 d2.
Proof using HT. intros. rewrite (normalize_inj HT) by done. apply fold_dn_Forall2. Qed.
End ctx.
