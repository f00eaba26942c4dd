(** Property C81: the names the server reads. *)
From Verif Require Import Bytes Text Dn DnProofs.

Section names.
Context {T : Text}.
Local Open Scope char_scope.

(** * Names as text (RFC 4514 with the liberties of go-ldap) *)

(** Hexadecimal digits. *)
Definition hex_of (c : ascii) (n : N) : Prop :=
  B "0123456789abcdef" !! N.to_nat n = Some c \/ B "0123456789ABCDEF" !! N.to_nat n = Some c.
(** Removing the escapes: a backslash is followed by a special character, standing
    for itself, or by the two digits of a byte. *)
Inductive unescaped : str -> str -> Prop :=
| un_nil : unescaped [] []
| un_plain c s t : c <> "\" -> unescaped s t -> unescaped (c :: s) (c :: t)
| un_special c s t : In c (B " ""#+,;<=>\") -> unescaped s t -> unescaped ("\" :: c :: s) (c :: t)
| un_byte a b x y s t : hex_of a x -> hex_of b y -> unescaped s t ->
    unescaped ("\" :: a :: b :: s) (ascii_of_N (16 * x + y) :: t).
(** A text in which the characters [stop] are escaped, and backslashes come in
    front of something. *)
Inductive piece (stop : str) : str -> Prop :=
| pc_nil : piece stop []
| pc_plain c s : c <> "\" -> ~ In c stop -> piece stop s -> piece stop (c :: s)
| pc_esc c s : piece stop s -> piece stop ("\" :: c :: s).
Definition type_text := piece [","; "+"; ";"; "="].
Definition value_text := piece [","; "+"; ";"].
(** The texts of names that are not empty: a type, an equals sign, a value; then
    the next pair of the same component, or the next component.  Before a pair
    there may be blank types with equals signs, which are ignored. *)
Inductive name_text : str -> dn -> Prop :=
| nt_blank t s d : type_text t -> decode_string t = Some [] -> name_text s d -> name_text (t ++ "=" :: s) d
| nt_type t ty s d : type_text t -> decode_string t = Some ty -> ty <> [] -> rest_text ty s d -> name_text (t ++ "=" :: s) d
with rest_text : str -> str -> dn -> Prop :=
| rt_last ty s v : value_text s \/ (exists s', s = s' ++ ["\"] /\ value_text s') -> decode_value s = Some v ->
    rest_text ty s [[(ty, v)]]
| rt_pair ty s v s' r d : value_text s -> decode_value s = Some v -> name_text s' (r :: d) ->
    rest_text ty (s ++ "+" :: s') (((ty, v) :: r) :: d)
| rt_comp ty s v c s' d : value_text s -> decode_value s = Some v -> c = "," \/ c = ";" -> name_text s' d ->
    rest_text ty (s ++ c :: s') ([(ty, v)] :: d).
Scheme name_ind := Induction for name_text Sort Prop with rest_ind := Induction for rest_text Sort Prop.
Combined Scheme texts_ind from name_ind, rest_ind.

(** ** Lemmas *)
Lemma hex_val_iff c n : hex_val c = Some n <-> (n < 16)%N /\ hex_of c n.
Proof using Type.
  split.
  - intros H. assert (Hb : match hex_val c with
      | Some n => (n <? 16)%N && (bool_decide (B "0123456789abcdef" !! N.to_nat n = Some c) || bool_decide (B "0123456789ABCDEF" !! N.to_nat n = Some c))
      | None => true end = true).
    { clear H. revert c. apply (ascii_forall (fun c => match hex_val c with
        | Some n => (n <? 16)%N && (bool_decide (B "0123456789abcdef" !! N.to_nat n = Some c) || bool_decide (B "0123456789ABCDEF" !! N.to_nat n = Some c))
        | None => true end)). vm_compute. reflexivity. }
    rewrite H in Hb. apply andb_true_iff in Hb as [H1 H2]. split; [by apply N.ltb_lt|].
    apply orb_true_iff in H2 as [H2|H2]; apply bool_decide_eq_true in H2; [by left|by right].
  - intros [Hn H]. assert (Hc : exists k, n = N.of_nat k /\ k < 16) by (exists (N.to_nat n); lia).
    destruct Hc as (k & -> & Hk). unfold hex_of in H. rewrite Nat2N.id in H.
    do 16 (destruct k as [|k]; [destruct H as [[= <-]|[= <-]]; reflexivity|]). lia.
Qed.
Lemma hex_of_small c n : hex_of c n -> (n < 16)%N.
Proof using Type. intros [H|H]; apply lookup_lt_Some in H; cbn in H; lia. Qed.
Lemma special_iff c : dn_special c = true <-> In c (B " ""#+,;<=>\").
Proof using Type.
  unfold dn_special. rewrite existsb_exists. split; [intros (x & Hx & E); by apply aeqb_eq in E as ->|].
  intros H. exists c. split; [done|]. by apply aeqb_eq.
Qed.
Lemma hex_not_special c n : hex_of c n -> dn_special c = false.
Proof using Type.
  intros H. pose proof (hex_of_small _ _ H). assert (hex_val c = Some n) by by apply hex_val_iff.
  assert (Hb : match hex_val c with Some _ => negb (dn_special c) | None => true end = true).
  { apply (ascii_forall (fun c => match hex_val c with Some _ => negb (dn_special c) | None => true end)). vm_compute. reflexivity. }
  destruct (hex_val c); [|done]. by apply negb_true_iff in Hb.
Qed.
Lemma decode_iff n s t : length s <= n -> decode_loop s = Some t <-> unescaped s t.
Proof using Type.
  revert s t. induction n as [|n IH]; intros s t Hl.
  { destruct s; [|cbn in Hl; lia]. cbn. split; [intros [= <-]; constructor|]. by inversion 1. }
  destruct s as [|c s]; [cbn; split; [intros [= <-]; constructor|]; by inversion 1|]. cbn [length] in Hl. cbn [decode_loop].
  destruct (aeqb c "\") eqn:Ec.
  - apply aeqb_eq in Ec as ->. destruct s as [|d s]; [split; [done|]; inversion 1; by subst|]. cbn [length] in Hl.
    destruct (dn_special d) eqn:Ed.
    + split.
      * intros H. apply fmap_Some in H as (t' & H & ->). apply special_iff in Ed. apply un_special; [done|]. apply IH; [lia|done].
      * inversion 1 as [|? ? ? Hno|? ? t' _ Ht|a b x y ? t' Ha]; subst; [done| |].
        -- apply IH in Ht; [|lia]. by rewrite Ht.
        -- by rewrite (hex_not_special _ _ Ha) in Ed.
    + destruct s as [|e s].
      { split; [done|]. inversion 1 as [|? ? ? Hno|? ? t' Hin Ht|]; subst; [done|]. apply special_iff in Hin. congruence. }
      cbn [length] in Hl. unfold hex_dec. split.
      * destruct (hex_val d) as [x|] eqn:Ex; [|done]. destruct (hex_val e) as [y|] eqn:Ey; [|done].
        intros H. apply fmap_Some in H as (t' & H & ->). apply hex_val_iff in Ex as [_ Ex], Ey as [_ Ey].
        apply un_byte; [done|done|]. apply IH; [lia|done].
      * inversion 1 as [|? ? ? Hno|? ? t' Hin Ht|a b x y ? t' Ha Hb Ht]; subst; [done|apply special_iff in Hin; congruence|].
        pose proof (hex_of_small _ _ Ha). pose proof (hex_of_small _ _ Hb).
        assert (hex_val d = Some x) as -> by by apply hex_val_iff. assert (hex_val e = Some y) as -> by by apply hex_val_iff.
        apply IH in Ht; [|lia]. by rewrite Ht.
  - apply aeqb_neq in Ec. split.
    + intros H. apply fmap_Some in H as (t' & H & ->). apply un_plain; [done|]. apply IH; [lia|done].
    + inversion 1 as [|? ? t' Hno Ht| |]; subst; [|done..]. apply IH in Ht; [|lia]. by rewrite Ht.
Qed.

(** The accumulators of the parser. *)
Lemma dn_loop_acc s esc cur ty avas rdns d :
  dn_loop s esc cur ty avas rdns = Some d <->
  exists r d', d = rev rdns ++ (rev avas ++ r) :: d' /\ dn_loop s esc cur ty [] [] = Some (r :: d').
Proof using Type.
  revert esc cur ty avas rdns d. induction s as [|c s IH]; intros esc cur ty avas rdns d; cbn [dn_loop].
  - destruct (is_empty ty); [by split; [|intros (? & ? & _ & ?)]|]. destruct (decode_value (rev cur)) as [v|]; [|by split; [|intros (? & ? & _ & ?)]].
    cbn [rev app]. split.
    + intros [= <-]. by exists [(ty, v)], [].
    + by intros (r & d' & -> & [= <- <-]).
  - destruct esc; [apply IH|]. destruct (aeqb c "\"); [apply IH|].
    destruct (aeqb c "=" && is_empty ty).
    { destruct (decode_string (rev cur)); [apply IH|]. by split; [|intros (? & ? & _ & ?)]. }
    destruct (aeqb c "," || aeqb c "+" || aeqb c ";"); [|apply IH].
    destruct (is_empty ty); [by split; [|intros (? & ? & _ & ?)]|].
    destruct (decode_value (rev cur)) as [v|]; [|by split; [|intros (? & ? & _ & ?)]].
    destruct (aeqb c "+").
    + rewrite IH. cbn [rev]. split.
      * intros (r & d' & -> & H). exists ((ty, v) :: r), d'. split; [by rewrite <- app_assoc|]. apply IH. by exists r, d'.
      * intros (r & d' & -> & H). apply IH in H as (r1 & d1 & E & H). cbn in E. injection E as -> ->. exists r1, d1.
        split; [|done]. by rewrite <- app_assoc.
    + rewrite IH. cbn [rev app]. split.
      * intros (r & d' & -> & H). exists [(ty, v)], (r :: d'). split; [by rewrite <- app_assoc|]. apply IH. by exists r, d'.
      * intros (r & d' & -> & H). apply IH in H as (r1 & d1 & E & H). cbn in E. injection E as -> ->. exists r1, d1.
        split; [|done]. by rewrite <- app_assoc.
Qed.
Lemma piece_app stop a b : piece stop a -> piece stop b -> piece stop (a ++ b).
Proof using Type. intros Ha Hb. induction Ha; cbn; [done|by apply pc_plain|by apply pc_esc]. Qed.
(** Running over a piece. *)
Lemma dn_loop_piece stop p rest cur ty avas rdns :
  piece stop p -> In "," stop -> In "+" stop -> In ";" stop -> (In "=" stop \/ ty <> []) ->
  dn_loop (p ++ rest) false cur ty avas rdns = dn_loop rest false (rev p ++ cur) ty avas rdns.
Proof using Type.
  intros Hp H1 H2 H3 H4. revert cur. induction Hp as [|c p Hc Hno Hp IH|c p Hp IH]; intros cur; [done| |].
  - cbn [app dn_loop rev]. apply aeqb_neq in Hc. rewrite Hc.
    assert (aeqb c "=" && is_empty ty = false) as ->.
    { destruct (aeqb c "=") eqn:E; [|done]. apply aeqb_eq in E as ->. destruct H4 as [?|H4]; [done|]. by apply is_empty_false in H4. }
    assert (aeqb c "," || aeqb c "+" || aeqb c ";" = false) as ->.
    { rewrite !orb_false_iff, !aeqb_neq. repeat split; by intros ->. }
    rewrite IH, <- app_assoc. done.
  - cbn [app dn_loop rev]. change (aeqb "\" "\") with true. cbn match. rewrite IH, <- !app_assoc. done.
Qed.
Lemma names_complete :
  (forall s d, name_text s d -> dn_loop s false [] [] [] [] = Some d) /\
  (forall ty s d, rest_text ty s d -> ty <> [] -> dn_loop s false [] ty [] [] = Some d).
Proof using Type.
  apply texts_ind.
  - intros t s d Ht Hd _ IH. rewrite (dn_loop_piece _ _ _ _ _ _ _ Ht) by (cbn; auto 10). cbn [dn_loop].
    change (aeqb "=" "\") with false. change (aeqb "=" "=" && is_empty []) with true. cbn match.
    rewrite app_nil_r, rev_involutive, Hd. done.
  - intros t ty s d Ht Hd Hne _ IH. rewrite (dn_loop_piece _ _ _ _ _ _ _ Ht) by (cbn; auto 10). cbn [dn_loop].
    change (aeqb "=" "\") with false. change (aeqb "=" "=" && is_empty []) with true. cbn match.
    rewrite app_nil_r, rev_involutive, Hd. by apply IH.
  - intros ty s v Hs Hv Hne. assert (He : is_empty ty = false) by by apply is_empty_false.
    assert (Hcase : dn_loop s false [] ty [] [] = match decode_value s with Some v => Some [[(ty, v)]] | None => None end).
    { destruct Hs as [Hs|(s' & -> & Hs)].
      - rewrite <- (app_nil_r s) at 1. rewrite (dn_loop_piece _ _ _ _ _ _ _ Hs) by (cbn; auto 10). cbn [dn_loop].
        by rewrite He, app_nil_r, rev_involutive.
      - rewrite (dn_loop_piece _ _ _ _ _ _ _ Hs) by (cbn; auto 10). cbn [dn_loop]. change (aeqb "\" "\") with true. cbn match.
        rewrite He, app_nil_r. cbn [rev]. by rewrite rev_involutive. }
    by rewrite Hcase, Hv.
  - intros ty s v s' r d Hs Hv _ IH Hne. assert (He : is_empty ty = false) by by apply is_empty_false.
    rewrite (dn_loop_piece _ _ _ _ _ _ _ Hs) by (cbn; auto 10). cbn [dn_loop].
    change (aeqb "+" "\") with false. change (aeqb "+" "=") with false. change (aeqb "+" "," || aeqb "+" "+" || aeqb "+" ";") with true.
    change (aeqb "+" "+") with true. cbn [andb]. cbn match. rewrite He, app_nil_r, rev_involutive, Hv.
    apply dn_loop_acc. by exists r, d.
  - intros ty s v c s' d Hs Hv Hc _ IH Hne. assert (He : is_empty ty = false) by by apply is_empty_false.
    rewrite (dn_loop_piece _ _ _ _ _ _ _ Hs) by (cbn; auto 10). cbn [dn_loop].
    assert (aeqb c "\" = false /\ aeqb c "=" = false /\ aeqb c "," || aeqb c "+" || aeqb c ";" = true /\ aeqb c "+" = false)
      as (-> & -> & -> & ->) by by destruct Hc as [-> | ->].
    cbn [andb]. rewrite He, app_nil_r, rev_involutive, Hv. apply dn_loop_acc.
    destruct d as [|r d]; [|by exists r, d].
    exfalso. clear -IH. destruct (dn_loop_acc s' false [] [] [] [] []) as [H _]. destruct (H IH) as (r & d' & E & _). done.
Qed.
Lemma names_sound s : forall esc cur ty d,
  dn_loop s esc cur ty [] [] = Some d ->
  (exists p, rev cur = (if esc then p ++ ["\"] else p) /\ if is_empty ty then type_text p else value_text p) ->
  if is_empty ty then name_text (rev cur ++ s) d else rest_text ty (rev cur ++ s) d.
Proof using Type.
  induction s as [|c s IH]; intros esc cur ty d H (p & Hp & Hpc); cbn [dn_loop] in H.
  - destruct (is_empty ty); [done|]. destruct (decode_value (rev cur)) as [v|] eqn:Ev; [|done]. cbn in H. injection H as <-.
    rewrite app_nil_r. apply rt_last; [|done]. rewrite Hp. destruct esc; [right; eauto|by left].
  - destruct esc.
    { replace (rev cur ++ c :: s) with (rev (c :: cur) ++ s) by (cbn [rev]; by rewrite <- app_assoc).
      apply (IH false); [done|]. exists (p ++ ["\"; c]). cbn [rev]. rewrite Hp, <- app_assoc. split; [done|].
      destruct (is_empty ty); apply piece_app; try done; apply pc_esc, pc_nil. }
    assert (Hcons : rev cur ++ c :: s = rev (c :: cur) ++ s) by (cbn [rev]; by rewrite <- app_assoc).
    destruct (aeqb c "\") eqn:Ec.
    { apply aeqb_eq in Ec as ->. rewrite Hcons. apply (IH true); [done|]. exists p. cbn [rev]. by rewrite Hp. }
    apply aeqb_neq in Ec. rewrite Hp in *.
    destruct (aeqb c "=") eqn:Eq; cbn [andb] in H.
    + apply aeqb_eq in Eq as ->. destruct (is_empty ty) eqn:Et.
      * destruct (decode_string p) as [t|] eqn:Ed; [|done].
        apply (IH false [] t) in H; [|exists []; split; [done|]; destruct (is_empty t); constructor].
        cbn [rev app] in H. destruct (is_empty t) eqn:E2.
        -- apply is_empty_true in E2 as ->. by apply nt_blank.
        -- apply is_empty_false in E2. by eapply nt_type.
      * change (aeqb "=" "," || aeqb "=" "+" || aeqb "=" ";") with false in H. cbn match in H.
        apply (IH false) in H; rewrite Et in *.
        -- by rewrite Hcons.
        -- exists (p ++ ["="]). cbn [rev]. rewrite Hp. split; [done|]. apply piece_app; [done|].
           apply pc_plain; [done| |constructor]. cbn. intros [?|[?|[?|[]]]]; done.
    + apply aeqb_neq in Eq. destruct (aeqb c "," || aeqb c "+" || aeqb c ";") eqn:Es.
      * destruct (is_empty ty) eqn:Et; [done|]. destruct (decode_value p) as [v|] eqn:Ev; [|done].
        destruct (aeqb c "+") eqn:E3.
        -- apply aeqb_eq in E3 as ->. apply dn_loop_acc in H as (r & d' & -> & H). cbn [rev app]. apply rt_pair; [done|done|].
           apply (IH false [] []) in H; [done|]. exists []. split; [done|constructor].
        -- apply dn_loop_acc in H as (r & d' & -> & H). cbn [rev app]. apply rt_comp; [done|done| |].
           ++ rewrite orb_false_r in Es. apply orb_true_iff in Es as [Es|Es]; apply aeqb_eq in Es; auto.
           ++ apply (IH false [] []) in H; [done|]. exists []. split; [done|constructor].
      * rewrite !orb_false_iff, !aeqb_neq in Es. destruct Es as [[E1 E2] E3].
        rewrite Hcons. apply (IH false); [done|]. exists (p ++ [c]). cbn [rev]. rewrite Hp. split; [done|].
        destruct (is_empty ty); apply piece_app; try done; (apply pc_plain; [done| |constructor]); cbn; naive_solver.
Qed.
End names.

(** C81.  A text is read as a name exactly by these rules ... *)
Theorem C81_grammar (T : Text) (s : str) (d : dn) :
  parse_dn s = Some d <-> trim_dn s = [] /\ d = [] \/ trim_dn s <> [] /\ name_text (trim_dn s) d.
Proof.
  unfold parse_dn. destruct (is_empty (trim_dn s)) eqn:E.
  - apply is_empty_true in E. rewrite E. split; [intros [= <-]; by left|]. intros [[_ ->]|[? _]]; done.
  - apply is_empty_false in E. split.
    + intros H. right. split; [done|]. apply (names_sound _ false [] []) in H; [done|]. exists []. split; [done|constructor].
    + intros [[? _]|[_ H]]; [done|]. by apply (proj1 names_complete).
Qed.
Print Assumptions C81_grammar.
(** ... types and values without their escapes ... *)
Theorem C81_escapes (T : Text) (s t : str) :
  (decode_string s = Some t <-> unescaped (runes (strip s)) t) /\
  (forall s', s = "#"%char :: s' -> decode_value s = hexber s') /\
  (head s <> Some "#"%char -> decode_value s = decode_string s).
Proof.
  split; [unfold decode_string; eapply decode_iff; reflexivity|]. split; [by intros s' ->|].
  intros H. unfold decode_value. destruct s as [|c s]; [done|]. destruct (aeqb c "#"%char) eqn:E; [|done]. by apply aeqb_eq in E as ->.
Qed.
Print Assumptions C81_escapes.
(** ... and without the blanks around them (printable text). *)
Lemma ltrim_spec s : exists n, s = List.repeat space n ++ ltrim s /\ head (ltrim s) <> Some space.
Proof.
  induction s as [|c s (n & E & H)]; [by exists 0|]. cbn [ltrim]. destruct (aeqb c space) eqn:Ec.
  - apply aeqb_eq in Ec as ->. exists (S n). cbn. split; [by f_equal|done].
  - exists 0. split; [done|]. cbn. intros [= ->]. by apply aeqb_neq in Ec.
Qed.
Lemma rtrim_spec s : exists n, s = rtrim s ++ List.repeat space n /\ forall x, rtrim s <> x ++ [space].
Proof.
  destruct (ltrim_spec (rev s)) as (n & E & H). exists n. unfold rtrim. split.
  - rewrite <- (rev_involutive s) at 1. rewrite E at 1. rewrite rev_app_distr. f_equal. clear.
    induction n as [|n IH]; [done|]. cbn [List.repeat rev]. rewrite IH. clear. induction n; [done|]. cbn. by f_equal.
  - intros x Hx. apply H. apply (f_equal (@rev ascii)) in Hx. rewrite rev_involutive, rev_app_distr in Hx. by rewrite Hx.
Qed.
Theorem C81_blanks (T : Text) (HT : TextOK T) (s : str) :
  prints s -> exists n k, s = List.repeat space n ++ strip s ++ List.repeat space k /\
    head (strip s) <> Some space /\
    (forall x, strip s = x ++ [space] -> exists y, x = y ++ ["\"%char]) /\
    (forall x, strip s = x ++ ["\"%char] -> k = 0).
Proof.
  intros Hs. unfold strip. rewrite (trim_val_print _ HT) by done. unfold trim_sp.
  destruct (ltrim_spec s) as (n & E1 & H1). destruct (rtrim_spec (ltrim s)) as (k & E2 & H2).
  set (t := rtrim (ltrim s)) in *.
  assert (H3 : head t <> Some space).
  { intros Ht. apply H1. rewrite E2. destruct t; [done|]. by injection Ht as ->. }
  assert (Hk : ends_with space s = true -> t <> [] -> exists k', k = S k').
  { intros He Ht. destruct k as [|k]; [|eauto]. exfalso. apply ends_with_true in He as (x & Hx).
    cbn [List.repeat] in E2. rewrite app_nil_r in E2. rewrite E1, E2 in Hx.
    destruct t as [|c t] using rev_ind; [done|]. rewrite app_assoc in Hx. apply app_inj_tail in Hx as [_ ->]. by apply (H2 t). }
  destruct (ends_with "\"%char t) eqn:Et; cbn [andb].
  - apply ends_with_true in Et as (y & Ey). destruct (ends_with space s) eqn:Es.
    + destruct Hk as [k' ->]; [done|by rewrite Ey; destruct y|]. exists n, k'. split; [|split; [|split]].
      * rewrite E1 at 1. rewrite E2 at 1. rewrite <- app_assoc. done.
      * destruct t; [by destruct y|done].
      * intros x Hx. apply app_inj_tail in Hx as [<- _]. eauto.
      * intros x Hx. by apply app_inj_tail in Hx as [_ Hx].
    + exists n, k. split; [|split; [|split]].
      * rewrite E1 at 1. by rewrite E2 at 1.
      * done.
      * intros x Hx. by destruct (H2 x).
      * intros _ _. destruct k as [|k]; [done|]. exfalso. assert (ends_with space s = true); [|congruence].
        apply ends_with_true. exists (List.repeat space n ++ t ++ List.repeat space k).
        rewrite E1 at 1. rewrite E2 at 1. rewrite <- !app_assoc. do 2 f_equal. clear.
        induction k as [|k IH]; [done|]. cbn [List.repeat]. cbn [app]. by rewrite <- IH.
  - exists n, k. split; [|split; [done|split]].
    * rewrite E1 at 1. by rewrite E2 at 1.
    * intros x Hx. by destruct (H2 x).
    * intros x Hx. assert (ends_with "\"%char t = true); [|congruence]. apply ends_with_true. eauto.
Qed.
Print Assumptions C81_blanks.
Example C81_case :
  let s := B "cn = Doe\, J\c3 + uid=a=b ; =o=\ x" in
  let d := [[(B "cn", B "Doe, J" ++ [ascii_of_N 195]); (B "uid", B "a=b")]; [(B "o", B " x")]] in
  name_text (T:=ascii_text) s d /\
  parse_dn (T:=ascii_text) (B " " ++ s ++ B " ") = Some d /\
  parse_dn (T:=ascii_text) (B "cn=a\x,o=b") = None /\ parse_dn (T:=ascii_text) (B "cn=a,,o=b") = None /\
  strip (T:=ascii_text) (B "  a\   ") = B "a\ ".
Proof.
  intros s d. split; [|vm_compute; repeat split].
  assert (H : parse_dn (T:=ascii_text) s = Some d) by (vm_compute; reflexivity).
  apply C81_grammar in H as [[_ ?]|[_ H]]; [done|]. exact H.
Qed.
