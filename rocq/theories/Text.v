(** The library calls whose result depends on Unicode tables.  They are not in
    /repo; the model takes them as the operations of a class and the theorems
    assume only the laws [TextOK] below, which hold for the real functions. *)
From Verif Require Import Bytes.

Class Text := {
  (** golang.org/x/text/cases [Fold().String] — full case folding. *)
  fold : str -> str;
  (** Go [strings.EqualFold] — simple case folding. *)
  eqfold : str -> str -> bool;
  (** Go [strings.ToLower], [strings.ToUpper]. *)
  to_lower : str -> str;
  to_upper : str -> str;
  (** The blank stripping go-ldap applies to a whole DN ([strings.TrimSpace])
      and to a single type or value. *)
  trim_dn : str -> str;
  trim_val : str -> str;
  (** [string([]rune(s))]: invalid UTF-8 is replaced by U+FFFD. *)
  runes : str -> str;
  (** go-ldap decodeEncodedString: the value of a [#hex] BER string. *)
  hexber : str -> option str
}.

Definition asciis (s : str) : Prop := Forall (fun c => is_ascii c = true) s.
Definition prints (s : str) : Prop := Forall (fun c => is_print c = true) s.

Record TextOK (T : Text) : Prop := {
  fold_ascii : forall s, asciis s -> fold s = lower_ascii s;
  fold_idem : forall s, fold (fold s) = fold s;
  eqfold_ascii : forall a b, asciis a -> asciis b ->
    eqfold a b = seqb (lower_ascii a) (lower_ascii b);
  eqfold_refl : forall a, eqfold a a = true;
  eqfold_sym : forall a b, eqfold a b = eqfold b a;
  lower_ascii_ok : forall s, asciis s -> to_lower s = lower_ascii s;
  upper_ascii_ok : forall s, asciis s -> to_upper s = upper_ascii s;
  upper_nonempty : forall s, to_upper s = [] -> s = [];
  trim_dn_print : forall s, prints s -> trim_dn s = trim_sp s;
  trim_dn_keeps : forall s, In "="%char s -> trim_dn s <> [];
  trim_val_print : forall s, prints s -> trim_val s = trim_sp s;
  runes_ascii : forall s, asciis s -> runes s = s
}.

Lemma ltrim_in c s : In c s -> c <> space -> In c (ltrim s).
Proof.
  intros Hin Hc. induction s as [|d s IH]; [done|]. cbn [ltrim].
  destruct (aeqb d space) eqn:E; [|done]. apply aeqb_eq in E.
  destruct Hin as [Hd|Hin]; [by subst|]. by apply IH.
Qed.
Lemma trim_sp_keeps s : In "="%char s -> trim_sp s <> [].
Proof.
  intros Hin H. apply (ltrim_in _ _) in Hin; [|done]. apply in_rev in Hin.
  apply (ltrim_in _ _) in Hin; [|done]. apply in_rev in Hin. unfold trim_sp, rtrim in H. by rewrite H in Hin.
Qed.

(** Instance 1: case mapping on ASCII letters only; all other bytes pass
    through. *)
Definition ascii_text : Text := {|
  fold := lower_ascii;
  eqfold a b := seqb (lower_ascii a) (lower_ascii b);
  to_lower := lower_ascii;
  to_upper := upper_ascii;
  trim_dn := trim_sp;
  trim_val := trim_sp;
  runes s := s;
  hexber _ := None
|}.

Lemma ascii_text_ok : TextOK ascii_text.
Proof.
  split; simpl; intros; try done.
  - apply lower_ascii_idem.
  - apply seqb_refl.
  - apply seqb_sym.
  - by destruct s.
  - by apply trim_sp_keeps.
Qed.

(** Instance 2: as instance 1, but U+00DF (bytes C3 9F, sharp s) folds to "ss"
    under full folding and only to itself under simple folding — the point on
    which the two Go functions differ. *)
Fixpoint sharp_fold (s : str) : str :=
  match s with
  | [] => []
  | c :: s' =>
      match s' with
      | d :: s'' =>
          if (code c =? 195)%N && (code d =? 159)%N
          then "s"%char :: "s"%char :: sharp_fold s''
          else lower_ch c :: sharp_fold s'
      | [] => [lower_ch c]
      end
  end.
Definition sharp_text : Text := {|
  fold := sharp_fold;
  eqfold a b := seqb (lower_ascii a) (lower_ascii b);
  to_lower := lower_ascii;
  to_upper := upper_ascii;
  trim_dn := trim_sp;
  trim_val := trim_sp;
  runes s := s;
  hexber _ := None
|}.

Lemma sharp_fold_cons c s :
  sharp_fold (c :: s) =
  match s with
  | d :: s'' =>
      if (code c =? 195)%N && (code d =? 159)%N
      then "s"%char :: "s"%char :: sharp_fold s''
      else lower_ch c :: sharp_fold s
  | [] => [lower_ch c]
  end.
Proof. by destruct s. Qed.
Lemma sharp_fold_ascii s : asciis s -> sharp_fold s = lower_ascii s.
Proof.
  intros H. induction H as [|c s Hc Hs IH]; [done|].
  destruct s as [|d s]; [done|].
  rewrite sharp_fold_cons. assert ((code c =? 195)%N = false) as ->.
  { unfold is_ascii in Hc. apply N.ltb_lt in Hc. apply N.eqb_neq. lia. }
  cbn [andb]. rewrite IH. done.
Qed.

(** No output of [sharp_fold] contains the byte pair again, and all bytes are
    already lower case. *)
Lemma lower_195 c : (code (lower_ch c) =? 195)%N = (code c =? 195)%N.
Proof.
  apply (eqb_true_iff _ _). revert c. apply ascii_forall. vm_compute. reflexivity.
Qed.
Lemma lower_159 c : (code (lower_ch c) =? 159)%N = (code c =? 159)%N.
Proof.
  apply (eqb_true_iff _ _). revert c. apply ascii_forall. vm_compute. reflexivity.
Qed.
Lemma sharp_fold_head s :
  match sharp_fold s with
  | [] => s = []
  | x :: _ => exists c r, s = c :: r /\
      (x = lower_ch c \/ x = "s"%char)
  end.
Proof.
  destruct s as [|c s]; [done|]. rewrite sharp_fold_cons.
  destruct s as [|d s]; [by exists c, []; auto|].
  destruct ((code c =? 195)%N && (code d =? 159)%N).
  - exists c, (d :: s); auto.
  - exists c, (d :: s); auto.
Qed.
Lemma sharp_fold_idem s : sharp_fold (sharp_fold s) = sharp_fold s.
Proof.
  remember (length s) as n eqn:Hn.
  revert s Hn. induction (lt_wf n) as [n _ IH]. intros s Hn.
  destruct s as [|c s]; [done|].
  rewrite sharp_fold_cons.
  destruct s as [|d s]; [by simpl; rewrite lower_ch_idem|].
  destruct ((code c =? 195)%N && (code d =? 159)%N) eqn:E.
  - assert (Hs : sharp_fold (sharp_fold s) = sharp_fold s).
    { eapply IH; [|reflexivity]. simpl in Hn. lia. }
    rewrite sharp_fold_cons.
    replace (code "s"%char =? 195)%N with false by reflexivity. cbn [andb].
    f_equal. rewrite sharp_fold_cons.
    replace (code "s"%char =? 195)%N with false by reflexivity. cbn [andb].
    destruct (sharp_fold s) as [|x r] eqn:Ef; [done|].
    rewrite Hs. done.
  - assert (Hs : sharp_fold (sharp_fold (d :: s)) = sharp_fold (d :: s)).
    { eapply IH; [|reflexivity]. simpl in Hn. simpl. lia. }
    rewrite sharp_fold_cons.
    pose proof (sharp_fold_head (d :: s)) as Hh.
    destruct (sharp_fold (d :: s)) as [|x r] eqn:Ef; [by rewrite lower_ch_idem|].
    destruct Hh as (d' & r' & [= <- <-] & Hx).
    assert ((code (lower_ch c) =? 195)%N && (code x =? 159)%N = false) as ->.
    { rewrite lower_195. destruct Hx as [-> | ->].
      - by rewrite lower_159.
      - replace (code "s"%char =? 159)%N with false by reflexivity. apply andb_false_r. }
    rewrite lower_ch_idem. f_equal. done.
Qed.

Lemma sharp_text_ok : TextOK sharp_text.
Proof.
  split; simpl; intros; try done.
  - by apply sharp_fold_ascii.
  - apply sharp_fold_idem.
  - apply seqb_refl.
  - apply seqb_sym.
  - by destruct s.
  - by apply trim_sp_keeps.
Qed.

(** * Consequences *)
Section laws.
  Context {T : Text} (HT : TextOK T).
  Lemma prints_asciis s : prints s -> asciis s.
  Proof.
    intros H. eapply Forall_impl; [exact H|]. intros c Hc.
    unfold is_print, is_ascii in *. apply andb_true_iff in Hc as [_ Hc].
    apply N.leb_le in Hc. apply N.ltb_lt. lia.
  Qed.
  Lemma lower_asciis s : asciis s -> asciis (lower_ascii s).
  Proof.
    unfold asciis, lower_ascii. intros H0. rewrite Forall_map.
    eapply Forall_impl; [exact H0|]. intros c Hc. simpl.
    assert (H : (negb (is_ascii c) || is_ascii (lower_ch c)) = true).
    { revert c Hc. intros c _. revert c. apply ascii_forall. vm_compute. reflexivity. }
    rewrite Hc in H. done.
  Qed.
  Lemma eqfold_fold_ascii a b :
    asciis a -> asciis b -> eqfold a b = seqb (fold a) (fold b).
  Proof.
    intros Ha Hb. rewrite (eqfold_ascii _ HT), !(fold_ascii _ HT) by done. done.
  Qed.
End laws.
