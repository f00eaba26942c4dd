(** Proofs about Source.v. *)
From Verif Require Import Bytes Res Entry Source TemplateProofs.

(** * Order of names *)
Lemma str_leb_total a b : str_leb a b = true \/ str_leb b a = true.
Proof.
  revert b. induction a as [|x a IH]; intros [|y b]; cbn; auto.
  rewrite (aeqb_sym y x) || (assert (aeqb y x = aeqb x y) as -> by (unfold aeqb; apply Ascii.eqb_sym)).
  destruct (aeqb x y) eqn:E; [apply IH|].
  assert (code x <> code y) by (intros H; apply code_inj in H; subst; unfold aeqb in E; by rewrite Ascii.eqb_refl in E).
  lia.
Qed.
Lemma str_leb_antisym a b : str_leb a b = true -> str_leb b a = true -> a = b.
Proof.
  revert b. induction a as [|x a IH]; intros [|y b]; cbn; try done.
  assert (aeqb y x = aeqb x y) as -> by (unfold aeqb; apply Ascii.eqb_sym).
  destruct (aeqb x y) eqn:E; [|lia]. apply aeqb_eq in E as ->. intros H1 H2. f_equal. by apply IH.
Qed.
Lemma str_leb_trans a b c : str_leb a b = true -> str_leb b c = true -> str_leb a c = true.
Proof.
  revert b c. induction a as [|x a IH]; intros [|y b] [|z c]; cbn; try done.
  destruct (aeqb x y) eqn:E1.
  - apply aeqb_eq in E1 as ->. destruct (aeqb y z) eqn:E2; [|done]. by apply IH.
  - destruct (aeqb y z) eqn:E2.
    + apply aeqb_eq in E2 as ->. rewrite E1. done.
    + destruct (aeqb x z) eqn:E3; [|lia]. apply aeqb_eq in E3 as ->. lia.
Qed.
Global Instance name_le_total : Total name_le.
Proof. intros a b. apply str_leb_total. Qed.
Global Instance name_le_trans : Transitive name_le.
Proof. intros a b c. apply str_leb_trans. Qed.
Lemma sorted_unique (l1 l2 : list (str * option str)) : NoDup l1.*1 -> l1 ≡ₚ l2 ->
  StronglySorted name_le l1 -> StronglySorted name_le l2 -> l1 = l2.
Proof.
  intros Hnd Hp H1. revert l2 Hp Hnd. induction H1 as [|x l1 H1 IH Hx]; intros l2 Hp Hnd H2.
  - by apply Permutation_nil_l in Hp.
  - destruct H2 as [|y l2 H2 Hy]; [by apply Permutation_nil_r in Hp|].
    assert (x = y) as <-.
    { assert (Hxy : x ∈ y :: l2) by (rewrite <- Hp; left). assert (Hyx : y ∈ x :: l1) by (rewrite Hp; left).
      apply elem_of_cons in Hxy as [->|Hxy]; [done|]. apply elem_of_cons in Hyx as [->|Hyx]; [done|].
      rewrite List.Forall_forall in Hx, Hy. apply elem_of_list_In in Hxy, Hyx.
      pose proof (str_leb_antisym _ _ (Hx _ Hyx) (Hy _ Hxy)) as E. exfalso.
      cbn in Hnd. apply NoDup_cons in Hnd as [Hnd _]. apply Hnd. rewrite E. apply elem_of_list_fmap. exists y. split; [done|by apply elem_of_list_In]. }
    f_equal. apply IH; [by apply Permutation_cons_inv in Hp| |done]. cbn in Hnd. by apply NoDup_cons in Hnd as [_ ?].
Qed.
Lemma sort_unique (l sorted : list (str * option str)) : NoDup l.*1 -> l ≡ₚ sorted -> StronglySorted name_le sorted ->
  merge_sort name_le l = sorted.
Proof.
  intros Hnd Hp Hs. apply sorted_unique; [|by rewrite merge_sort_Permutation|apply (StronglySorted_merge_sort _)|done].
  rewrite merge_sort_Permutation. done.
Qed.
Lemma bfilter_perm {A} (f : A -> bool) l l' : l ≡ₚ l' -> bfilter f l ≡ₚ bfilter f l'.
Proof.
  induction 1 as [| |x y l|]; cbn; [done| | |by etrans].
  - destruct (f x); [by apply perm_skip|done].
  - destruct (f x), (f y); try done. apply perm_swap.
Qed.
Lemma bfilter_names (f : str * option str -> bool) l : NoDup l.*1 -> NoDup (bfilter f l).*1.
Proof.
  induction l as [|x l IH]; cbn; [done|]. intros H. apply NoDup_cons in H as [H1 H2]. destruct (f x); [|by apply IH].
  cbn. apply NoDup_cons. split; [|by apply IH]. intros Hin. apply H1. apply elem_of_list_fmap in Hin as (y & -> & Hy).
  apply elem_of_list_fmap. exists y. split; [done|]. apply elem_of_list_In in Hy. apply filter_In in Hy as [Hy _]. by apply elem_of_list_In.
Qed.

(** * Lines *)
Definition short (p : str) : Prop := (Z.of_nat (length p) < max_line)%Z.
Lemma fitting_short a rest : Forall short a -> rest <> [] -> fitting (a ++ rest) = a ++ fitting rest.
Proof.
  intros H Hn. induction H as [|p a Hp _ IH]; [done|]. cbn [app]. assert (E : a ++ rest <> []) by (by destruct a).
  destruct (a ++ rest) as [|q l] eqn:El; [done|]. cbn [fitting]. rewrite IH || idtac.
  destruct (Z.leb_spec max_line (Z.of_nat (length p))); [unfold short in Hp; lia|]. f_equal. done.
Qed.
Lemma fitting_long p rest : ~ short p -> fitting (p :: rest) = [].
Proof.
  intros H. unfold short in H. cbn [fitting]. destruct (Z.leb_spec max_line (Z.of_nat (length p))); [|lia].
  destruct rest; [by rewrite orb_true_r|done].
Qed.

(** * Folded lines (RFC 2849) *)
(** A line that starts with a space continues the line before it.  Each logical
    line with the text that continues it; text at the very start that continues
    nothing. *)
Definition continues (l : str) : bool := has_prefix l (B " ").
Fixpoint unfold (ls : list str) : list (str * str) * str :=
  match ls with
  | [] => ([], [])
  | l :: ls' =>
      let '(ll, more) := unfold ls' in
      if continues l then (ll, tail l ++ more) else ((l, more) :: ll, [])
  end.
(** The logical lines that are not comments. *)
Definition content (ls : list str) : list str :=
  map (fun x => x.1 ++ x.2) (bfilter (fun x => negb (is_comment x.1)) (unfold ls).1).
Fixpoint no_folded_comment (ls : list str) : Prop :=
  match ls with
  | c :: (l :: _) as ls' => (is_comment c = true -> continues l = false) /\ no_folded_comment ls'
  | _ => True
  end.
Lemma unfold_more l ls : continues l = false -> (unfold (l :: ls)).2 = [].
Proof. intros H. cbn [unfold]. destruct (unfold ls). by rewrite H. Qed.
Lemma comment_no_cont l : is_comment l = true -> continues l = false.
Proof. unfold is_comment. intros H. apply has_prefix_spec in H as [t ->]. reflexivity. Qed.
Lemma unfold_strip ls : no_folded_comment ls ->
  let ls' := bfilter (fun l => negb (is_comment l)) ls in
  (unfold ls').1 = bfilter (fun x => negb (is_comment x.1)) (unfold ls).1 /\ (unfold ls').2 = (unfold ls).2.
Proof.
  cbn zeta. induction ls as [|l ls IH]; [done|]. intros H.
  assert (Hn : no_folded_comment ls) by (destruct ls; [done|apply H]).
  destruct (IH Hn) as [IH1 IH2]. cbn [bfilter].
  destruct (is_comment l) eqn:Ec; cbn [negb].
  - assert (Hm : (unfold ls).2 = []). { destruct ls as [|l2 ls]; [done|]. apply unfold_more. by apply H. }
    rewrite IH1, IH2. cbn [unfold]. destruct (unfold ls) as [ll more]. rewrite (comment_no_cont _ Ec). cbn [fst snd] in *. subst more.
    cbn [bfilter fst]. by rewrite Ec.
  - cbn [unfold]. destruct (unfold (bfilter _ ls)) as [ll' more'], (unfold ls) as [ll more]. cbn [fst snd] in IH1, IH2. subst ll' more'.
    destruct (continues l); cbn [fst snd bfilter]; [done|]. by rewrite Ec.
Qed.
Lemma content_strip ls : no_folded_comment ls -> content (bfilter (fun l => negb (is_comment l)) ls) = content ls.
Proof.
  intros H. unfold content. destruct (unfold_strip ls H) as [-> _]. f_equal.
  induction (unfold ls).1 as [|x l IH]; [done|]. cbn [bfilter]. destruct (negb (is_comment x.1)) eqn:E; [|done]. cbn [bfilter]. by rewrite E, IH.
Qed.

(** Lines as the next reader sees them. *)
Lemma split_join_ch c l : l <> [] -> Forall (Forall (fun x => aeqb c x = false)) l -> Bytes.split c (Bytes.join [c] l) = l.
Proof.
  intros Hn H. induction H as [|p l Hp Hl IH]; [done|]. destruct l as [|q l].
  - cbn. by apply split_no_sep.
  - change (Bytes.join [c] (p :: q :: l)) with (p ++ c :: Bytes.join [c] (q :: l)).
    rewrite split_app, IH by done. by rewrite (split_no_sep c p).
Qed.
Lemma fitting_sub ps : Forall (fun p => In p ps) (fitting ps).
Proof.
  induction ps as [|p ps IH]; [constructor|]. cbn [fitting]. destruct ps as [|q ps].
  - destruct (_ || _); repeat constructor.
  - destruct (_ <=? _)%Z; [constructor|]. constructor; [by left|]. eapply Forall_impl; [exact IH|]. intros x Hx. by right.
Qed.
Lemma drop_cr_spec l : drop_cr l = l \/ l = drop_cr l ++ [cr].
Proof.
  unfold drop_cr. destruct l as [|c l _] using rev_ind; [by left|]. rewrite rev_app_distr. cbn [rev app].
  destruct (aeqb c cr) eqn:E; [|by left]. apply aeqb_eq in E as ->. rewrite rev_involutive. by right.
Qed.
Lemma scan_lines_no_lf s : Forall (Forall (fun x => aeqb lf x = false)) (scan_lines s).
Proof.
  unfold scan_lines. apply List.Forall_forall. intros l Hl. apply in_map_iff in Hl as (p & <- & Hp).
  pose proof (fitting_sub (Bytes.split lf s)) as Hs. rewrite List.Forall_forall in Hs. specialize (Hs _ Hp).
  pose proof (split_parts lf s) as Hq. rewrite List.Forall_forall in Hq. specialize (Hq _ Hs).
  destruct (drop_cr_spec p) as [->|E]; [done|]. rewrite E in Hq. by apply Forall_app in Hq as [? _].
Qed.
