(** Lemmas about FilterText.v. *)
From Verif Require Import Bytes Text Res Packet Filter FilterProofs Ber FilterText.

(** ** Runes of ASCII text *)
Lemma rune_ascii c s : is_ascii c = true -> rune (c :: s) = Some ([c], s).
Proof. unfold is_ascii, rune. by intros ->. Qed.
Lemma rune_shorter s r s1 : rune s = Some (r, s1) -> s = r ++ s1 /\ 0 < length r.
Proof.
  unfold rune. destruct s as [|c s]; [done|]. intros H.
  repeat (case_match; try done); injection H as <- <-; cbn; split; (done || lia).
Qed.

(** ** Escaping *)
Definition calm_char (c : ascii) : bool := is_ascii c && negb (existsb (aeqb c) ["("%char; ")"%char; "*"%char]).
Lemma escape_calm v : Forall (fun c => calm_char c = true) (escape_filter v).
Proof.
  unfold escape_filter. induction v as [|c v IH]; [constructor|]. cbn [flat_map]. apply Forall_app. split; [|done].
  assert (H : forallb calm_char (if must_escape c then "\"%char :: hex_enc c else [c]) = true).
  { revert c. apply (ascii_forall (fun c => forallb calm_char (if must_escape c then "\"%char :: hex_enc c else [c]))).
    vm_compute. reflexivity. }
  by apply forallb_Forall.
Qed.
Lemma unescape_enough n m s : length s < n -> length s < m -> unescape_loop n s = unescape_loop m s.
Proof.
  revert m s. induction n as [|n IH]; intros [|m] s Hn Hm; try lia. cbn [unescape_loop]. destruct s as [|c s]; [done|].
  destruct (rune (c :: s)) as [[r s1]|] eqn:E; [|done]. apply rune_shorter in E as [E Hr].
  assert (Hl : length (c :: s) = length r + length s1) by (by rewrite E, app_length). cbn [length] in *.
  rewrite (IH m s1) by lia. destruct (seqb r (B "\")); [|done]. destruct s1 as [|a [|b s2]]; try done. cbn [length] in *.
  by rewrite (IH m s2) by lia.
Qed.
Lemma unescape_escape_loop v n : length (escape_filter v) < n -> unescape_loop n (escape_filter v) = Some v.
Proof.
  revert n. induction v as [|c v IH]; intros [|n] Hn; try lia; [done|].
  assert (Hc : escape_filter (c :: v) = (if must_escape c then "\"%char :: hex_enc c else [c]) ++ escape_filter v) by done.
  rewrite Hc in Hn |- *. destruct (must_escape c) eqn:E.
  - pose proof (hex_roundtrip c) as Hh. unfold hex_enc in Hn, Hh |- *. cbn [app length] in Hn |- *.
    cbn [unescape_loop]. rewrite rune_ascii by done. cbn match. change (seqb ["\"%char] (B "\")) with true. cbn match.
    rewrite Hh. rewrite IH by lia. done.
  - cbn [app length] in Hn |- *. cbn [unescape_loop].
    assert (Ha : is_ascii c = true /\ seqb [c] (B "\") = false).
    { assert (H : forall c, implb (negb (must_escape c)) (is_ascii c && negb (seqb [c] (B "\"))) = true).
      { apply ascii_forall. vm_compute. reflexivity. }
      specialize (H c). rewrite E in H. cbn [implb negb] in H. apply andb_true_iff in H as [H1 H2]. split; [done|]. by apply negb_true_iff. }
    destruct Ha as [Ha Hb]. rewrite rune_ascii by done. rewrite Hb, IH by lia. done.
Qed.
Lemma unescape_escape v : unescape (escape_filter v) = Some v.
Proof. apply unescape_escape_loop. lia. Qed.

(** ** The loop over one comparison *)
Lemma leaf_more n k st s x : leaf_loop n st s = Some x -> leaf_loop (n + k) st s = Some x.
Proof.
  revert st s. induction n as [|n IH]; intros st s; [done|]. cbn [leaf_loop Nat.add]. destruct s as [|c s]; [done|].
  destruct (aeqb c ")"%char); [done|]. destruct (rune (c :: s)) as [[r s1]|]; [|done].
  destruct (leaf_step st (c :: s) r s1) as [st' s2]. apply IH.
Qed.
Lemma name_facts c : name_char c = true ->
  is_ascii c = true /\ Forall (fun x => aeqb c x = false) [")"%char; "("%char; ":"%char; "="%char; ">"%char; "<"%char; "~"%char; "&"%char; "|"%char; "!"%char].
Proof.
  intros H.
  assert (Hc : implb (name_char c) (is_ascii c && forallb (fun x => negb (aeqb c x)) [")"%char; "("%char; ":"%char; "="%char; ">"%char; "<"%char; "~"%char; "&"%char; "|"%char; "!"%char]) = true).
  { revert c H. intros c _. revert c. apply ascii_forall. vm_compute. reflexivity. }
  rewrite H in Hc. cbn [implb] in Hc. apply andb_true_iff in Hc as [H1 H2]. split; [done|].
  apply forallb_Forall in H2. eapply Forall_impl; [exact H2|]. cbn. intros x Hx. by apply negb_true_iff.
Qed.
Lemma prefix_first c s p : match p with x :: _ => aeqb c x = false | [] => False end -> has_prefix (c :: s) p = false.
Proof.
  destruct p as [|x p]; [done|]. intros H. destruct (has_prefix (c :: s) (x :: p)) eqn:E; [|done].
  apply has_prefix_spec in E as [t E]. injection E as -> _. by rewrite aeqb_refl in H.
Qed.
Lemma leaf_name a n k at0 ru co dn s : Forall (fun c => name_char c = true) a ->
  leaf_loop (length a + n) (mkLeaf k at0 ru co dn RAttr) (a ++ s) = leaf_loop n (mkLeaf k (at0 ++ a) ru co dn RAttr) s.
Proof.
  revert at0. induction a as [|c a IH]; intros at0 H; [by rewrite app_nil_r|].
  apply Forall_cons in H as [Hc Ha]. apply name_facts in Hc as [Hasc Hne].
  repeat (apply Forall_cons in Hne as [? Hne]).
  cbn [length Nat.add app leaf_loop]. rewrite H. rewrite rune_ascii by done. unfold leaf_step.
  rewrite !(prefix_first c) by done. rewrite IH by done. by rewrite <- app_assoc.
Qed.
Lemma leaf_rule a n k at0 ru co dn s : Forall (fun c => name_char c = true) a ->
  leaf_loop (length a + n) (mkLeaf k at0 ru co dn RRule) (a ++ s) = leaf_loop n (mkLeaf k at0 (ru ++ a) co dn RRule) s.
Proof.
  revert ru. induction a as [|c a IH]; intros ru H; [by rewrite app_nil_r|].
  apply Forall_cons in H as [Hc Ha]. apply name_facts in Hc as [Hasc Hne].
  repeat (apply Forall_cons in Hne as [? Hne]).
  cbn [length Nat.add app leaf_loop]. rewrite H. rewrite rune_ascii by done. unfold leaf_step.
  rewrite !(prefix_first c) by done. rewrite IH by done. by rewrite <- app_assoc.
Qed.
Lemma leaf_cond v n k at0 ru co dn s : Forall (fun c => is_ascii c = true /\ aeqb c ")"%char = false) v ->
  leaf_loop (length v + n) (mkLeaf k at0 ru co dn RCond) (v ++ s) = leaf_loop n (mkLeaf k at0 ru (co ++ v) dn RCond) s.
Proof.
  revert co. induction v as [|c v IH]; intros co H; [by rewrite app_nil_r|].
  apply Forall_cons in H as [[H1 H2] Hv]. cbn [length Nat.add app leaf_loop]. rewrite H2, rune_ascii by done.
  unfold leaf_step. rewrite IH by done. by rewrite <- app_assoc.
Qed.
(** Text without ")" that is ASCII. *)
Definition cond_ok (v : str) : Prop := Forall (fun c => is_ascii c = true /\ aeqb c ")"%char = false) v.
Lemma escape_cond v : cond_ok (escape_filter v).
Proof.
  unfold cond_ok. eapply Forall_impl; [apply escape_calm|]. cbn. intros c [H1 H2]%andb_true_iff. split; [done|].
  apply negb_true_iff in H2. cbn [existsb] in H2. apply orb_false_iff in H2 as [_ H2]. by apply orb_false_iff in H2 as [H2 _].
Qed.

(** ** Positions only grow, and enough fuel is enough *)
Lemma leaf_shorter n st s st' r : leaf_loop n st s = Some (st', r) -> length r < length s.
Proof.
  revert st s. induction n as [|n IH]; intros st s; [done|]. cbn [leaf_loop]. destruct s as [|c s]; [done|].
  destruct (aeqb c ")"%char); [intros [= _ ->]; cbn; lia|].
  destruct (rune (c :: s)) as [[x s1]|] eqn:E; [|done]. apply rune_shorter in E as [E Hx].
  assert (Hl : length (c :: s) = length x + length s1) by (by rewrite E, app_length).
  destruct (leaf_step st (c :: s) x s1) as [st2 s2] eqn:Es. intros H%IH.
  assert (length s2 < length (c :: s)); [|lia].
  unfold leaf_step in Es. destruct st as [k a ru co dn []];
    repeat (case_match; [injection Es as _ <-; rewrite drop_length; cbn [length] in *; lia|]);
    injection Es as _ <-; lia.
Qed.
Lemma compile_enough n : forall m s, length s < n -> length s < m ->
  (compile_at n s = compile_at m s /\ forall x r, compile_at n s = Some (x, r) -> length r < length s) /\
  (compile_set n s = compile_set m s /\ forall x r, compile_set n s = Some (x, r) -> length r < length s).
Proof.
  induction n as [|n IH]; intros [|m] s Hn Hm; try lia. split.
  - cbn [compile_at]. destruct (rune s) as [[r s1]|] eqn:E; [|done]. apply rune_shorter in E as [E Hr].
    assert (Hl : length s = length r + length s1) by (by rewrite E, app_length).
    destruct (IH m s1 ltac:(lia) ltac:(lia)) as [[Ha Hax] [Hs Hsx]].
    destruct (seqb r (B "(")).
    { rewrite Ha in *. destruct (compile_at m s1) as [[x [|c s2]]|]; [done| |done]. split; [done|].
      intros x' r' [= <- <-]. specialize (Hax x (c :: s2) eq_refl). cbn [length] in Hax. lia. }
    destruct (seqb r (B "&")).
    { rewrite Hs in *. destruct (compile_set m s1) as [[x s2]|]; [|done]. split; [done|].
      intros x' r' [= <- <-]. specialize (Hsx x s2 eq_refl). lia. }
    destruct (seqb r (B "|")).
    { rewrite Hs in *. destruct (compile_set m s1) as [[x s2]|]; [|done]. split; [done|].
      intros x' r' [= <- <-]. specialize (Hsx x s2 eq_refl). lia. }
    destruct (seqb r (B "!")).
    { rewrite Ha in *. destruct (compile_at m s1) as [[x s2]|]; [|done]. split; [done|].
      intros x' r' [= <- <-]. specialize (Hax x s2 eq_refl). lia. }
    split; [done|]. intros x r'. destruct (leaf_loop _ _ _) as [[st s2]|] eqn:El; [|done]. apply leaf_shorter in El.
    destruct (leaf_end st); [|done]. by intros [= <- <-].
  - cbn [compile_set]. destruct s as [|c s1]; [done|]. cbn [length] in *. destruct (aeqb c "("%char).
    + destruct (IH m s1 ltac:(lia) ltac:(lia)) as [[Ha Hax] _]. rewrite Ha in *.
      destruct (compile_at m s1) as [[x s2]|]; [|done]. specialize (Hax x s2 eq_refl).
      destruct (IH m s2 ltac:(lia) ltac:(lia)) as [_ [Hs Hsx]]. rewrite Hs in *.
      destruct (compile_set m s2) as [[l s3]|]; [|done]. specialize (Hsx l s3 eq_refl). split; [done|].
      intros x' r' [= <- <-]. lia.
    + split; [done|]. intros x' r' [= <- <-]. lia.
Qed.

(** ** Single comparisons *)
(** The text of a comparison ends with ")". *)
Lemma leaf_reads a sym k cond rest : named a -> cond_ok cond ->
  In (sym, k) [(B "=", KEq); (B ">=", KCmp CGreater); (B "<=", KCmp CLess); (B "~=", KCmp CApprox); (B ":=", KExt)] ->
  let s := a ++ sym ++ cond ++ ")"%char :: rest in
  leaf_loop (S (length s)) leaf_start s = Some (mkLeaf (Some k) a [] cond false RCond, rest).
Proof.
  intros Ha Hc Hk s.
  assert (H : leaf_loop (length a + S (length cond + 1)) leaf_start s = Some (mkLeaf (Some k) a [] cond false RCond, rest)).
  { unfold s, leaf_start. rewrite leaf_name by done. cbn [app].
    replace (leaf_loop (S (length cond + 1)) _ _)
      with (leaf_loop (length cond + 1) (mkLeaf (Some k) a [] [] false RCond) (cond ++ ")"%char :: rest)).
    { rewrite leaf_cond by done. reflexivity. }
    cbn [In] in Hk. decompose [or] Hk; try done; match goal with H : (_, _) = (_, _) |- _ => injection H as <- <- end; reflexivity. }
  replace (S (length s)) with (length a + S (length cond + 1) + (length s - length a - length cond - 1)).
  { by apply leaf_more. }
  unfold s. rewrite !app_length. cbn [length].
  assert (1 <= length sym). { cbn [In] in Hk. decompose [or] Hk; try done; match goal with H : (_, _) = (_, _) |- _ => injection H as <- <- end; cbn; lia. }
  lia.
Qed.
Lemma leaf_at f c s : is_ascii c = true -> Forall (fun x => aeqb c x = false) ["("%char; "&"%char; "|"%char; "!"%char] ->
  compile_at (S f) (c :: s) =
  match leaf_loop (S (length (c :: s))) leaf_start (c :: s) with
  | Some (st, s2) => match leaf_end st with Some x => Some (x, s2) | None => None end
  | None => None
  end.
Proof.
  intros Ha Hne. repeat (apply Forall_cons in Hne as [? Hne]). cbn [compile_at]. rewrite rune_ascii by done.
  assert (E : forall x, aeqb c x = false -> seqb [c] [x] = false).
  { intros x Hx. apply seqb_neq. intros [= ->]. by rewrite aeqb_refl in Hx. }
  change (B "(") with ["("%char]. change (B "&") with ["&"%char]. change (B "|") with ["|"%char]. change (B "!") with ["!"%char].
  rewrite !E by done. done.
Qed.
Lemma leaf_at_text f a sym k cond rest x : named a -> cond_ok cond ->
  In (sym, k) [(B "=", KEq); (B ">=", KCmp CGreater); (B "<=", KCmp CLess); (B "~=", KCmp CApprox); (B ":=", KExt)] ->
  leaf_end (mkLeaf (Some k) a [] cond false RCond) = Some x ->
  compile_at (S f) (a ++ sym ++ cond ++ ")"%char :: rest) = Some (x, rest).
Proof.
  intros Ha Hc Hk Hx. pose proof (leaf_reads a sym k cond rest Ha Hc Hk) as H. cbv zeta in H.
  assert (Hs : exists c s, a ++ sym ++ cond ++ ")"%char :: rest = c :: s /\ is_ascii c = true /\
     Forall (fun x => aeqb c x = false) ["("%char; "&"%char; "|"%char; "!"%char]).
  { destruct a as [|c a].
    - cbn [In] in Hk. decompose [or] Hk; try done; match goal with H : (_, _) = (_, _) |- _ => injection H as <- <- end;
        (eexists _, _; split; [reflexivity|]; split; [reflexivity|repeat constructor]).
    - apply Forall_cons in Ha as [Hn _]. apply name_facts in Hn as [H1 H2].
      repeat (apply Forall_cons in H2 as [? H2]). eexists _, _. split; [reflexivity|]. split; [done|]. by repeat constructor. }
  destruct Hs as (c & s & Es & H1 & H2). rewrite Es in *. rewrite leaf_at by done. rewrite H. by rewrite Hx.
Qed.

(** ** Values and substrings *)
Lemma escape_no_star v : Forall (fun c => aeqb "*"%char c = false) (escape_filter v).
Proof.
  eapply Forall_impl; [apply escape_calm|]. intros c Hc. unfold calm_char in Hc. apply andb_true_iff in Hc as [_ H].
  apply negb_true_iff in H. cbn [existsb] in H. rewrite !orb_false_iff in H. destruct H as (_ & _ & H & _).
  apply aeqb_neq in H. apply aeqb_neq. congruence.
Qed.
Lemma no_star_exists s : Forall (fun c => aeqb "*"%char c = false) s -> existsb (aeqb "*"%char) s = false.
Proof. induction 1 as [|c s H _ IH]; [done|]. cbn [existsb]. by rewrite H. Qed.
Lemma escape_nonempty v : v <> [] -> is_empty (escape_filter v) = false.
Proof. destruct v as [|c v]; [done|]. intros _. unfold escape_filter. cbn [flat_map]. by destruct (must_escape c). Qed.
Lemma star_not_value v : seqb (escape_filter v) (B "*") = false.
Proof.
  apply seqb_neq. intros E. pose proof (escape_no_star v) as H. rewrite E in H. by apply Forall_cons in H as [H _].
Qed.
(** The text of components. *)
Fixpoint parts_text (first : bool) (ps : list (N * str)) : str :=
  match ps with
  | [] => []
  | (t, v) :: ps' =>
      (if first && negb (t =? 0)%N then B "*" else []) ++ escape_filter v ++
      (if (t =? 2)%N then [] else B "*") ++ parts_text false ps'
  end.
Lemma sub_text_says first ks ps : Forall2 says_field ks ps -> sub_text first ks = parts_text first ps.
Proof.
  intros H. revert first. induction H as [|k [t v] ks ps [H1 H2] _ IH]; intros first; [done|]. cbn [sub_text parts_text].
  cbn in H1, H2. rewrite H1, H2, IH. done.
Qed.
Lemma parts_tail ps : tail_ok ps -> sub_parts false (split "*"%char (parts_text false ps)) = Some ps.
Proof.
  induction 1 as [|v ps Hv _ IH|v Hv]; [done| |].
  - cbn [parts_text andb app]. change (1 =? 2)%N with false. cbn match. change (B "*") with ["*"%char]. cbn [app].
    rewrite split_app_sep by apply escape_no_star. cbn [sub_parts]. rewrite IH. rewrite escape_nonempty, unescape_escape by done.
    destruct (split "*"%char (parts_text false ps)) eqn:E; [by apply split_nonempty in E|]. done.
  - cbn [parts_text andb app]. change (2 =? 2)%N with true. cbn match. cbn [app]. rewrite app_nil_r.
    rewrite split_no_sep by apply escape_no_star. cbn [sub_parts]. rewrite escape_nonempty, unescape_escape by done. done.
Qed.
Lemma parts_text_star t v ps : (t =? 0)%N = false -> parts_text true ((t, v) :: ps) = "*"%char :: parts_text false ((t, v) :: ps).
Proof. intros H. cbn [parts_text]. rewrite H. done. Qed.
Lemma parts_back ps : parts_ok ps -> sub_parts true (split "*"%char (parts_text true ps)) = Some ps.
Proof.
  intros [Hne [H|(v & ps' & -> & Hv & H)]].
  - assert (Ht : parts_text true ps = "*"%char :: parts_text false ps).
    { destruct H; [done| |]; by apply parts_text_star. }
    rewrite Ht. change ("*"%char :: parts_text false ps) with ([] ++ "*"%char :: parts_text false ps).
    rewrite split_app_sep by constructor. cbn [sub_parts]. by rewrite parts_tail.
  - cbn [parts_text andb negb N.eqb]. cbn [app]. change (B "*") with ["*"%char]. cbn [app].
    rewrite split_app_sep by apply escape_no_star. cbn [sub_parts]. rewrite parts_tail by done.
    by rewrite escape_nonempty, unescape_escape by done.
Qed.
Lemma parts_text_ok first ps : cond_ok (parts_text first ps).
Proof.
  revert first. induction ps as [|[t v] ps IH]; intros first; [constructor|]. cbn [parts_text]. unfold cond_ok in *.
  rewrite !Forall_app. split; [|split; [apply escape_cond|split; [|apply IH]]]; case_match; by repeat constructor.
Qed.
Lemma parts_have_star ps : parts_ok ps -> existsb (aeqb "*"%char) (parts_text true ps) = true.
Proof.
  intros [Hne [H|(v & ps' & -> & Hv & H)]].
  - assert (Ht : parts_text true ps = "*"%char :: parts_text false ps).
    { destruct H; [done| |]; by apply parts_text_star. }
    by rewrite Ht.
  - cbn [parts_text andb negb N.eqb app]. rewrite !existsb_app. change (existsb (aeqb "*"%char) (B "*")) with true.
    by rewrite orb_true_r.
Qed.
Lemma parts_not_star ps : parts_ok ps -> seqb (parts_text true ps) (B "*") = false.
Proof.
  intros [Hne [H|(v & ps' & -> & Hv & H)]]; apply seqb_neq.
  - assert (Ht : parts_text true ps = "*"%char :: parts_text false ps).
    { destruct H; [done| |]; by apply parts_text_star. }
    rewrite Ht. change (B "*") with ["*"%char]. intros [= E].
    destruct H as [|v ps Hv _|v Hv]; [done| |]; cbn [parts_text andb app] in E; apply app_eq_nil in E as [E _];
      apply escape_nonempty in Hv; by rewrite E in Hv.
  - cbn [parts_text andb negb N.eqb app]. change (B "*") with ["*"%char]. cbn [app]. intros E.
    apply escape_nonempty in Hv. destruct (escape_filter v) as [|c l]; [done|]. injection E as _ E. by destruct l.
Qed.

(** ** The way of a filter *)
Lemma each_forall (l : list flt) (ks : list packet) :
  (fix each (l : list flt) (ks : list packet) : Prop :=
     match l, ks with [], [] => True | g :: l', k :: ks' => says_flt g k /\ each l' ks' | _, _ => False end) l ks <->
  Forall2 says_flt l ks.
Proof.
  revert ks. induction l as [|g l IH]; intros [|k ks]; (split; [intros H|intros H; inversion H; subst]); try done.
  - destruct H as [H1 H2%IH]. by constructor.
  - split; [done|]. by apply IH.
Qed.
Lemma regular_all l : foldr (fun g P => regular g /\ P) True l <-> Forall regular l.
Proof. induction l as [|g l IH]; cbn [foldr]; [split; [constructor|done]|]. rewrite Forall_cons. by rewrite IH. Qed.
Fixpoint decompile_all (l : list packet) : option str :=
  match l with
  | [] => Some []
  | c :: l' => match decompile c with
               | Some x => match decompile_all l' with Some y => Some (x ++ y) | None => None end
               | None => None
               end
  end.
Definition travels (f : flt) (p : packet) : Prop :=
  exists t, decompile p = Some ("("%char :: t) /\
    forall n rest, length (t ++ rest) < n -> compile_at n (t ++ rest) = Some (f, rest).
Lemma set_travels l ks : Forall2 (fun f p => travels f p) l ks ->
  exists t, decompile_all ks = Some t /\
    forall n rest, length (t ++ ")"%char :: rest) < n -> compile_set n (t ++ ")"%char :: rest) = Some (l, rest).
Proof.
  induction 1 as [|f p l ks (t1 & H1 & H2) _ (t2 & H3 & H4)].
  - exists []. split; [done|]. intros [|n] rest Hn; [lia|]. reflexivity.
  - exists (("("%char :: t1) ++ t2). cbn [decompile_all]. rewrite H1, H3. split; [done|]. intros [|n] rest Hn; [lia|].
    cbn [app compile_set]. change (aeqb "("%char "("%char) with true. cbn match. rewrite <- app_assoc.
    cbn [app length] in Hn. rewrite <- app_assoc in Hn. rewrite H2 by lia. rewrite H4; [done|].
    rewrite app_length in Hn. lia.
Qed.
Lemma app_close (x rest : str) : (x ++ B ")") ++ rest = x ++ ")"%char :: rest.
Proof. by rewrite <- app_assoc. Qed.
Lemma filter_travels f p : regular f -> says_flt f p -> travels f p.
Proof.
  revert p. induction f as [l IH|l IH|f IH|a v|a ps|a|o] using flt_ind'; intros [cls con tag val data kids] Hr Hs; cbn [says_flt p_tag p_kids p_data] in Hs.
  - destruct Hs as [-> Hs]. apply each_forall in Hs. apply regular_all in Hr.
    assert (Hall : Forall2 travels l kids).
    { clear -IH Hr Hs. induction Hs as [|f p l ks Hf _ IHl]; [constructor|]. apply Forall_cons in IH as [IH1 IH2].
      apply Forall_cons in Hr as [Hr1 Hr2]. constructor; auto. }
    destruct (set_travels _ _ Hall) as (t & Ht & Hc). exists ("&"%char :: t ++ B ")"). split.
    + change (match decompile_all kids with Some x => Some ("&"%char :: x) | None => None end) with
        (match decompile_all kids with Some x => Some ("&"%char :: x) | None => None end).
      cbn [decompile]. change (FAndTag =? FAndTag)%N with true. change (0 =? FAndTag)%N with true. cbn match.
      fold decompile_all. rewrite Ht. done.
    + intros [|n] rest Hn; [lia|]. cbn [app] in *. rewrite app_close in *. cbn [compile_at]. rewrite rune_ascii by done.
      change (seqb ["&"%char] (B "(")) with false. change (seqb ["&"%char] (B "&")) with true. cbn match.
      cbn [length] in Hn. rewrite Hc by lia. done.
  - destruct Hs as [-> Hs]. apply each_forall in Hs. apply regular_all in Hr.
    assert (Hall : Forall2 travels l kids).
    { clear -IH Hr Hs. induction Hs as [|f p l ks Hf _ IHl]; [constructor|]. apply Forall_cons in IH as [IH1 IH2].
      apply Forall_cons in Hr as [Hr1 Hr2]. constructor; auto. }
    destruct (set_travels _ _ Hall) as (t & Ht & Hc). exists ("|"%char :: t ++ B ")"). split.
    + cbn [decompile]. change (1 =? FAndTag)%N with false. change (1 =? FOrTag)%N with true. cbn match.
      fold decompile_all. rewrite Ht. done.
    + intros [|n] rest Hn; [lia|]. cbn [app] in *. rewrite app_close in *. cbn [compile_at]. rewrite rune_ascii by done.
      change (seqb ["|"%char] (B "(")) with false. change (seqb ["|"%char] (B "&")) with false.
      change (seqb ["|"%char] (B "|")) with true. cbn match.
      cbn [length] in Hn. rewrite Hc by lia. done.
  - destruct Hs as (-> & k & -> & Hk). destruct (IH k Hr Hk) as (t & Ht & Hc).
    exists ("!"%char :: ("("%char :: t) ++ B ")"). split.
    + cbn [decompile]. change (2 =? FAndTag)%N with false. change (2 =? FOrTag)%N with false. change (2 =? FNotTag)%N with true.
      cbn match. rewrite Ht. done.
    + intros [|[|n]] rest Hn; [lia|cbn in Hn; lia|]. cbn [app] in *. rewrite app_close in *. cbn [compile_at].
      rewrite !rune_ascii by done.
      change (seqb ["!"%char] (B "(")) with false. change (seqb ["!"%char] (B "&")) with false.
      change (seqb ["!"%char] (B "|")) with false. change (seqb ["!"%char] (B "!")) with true.
      change (seqb ["("%char] (B "(")) with true. cbn match. cbn [length] in Hn. rewrite Hc by lia. done.
  - destruct Hs as (-> & x & y & -> & <- & <-). exists (p_data x ++ B "=" ++ escape_filter (p_data y) ++ B ")"). split.
    + cbn [decompile]. repeat match goal with |- context [(3 =? ?k)%N] => let b := eval vm_compute in (3 =? k)%N in change (3 =? k)%N with b end.
      cbn match. by rewrite <- !app_assoc.
    + intros [|n] rest Hn; [lia|]. rewrite <- !app_assoc. cbn [regular] in Hr.
      apply (leaf_at_text n _ (B "=") KEq); [done|apply escape_cond|by left|]. unfold leaf_end. cbn [lt_kind lt_cond lt_attr].
      rewrite star_not_value, no_star_exists by apply escape_no_star. by rewrite unescape_escape.
  - destruct Hs as (-> & x & s & -> & <- & Hps). destruct Hr as [Hr Hp].
    exists (p_data x ++ B "=" ++ parts_text true ps ++ B ")"). split.
    + cbn [decompile]. repeat match goal with |- context [(4 =? ?k)%N] => let b := eval vm_compute in (4 =? k)%N in change (4 =? k)%N with b end.
      cbn match. rewrite (sub_text_says _ _ _ Hps). by rewrite <- !app_assoc.
    + intros [|n] rest Hn; [lia|]. rewrite <- !app_assoc.
      apply (leaf_at_text n _ (B "=") KEq); [done|apply parts_text_ok|by left|]. unfold leaf_end. cbn [lt_kind lt_cond lt_attr].
      rewrite parts_not_star, parts_have_star, parts_back by done. done.
  - destruct Hs as [-> ->]. exists (a ++ B "=" ++ B "*" ++ B ")"). split.
    + cbn [decompile]. repeat match goal with |- context [(7 =? ?k)%N] => let b := eval vm_compute in (7 =? k)%N in change (7 =? k)%N with b end.
      cbn match. by rewrite <- !app_assoc.
    + intros [|n] rest Hn; [lia|]. rewrite <- !app_assoc.
      apply (leaf_at_text n _ (B "=") KEq); [done|by repeat constructor|by left|]. reflexivity.
  - destruct o as [c a v|rule ty v dn].
    + destruct Hs as (-> & x & y & -> & <- & <-). cbn [regular] in Hr.
      exists (p_data x ++ match c with CGreater => B ">=" | CLess => B "<=" | CApprox => B "~=" end ++ escape_filter (p_data y) ++ B ")"). split.
      * destruct c; cbn [decompile];
          repeat match goal with |- context [(?i =? ?k)%N] => let b := eval vm_compute in (i =? k)%N in change (i =? k)%N with b end;
          cbn match; by rewrite <- !app_assoc.
      * intros [|n] rest Hn; [lia|]. rewrite <- !app_assoc.
        apply (leaf_at_text n _ _ (KCmp c)); [done|apply escape_cond|destruct c; cbn; auto|]. unfold leaf_end. cbn [lt_kind lt_cond lt_attr].
        by rewrite unescape_escape.
    + destruct Hs as (-> & Hk). destruct Hr as (Hru & Hty & Hdn & ->). rewrite app_nil_r in Hk.
      assert (Hx : ext_fields kids ([], [], [], false) = Some (rule, ty, v, false)).
      { clear -Hk.
        assert (Hf : forall l tds x, Forall2 says_field l tds ->
          Forall (fun td => In td.1 [1; 2; 3]%N) tds ->
          ext_fields l x = Some (fold_left (fun '(r, t, w, d) td => if (td.1 =? 1)%N then (td.2, t, w, d) else
             if (td.1 =? 2)%N then (r, td.2, w, d) else (r, t, td.2, d)) tds x)).
        { intros l tds x H. revert x. induction H as [|k [t d] l tds [H1 H2] _ IH]; intros [[[r0 t0] w0] d0] Hin; [done|].
          apply Forall_cons in Hin as [Hi Hin]. cbn in H1, H2, Hi. cbn [ext_fields fold_left fst snd]. rewrite H1, H2.
          clear H1 H2. destruct Hi as [<-|[<-|[<-|[]]]]; cbn [N.eqb Pos.eqb]; by rewrite IH. }
        rewrite (Hf _ _ _ Hk).
        - destruct rule as [|r0 rule], ty as [|t0 ty]; reflexivity.
        - destruct (is_empty rule), (is_empty ty); cbn [app]; repeat (apply Forall_cons; split; [cbn; auto|]); constructor. }
      exists (ty ++ (if is_empty rule then [] else ":"%char :: rule) ++ B ":=" ++ escape_filter v ++ B ")"). split.
      * cbn [decompile]. repeat match goal with |- context [(9 =? ?k)%N] => let b := eval vm_compute in (9 =? k)%N in change (9 =? k)%N with b end.
        cbn match. rewrite Hx. cbn [app]. by rewrite <- !app_assoc.
      * intros [|n] rest Hn; [lia|]. destruct (is_empty rule) eqn:Er.
        { apply is_empty_true in Er as ->. rewrite <- !app_assoc. cbn [app].
          apply (leaf_at_text n _ (B ":=") KExt); [done|apply escape_cond|cbn; auto 10|]. unfold leaf_end. cbn [lt_kind lt_cond lt_attr lt_rule lt_dn].
          by rewrite unescape_escape. }
        clear Hn. rewrite <- !app_assoc. change (B ")" ++ rest) with (")"%char :: rest).
        set (s := ty ++ (":"%char :: rule) ++ B ":=" ++ escape_filter v ++ ")"%char :: rest).
        assert (Hl : leaf_loop (S (length s)) leaf_start s = Some (mkLeaf (Some KExt) ty rule (escape_filter v) false RCond, rest)).
        { assert (Hl : leaf_loop (length ty + S (length rule + S (length (escape_filter v) + 1))) leaf_start s =
            Some (mkLeaf (Some KExt) ty rule (escape_filter v) false RCond, rest)).
          { unfold s, leaf_start. rewrite leaf_name by done. cbn [app].
            set (tl := escape_filter v ++ ")"%char :: rest).
            assert (Hstep : leaf_step (mkLeaf None ty [] [] false RAttr) (":"%char :: rule ++ B ":=" ++ tl) [":"%char] (rule ++ B ":=" ++ tl) =
              (mkLeaf (Some KExt) ty [] [] false RRule, rule ++ B ":=" ++ tl)).
            { unfold leaf_step. cbn [app].
              assert (Hp : forall p, has_prefix (":"%char :: rule ++ B ":=" ++ tl) (B ":dn:" ++ p) = false).
              { intros p. destruct (has_prefix _ _) eqn:E; [|done]. apply has_prefix_spec in E as [t E].
                exfalso. change (B ":dn:" ++ p) with (":"%char :: "d"%char :: "n"%char :: ":"%char :: p) in E.
                injection E as E.
                destruct rule as [|c1 [|c2 [|c3 rule]]]; [done| | |].
                - cbn [app] in E. change (B ":=") with (":"%char :: "="%char :: []) in E. cbn [app] in E. by injection E.
                - cbn [app] in E. change (B ":=") with (":"%char :: "="%char :: []) in E. cbn [app] in E. injection E as -> ->. by apply Hdn.
                - cbn [app] in E. injection E as -> -> -> E. unfold named in Hru. repeat (apply Forall_cons in Hru as [? Hru]). done. }
              change (B ":dn:=") with (B ":dn:" ++ B "="). rewrite Hp.
              specialize (Hp []). rewrite app_nil_r in Hp. rewrite Hp.
              assert (Hq : has_prefix (":"%char :: rule ++ B ":=" ++ tl) (B ":=") = false).
              { destruct rule as [|c1 rule]; [done|]. unfold named in Hru. apply Forall_cons in Hru as [Hc1 _].
                apply name_facts in Hc1 as [_ Hc1]. repeat (apply Forall_cons in Hc1 as [? Hc1]).
                change (has_prefix (":"%char :: (c1 :: rule) ++ B ":=" ++ tl) (B ":=")) with (has_prefix (c1 :: rule ++ B ":=" ++ tl) (B "=")).
                by apply prefix_first. }
              rewrite Hq. reflexivity. }
            cbn [leaf_loop]. change (aeqb ":"%char ")"%char) with false. cbn match. rewrite rune_ascii by done.
            change (B ":" ++ B "=") with (B ":=") in *. cbn [app] in Hstep |- *. rewrite Hstep.
            change (":"%char :: "="%char :: tl) with (B ":=" ++ tl).
            rewrite leaf_rule by done. cbn [app].
            change (leaf_loop (S (length (escape_filter v) + 1)) (mkLeaf (Some KExt) ty rule [] false RRule) (B ":=" ++ tl))
              with (leaf_loop (length (escape_filter v) + 1) (mkLeaf (Some KExt) ty rule [] false RCond) tl).
            unfold tl. rewrite leaf_cond by apply escape_cond. reflexivity. }
          replace (S (length s)) with (length ty + S (length rule + S (length (escape_filter v) + 1)) + (2 + length rest)).
          { by apply leaf_more. }
          unfold s. rewrite !app_length. change (length (B ":=")) with 2. cbn [length]. lia. }
        assert (Hs : exists c s', s = c :: s' /\ is_ascii c = true /\
          Forall (fun x => aeqb c x = false) ["("%char; "&"%char; "|"%char; "!"%char]).
        { unfold s. destruct ty as [|c ty].
          - eexists _, _. split; [reflexivity|]. split; [done|by repeat constructor].
          - apply Forall_cons in Hty as [Hn _]. apply name_facts in Hn as [H1 H2].
            repeat (apply Forall_cons in H2 as [? H2]). eexists _, _. split; [reflexivity|]. split; [done|]. by repeat constructor. }
        destruct Hs as (c & s' & Es & H1 & H2). rewrite Es in *. rewrite leaf_at by done. rewrite Hl.
        unfold leaf_end. cbn [lt_kind lt_cond lt_attr lt_rule lt_dn]. by rewrite unescape_escape.
Qed.
