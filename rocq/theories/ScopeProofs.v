(** Lemmas about ServerFilterScope. *)
From Verif Require Import Bytes Text Dn DnProofs Res Entry Db Packet Filter.

(** ** Trimming *)
Lemma ltrim_app p c rest : c <> space -> ltrim (p ++ c :: rest) = ltrim p ++ c :: rest.
Proof.
  intros Hc. induction p as [|x p IH]; simpl.
  - apply aeqb_neq in Hc. by rewrite Hc.
  - by destruct (aeqb x space).
Qed.
Lemma rtrim_app p c rest : c <> space -> rtrim (p ++ c :: rest) = p ++ c :: rtrim rest.
Proof.
  intros Hc. unfold rtrim. rewrite rev_app_distr. simpl. rewrite <- app_assoc. simpl.
  rewrite ltrim_app by done. rewrite rev_app_distr. simpl. rewrite rev_involutive.
  by rewrite <- app_assoc.
Qed.
Lemma rtrim_cons c x :
  rtrim (c :: x) = if is_empty (rtrim x) && aeqb c space then [] else c :: rtrim x.
Proof.
  unfold rtrim. cbn [rev].
  assert (H : forall y, ltrim (y ++ [c]) =
    if is_empty (ltrim y) && aeqb c space then [] else ltrim y ++ [c]).
  { induction y as [|d y IH]; simpl.
    - by destruct (aeqb c space).
    - by destruct (aeqb d space). }
  rewrite H. destruct (ltrim (rev x)) as [|d y] eqn:E; cbn [is_empty andb app rev].
  - by destruct (aeqb c space).
  - assert (is_empty (rev y ++ [d]) = false) as -> by (apply is_empty_false; apply snoc_ne).
    cbn [andb]. by rewrite rev_app_distr.
Qed.
Lemma trim_comm s : ltrim (rtrim s) = rtrim (ltrim s).
Proof.
  induction s as [|c s IH]; [done|]. rewrite rtrim_cons. cbn [ltrim].
  destruct (aeqb c space) eqn:E.
  - destruct (rtrim s) as [|d y] eqn:Er; cbn [is_empty andb].
    + by rewrite <- IH.
    + cbn [ltrim]. rewrite E. by rewrite <- IH.
  - rewrite andb_false_r. cbn [ltrim]. rewrite E, rtrim_cons, E, andb_false_r. done.
Qed.
Lemma prints_ltrim s : prints s -> prints (ltrim s).
Proof.
  induction 1 as [|c s Hc Hs IH]; [constructor|]. simpl. destruct (aeqb c space); [done|by constructor].
Qed.
Lemma prints_rev s : prints s -> prints (rev s).
Proof. apply Forall_revl. Qed.
Lemma prints_rtrim s : prints s -> prints (rtrim s).
Proof. intros H. unfold rtrim. by apply prints_rev, prints_ltrim, prints_rev. Qed.

Section scope.
Context {T : Text} (HT : TextOK T).

(** ** The parser on a text that continues after a comma *)
Lemma dn_loop_rdns s esc cur ty avas rdns :
  dn_loop s esc cur ty avas rdns = (fun d => rev rdns ++ d) <$> dn_loop s esc cur ty avas [].
Proof using Type.
  revert esc cur ty avas rdns. induction s as [|c s IH]; intros esc cur ty avas rdns; cbn [dn_loop].
  - destruct (is_empty ty); [done|]. by destruct (decode_value (rev cur)).
  - destruct esc; [apply IH|].
    destruct (aeqb c "\"%char); [apply IH|].
    destruct (aeqb c "="%char && is_empty ty).
    { destruct (decode_string (rev cur)); [apply IH|done]. }
    destruct (aeqb c ","%char || aeqb c "+"%char || aeqb c ";"%char); [|apply IH].
    destruct (is_empty ty); [done|]. destruct (decode_value (rev cur)) as [v|]; [|done].
    destruct (aeqb c "+"%char); [apply IH|].
    rewrite IH, (IH _ _ _ _ [_]).
    destruct (dn_loop s false [] [] [] []); [|done]. cbn [fmap option_fmap option_map rev app].
    by rewrite <- app_assoc.
Qed.
Lemma plain_char1_inv c : plain_char1 c = true ->
  aeqb c ","%char = false /\ aeqb c "\"%char = false /\ aeqb c ";"%char = false.
Proof using Type.
  unfold plain_char1. rewrite negb_true_iff, !orb_false_iff. tauto.
Qed.
Lemma dn_loop_first p rest cur ty avas d :
  Forall (fun c => plain_char1 c = true) p ->
  dn_loop (p ++ ","%char :: rest) false cur ty avas [] = Some d ->
  exists r t, d = r :: t /\ dn_loop rest false [] [] [] [] = Some t.
Proof using Type.
  intros Hp. revert cur ty avas. induction Hp as [|c p Hc Hp IH]; intros cur ty avas H.
  - cbn [app dn_loop] in H.
    change (aeqb ","%char "\"%char) with false in H. change (aeqb ","%char "="%char) with false in H.
    change (aeqb ","%char ","%char) with true in H. change (aeqb ","%char "+"%char) with false in H.
    cbn [andb orb] in H. destruct (is_empty ty); [done|].
    destruct (decode_value (rev cur)) as [v|]; [|done]. rewrite dn_loop_rdns in H.
    destruct (dn_loop rest false [] [] [] []) as [t|]; [|done].
    injection H as <-. eauto.
  - apply plain_char1_inv in Hc as (H1 & H2 & H3). cbn [app dn_loop] in H. rewrite H2, H1, H3 in H.
    destruct (aeqb c "="%char && is_empty ty).
    { destruct (decode_string (rev cur)); [|done]. by eapply IH. }
    cbn [orb] in H. destruct (aeqb c "+"%char); cbn [orb] in H; [|by eapply IH].
    destruct (is_empty ty); [done|]. destruct (decode_value (rev cur)) as [v|]; [|done].
    by eapply IH.
Qed.
Lemma dn_loop_only p cur ty avas d :
  Forall (fun c => plain_char1 c = true) p ->
  dn_loop p false cur ty avas [] = Some d -> exists r, d = [r].
Proof using Type.
  intros Hp. revert cur ty avas. induction Hp as [|c p Hc Hp IH]; intros cur ty avas H.
  - cbn [dn_loop] in H. destruct (is_empty ty); [done|].
    destruct (decode_value (rev cur)) as [v|]; [|done]. injection H as <-. eauto.
  - apply plain_char1_inv in Hc as (H1 & H2 & H3). cbn [app dn_loop] in H. rewrite H2, H1, H3 in H.
    destruct (aeqb c "="%char && is_empty ty).
    { destruct (decode_string (rev cur)); [|done]. by eapply IH. }
    cbn [orb] in H. destruct (aeqb c "+"%char); cbn [orb] in H; [|by eapply IH].
    destruct (is_empty ty); [done|]. destruct (decode_value (rev cur)) as [v|]; [|done].
    by eapply IH.
Qed.

(** Leading blanks do not matter. *)
Lemma strip_space x : prints x -> strip (space :: x) = strip x.
Proof using HT.
  intros H. unfold strip.
  assert (Hs : prints (space :: x)) by (by constructor).
  rewrite !(trim_val_print _ HT) by done. unfold trim_sp. cbn [ltrim].
  replace (aeqb space space) with true by done.
  destruct x as [|c x]; [done|].
  replace (ends_with space (space :: c :: x)) with (ends_with space (c :: x)); [done|].
  symmetry. apply (ends_with_app space [space] (c :: x)). done.
Qed.
Lemma dn_loop_lead s esc cur avas rdns :
  prints s -> prints cur ->
  dn_loop s esc (cur ++ [space]) [] avas rdns = dn_loop s esc cur [] avas rdns.
Proof using HT.
  intros Hs. revert esc cur. induction Hs as [|c s Hc Hs IH]; intros esc cur Hcur; [done|].
  cbn [dn_loop].
  destruct esc; [by rewrite app_comm_cons; apply IH; constructor|].
  destruct (aeqb c "\"%char); [by rewrite app_comm_cons; apply IH; constructor|].
  cbn [is_empty]. rewrite andb_true_r.
  destruct (aeqb c "="%char).
  { assert (decode_string (rev (cur ++ [space])) = decode_string (rev cur)) as ->; [|done].
    rewrite rev_app_distr. cbn [rev app]. unfold decode_string.
    rewrite strip_space by by apply prints_rev. done. }
  destruct (aeqb c ","%char || aeqb c "+"%char || aeqb c ";"%char); [done|].
  rewrite app_comm_cons. apply IH. by constructor.
Qed.
Lemma dn_loop_ltrim s : prints s ->
  dn_loop (ltrim s) false [] [] [] [] = dn_loop s false [] [] [] [].
Proof using HT.
  induction 1 as [|c s Hc Hs IH]; [done|]. cbn [ltrim]. destruct (aeqb c space) eqn:E; [|done].
  apply aeqb_eq in E as ->. rewrite IH. cbn [dn_loop].
  change (aeqb space "\"%char) with false. change (aeqb space "="%char) with false.
  change (aeqb space ","%char) with false. change (aeqb space "+"%char) with false.
  change (aeqb space ";"%char) with false. cbn [andb orb].
  symmetry. apply (dn_loop_lead s false [] [] []); [done|constructor].
Qed.

Lemma parse_rest p rest d :
  prints (p ++ ","%char :: rest) -> Forall (fun c => plain_char1 c = true) p ->
  parse_dn (p ++ ","%char :: rest) = Some d ->
  exists r t, d = r :: t /\ parse_dn rest = Some t.
Proof using HT.
  intros Hpr Hp H. unfold parse_dn in H. rewrite (trim_dn_print _ HT) in H by done.
  unfold trim_sp in H. rewrite ltrim_app, rtrim_app in H by done.
  assert (is_empty (ltrim p ++ ","%char :: rtrim rest) = false) as He.
  { apply is_empty_false. by destruct (ltrim p). }
  rewrite He in H. apply dn_loop_first in H as (r & t & -> & Ht).
  - exists r, t. split; [done|]. unfold parse_dn.
    assert (Hpr' : prints rest). { apply Forall_app in Hpr as [_ Hpr]. by inversion Hpr. }
    rewrite (trim_dn_print _ HT) by done. unfold trim_sp. rewrite <- trim_comm.
    rewrite dn_loop_ltrim by by apply prints_rtrim.
    destruct (is_empty (ltrim (rtrim rest))) eqn:Hemp; [|done].
    rewrite <- dn_loop_ltrim in Ht by by apply prints_rtrim.
    apply is_empty_true in Hemp. by rewrite Hemp in Ht.
  - clear -Hp. induction Hp as [|c p Hc Hp IH]; [constructor|]. simpl.
    destruct (aeqb c space); [done|by constructor].
Qed.
Lemma parse_only s d :
  prints s -> Forall (fun c => plain_char1 c = true) s -> parse_dn s = Some d ->
  d = [] \/ exists r, d = [r].
Proof using HT.
  intros Hpr Hp H. unfold parse_dn in H. rewrite (trim_dn_print _ HT) in H by done.
  destruct (is_empty _); [injection H as <-; by left|]. right.
  eapply dn_loop_only; [|exact H]. unfold trim_sp.
  assert (Hl : forall x, Forall (fun c => plain_char1 c = true) x -> Forall (fun c => plain_char1 c = true) (ltrim x)).
  { induction 1 as [|c x Hc Hx IH]; [constructor|]. simpl. destruct (aeqb c space); [done|by constructor]. }
  unfold rtrim. by apply Forall_revl, Hl, Forall_revl, Hl.
Qed.

(** ** Comparison *)
Lemma dn_eqfold_nil d : dn_eqfold d [] = is_empty d.
Proof using Type. by destruct d. Qed.
Lemma ava_eqfold_spec (p q : ava) : asciis p.1 -> asciis p.2 -> asciis q.1 -> asciis q.2 ->
  ava_eqfold p q = true <-> (fold p.1, fold p.2) = (fold q.1, fold q.2).
Proof using HT.
  intros H1 H2 H3 H4. unfold ava_eqfold. rewrite andb_true_iff.
  rewrite !(eqfold_fold_ascii HT) by done. rewrite !seqb_eq. split.
  - by intros [-> ->].
  - by intros [= -> ->].
Qed.
Lemma rdn_eqfold_of_fold (r1 r2 : rdn) :
  Forall (fun p => asciis p.1 /\ asciis p.2) r1 -> Forall (fun p => asciis p.1 /\ asciis p.2) r2 ->
  map (fun p => (fold p.1, fold p.2)) r1 = map (fun p => (fold p.1, fold p.2)) r2 ->
  rdn_eqfold r1 r2 = true.
Proof using HT.
  intros H1 H2 Heq. assert (Hhas : forall a b : rdn,
    Forall (fun p => asciis p.1 /\ asciis p.2) a -> Forall (fun p => asciis p.1 /\ asciis p.2) b ->
    map (fun p => (fold p.1, fold p.2)) a = map (fun p => (fold p.1, fold p.2)) b ->
    rdn_has_all a b = true).
  { clear -HT. intros a b Ha Hb Hab. unfold rdn_has_all. apply forallb_forall. intros q Hq.
    apply (in_map (fun p => (fold p.1, fold p.2))) in Hq as Hq'. rewrite <- Hab in Hq'.
    apply in_map_iff in Hq' as (p & Hpq & Hp). apply existsb_exists. exists p. split; [done|].
    rewrite List.Forall_forall in Ha, Hb. destruct (Ha p Hp), (Hb q Hq).
    by apply ava_eqfold_spec. }
  unfold rdn_eqfold. rewrite (Hhas r1 r2), (Hhas r2 r1) by done. rewrite !andb_true_r.
  apply Nat.eqb_eq. apply (f_equal length) in Heq. by rewrite !map_length in Heq.
Qed.
Lemma dn_eqfold_of_fold d b : ascii_dn d -> ascii_dn b -> fold_dn d = fold_dn b ->
  dn_eqfold d b = true.
Proof using HT.
  intros Hd. revert b. induction Hd as [|r d Hr Hd IH]; intros [|r' b] Hb Heq; try done.
  inversion Hb; subst. cbn [fold_dn map] in Heq. injection Heq as Heq1 Heq2. cbn [dn_eqfold].
  rewrite rdn_eqfold_of_fold by done. cbn [andb]. by apply IH.
Qed.
Lemma dn_eqfold_single d b : ascii_dn d -> ascii_dn b -> single_dn d -> single_dn b ->
  dn_eqfold d b = true <-> fold_dn d = fold_dn b.
Proof using HT.
  intros Hd Hb Hsd Hsb. split; [|by apply dn_eqfold_of_fold].
  revert b Hb Hsb. induction Hd as [|r d Hr Hd IH]; intros [|r' b] Hb Hsb H; try done.
  apply Forall_cons in Hb as [Hr' Hb]. apply Forall_cons in Hsb as [Hl' Hsb].
  apply Forall_cons in Hsd as [Hl Hsd].
  cbn [dn_eqfold] in H. apply andb_true_iff in H as [H1 H2].
  cbn [fold_dn map]. f_equal; [|by apply IH].
  destruct r as [|p [|? ?]]; try done. destruct r' as [|q [|? ?]]; try done.
  unfold rdn_eqfold in H1. apply andb_true_iff in H1 as [H1 _]. apply andb_true_iff in H1 as [_ H1].
  cbn [rdn_has_all forallb existsb] in H1. rewrite andb_true_r, orb_false_r in H1.
  apply Forall_cons in Hr as [Hp _]. apply Forall_cons in Hr' as [Hq _].
  cbn [map]. f_equal. apply ava_eqfold_spec in H1; tauto.
Qed.

(** ** The scope check *)
Lemma split_comma_plain p : Forall (fun c => plain_char1 c = true) p ->
  Forall (fun x => aeqb ","%char x = false) p.
Proof using Type.
  intros H. eapply Forall_impl; [exact H|]. intros c Hc. apply plain_char1_inv in Hc as (Hc & _).
  unfold aeqb in *. rewrite Ascii.eqb_sym. done.
Qed.
Lemma scope_one base e d b :
  plain_first (e_dn e) -> parse_dn (e_dn e) = Some d -> parse_dn base = Some b -> b <> [] ->
  filter_scope base 1 e = Ok (match d with [] => false | _ :: t => dn_eqfold t b end).
Proof using HT.
  intros [Hpr Hpl] Hd Hb Hne. unfold filter_scope. rewrite Hb, Hd.
  change (1 =? ScopeBase)%Z with false. change (1 =? ScopeOne)%Z with true. cbv iota.
  destruct Hpl as [Hpl|(p & rest & He & Hpl)].
  - rewrite (split_no_sep _ _ (split_comma_plain _ Hpl)). cbn [length Nat.ltb Nat.leb andb tail].
    destruct (parse_only _ _ Hpr Hpl Hd) as [->|[r ->]].
    + by destruct b.
    + destruct b as [|r' b]; [done|]. destruct (dn_eqfold [r] (r' :: b)); [|done]. cbn [negb].
      cbn [Bytes.join]. assert (parse_dn [] = Some []) as ->; [|done].
      unfold parse_dn. by rewrite (trim_dn_print _ HT) by constructor.
  - rewrite He in *. rewrite (split_app_sep _ _ _ (split_comma_plain _ Hpl)).
    pose proof (split_nonempty ","%char rest) as Hsn.
    destruct (Bytes.split ","%char rest) as [|h t0] eqn:Es; [done|].
    cbn [length Nat.ltb Nat.leb andb tail].
    rewrite <- Es. change (B ",") with [","%char]. rewrite join_split.
    destruct (parse_rest _ _ _ Hpr Hpl Hd) as (r & t & -> & Hr). by rewrite Hr.
Qed.
Lemma scope_base base e d b :
  parse_dn (e_dn e) = Some d -> parse_dn base = Some b ->
  filter_scope base 0 e = Ok (dn_eqfold d b).
Proof using Type. intros Hd Hb. unfold filter_scope. by rewrite Hb, Hd. Qed.
Lemma scope_sub base e d b :
  parse_dn (e_dn e) = Some d -> parse_dn base = Some b ->
  filter_scope base 2 e = Ok true.
Proof using Type. intros Hd Hb. unfold filter_scope. by rewrite Hb, Hd. Qed.
End scope.
