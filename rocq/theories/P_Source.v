(** Properties C64 and C65: from files to the text that is parsed. *)
From Verif Require Import Bytes Text Res Entry Db Ldif Source SourceProofs.

(** * C64 *)
(** A name ending in ".ldif"; the order of names by their bytes; the text of a file
    that can be opened, processed as a template unless that is disabled. *)
Definition ldif_name (n : str) : Prop := exists t, n = t ++ B ".ldif".
Definition before (a b : str) : Prop :=
  (exists t, b = a ++ t) \/
  (exists p x y a' b', a = p ++ x :: a' /\ b = p ++ y :: b' /\ (N_of_ascii x < N_of_ascii y)%N).
Definition text_of {F : Files} (disabled : bool) (c : option str) (t : str) : Prop :=
  exists s, c = Some s /\ (if disabled then t = s else render (template_text s) = Some t).
Lemma is_ldif_iff n : is_ldif n = true <-> ldif_name n.
Proof. apply has_suffix_spec. Qed.
Lemma str_leb_iff a b : str_leb a b = true <-> before a b.
Proof.
  split.
  - revert b. induction a as [|x a IH]; intros b H; [left; by exists b|]. destruct b as [|y b]; [done|]. cbn in H.
    destruct (aeqb x y) eqn:E.
    + apply aeqb_eq in E as ->. destruct (IH _ H) as [[t ->]|(p & u & v & a' & b' & -> & -> & Hl)].
      * left. by exists t.
      * right. by exists (y :: p), u, v, a', b'.
    + right. exists [], x, y, a, b. repeat split. unfold code in H. lia.
  - intros [[t ->]|(p & x & y & a' & b' & -> & -> & Hl)].
    + induction a as [|x a IH]; [done|]. cbn. assert (aeqb x x = true) as -> by by apply aeqb_eq. done.
    + induction p as [|z p IH]; cbn.
      * destruct (aeqb x y) eqn:E; [apply aeqb_eq in E as ->; lia|]. unfold code. lia.
      * assert (aeqb z z = true) as -> by by apply aeqb_eq. done.
Qed.
Lemma dir_text_iff {F : Files} disabled c t : dir_text disabled c = Some t <-> text_of disabled c t.
Proof.
  unfold dir_text, text_of, process. destruct c as [s|]; [|split; [done|by intros (? & ? & _)]].
  destruct disabled; split.
  - intros [= ->]. by exists t.
  - by intros (s' & [= ->] & ->).
  - intros H. by exists s.
  - by intros (s' & [= ->] & H).
Qed.
(** What a folder gives: with [files] the *.ldif files in the order of their names,
    an error if one of them cannot be opened or processed, and otherwise the records
    of all their texts, one after the other with two line feeds after each. *)
Theorem C64_folder (F : Files) (disabled : bool) (listing files : list (str * option str)) :
  NoDup listing.*1 -> NoDup files ->
  (forall f, In f files <-> In f listing /\ ldif_name f.1) ->
  (forall i j a b, files !! i = Some a -> files !! j = Some b -> i < j -> before a.1 b.1) ->
  (forall texts, Forall2 (fun f t => text_of disabled f.2 t) files texts ->
     load_source disabled (Folder listing) =
       unmarshal (List.concat (map (fun t => t ++ ["010"; "010"]%char) texts))) /\
  (forall f, In f files -> (forall t, ~ text_of disabled f.2 t) -> load_source disabled (Folder listing) = None).
Proof.
  intros Hnd Hnf Hin0 Hs0.
  assert (Hs : forall i j a b, files !! i = Some a -> files !! j = Some b -> i < j -> str_leb a.1 b.1 = true).
  { intros i j a b Hi Hj Hij. apply str_leb_iff. by apply (Hs0 i j). }
  assert (Hp : bfilter (fun f => is_ldif f.1) listing ≡ₚ files).
  { apply NoDup_Permutation; [|done|].
    - apply (NoDup_fmap_1 fst). by apply bfilter_names.
    - intros f. rewrite !elem_of_list_In, filter_In, is_ldif_iff. by rewrite Hin0. }
  clear Hin0 Hs0 Hnf.
  assert (Hss : StronglySorted name_le files).
  { clear Hp Hnd. induction files as [|f files IH]; constructor.
    - apply IH. intros i j a b Hi Hj Hij. apply (Hs (S i) (S j) a b); [done|done|lia].
    - apply List.Forall_forall. intros g Hg. apply elem_of_list_In, elem_of_list_lookup in Hg as [j Hj]. apply (Hs 0 (S j) f g); [done|done|lia]. }
  assert (Hm : merge_sort name_le (bfilter (fun f => is_ldif f.1) listing) = files) by (apply sort_unique; [by apply bfilter_names|done|done]).
  unfold load_source, parse_dir. cbn zeta. rewrite Hm. clear Hm Hp Hs Hss Hnd. split.
  - intros texts H.
    assert (E : map (fun f => dir_text disabled f.2) files = map Some texts).
    { induction H as [|f t fs ts Ht _ IH]; cbn [map]; [done|]. apply dir_text_iff in Ht. by rewrite Ht, IH. }
    rewrite E, map_map. assert (E2 : bfilter (fun t => match t with None => true | Some _ => false end) (map Some texts) = []) by (clear; by induction texts).
    by rewrite E2.
  - intros f Hf Hn0. assert (Hn : dir_text disabled f.2 = None).
    { destruct (dir_text disabled f.2) as [t|] eqn:E; [|done]. apply dir_text_iff in E. by destruct (Hn0 t). }
    destruct (bfilter _ (map _ files)) as [|t l] eqn:E; [|done]. exfalso.
    assert (Hin : In (None : option str) (bfilter (fun t => match t with None => true | Some _ => false end) (map (fun f => dir_text disabled f.2) files))).
    { apply filter_In. split; [|done]. apply in_map_iff. eauto. }
    by rewrite E in Hin.
Qed.
Print Assumptions C64_folder.
(** The order in which the folder lists its files does not matter. *)
Theorem C64_order (F : Files) (disabled : bool) (l l' : list (str * option str)) :
  NoDup l.*1 -> l ≡ₚ l' -> load_source disabled (Folder l) = load_source disabled (Folder l').
Proof.
  intros Hnd Hp. unfold load_source, parse_dir. cbn zeta.
  assert (merge_sort name_le (bfilter (fun f => is_ldif f.1) l) = merge_sort name_le (bfilter (fun f => is_ldif f.1) l')) as ->; [|done].
  apply sort_unique; [by apply bfilter_names| |apply (StronglySorted_merge_sort _)].
  rewrite merge_sort_Permutation. by apply bfilter_perm.
Qed.
Print Assumptions C64_order.
(** Other files in the folder do not matter. *)
Theorem C64_others (F : Files) (disabled : bool) (l : list (str * option str)) (n : str) (c : option str) (l1 l2 : list (str * option str)) :
  ~ ldif_name n -> l = l1 ++ (n, c) :: l2 -> load_source disabled (Folder l) = load_source disabled (Folder (l1 ++ l2)).
Proof.
  intros Hn ->. rewrite <- is_ldif_iff in Hn. apply not_true_iff_false in Hn. unfold load_source, parse_dir. cbn zeta. rewrite !List.filter_app. cbn [bfilter fst]. by rewrite Hn.
Qed.
Print Assumptions C64_others.
(** One file that cannot be used keeps the old data in service. *)
Theorem C64_all_or_nothing (T : Text) (F : Files) (c : ldif_cfg) (disabled : bool) (l : list (str * option str)) (f : str * option str) (d : dataset) :
  In f l -> ldif_name f.1 -> (forall t, ~ text_of disabled f.2 t) ->
  ldif_reload c (load_source disabled (Folder l)) d = (false, d).
Proof.
  intros Hf Hl Hn0. apply is_ldif_iff in Hl. assert (Hn : dir_text disabled f.2 = None).
  { destruct (dir_text disabled f.2) as [t|] eqn:E; [|done]. apply dir_text_iff in E. by destruct (Hn0 t). }
  assert (load_source disabled (Folder l) = None) as ->; [|done]. unfold load_source, parse_dir. cbn zeta.
  destruct (bfilter _ (map _ _)) as [|t ts] eqn:E; [|done]. exfalso.
  assert (Hin : In (None : option str) (bfilter (fun t => match t with None => true | Some _ => false end)
    (map (fun f => dir_text disabled f.2) (merge_sort name_le (bfilter (fun f => is_ldif f.1) l))))).
  { apply filter_In. split; [|done]. apply in_map_iff. exists f. split; [done|]. apply elem_of_list_In. rewrite merge_sort_Permutation.
    apply elem_of_list_In, filter_In. done. }
  by rewrite E in Hin.
Qed.
Print Assumptions C64_all_or_nothing.

(** A library for the examples: templates without actions, one record per line
    "dn: ...". *)
Definition toy : Files := {|
  render s := if contains s (B "{{") then None else Some s;
  unmarshal s := Some (map (fun l => Some (mkEntry (drop 4 l) [])) (bfilter (fun l => has_prefix l (B "dn: ")) (Bytes.split lf s)))
|}.
Example C64_case :
  load_source (F:=toy) false (Folder [(B "20-b.ldif", Some (B "dn: b")); (B "notes.txt", None); (B "10-a.ldif", Some (B "dn: a"))]) =
    Some [Some (mkEntry (B "a") []); Some (mkEntry (B "b") [])] /\
  load_source (F:=toy) false (Folder [(B "20-b.ldif", Some (B "dn: {{b}}")); (B "10-a.ldif", Some (B "dn: a"))]) = None /\
  load_source (F:=toy) true (Folder [(B "20-b.ldif", Some (B "dn: {{b}}")); (B "10-a.ldif", Some (B "dn: a"))]) <> None.
Proof. split; [by vm_compute|]. split; [by vm_compute|]. by vm_compute. Qed.

(** * C65 *)
(** A line without one carriage return at its end; a line beginning with a number
    sign. *)
Definition without_cr (l : str) : str :=
  match last l with Some c => if Ascii.eqb c "013"%char then removelast l else l | None => l end.
Definition hash_first (l : str) : bool := match l with c :: _ => Ascii.eqb c "#"%char | [] => false end.
Lemma drop_cr_is l : drop_cr l = without_cr l.
Proof.
  unfold drop_cr, without_cr. destruct l as [|c l _] using rev_ind; [done|].
  rewrite rev_app_distr, last_snoc, removelast_last. cbn [rev app]. rewrite rev_involutive. done.
Qed.
Lemma is_comment_is l : is_comment l = hash_first l.
Proof. unfold is_comment, hash_first. destruct l as [|c l]; [done|]. cbn. by rewrite andb_true_r. Qed.
(** A file of lines that fit, the last one with or without line feed: every line
    reaches the template without its line end, comment lines left out. *)
Theorem C65_lines (lines : list str) (rest : str) :
  Forall (fun l => Forall (fun x => x <> "010"%char) l /\ (Z.of_nat (length l) < 65536)%Z) (rest :: lines) ->
  let all := lines ++ (if bool_decide (rest = []) then [] else [rest]) in
  scan_lines (List.concat (map (fun l => l ++ ["010"%char]) lines) ++ rest) = map without_cr all /\
  template_text (List.concat (map (fun l => l ++ ["010"%char]) lines) ++ rest) =
    Bytes.join ["010"%char] (bfilter (fun l => negb (hash_first l)) (map without_cr all)).
Proof.
  intros H0 all.
  assert (H : Forall (fun l => Forall (fun x => aeqb lf x = false) l /\ (Z.of_nat (length l) < 65536)%Z) (rest :: lines)).
  { eapply Forall_impl; [exact H0|]. intros l [Hl ?]. split; [|done]. eapply Forall_impl; [exact Hl|].
    intros x Hx. destruct (aeqb lf x) eqn:E; [|done]. apply aeqb_eq in E. by subst x. }
  clear H0. apply Forall_cons in H as [[Hr1 Hr2] H].
  assert (Hscan : scan_lines (List.concat (map (fun l => l ++ [lf]) lines) ++ rest) = map without_cr all).
  { unfold scan_lines.
    assert (E : Bytes.split lf (List.concat (map (fun l => l ++ [lf]) lines) ++ rest) = lines ++ [rest]).
    { induction H as [|l lines [Hl _] _ IH]; [by apply split_no_sep|]. cbn [map List.concat]. rewrite <- !app_assoc. cbn [app].
      rewrite split_app_sep by done. by rewrite IH. }
    rewrite E, fitting_short; [|eapply Forall_impl; [exact H|]; by intros x [_ Hx]|done].
    assert (fitting [rest] = if bool_decide (rest = []) then [] else [rest]) as ->.
    { cbn [fitting]. destruct (Z.leb_spec max_line (Z.of_nat (length rest))) as [Hle|_]; [unfold max_line in Hle; lia|].
      rewrite orb_false_r. by destruct rest. }
    apply map_ext. apply drop_cr_is. }
  change ["010"%char] with [lf]. split; [done|].
  unfold template_text. rewrite Hscan. f_equal. apply filter_ext. intros l. by rewrite is_comment_is.
Qed.
Print Assumptions C65_lines.
(** A line of 65536 bytes or more: it and everything after it is left out, without
    an error. *)
Theorem C65_long_line (F : Files) (lines : list str) (long rest : str) :
  Forall (fun l => Forall (fun x => aeqb lf x = false) l /\ (Z.of_nat (length l) < 65536)%Z) lines ->
  Forall (fun x => aeqb lf x = false) long -> (65536 <= Z.of_nat (length long))%Z ->
  let file := List.concat (map (fun l => l ++ [lf]) lines) in
  load_source false (OneFile (Some (file ++ long ++ lf :: rest))) = load_source false (OneFile (Some file)).
Proof.
  intros H Hl1 Hl2 file. unfold load_source, parse_file, process.
  assert (template_text (file ++ long ++ lf :: rest) = template_text file) as ->; [|done].
  assert (E : forall t, Bytes.split lf (file ++ t) = lines ++ Bytes.split lf t).
  { intros t. unfold file. clear file. induction H as [|l lines [Hl _] _ IH]; [done|]. cbn [map List.concat]. rewrite <- !app_assoc. cbn [app].
    rewrite split_app_sep by done. by rewrite IH. }
  unfold template_text, scan_lines. rewrite <- (app_nil_r file) at 2. rewrite !E, split_app_sep by done.
  assert (Hs : Forall short lines) by (eapply Forall_impl; [exact H|]; by intros x [_ Hx]).
  rewrite !fitting_short by done. rewrite fitting_long by (unfold short, max_line; lia). done.
Qed.
Print Assumptions C65_long_line.
(** With templates switched off the whole file is parsed. *)
Theorem C65_disabled (F : Files) (s : str) : load_source true (OneFile (Some s)) = unmarshal s.
Proof. done. Qed.
Print Assumptions C65_disabled.
(** Leaving out comment lines before folded lines are put together: harmless if no
    comment is folded. *)
Theorem C65_comments (s : str) :
  no_folded_comment (scan_lines s) -> Forall (fun l => is_comment l = true) (scan_lines s) \/
  content (Bytes.split lf (template_text s)) = content (scan_lines s).
Proof.
  intros H. destruct (bfilter (fun l => negb (is_comment l)) (scan_lines s)) as [|x l] eqn:E.
  - left. apply List.Forall_forall. intros y Hy. destruct (is_comment y) eqn:Ey; [done|]. exfalso.
    assert (Hin : In y (bfilter (fun l => negb (is_comment l)) (scan_lines s))) by (apply filter_In; by rewrite Ey). by rewrite E in Hin.
  - right. unfold template_text. rewrite E, split_join_ch; [rewrite <- E; by apply content_strip|done|].
    rewrite <- E. apply List.Forall_forall. intros y Hy. apply filter_In in Hy as [Hy _].
    pose proof (scan_lines_no_lf s) as Hn. rewrite List.Forall_forall in Hn. by apply Hn.
Qed.
Print Assumptions C65_comments.
(** A folded comment: its second line becomes part of the line before the comment. *)
Theorem C65_folded_comment_refuted : exists s,
  content (scan_lines s) = [B "dn: o=x"; B "cn: Dora"; B "sn: Q"] /\
  content (Bytes.split lf (template_text s)) = [B "dn: o=x"; B "cn: Dora to be replaced"; B "sn: Q"].
Proof.
  exists (List.concat (map (fun l => B l ++ [lf]) ["dn: o=x"; "cn: Dora"; "# this name is"; "  to be replaced"; "sn: Q"]%string)).
  split; by vm_compute.
Qed.
Print Assumptions C65_folded_comment_refuted.
Example C65_case :
  let s := B "dn: o=x" ++ [cr; lf] ++ B "# note" ++ [lf] ++ B "cn: Do" ++ [lf] ++ B " ra" in
  template_text s = B "dn: o=x" ++ [lf] ++ B "cn: Do" ++ [lf] ++ B " ra" /\ content (Bytes.split lf (template_text s)) = [B "dn: o=x"; B "cn: Dora"].
Proof. split; by vm_compute. Qed.
(** An account after a photo in one line. *)
Example C65_long_case (k : nat) : (65536 <= Z.of_nat k)%Z ->
  load_source (F:=toy) false (OneFile (Some (B "dn: a" ++ [lf] ++ B "photo: " ++ replicate k "A"%char ++ [lf] ++ B "dn: b"))) =
    Some [Some (mkEntry (B "a") [])] /\
  load_source (F:=toy) false (OneFile (Some (B "dn: a" ++ [lf] ++ B "photo: " ++ B "AAAA" ++ [lf] ++ B "dn: b"))) =
    Some [Some (mkEntry (B "a") []); Some (mkEntry (B "b") [])].
Proof.
  intros Hk. split; [|by vm_compute].
  pose proof (C65_long_line toy [B "dn: a"] (B "photo: " ++ replicate k "A"%char) (B "dn: b")) as H. cbn zeta in H.
  rewrite <- (app_assoc (B "photo: ")) in H. cbn [map List.concat] in H. rewrite app_nil_r, <- (app_assoc (B "dn: a")) in H.
  etrans; [apply H|by vm_compute].
  - repeat constructor.
  - apply Forall_app. split; [repeat constructor|]. by apply Forall_replicate.
  - rewrite app_length, replicate_length. cbn. lia.
Qed.
