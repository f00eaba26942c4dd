(** From the user file of the newusers command to the records the LDIF backend
    serves: what is asked of the two libraries in between (text/template and
    go-ldap/ldif), and the lemmas for C93. *)
From Coq Require Import DecimalString.
From Verif Require Import Bytes Text Res Dn DnProofs Entry Password Source SourceProofs Template Gen GenProofs.

(** * What the template engine does to a text with variables only *)
(** A text is cut into plain text and variables written as in "{{.Company}}". *)
Inductive piece := Plain (s : str) | Field (name : str).
Definition raw (p : piece) : str := match p with Plain s => s | Field n => B "{{." ++ n ++ B "}}" end.
(** Plain text: no two opening braces in a row and none at the end. *)
Definition plain_text (s : str) : Prop :=
  forall a b, s = a ++ "{"%char :: b -> exists c b', b = c :: b' /\ c <> "{"%char.
Definition letters (s : str) : Prop := s <> [] /\ Forall (fun c => is_lower c = true \/ is_upper c = true) s.
Definition filled (vars : gmap str tval) (p : piece) : str :=
  match p with Plain s => s | Field n => match vars !! n with Some (VStr v) => v | _ => [] end end.
Definition fillable (vars : gmap str tval) (p : piece) : Prop :=
  match p with Plain s => plain_text s | Field n => letters n /\ exists v, vars !! n = Some (VStr v) end.
(** The law: plain text stays, variables that are strings are put in as they are. *)
Definition renders (F : Files) (vars : gmap str tval) : Prop :=
  forall ps, Forall (fillable vars) ps -> render (List.concat (map raw ps)) = Some (List.concat (map (filled vars) ps)).

(** * What the LDIF library reads *)
(** Values that can be written without encoding: the safe strings of RFC 2849,
    printable and not ending in a space. *)
Definition starts_safe (s : str) : Prop := exists c t, s = c :: t /\ c <> space /\ c <> ":"%char /\ c <> "<"%char.
Definition ends_safe (s : str) : Prop := exists t c, s = t ++ [c] /\ c <> space.
Definition safe (s : str) : Prop := prints s /\ starts_safe s /\ ends_safe s.
(** Names of attributes, without the words that mean something else in LDIF. *)
Definition attr_name (n : str) : Prop :=
  letters n /\ ~ In (lower_ascii n) (map B ["dn"; "changetype"; "control"; "version"]%string).
Definition line_of (p : str * str) : str := p.1 ++ B ": " ++ p.2.
(** Lines that say records: each a line for the DN and lines for its values,
    followed by an empty line; there may be more empty lines. *)
Inductive says {T : Text} : list str -> list (str * list (str * str)) -> Prop :=
| says_nil : says [] []
| says_blank L R : says L R -> says ([] :: L) R
| says_record dn avs L R :
    safe dn -> parse_dn dn <> None -> avs <> [] -> Forall (fun p => attr_name p.1 /\ safe p.2) avs -> says L R ->
    says ((B "dn: " ++ dn) :: map line_of avs ++ [] :: L) ((dn, avs) :: R).
(** The entry for a record: the values of each name in order. *)
Definition given (avs : list (str * str)) (a : str) : list str := map snd (bfilter (fun p => seqb p.1 a) avs).
Definition is_record (r : str * list (str * str)) (e : entry) : Prop :=
  e_dn e = r.1 /\ NoDup (map a_name (e_attrs e)) /\
  forall a vs, In (mkAttr a vs) (e_attrs e) <-> vs <> [] /\ vs = given r.2 a.
(** The law. *)
Definition reads (T : Text) (F : Files) : Prop :=
  forall L R, says L R -> R <> [] ->
    exists es, unmarshal (Bytes.join [lf] L) = Some (map Some es) /\ Forall2 is_record R es.

(** * Lemmas *)
Lemma says_app {T : Text} L1 R1 L2 R2 : says L1 R1 -> says L2 R2 -> says (L1 ++ L2) (R1 ++ R2).
Proof.
  intros H1 H2. induction H1 as [|L R H1 IH|dn avs L R Hd Hp Hn Ha H1 IH]; [done|by apply says_blank|].
  cbn [app]. rewrite <- app_assoc. cbn [app]. by apply says_record.
Qed.

Fixpoint joinl {A} (sep : list A) (ll : list (list A)) : list A :=
  match ll with
  | [] => []
  | [l] => l
  | l :: ll' => l ++ sep ++ joinl sep ll'
  end.
Lemma joinl_hom {A} (h : A -> str) sep ll :
  List.concat (map h (joinl sep ll)) = Bytes.join (List.concat (map h sep)) (map (fun l => List.concat (map h l)) ll).
Proof.
  induction ll as [|l [|l' ll] IH]; [done|done|]. cbn [joinl map Bytes.join] in *. rewrite !map_app, !concat_app. by rewrite IH.
Qed.
Lemma joinl_forall {A} (P : A -> Prop) sep ll : Forall P sep -> Forall (Forall P) ll -> Forall P (joinl sep ll).
Proof.
  intros Hs H. induction H as [|l ll Hl H IH]; [constructor|]. destruct ll as [|l' ll]; [done|]. cbn [joinl] in *.
  apply Forall_app. split; [done|]. apply Forall_app. by split.
Qed.

(** Lines joined, with two line feeds after each file. *)
Lemma join_app_lf (a b : list str) : a <> [] -> b <> [] -> Bytes.join [lf] (a ++ b) = Bytes.join [lf] a ++ lf :: Bytes.join [lf] b.
Proof.
  intros Ha Hb. induction a as [|x [|y a] IH]; [done| |].
  - cbn [app Bytes.join]. by destruct b.
  - cbn [app Bytes.join] in *. rewrite IH by done. by rewrite <- !app_assoc.
Qed.
Lemma join_files (Ls : list (list str)) : Forall (fun L => L <> []) Ls ->
  List.concat (map (fun L => Bytes.join [lf] L ++ [lf; lf]) Ls) = Bytes.join [lf] (List.concat (map (fun L => L ++ [[]]) Ls) ++ [[]]).
Proof.
  induction 1 as [|L Ls HL _ IH]; [done|]. cbn [map List.concat]. rewrite IH, <- !app_assoc.
  rewrite (join_app_lf L) by done. f_equal. cbn [app].
  assert (Hr : forall r : list str, r <> [] -> lf :: lf :: Bytes.join [lf] r = lf :: Bytes.join [lf] ([] :: r)) by (by intros [|x r]).
  apply Hr. by intros [_ ?]%app_eq_nil.
Qed.
Lemma says_concat {T : Text} Ls Rs : Forall2 says Ls Rs -> says (List.concat (map (fun L => L ++ [[]]) Ls) ++ [[]]) (List.concat Rs).
Proof.
  induction 1 as [|L R Ls Rs H _ IH]; [repeat constructor|]. cbn [map List.concat]. rewrite <- !app_assoc.
  apply says_app; [done|]. by apply says_blank.
Qed.

(** Plain text. *)
Lemma plain_app a b : plain_text a -> plain_text b -> plain_text (a ++ b).
Proof.
  intros Ha Hb x y E. apply app_eq_app in E as [z [[E1 E2]|[E1 E2]]].
  - subst a. destruct z as [|c z].
    + cbn in E2. subst b. by apply (Hb [] y).
    + injection E2 as <- ->. destruct (Ha x z eq_refl) as (c & b' & -> & Hc). by exists c, (b' ++ b).
  - subst. by apply (Hb z y).
Qed.
Definition no_brace (s : str) : Prop := Forall (fun c => c <> "{"%char) s.
Lemma no_brace_plain s : no_brace s -> plain_text s.
Proof. intros H a b ->. apply Forall_app in H as [_ H]. by apply Forall_inv in H. Qed.
Lemma no_brace_app a b : no_brace (a ++ b) <-> no_brace a /\ no_brace b.
Proof. apply Forall_app. Qed.

(** Safe strings. *)
Lemma prints_app a b : prints (a ++ b) <-> prints a /\ prints b.
Proof. apply Forall_app. Qed.
Lemma safe_app a b : prints a -> starts_safe a -> prints b -> ends_safe b -> safe (a ++ b).
Proof.
  intros Ha (c & t & -> & Hc) Hb (t' & c' & -> & Hc'). split; [by apply prints_app|]. split; [by exists c, (t ++ t' ++ [c'])|].
  exists ((c :: t) ++ t'), c'. by rewrite app_assoc.
Qed.
Lemma safe_app_l a b : safe a -> prints b -> ends_safe b -> safe (a ++ b).
Proof. intros (H1 & H2 & _) H3 H4. by apply safe_app. Qed.
Lemma ends_app a b : ends_safe b -> ends_safe (a ++ b).
Proof. intros (t & c & -> & H). exists (a ++ t), c. by rewrite app_assoc. Qed.
Lemma safe_not_nil s : safe s -> s <> [].
Proof. by intros (_ & (c & t & -> & _) & _). Qed.
Lemma prints_drop_cr s : prints s -> drop_cr s = s.
Proof.
  intros H. destruct (drop_cr_spec s) as [|E]; [done|]. rewrite E in H. apply prints_app in H as [_ H]. apply Forall_inv in H. done.
Qed.
Lemma prints_nolf s : prints s -> nolf s.
Proof.
  intros H. eapply Forall_impl; [exact H|]. intros c Hc. destruct (aeqb lf c) eqn:E; [|done]. apply aeqb_eq in E. by subst c.
Qed.

(** Decimal numbers. *)
Definition digit_or_minus (c : ascii) : Prop := is_digit c = true \/ c = "-"%char.
Lemma uint_digits d : Forall digit_or_minus (B (NilEmpty.string_of_uint d)).
Proof. induction d; cbn; constructor; try exact IHd; by left. Qed.
Lemma uint_digits' d : Forall digit_or_minus (B (NilZero.string_of_uint d)) /\ B (NilZero.string_of_uint d) <> [].
Proof.
  destruct d; (split; [|done]); try apply uint_digits. repeat constructor.
Qed.
Lemma dec_digits z : Forall digit_or_minus (dec z) /\ dec z <> [].
Proof.
  unfold dec, NilZero.string_of_int. destruct (Z.to_int z) as [d|d]; [apply uint_digits'|].
  destruct (uint_digits' d) as [H _]. split; [|done]. constructor; [by right|exact H].
Qed.
Lemma dm_props c : digit_or_minus c -> is_print c = true /\ c <> space /\ c <> ":"%char /\ c <> "<"%char /\ c <> "{"%char.
Proof.
  intros [H| ->]; [|done]. unfold is_digit, is_print in *. repeat split; [lia|by intros ->..].
Qed.
Lemma dec_safe z : safe (dec z) /\ no_brace (dec z).
Proof.
  destruct (dec_digits z) as [H Hn]. split; [|eapply Forall_impl; [exact H|]; intros c Hc; destruct (dm_props c Hc) as (?&?&?&?&?); done].
  split; [eapply Forall_impl; [exact H|]; intros c Hc; destruct (dm_props c Hc) as (?&?&?&?&?); done|]. split.
  - destruct (dec z) as [|c t]; [done|]. apply Forall_inv, dm_props in H. exists c, t. tauto.
  - destruct (dec z) as [|c t _] using rev_ind; [done|]. apply Forall_app in H as [_ H]. apply Forall_inv, dm_props in H. exists t, c. tauto.
Qed.

(** * The printed users *)
Definition mail_hole : str := B "@{{.MailDomain}}".
Definition mail_filled (md m : str) : str :=
  if has_suffix m mail_hole then take (length m - length mail_hole) m ++ B "@" ++ md else m.
Definition some_value (name v : str) : list (str * str) := if is_empty v then [] else [(name, v)].
(** The record of a user, in a directory of a company with a mail domain. *)
Definition users_base (company base : str) : str := B "ou=Users,ou=" ++ company ++ B "," ++ base.
Definition user_record (company base md : str) (o : user * detail * Z) : str * list (str * str) :=
  let '(u, d, number) := o in
  (B "uid=" ++ u_name u ++ B "," ++ users_base company base,
   [(B "objectClass", B "posixAccount"); (B "objectClass", B "top"); (B "objectClass", B "inetOrgPerson");
    (B "uid", u_name u); (B "uidNumber", dec number)] ++
   (if (d_gid d =? 0)%Z then [] else [(B "gidNumber", dec (d_gid d))]) ++
   some_value (B "userPassword") (d_password d) ++
   [(B "mail", u_name u ++ B "@" ++ md)] ++
   map (fun m => (B "mailAlternateAddress", mail_filled md m)) (d_mail d) ++
   [(B "cn", d_cn d)] ++ some_value (B "givenName") (d_given d) ++ some_value (B "sn") (d_sn d)).

(** Users whose values templates and LDIF leave as they are. *)
Definition quiet (s : str) : Prop := safe s /\ no_brace s.
Definition tidy_mail (m : str) : Prop := exists p, quiet p /\ (m = p \/ m = p ++ mail_hole).
Definition tidy (o : user * detail * Z) : Prop :=
  let '(u, d, _) := o in
  quiet (u_name u) /\ encode_rdn_value (u_name u) = u_name u /\
  (safe (d_password d) /\ plain_text (d_password d)) /\
  quiet (d_cn d) /\ (d_given d = [] \/ quiet (d_given d)) /\ (d_sn d = [] \/ quiet (d_sn d)) /\
  Forall tidy_mail (d_mail d).

Definition some_line (name v : str) : list (list piece) := if is_empty v then [] else [[Plain (name ++ B ": " ++ v)]].
Definition mail_pieces (m : str) : list piece :=
  if has_suffix m mail_hole
  then [Plain (B "mailAlternateAddress: " ++ take (length m - length mail_hole) m ++ B "@"); Field (B "MailDomain")]
  else [Plain (B "mailAlternateAddress: " ++ m)].
Definition user_pieces (o : user * detail * Z) : list (list piece) :=
  let '(u, d, number) := o in
  [[Plain (B "dn: uid=" ++ u_name u ++ B ",ou=Users,ou="); Field (B "Company"); Plain (B ","); Field (B "BaseDN")];
   [Plain (B "objectClass: posixAccount")]; [Plain (B "objectClass: top")]; [Plain (B "objectClass: inetOrgPerson")];
   [Plain (B "uid: " ++ u_name u)]; [Plain (B "uidNumber: " ++ dec number)]] ++
  (if (d_gid d =? 0)%Z then [] else [[Plain (B "gidNumber: " ++ dec (d_gid d))]]) ++
  some_line (B "userPassword") (d_password d) ++
  [[Plain (B "mail: " ++ u_name u ++ B "@"); Field (B "MailDomain")]] ++
  map mail_pieces (d_mail d) ++
  [[Plain (B "cn: " ++ d_cn d)]] ++ some_line (B "givenName") (d_given d) ++ some_line (B "sn") (d_sn d) ++ [[]].

Lemma mail_hole_no p : no_brace p -> has_suffix p mail_hole = false.
Proof.
  intros H. destruct (has_suffix p mail_hole) eqn:E; [|done]. apply has_suffix_spec in E as [t ->].
  apply no_brace_app in H as [_ H]. unfold mail_hole in H. cbn in H. do 2 (inversion_clear H as [|? ? ? H']; rename H' into H; try done).
Qed.
Lemma mail_hole_yes p : has_suffix (p ++ mail_hole) mail_hole = true /\
  take (length (p ++ mail_hole) - length mail_hole) (p ++ mail_hole) = p.
Proof.
  split; [apply has_suffix_spec; by exists p|]. rewrite app_length.
  replace (length p + length mail_hole - length mail_hole) with (length p) by lia. apply take_app.
Qed.
Definition flat_raw (l : list piece) : str := List.concat (map raw l).
Lemma user_pieces_raw {T : Text} o : Forall tidy_mail (d_mail o.1.2) ->
  map flat_raw (user_pieces o) = List.tail (user_lines o.1.1 o.1.2 o.2).
Proof.
  destruct o as [[u d] n]. cbn [fst snd]. intros Hm. unfold user_pieces, user_lines, opt_line, some_line, user_dn, base_dn.
  cbn [List.tail app map]. rewrite !map_app. cbn [map app]. rewrite !map_app.
  assert (E : map flat_raw (map mail_pieces (d_mail d)) = map (fun m => B "mailAlternateAddress: " ++ m) (d_mail d)).
  { induction Hm as [|m l (p & Hp & Hm) _ IH]; [done|]. cbn [map]. f_equal; [|exact IH]. unfold mail_pieces. destruct Hm as [-> | ->].
    - rewrite mail_hole_no by apply Hp. unfold flat_raw. cbn [map List.concat raw]. by rewrite app_nil_r.
    - destruct (mail_hole_yes p) as [-> ->]. unfold flat_raw. cbn [map List.concat raw]. rewrite app_nil_r, <- !app_assoc. done. }
  rewrite E. cbn [map app]. unfold flat_raw at 1 2 3 4 5 6. cbn [map List.concat raw]. rewrite <- !app_assoc, ?app_nil_r. f_equal.
  do 5 f_equal. destruct (d_gid d =? 0)%Z, (is_empty (d_password d)), (is_empty (d_given d)), (is_empty (d_sn d));
    cbn [map app]; unfold flat_raw; cbn [map List.concat raw app]; rewrite ?app_nil_r, <- ?app_assoc; done.
Qed.

Section users.
Context (vars : gmap str tval) (company base md : str).
Context (Hcompany : vars !! B "Company" = Some (VStr company)).
Context (Hbase : vars !! B "BaseDN" = Some (VStr base)).
Context (Hmd : vars !! B "MailDomain" = Some (VStr md)).

Definition flat_filled (l : list piece) : str := List.concat (map (filled vars) l).
Lemma user_pieces_filled o : Forall tidy_mail (d_mail o.1.2) ->
  map flat_filled (user_pieces o) =
  (B "dn: " ++ (user_record company base md o).1) :: map line_of (user_record company base md o).2 ++ [[]].
Proof using Hcompany Hbase Hmd.
  destruct o as [[u d] n]. cbn [fst snd]. intros Hm. unfold user_pieces, user_record, some_line, some_value, users_base.
  cbn [fst snd app map]. rewrite !map_app. cbn [map app]. rewrite !map_app.
  assert (E : map flat_filled (map mail_pieces (d_mail d)) = map line_of (map (fun m => (B "mailAlternateAddress", mail_filled md m)) (d_mail d))).
  { induction Hm as [|m l (p & Hp & Hm) _ IH]; [done|]. cbn [map]. f_equal; [|exact IH]. unfold mail_pieces, mail_filled. destruct Hm as [-> | ->].
    - rewrite mail_hole_no by apply Hp. unfold flat_filled, line_of. cbn [map List.concat filled fst snd]. by rewrite app_nil_r.
    - destruct (mail_hole_yes p) as [-> ->]. unfold flat_filled, line_of. cbn [map List.concat filled fst snd]. rewrite Hmd, app_nil_r, <- !app_assoc. done. }
  rewrite E. clear E. generalize (map line_of (map (fun m => (B "mailAlternateAddress", mail_filled md m)) (d_mail d))). intros X.
  destruct (d_gid d =? 0)%Z, (is_empty (d_password d)), (is_empty (d_given d)), (is_empty (d_sn d));
    cbn [map app]; rewrite ?map_app; cbn [map app]; unfold flat_filled, line_of; cbn [map List.concat filled fst snd];
    rewrite Hcompany, Hbase, Hmd, ?app_nil_r, <- ?app_assoc; done.
Qed.

Lemma plain_B (s : string) : no_brace (B s) -> plain_text (B s).
Proof. apply no_brace_plain. Qed.
Ltac nb := repeat (constructor || done).
Lemma letters_B (s : string) : forallb (fun c => is_lower c || is_upper c) (B s) && negb (is_empty (B s)) = true -> letters (B s).
Proof.
  intros [H1 H2]%andb_true_iff. split; [by destruct (B s)|]. rewrite forallb_forall in H1. apply List.Forall_forall. intros c Hc.
  by apply orb_true_iff, H1.
Qed.
Lemma user_pieces_fillable o : tidy o -> Forall (Forall (fillable vars)) (user_pieces o).
Proof using Hcompany Hbase Hmd.
  destruct o as [[u d] n]. intros ([Hn1 Hn2] & _ & [Hp1 Hp2] & [Hc1 Hc2] & Hg & Hs & Hm).
  assert (FC : fillable vars (Field (B "Company"))) by (split; [by apply letters_B|eauto]).
  assert (FB : fillable vars (Field (B "BaseDN"))) by (split; [by apply letters_B|eauto]).
  assert (FM : fillable vars (Field (B "MailDomain"))) by (split; [by apply letters_B|eauto]).
  assert (P : forall (s : string) v, no_brace (B s) -> plain_text v -> fillable vars (Plain (B s ++ v))).
  { intros s v H1 H2. apply plain_app; [by apply no_brace_plain|done]. }
  assert (P0 : forall s : string, no_brace (B s) -> fillable vars (Plain (B s))) by (intros s Hs'; by apply no_brace_plain).
  assert (S1 : forall (name : string) v, no_brace (B name) -> (v = [] \/ plain_text v) ->
    Forall (Forall (fillable vars)) (some_line (B name) v)).
  { intros name v Hnm Hv. unfold some_line. destruct v as [|c v]; [constructor|]. destruct Hv as [|Hv]; [done|]. cbn [is_empty].
    repeat constructor. apply plain_app; [by apply no_brace_plain|]. apply plain_app; [by apply no_brace_plain; nb|done]. }
  assert (Q : forall s, s = [] \/ quiet s -> s = [] \/ plain_text s) by (intros s [?|[_ ?]]; [by left|right; by apply no_brace_plain]).
  unfold user_pieces. repeat (apply Forall_app; split).
  - repeat (apply List.Forall_cons; [repeat (apply List.Forall_cons)|]); try apply List.Forall_nil; try assumption;
      try (apply P0; nb; fail).
    + apply P; [nb|]. apply plain_app; apply no_brace_plain; [done|nb].
    + apply P; [nb|by apply no_brace_plain].
    + apply P; [nb|]. apply no_brace_plain, dec_safe.
  - destruct (d_gid d =? 0)%Z; repeat constructor. apply P; [nb|]. apply no_brace_plain, dec_safe.
  - apply S1; [nb|by right].
  - repeat (constructor; try done). apply P; [nb|]. apply plain_app; apply no_brace_plain; [done|nb].
  - apply List.Forall_forall. intros l Hl. apply in_map_iff in Hl as (m & <- & Hin). rewrite List.Forall_forall in Hm.
    destruct (Hm m Hin) as (p & [_ Hp] & [-> | ->]); unfold mail_pieces.
    + rewrite mail_hole_no by done. repeat constructor. apply P; [nb|by apply no_brace_plain].
    + destruct (mail_hole_yes p) as [-> ->]. repeat (constructor; try done). apply P; [nb|]. apply plain_app; apply no_brace_plain; [done|nb].
  - repeat constructor. apply P; [nb|by apply no_brace_plain].
  - apply S1; [nb|by apply Q].
  - apply S1; [nb|by apply Q].
  - repeat constructor.
Qed.

Context {T : Text} (HT : TextOK T) (b : dn).
Context (Hb : base = flat b) (Hwf : wf_dn b = true) (Hlast : last_ok b = true) (Hne : b <> []).
Context (Hbs : safe base) (Hcs : encode_rdn_value company = company) (Hms : safe md).

Lemma user_dn_parses o : tidy o ->
  parse_dn (user_record company base md o).1 =
  Some ([(B "uid", u_name o.1.1)] :: [(B "ou", B "Users")] :: [(B "ou", company)] :: b).
Proof using HT Hb Hwf Hlast Hne Hcs.
  destruct o as [[u d] n]. cbn [fst snd]. intros (_ & Hn & _). unfold user_record, users_base. cbn [fst]. clear Hbs Hbase. subst base.
  destruct b as [|r b']; [done|].
  assert (E : B "uid=" ++ u_name u ++ B "," ++ B "ou=Users,ou=" ++ company ++ B "," ++ flat (r :: b') =
    flat ([(B "uid", u_name u)] :: [(B "ou", B "Users")] :: [(B "ou", company)] :: r :: b')).
  { assert (F1 : forall t v, encode_rdn_value v = v -> flat_rdn [(t, v)] = t ++ B "=" ++ v).
    { intros t v Hv. unfold flat_rdn. cbn [map Bytes.join]. unfold flat_ava. cbn [fst snd]. by rewrite Hv. }
    unfold flat. change (map flat_rdn ([(B "uid", u_name u)] :: [(B "ou", B "Users")] :: [(B "ou", company)] :: r :: b')) with
      (flat_rdn [(B "uid", u_name u)] :: flat_rdn [(B "ou", B "Users")] :: flat_rdn [(B "ou", company)] :: map flat_rdn (r :: b')).
    rewrite !F1 by done.
    change (map flat_rdn (r :: b')) with (flat_rdn r :: map flat_rdn b').
    generalize (flat_rdn r) (map flat_rdn b'). intros x l. cbn [Bytes.join]. rewrite <- !app_assoc. done. }
  rewrite E. apply (parse_flat HT); [|done]. unfold wf_dn in *. cbn [forallb] in *. by rewrite Hwf.
Qed.

Lemma user_says o : tidy o ->
  forall L R, says L R -> says (map flat_filled (user_pieces o) ++ L) (user_record company base md o :: R).
Proof using Hcompany Hbase Hmd HT Hb Hwf Hlast Hne Hbs Hcs Hms.
  intros Ht L R HL. pose proof (user_dn_parses o Ht) as Hp. rewrite user_pieces_filled by (destruct o as [[u d] n]; apply Ht).
  rewrite <- app_comm_cons, <- app_assoc. change ([[]] ++ L) with ([] :: L).
  destruct o as [[u d] n]. unfold user_record in *. cbn [fst snd] in *.
  destruct Ht as ([Hn1 Hn2] & Hn3 & [Hp1 Hp2] & [Hc1 Hc2] & Hg & Hs & Hm).
  assert (A : forall s : string, letters (B s) -> ~ In (lower_ascii (B s)) (map B ["dn"; "changetype"; "control"; "version"]%string) -> attr_name (B s)) by (by split).
  assert (Hend : ends_safe base) by apply Hbs.
  assert (SB : forall s : string, forallb (fun c => is_print c && negb (aeqb c space) && negb (aeqb c ":"%char) && negb (aeqb c "<"%char)) (B s) && negb (is_empty (B s)) = true -> safe (B s)).
  { intros s [H1 H2]%andb_true_iff. rewrite forallb_forall in H1.
    assert (H1' : forall c, In c (B s) -> is_print c = true /\ c <> space /\ c <> ":"%char /\ c <> "<"%char).
    { intros c Hc. apply H1 in Hc. rewrite !andb_true_iff in Hc. destruct Hc as [[[? ?] ?] ?]. split; [done|].
      repeat split; intros ->; done. }
    split; [apply List.Forall_forall; intros c Hc; by destruct (H1' c Hc)|]. split.
    - destruct (B s) as [|c t]; [done|]. exists c, t. split; [done|]. apply (H1' c). by left.
    - destruct (B s) as [|c t _] using rev_ind; [done|]. exists t, c. split; [done|]. apply (H1' c). apply in_or_app. right. by left. }
  apply says_record; [| |done| |done].
  - apply safe_app; [by repeat constructor| |..].
    + exists "u"%char, (B "id="). done.
    + apply prints_app. split; [apply Hn1|]. unfold users_base. repeat (apply prints_app; split); [by repeat constructor|by repeat constructor| |by repeat constructor|apply Hbs].
      rewrite <- Hcs. apply enc_prints.
    + unfold users_base. by repeat apply ends_app.
  - rewrite Hp. done.
  - assert (SV : forall (name : string) v, attr_name (B name) -> v = [] \/ safe v ->
      Forall (fun p : str * str => attr_name p.1 /\ safe p.2) (some_value (B name) v)).
    { intros name v Hnm Hv. unfold some_value. destruct v as [|c v]; [constructor|]. destruct Hv as [|Hv]; [done|]. cbn [is_empty].
      apply List.Forall_cons; [by split|apply List.Forall_nil]. }
    assert (NM : forall s : string, forallb (fun c => is_lower c || is_upper c) (B s) && negb (is_empty (B s)) = true ->
      forallb (fun w => negb (seqb (lower_ascii (B s)) w)) (map B ["dn"; "changetype"; "control"; "version"]%string) = true -> attr_name (B s)).
    { intros s H1 H2. split; [by apply letters_B|]. intros Hin. rewrite forallb_forall in H2. apply H2 in Hin.
      apply negb_true_iff, seqb_neq in Hin. done. }
    assert (HE : safe (B "@" ++ md)).
    { apply safe_app; [by repeat constructor| |apply Hms|apply Hms]. by exists "@"%char, []. }
    repeat (apply Forall_app; split).
    + repeat (apply List.Forall_cons; [split; cbn [fst snd]; [by apply NM|]|]); try apply List.Forall_nil; try (by apply SB); [done|apply dec_safe].
    + destruct (d_gid d =? 0)%Z; [apply List.Forall_nil|]. apply List.Forall_cons; [|apply List.Forall_nil]. split; [by apply NM|apply dec_safe].
    + apply SV; [by apply NM|by right].
    + apply List.Forall_cons; [|apply List.Forall_nil]. split; cbn [fst snd]; [by apply NM|]. apply safe_app_l; [done|apply HE|apply HE].
    + apply List.Forall_forall. intros p Hin. apply in_map_iff in Hin as (m & <- & Hin). cbn [fst snd]. split; [by apply NM|].
      rewrite List.Forall_forall in Hm. destruct (Hm m Hin) as (q & [Hq1 Hq2] & [-> | ->]); unfold mail_filled.
      * by rewrite mail_hole_no.
      * destruct (mail_hole_yes q) as [-> ->]. apply safe_app_l; [done|apply HE|apply HE].
    + apply List.Forall_cons; [|apply List.Forall_nil]. split; [by apply NM|done].
    + apply SV; [by apply NM|]. destruct Hg as [?|[? _]]; auto.
    + apply SV; [by apply NM|]. destruct Hs as [?|[? _]]; auto.
Qed.
End users.

(** * The printed text as a file *)
Section file.
Context {F : Files} {T : Text} (HT : TextOK T).
Context (vars : gmap str tval) (company base md : str).
Context (Hcompany : vars !! B "Company" = Some (VStr company)).
Context (Hbase : vars !! B "BaseDN" = Some (VStr base)).
Context (Hmd : vars !! B "MailDomain" = Some (VStr md)).
Context (b : dn) (Hb : base = flat b) (Hwf : wf_dn b = true) (Hlast : last_ok b = true) (Hne : b <> []).
Context (Hbs : safe base) (Hcs : encode_rdn_value company = company) (Hms : safe md).
Context (HF : renders F vars).

(** After template processing the file says these records. *)
Definition file_says (s : str) (R : list (str * list (str * str))) : Prop :=
  exists L, L <> [] /\ process s = Some (Bytes.join [lf] L) /\ says L R.

Lemma quiet_trim s : safe s -> trim_dn s = s.
Proof using HT.
  intros (Hp & (c & t & E & Hc & _) & t' & c' & E' & Hc'). rewrite (trim_dn_print T HT) by done. unfold trim_sp.
  assert (E1 : ltrim s = s) by (rewrite E; cbn [ltrim]; by rewrite (proj2 (aeqb_neq c space) Hc)).
  rewrite E1. unfold rtrim. rewrite E', rev_app_distr. cbn [rev app ltrim]. rewrite (proj2 (aeqb_neq c' space) Hc'). cbn [rev].
  by rewrite rev_involutive.
Qed.
Lemma user_lines_prints o : tidy o -> Forall prints (user_lines o.1.1 o.1.2 o.2).
Proof using HT.
  destruct o as [[u d] n]. cbn [fst snd]. intros ([Hn1 Hn2] & _ & [Hp1 Hp2] & [Hc1 Hc2] & Hg & Hs & Hm).
  assert (PB : forall s : string, forallb is_print (B s) = true -> prints (B s)).
  { intros s H. apply List.Forall_forall. intros c Hc. rewrite forallb_forall in H. by apply H. }
  assert (D : forall z, prints (dec z)) by (intros z; apply dec_safe).
  assert (O : forall (name : string) v, forallb is_print (B name) = true -> v = [] \/ safe v -> Forall prints (opt_line (B name) v)).
  { intros name v Hnm Hv. unfold opt_line. destruct v as [|c v]; [constructor|]. destruct Hv as [|Hv]; [done|]. cbn [is_empty].
    apply List.Forall_cons; [|constructor]. repeat (apply prints_app; split); [by apply PB..|apply Hv]. }
  unfold user_lines, user_dn, base_dn. rewrite quiet_trim by done. repeat (apply Forall_app; split).
  - repeat (apply List.Forall_cons; [repeat (apply prints_app; split); first [by apply PB|apply D|apply Hn1]|]). apply List.Forall_nil.
  - destruct (d_gid d =? 0)%Z; [constructor|]. apply List.Forall_cons; [|constructor]. apply prints_app. split; [by apply PB|apply D].
  - apply O; [done|by right].
  - apply List.Forall_cons; [|constructor]. repeat (apply prints_app; split); [by apply PB|apply Hn1|by apply PB].
  - apply List.Forall_forall. intros l Hl. apply in_map_iff in Hl as (m & <- & Hin). rewrite List.Forall_forall in Hm.
    destruct (Hm m Hin) as (p & [Hp _] & [-> | ->]); repeat (apply prints_app; split); try (by apply PB); apply Hp.
  - apply List.Forall_cons; [|constructor]. apply prints_app. split; [by apply PB|apply Hc1].
  - apply O; [done|]. destruct Hg as [?|[? _]]; auto.
  - apply O; [done|]. destruct Hs as [?|[? _]]; auto.
  - by repeat constructor.
Qed.

Lemma user_lines_comment o : bfilter (fun l => negb (is_comment l)) (user_lines o.1.1 o.1.2 o.2) = List.tail (user_lines o.1.1 o.1.2 o.2).
Proof.
  destruct o as [[u d] n]. cbn [fst snd]. unfold user_lines. cbn [app List.tail].
  assert (N : forall (s : string) v c t, B s = c :: t -> c <> "#"%char -> is_comment (B s ++ v) = false).
  { intros s v c t -> Hc. unfold is_comment. cbn [app has_prefix B list_ascii_of_string]. by rewrite (proj2 (aeqb_neq "#"%char c) (not_eq_sym Hc)). }
  assert (K : forall l, Forall (fun x => is_comment x = false) l -> bfilter (fun l => negb (is_comment l)) l = l).
  { induction 1 as [|x l Hx _ IH]; [done|]. cbn [bfilter]. by rewrite Hx, IH. }
  assert (K' : forall x l, is_comment x = true -> Forall (fun x => is_comment x = false) l -> bfilter (fun l => negb (is_comment l)) (x :: l) = l).
  { intros x l Hx Hl. cbn [bfilter]. rewrite Hx. by apply K. }
  apply K'; [done|].
  assert (O : forall (name : string) v c t, B name = c :: t -> c <> "#"%char -> Forall (fun x => is_comment x = false) (opt_line (B name) v)).
  { intros name v c t E Hc. unfold opt_line. destruct (is_empty v); [constructor|]. apply List.Forall_cons; [|constructor]. by eapply N. }
  repeat (apply List.Forall_cons; [first [done|by eapply N]|]).
  repeat (apply Forall_app; split).
  - destruct (d_gid d =? 0)%Z; [constructor|]. apply List.Forall_cons; [|constructor]. by eapply N.
  - by eapply O.
  - apply List.Forall_cons; [by eapply N|]. apply Forall_app. split; [|].
    + apply List.Forall_forall. intros l Hl. apply in_map_iff in Hl as (m & <- & Hin). by eapply N.
    + apply List.Forall_cons; [by eapply N|]. repeat (apply Forall_app; split); [by eapply O..|]. by repeat constructor.
Qed.

Lemma printed_says (out : list (user * detail * Z)) :
  out <> [] -> Forall tidy out -> Forall (fun l => (Z.of_nat (length l) < 65536)%Z) (Bytes.split lf (printed out)) ->
  file_says (printed out) (map (user_record company base md) out).
Proof using All.
  intros Hout Ht Hlen.
  assert (Hpr : Forall prints (List.concat (map (fun o => user_lines o.1.1 o.1.2 o.2) out))).
  { apply List.Forall_forall. intros l Hl. apply in_concat in Hl as (ls & Hls & Hl). apply in_map_iff in Hls as (o & <- & Ho).
    rewrite List.Forall_forall in Ht. pose proof (user_lines_prints o (Ht o Ho)) as H. rewrite List.Forall_forall in H. by apply H. }
  assert (Es : Bytes.split lf (printed out) = List.concat (map (fun o => user_lines o.1.1 o.1.2 o.2) out) ++ [[]]).
  { unfold printed. rewrite <- (map_map (fun o => user_lines o.1.1 o.1.2 o.2) (fun ls => List.concat (map (fun l => l ++ [lf]) ls))).
    rewrite concat_map_concat. apply split_lines. eapply Forall_impl; [exact Hpr|]. apply prints_nolf. }
  assert (Esc : scan_lines (printed out) = List.concat (map (fun o => user_lines o.1.1 o.1.2 o.2) out)).
  { unfold scan_lines. rewrite Es in *. apply Forall_app in Hlen as [Hlen _]. rewrite fitting_short; [|exact Hlen|done]. cbn [fitting is_empty orb].
    rewrite app_nil_r. clear -Hpr. induction Hpr as [|l ls Hl _ IH]; [done|]. cbn [map]. by rewrite prints_drop_cr, IH. }
  assert (Ett : template_text (printed out) = List.concat (map raw (joinl [Plain [lf]] (List.concat (map user_pieces out))))).
  { unfold template_text. rewrite Esc, joinl_hom. cbn [map List.concat raw app]. f_equal. fold flat_raw.
    clear -Ht. induction Ht as [|o out Ho _ IH]; [done|]. cbn [map List.concat]. rewrite List.filter_app, map_app, <- IH, user_lines_comment.
    f_equal. symmetry. apply user_pieces_raw. destruct o as [[u d] n]. apply Ho. }
  exists (map (flat_filled vars) (List.concat (map user_pieces out))). split; [|split].
  - destruct out as [|o out]; [done|]. destruct o as [[u d] n]. done.
  - unfold process. rewrite Ett, HF.
    + f_equal. rewrite joinl_hom. cbn [map List.concat filled app]. done.
    + apply joinl_forall; [repeat constructor; by apply no_brace_plain; repeat constructor|].
      apply List.Forall_forall. intros l Hl. apply in_concat in Hl as (ls & Hls & Hl). apply in_map_iff in Hls as (o & <- & Ho).
      rewrite List.Forall_forall in Ht. pose proof (user_pieces_fillable vars company base md Hcompany Hbase Hmd o (Ht o Ho)) as H.
      rewrite List.Forall_forall in H. by apply H.
  - clear -Hcompany Hbase Hmd HT Hb Hwf Hlast Hne Hbs Hcs Hms Ht.
    induction Ht as [|o out Ho _ IH]; [constructor|]. cbn [map List.concat]. rewrite map_app.
    by apply (user_says vars company base md Hcompany Hbase Hmd HT b).
Qed.
End file.

(** * The laws can be met: a small template engine and LDIF reader *)
Fixpoint mini_go (vars : gmap str tval) (s : str) (name : option str) : option str :=
  match s with
  | [] => match name with None => Some [] | Some _ => None end
  | c :: t =>
      match name with
      | Some n =>
          match t with
          | d :: s' =>
              if aeqb c "}"%char && aeqb d "}"%char
              then match vars !! rev n with Some (VStr v) => app v <$> mini_go vars s' None | _ => None end
              else mini_go vars t (Some (c :: n))
          | [] => None
          end
      | None =>
          match t with
          | d :: e :: s' =>
              if aeqb c "{"%char && aeqb d "{"%char && aeqb e "."%char then mini_go vars s' (Some []) else cons c <$> mini_go vars t None
          | _ => cons c <$> mini_go vars t None
          end
      end
  end.
Fixpoint mini_cut (l : str) : option (str * str) :=
  match l with
  | c :: ((d :: v) as t) =>
      if aeqb c ":"%char && aeqb d space then Some ([], v)
      else match mini_cut t with Some (n, v) => Some (c :: n, v) | None => None end
  | _ => None
  end.
Definition mini_entry (r : str * list (str * str)) : entry :=
  mkEntry r.1 (map (fun a => mkAttr a (given r.2 a)) (remove_dups (map fst r.2))).
Fixpoint mini_read (ls : list str) (cur : option (str * list (str * str))) : option (list (option entry)) :=
  let done := match cur with Some (dn, avs) => [Some (mini_entry (dn, rev avs))] | None => [] end in
  match ls with
  | [] => Some done
  | [] :: ls' => app done <$> mini_read ls' None
  | l :: ls' =>
      match mini_cut l, cur with
      | Some (n, v), None => if seqb n (B "dn") then mini_read ls' (Some (v, [])) else None
      | Some (n, v), Some (dn, avs) => mini_read ls' (Some (dn, (n, v) :: avs))
      | None, _ => None
      end
  end.
Definition mini_files (vars : gmap str tval) : Files := {|
  render s := mini_go vars s None;
  unmarshal s := mini_read (Bytes.split lf s) None
|}.

Lemma plain_tail c s : plain_text (c :: s) -> plain_text s.
Proof. intros H a b ->. by apply (H (c :: a) b). Qed.
Lemma mini_plain vars s r : plain_text s -> mini_go vars (s ++ r) None = app s <$> mini_go vars r None.
Proof.
  induction s as [|c s IH]; intros H; [cbn [app]; by destruct (mini_go vars r None)|].
  assert (E : mini_go vars ((c :: s) ++ r) None = cons c <$> mini_go vars (s ++ r) None).
  { cbn [app mini_go]. destruct (s ++ r) as [|d [|e t]] eqn:El; [done|done|].
    destruct (aeqb c "{"%char) eqn:Ec; [|done]. apply aeqb_eq in Ec as ->. destruct (H [] s eq_refl) as (x & s' & -> & Hx).
    injection El as -> _. by rewrite (proj2 (aeqb_neq d "{"%char) Hx). }
  rewrite E, (IH (plain_tail _ _ H)). by destruct (mini_go vars r None).
Qed.
Lemma mini_name vars n acc r v : Forall (fun c => is_lower c = true \/ is_upper c = true) n -> vars !! (rev acc ++ n) = Some (VStr v) ->
  mini_go vars (n ++ B "}}" ++ r) (Some acc) = app v <$> mini_go vars r None.
Proof.
  intros H. revert acc. induction H as [|c n Hc _ IH]; intros acc Hv.
  - rewrite app_nil_r in Hv. cbn. by rewrite Hv.
  - assert (Hx : aeqb c "}"%char = false) by (apply aeqb_neq; intros ->; by destruct Hc).
    assert (E : mini_go vars ((c :: n) ++ B "}}" ++ r) (Some acc) = mini_go vars (n ++ B "}}" ++ r) (Some (c :: acc))).
    { cbn [app mini_go]. destruct (n ++ B "}}" ++ r) as [|d t] eqn:El; [by apply app_eq_nil in El as [_ ?]|]. by rewrite Hx. }
    rewrite E. apply IH. cbn [rev]. by rewrite <- app_assoc.
Qed.
Lemma mini_renders vars : renders (mini_files vars) vars.
Proof.
  intros ps H. cbn [render mini_files]. induction H as [|p ps Hp _ IH]; [done|]. cbn [map List.concat]. destruct p as [s|n]; cbn [raw filled].
  - rewrite mini_plain by done. by rewrite IH.
  - destruct Hp as [[_ Hn] [v Hv]]. rewrite Hv. rewrite <- !app_assoc.
    change (mini_go vars (B "{{." ++ n ++ B "}}" ++ List.concat (map raw ps)) None) with
      (mini_go vars (n ++ B "}}" ++ List.concat (map raw ps)) (Some [])).
    rewrite (mini_name vars n [] _ v) by done. by rewrite IH.
Qed.

Lemma mini_cut_line n v : letters n -> mini_cut (n ++ B ": " ++ v) = Some (n, v).
Proof.
  intros [_ H]. induction H as [|c n Hc _ IH]; [done|].
  assert (Hx : aeqb c ":"%char = false) by (apply aeqb_neq; intros ->; by destruct Hc).
  cbn [app mini_cut]. destruct (n ++ B ": " ++ v) as [|d t] eqn:E; [by apply app_eq_nil in E as [_ ?]|]. rewrite Hx. cbn [andb]. by rewrite IH.
Qed.
Lemma mini_step l ls dn avs n v : mini_cut l = Some (n, v) -> mini_read (l :: ls) (Some (dn, avs)) = mini_read ls (Some (dn, (n, v) :: avs)).
Proof. intros H. destruct l as [|c l]; [done|]. cbn [mini_read]. by rewrite H. Qed.
Lemma mini_attrs avs dn acc L : Forall (fun p => attr_name p.1 /\ safe p.2) avs ->
  mini_read (map line_of avs ++ [] :: L) (Some (dn, acc)) = app [Some (mini_entry (dn, rev acc ++ avs))] <$> mini_read L None.
Proof.
  intros H. revert acc. induction H as [|[n v] avs [[Hn _] Hv] _ IH]; intros acc.
  - cbn [map app mini_read]. by rewrite app_nil_r.
  - cbn [fst snd] in *. cbn [map app]. rewrite (mini_step _ _ dn acc n v) by (by apply mini_cut_line).
    rewrite IH. cbn [rev]. by rewrite <- app_assoc.
Qed.
Lemma says_prints {T : Text} L R : says L R -> Forall prints L.
Proof.
  induction 1 as [|L R _ IH|dn avs L R Hd _ _ Ha _ IH]; [constructor|by repeat constructor|].
  apply List.Forall_cons; [apply prints_app; split; [by repeat constructor|apply Hd]|]. apply Forall_app. split.
  - apply List.Forall_forall. intros l Hl. apply in_map_iff in Hl as (p & <- & Hin). rewrite List.Forall_forall in Ha.
    destruct (Ha p Hin) as [[[_ Hn] _] Hv]. unfold line_of. apply prints_app. split; [|apply prints_app; split; [by repeat constructor|apply Hv]].
    eapply Forall_impl; [exact Hn|]. intros c [Hc|Hc]; unfold is_lower, is_upper, is_print in *; lia.
  - by repeat constructor.
Qed.
Lemma mini_entry_ok r : is_record r (mini_entry r).
Proof.
  destruct r as [dn avs]. split; [done|]. unfold mini_entry. cbn [fst snd e_attrs].
  assert (E : map a_name (map (fun a => mkAttr a (given avs a)) (remove_dups (map fst avs))) = remove_dups (map fst avs)).
  { rewrite map_map. cbn [a_name]. apply map_id. }
  rewrite E. split; [apply NoDup_remove_dups|]. intros a vs. rewrite in_map_iff. split.
  - intros (x & [= <- <-] & Hin). split; [|done]. apply elem_of_list_In, elem_of_remove_dups, elem_of_list_In, in_map_iff in Hin as ([n v] & <- & Hin).
    unfold given. intros H. apply map_eq_nil in H.
    assert (Hx : In (n, v) (bfilter (fun p => seqb p.1 n) avs)) by (apply filter_In; split; [done|by apply seqb_eq]).
    cbn [fst] in H. rewrite H in Hx. done.
  - intros [Hn ->]. exists a. split; [done|]. apply elem_of_list_In, elem_of_remove_dups, elem_of_list_In, in_map_iff.
    unfold given in Hn. destruct (bfilter (fun p => seqb p.1 a) avs) as [|p l] eqn:E'; [done|]. exists p.
    assert (Hp : In p (bfilter (fun p => seqb p.1 a) avs)) by (rewrite E'; by left). apply filter_In in Hp as [Hp1 Hp2]. by apply seqb_eq in Hp2.
Qed.
Lemma mini_reads (T : Text) vars : reads T (mini_files vars).
Proof.
  intros L R H HR. exists (map mini_entry R). split; [|clear; induction R; constructor; [apply mini_entry_ok|done]].
  cbn [unmarshal mini_files]. pose proof (says_prints L R H) as Hp.
  rewrite split_join_ch; [|intros ->; by inversion H; subst|eapply Forall_impl; [exact Hp|]; intros l Hl; by apply prints_nolf].
  clear HR Hp. induction H as [|L R H IH|dn avs L R Hd _ Hn Ha H IH]; [done| |].
  - cbn [mini_read]. by rewrite IH.
  - change (mini_read ((B "dn: " ++ dn) :: map line_of avs ++ [] :: L) None) with
      (match mini_cut (B "dn" ++ B ": " ++ dn), None with
       | Some (n, v), None => if seqb n (B "dn") then mini_read (map line_of avs ++ [] :: L) (Some (v, [])) else None
       | Some (n, v), Some (dn, avs') => mini_read (map line_of avs ++ [] :: L) (Some (dn, (n, v) :: avs'))
       | None, _ => None
       end : option (list (option entry))).
    rewrite mini_cut_line by (split; [done|]; repeat constructor; by left). rewrite (proj2 (seqb_eq (B "dn") (B "dn")) eq_refl).
    rewrite mini_attrs by done. cbn [rev app]. by rewrite IH.
Qed.
