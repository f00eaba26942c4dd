(** Property C93: from the user file of the newusers command to a login. *)
From Verif Require Import Bytes Text Dn DnProofs Res Entry EntryProofs Password PasswordProofs P_Password Db DbSpec Packet
  Filter FilterProofs ScopeProofs P_Filter Handler Server ServerProofs P_Db P_Server Ldif LdifProofs LdifMore P_Ldif
  Encode EncodeProofs SessionProofs P_E2e P_Session P_LdifMsg Startup Source SourceProofs Template Gen GenProofs P_Gen ProvisionProofs.

(** What is assumed: the three variables of the templates (ldif/template.go:24-47),
    a base DN in plain notation, what the two libraries do to plain text
    (ProvisionProofs.v), and that created hashes are printable. *)
Record setup {T : Text} {C : Crypto} (F : Files) (vars : gmap str tval) (company base md : str) (b : dn) : Prop := {
  su_company : vars !! B "Company" = Some (VStr company);
  su_base : vars !! B "BaseDN" = Some (VStr base);
  su_md : vars !! B "MailDomain" = Some (VStr md);
  su_flat : base = flat b; su_wf : wf_dn b = true; su_last : last_ok b = true; su_ne : b <> [];
  su_safe : safe base;
  su_plain : encode_rdn_value company = company;
  su_mail : safe md;
  su_renders : renders F vars;
  su_reads : reads T F;
  su_argon : forall p salt h, argon2_hash p salt = LOk h -> prints h /\ no_brace h /\ ends_safe h
}.
(** Users with a name that needs no escaping, in a DN, in LDIF or in a template,
    and likewise a full name and addresses. *)
Definition plain_user (o : user * detail * Z) : Prop :=
  let '(u, d, _) := o in
  quiet (u_name u) /\ encode_rdn_value (u_name u) = u_name u /\
  quiet (d_cn d) /\ (d_given d = [] \/ quiet (d_given d)) /\ (d_sn d = [] \/ quiet (d_sn d)) /\
  Forall tidy_mail (d_mail d).
(** The password of a user: the one of the file or, without one, the name. *)
Definition password_of (u : user) : str := match u_passwd u with [] => u_name u | p => p end.
Definition short_lines (s : str) : Prop := Forall (fun l => (Z.of_nat (length l) < 65536)%Z) (Bytes.split lf s).
Definition dn_of_user (company base : str) (o : user * detail * Z) : str :=
  B "uid=" ++ u_name o.1.1 ++ B ",ou=Users,ou=" ++ company ++ B "," ++ base.

Section lemmas.
Context {T : Text} {C : Crypto} {F : Files} {W : Wire} {Tr : Trees} (HT : TextOK T) (HC : CryptoOK C).
Context (vars : gmap str tval) (company base md : str) (b : dn) (HS : setup F vars company base md b).
Context (strength : str -> Z) (least : Z) (maildomain : str) (salts : nat -> str) (file : str).
Notation out := ((newusers strength least (B "{ARGON2}") maildomain salts file).1).

Lemma printed_password o : In o out -> u_name o.1.1 <> [] ->
  no_brace (u_name o.1.1) ->
  forall q, accepts q (d_password o.1.2) <-> q = password_of o.1.1.
Proof using HT HC.
  destruct o as [[u d] n]. cbn [fst snd]. intros Hin Hne Hnb q. rewrite <- (validate_accepts HT). unfold password_of.
  destruct (u_passwd u) as [|c p] eqn:E.
  - destruct (C68_missing T C HT _ _ _ _ _ _ u d n Hin E) as [_ H]. apply H; [done|].
    intros sch rest (s & -> & _ & Hx). rewrite Hx in Hnb. by apply Forall_inv in Hnb.
  - rewrite <- E. apply (C68_given T C HT HC _ _ _ _ _ u d n q Hin). by rewrite E.
Qed.
Lemma plain_tidy o : In o out -> plain_user o -> tidy o.
Proof using HS.
  intros Ho H. destruct o as [[u d] n]. destruct H as (H1 & H2 & H3 & H4 & H5 & H6).
  enough (safe (d_password d) /\ plain_text (d_password d)) by (by repeat split; try apply H1; try apply H3; try apply H).
  clear -HS Ho H1. unfold newusers in Ho.
  destruct (us <-- parse_passwd strength least file ;; x <-- explicit us 1000 ;; Ok (us, x)) as [[us x]|e| |]; [|done..].
  pose proof (print_each (B "{ARGON2}") maildomain salts (combine us x.1) x.2 1000%Z) as H.
  rewrite List.Forall_forall in H. specialize (H _ Ho) as (_ & H & _). destruct (is_empty (u_passwd u)).
  - injection H as <-. split; [apply H1|]. apply no_brace_plain, H1.
  - unfold hash_password in H. cbn in H. destruct (argon2_hash (u_passwd u) (salts (u_line u))) as [h| |] eqn:E; try done.
    assert (Ep : B "{ARGON2}" ++ h = d_password d) by (by injection H). rewrite <- Ep.
    destruct (su_argon _ _ _ _ _ _ HS _ _ _ E) as (A1 & A2 & A3). split.
    + apply safe_app; [by repeat constructor| |done|done]. by exists "{"%char, (B "ARGON2}").
    + apply plain_app; [|by apply no_brace_plain]. intros x' y E'. destruct x' as [|c x']; [injection E' as <-; eexists _, _; by split|].
      exfalso. injection E' as _ E'. assert (Hin : In "{"%char (B "ARGON2}")).
      { change (B "ARGON2}") with (["A"; "R"; "G"; "O"; "N"; "2"; "}"]%char). rewrite E'. apply in_or_app. right. by left. }
      cbn in Hin. by repeat (destruct Hin as [Hin|Hin]; [done|]).
Qed.
Lemma out_says : out <> [] -> Forall plain_user out -> short_lines (printed out) ->
  file_says (printed out) (map (user_record company base md) out).
Proof using HT HS.
  intros H1 H2 H3. assert (H4 : Forall tidy out).
  { apply List.Forall_forall. intros o Ho. rewrite List.Forall_forall in H2. apply plain_tidy; [done|by apply H2]. }
  destruct HS. by apply (printed_says HT vars company base md) with (b := b).
Qed.
Lemma record_dn o : (user_record company base md o).1 = dn_of_user company base o.
Proof. by destruct o as [[u d] n]. Qed.
Lemma dn_prints o : plain_user o -> prints (dn_of_user company base o).
Proof using HS.
  destruct o as [[u d] n]. intros ((H1 & _) & _). unfold dn_of_user. cbn [fst snd].
  repeat (apply prints_app; split); try (by repeat constructor); [apply H1| |apply (su_safe _ _ _ _ _ _ HS)].
  rewrite <- (su_plain _ _ _ _ _ _ HS). apply enc_prints.
Qed.
Lemma dn_parses o : plain_user o -> parse_dn (dn_of_user company base o) <> None.
Proof using HT HS.
  destruct o as [[u d] n]. intros (H1 & H2 & _). destruct HS. rewrite <- record_dn.
  assert (E : (user_record company base md (u, d, n)).1 = (user_record company base md (u, mkDetail 0 0 (B "x") [] (B "x") [] [], 0%Z)).1) by done.
  rewrite E. rewrite (user_dn_parses company base md HT b) by
    (done || (cbn; repeat split; try done; try apply H1; try (by left); try (by repeat constructor); try (by exists "x"%char, []); try (by exists [], "x"%char);
       intros [|? [|? ?]] ? ?; discriminate)). done.
Qed.

(** The password attribute of the record. *)
Lemma record_password o e : plain_user o -> d_password o.1.2 <> [] -> is_record (user_record company base md o) e ->
  forall h, ldif_password e h <-> h = d_password o.1.2.
Proof using HT.
  intros _ Hne (_ & Hnd & Hat) h.
  assert (Hnames : forall a, In a (e_attrs e) -> to_lower (a_name a) = B "userpassword" -> a_name a = B "userPassword").
  { intros [a vs] Hin Hl. cbn [a_name] in *. apply Hat in Hin as [Hv ->].
    assert (Ha : In a (map fst (user_record company base md o).2)).
    { unfold given in Hv. destruct (bfilter _ _) as [|p l] eqn:E in Hv; [done|].
      assert (Hp : In p (bfilter (fun p => seqb p.1 a) (user_record company base md o).2)) by (rewrite E; by left).
      apply filter_In in Hp as [Hp1 Hp2]. apply seqb_eq in Hp2 as <-. by apply in_map. }
    assert (Hk : forall a, In a (map fst (user_record company base md o).2) ->
      In a (map B ["objectClass"; "uid"; "uidNumber"; "gidNumber"; "userPassword"; "mail"; "mailAlternateAddress"; "cn"; "givenName"; "sn"]%string)).
    { clear. destruct o as [[u d] n]. unfold user_record. cbn [snd]. rewrite !map_app, map_map. cbn [fst]. intros a.
      assert (SV : forall x v, In a (map fst (some_value x v)) -> a = x).
      { intros x v. unfold some_value. destruct (is_empty v); [done|]. by intros [<-|[]]. }
      rewrite !in_app_iff. intros [H|[H|[H|[H|[H|[H|[H|H]]]]]]].
      - cbn [map fst] in H. cbn [In] in H. destruct H as [<-|[<-|[<-|[<-|[<-|[]]]]]]; cbn [map In]; tauto.
      - destruct (d_gid d =? 0)%Z; [done|]. cbn [map fst In] in H. destruct H as [<-|[]]. cbn [map In]; tauto.
      - apply SV in H as ->. cbn [map In]; tauto.
      - cbn [map fst In] in H. destruct H as [<-|[]]. cbn [map In]; tauto.
      - apply in_map_iff in H as (m & <- & _). cbn [map In]; tauto.
      - cbn [map fst In] in H. destruct H as [<-|[]]. cbn [map In]; tauto.
      - apply SV in H as ->. cbn [map In]; tauto.
      - apply SV in H as ->. cbn [map In]; tauto. }
    apply Hk in Ha. clear -Ha Hl HT. cbn [map In] in Ha.
    assert (L : forall s : string, forallb is_ascii (B s) = true -> to_lower (B s) = lower_ascii (B s)).
    { intros s Hs. apply (lower_ascii_ok T HT). apply List.Forall_forall. intros c Hc. rewrite forallb_forall in Hs. by apply Hs. }
    destruct Ha as [<-|[<-|[<-|[<-|[<-|[<-|[<-|[<-|[<-|[<-|[]]]]]]]]]]]; try done; rewrite L in Hl by done; done. }
  assert (Hg : given (user_record company base md o).2 (B "userPassword") = [d_password o.1.2]).
  { clear -Hne. destruct o as [[u d] n]. cbn [fst snd] in *. unfold given, user_record. cbn [snd]. rewrite !List.filter_app, !map_app.
    assert (N : forall x v, seqb x (B "userPassword") = false -> map snd (bfilter (fun p : str * str => seqb p.1 (B "userPassword")) (some_value x v)) = []).
    { intros x v Hx. unfold some_value. destruct (is_empty v); [done|]. cbn [bfilter fst]. by rewrite Hx. }
    rewrite (N (B "givenName")), (N (B "sn")) by done.
    assert (M : forall l : list str, bfilter (fun p : str * str => seqb p.1 (B "userPassword")) (map (fun m => (B "mailAlternateAddress", mail_filled md m)) l) = []).
    { induction l; [done|]. cbn [map bfilter fst]. done. }
    rewrite M. destruct (d_gid d =? 0)%Z; unfold some_value; destruct (d_password d); done. }
  assert (Hin : In (mkAttr (B "userPassword") [d_password o.1.2]) (e_attrs e)) by (by apply Hat; rewrite Hg).
  assert (Hl : to_lower (B "userPassword") = B "userpassword") by (rewrite (lower_ascii_ok T HT) by (by repeat constructor); done).
  assert (Huniq : forall a, In a (e_attrs e) -> to_lower (a_name a) = B "userpassword" -> a = mkAttr (B "userPassword") [d_password o.1.2]).
  { intros [a vs] Ha1 Ha2. pose proof (Hnames _ Ha1 Ha2) as Ha3. cbn [a_name] in Ha3. subst a. apply Hat in Ha1 as [_ ->]. by rewrite Hg. }
  split.
  - intros (l1 & a & l2 & vs & E & Ha & Hv & _). assert (Hx : a = mkAttr (B "userPassword") [d_password o.1.2]).
    { apply Huniq; [rewrite E; apply in_or_app; right; by left|done]. }
    subst a. cbn [a_vals] in Hv. by injection Hv as <- _.
  - intros ->. apply in_split in Hin as (l1 & l2 & E). exists l1, (mkAttr (B "userPassword") [d_password o.1.2]), l2, []. split; [done|]. split; [done|].
    split; [done|]. intros x Hx Hlx. assert (Ex : x = mkAttr (B "userPassword") [d_password o.1.2]).
    { apply Huniq; [rewrite E; apply in_or_app; right; by right|done]. }
    subst x. rewrite E, map_app in Hnd. cbn [map a_name] in Hnd. apply NoDup_app in Hnd as (_ & _ & Hnd). apply NoDup_cons in Hnd as [Hnd _].
    apply Hnd. apply elem_of_list_In. change (B "userPassword") with (a_name (mkAttr (B "userPassword") [d_password o.1.2])) at 1. by apply in_map.
Qed.
Lemma password_not_nil o : In o out -> plain_user o -> d_password o.1.2 <> [].
Proof using HS.
  intros Hin Hp E. pose proof (plain_tidy o Hin Hp) as Ht. destruct o as [[u d] n]. destruct Ht as (_ & _ & [Hx _] & _).
  by apply (safe_not_nil _ Hx).
Qed.
Lemma lower_dn o o' : plain_user o -> plain_user o' ->
  to_lower (dn_of_user company base o) = to_lower (dn_of_user company base o') <->
  to_lower (u_name o.1.1) = to_lower (u_name o'.1.1).
Proof using HT HS.
  intros H H'. pose proof (prints_asciis _ (dn_prints o H)) as Ha. pose proof (prints_asciis _ (dn_prints o' H')) as Ha'.
  assert (Hn : forall x, asciis (dn_of_user company base x) -> asciis (u_name x.1.1)).
  { intros x Hx. unfold dn_of_user in Hx. unfold asciis in *. rewrite !Forall_app in Hx. by destruct Hx as (_ & Hx & _). }
  rewrite !(lower_ascii_ok T HT) by (done || by apply Hn).
  unfold dn_of_user. rewrite !lower_ascii_app. split; [|by intros ->]. intros E. apply app_inv_head in E. by apply app_inv_tail in E.
Qed.

End lemmas.

(** * C93 *)
(** The printed text is a file for the LDIF backend: it is read without error, and
    gives one record for each user, in order; the data is served exactly if no two
    names are the same up to case. *)
Theorem C93_file (T : Text) (C : Crypto) (F : Files) (HT : TextOK T) vars company base md b strength least maildomain salts file attrs :
  setup F vars company base md b ->
  let out := (newusers strength least (B "{ARGON2}") maildomain salts file).1 in
  out <> [] -> Forall plain_user out -> short_lines (printed out) ->
  exists es, load_source false (OneFile (Some (printed out))) = Some (map Some es) /\
    Forall2 (fun o e => is_record (user_record company base md o) e) out es /\
    ((exists d, build attrs (map Some es) = Some d) <-> NoDup (map (fun o => to_lower (u_name o.1.1)) out)).
Proof.
  intros HS out Hne Hpl Hsh. destruct (out_says HT _ _ _ _ _ HS _ _ _ _ _ Hne Hpl Hsh) as (L & HL & Hpr & Hsay). fold out in Hpr, Hsay.
  destruct (su_reads _ _ _ _ _ _ HS L _ Hsay) as (es & Hun & Hes); [by destruct out|].
  exists es. split; [cbn [load_source parse_file]; by rewrite Hpr|]. clearbody out.
  assert (H2 : Forall2 (fun o e => is_record (user_record company base md o) e) out es)
    by (clear -Hes; revert es Hes; induction out as [|o l IH]; intros es Hes; inversion_clear Hes; constructor; auto).
  split; [done|]. rewrite C53_build_iff.
  assert (Er : records_of (map Some es) = es) by (clear; unfold records_of; induction es as [|e es IH]; cbn [map omap list_omap]; [done|by rewrite IH]).
  rewrite Er. clear -H2 Hpl HT HS. induction H2 as [|o e out es He H2 IH]; [done|]. apply Forall_cons in Hpl as [Ho Hpl]. cbn [map].
  rewrite !NoDup_cons, IH by done. apply and_iff_compat_r. unfold low_dn. destruct He as (Hd & _).
  rewrite Hd, record_dn. rewrite !elem_of_list_In, !in_map_iff.
  assert (E : (exists x, to_lower (e_dn x) = to_lower (dn_of_user company base o) /\ In x es) <->
              (exists x, to_lower (u_name x.1.1) = to_lower (u_name o.1.1) /\ In x out)); [|by rewrite E].
  clear IH Hd. induction H2 as [|o' e' out es He' H2 IH]; [by split; intros (x & _ & [])|]. apply Forall_cons in Hpl as [Ho' Hpl].
  pose proof (lower_dn HT vars company base md b HS o' o Ho' Ho) as Hlow. destruct He' as (Hd' & _). rewrite record_dn in Hd'. rewrite <- Hd' in Hlow.
  specialize (IH Hpl). cbn [In]. split; intros (x & Hx & [<-|Hin]).
  - exists o'. split; [by apply Hlow|by left].
  - destruct (proj1 IH) as (y & ? & ?); eauto.
  - exists e'. split; [by apply Hlow|by left].
  - destruct (proj2 IH) as (y & ? & ?); eauto.
Qed.
Print Assumptions C93_file.

(** In a folder with other files the users are among the records. *)
Theorem C93_folder (T : Text) (C : Crypto) (F : Files) (HT : TextOK T) vars company base md b strength least maildomain salts file listing name :
  setup F vars company base md b ->
  let out := (newusers strength least (B "{ARGON2}") maildomain salts file).1 in
  out <> [] -> Forall plain_user out -> short_lines (printed out) ->
  In (name, Some (printed out)) listing -> has_suffix name (B ".ldif") = true ->
  (forall n c, In (n, c) listing -> has_suffix n (B ".ldif") = true -> exists s R, c = Some s /\ file_says s R) ->
  exists es, load_source false (Folder listing) = Some (map Some es) /\
    forall o, In o out -> exists e, In e es /\ is_record (user_record company base md o) e.
Proof.
  intros HS out Hne Hpl Hsh Hin Hname Hall. pose proof (out_says HT _ _ _ _ _ HS _ _ _ _ _ Hne Hpl Hsh) as Hout. fold out in Hout.
  clearbody out. cbn [load_source parse_dir].
  set (files := merge_sort name_le (bfilter (fun f => is_ldif f.1) listing)).
  assert (Hf : forall f, In f files <-> In f listing /\ has_suffix f.1 (B ".ldif") = true).
  { intros f. unfold files. rewrite <- elem_of_list_In, merge_sort_Permutation, elem_of_list_In. apply filter_In. }
  clearbody files.
  (* the lines and records of each file *)
  assert (HL : exists Ls Rs, Forall2 (fun f L => dir_text false f.2 = Some (Bytes.join [lf] L) /\ L <> []) files Ls /\ Forall2 says Ls Rs /\
    In (name, Some (printed out)) files /\ (In (name, Some (printed out)) files -> In (map (user_record company base md) out) Rs)).
  { assert (Hin' : In (name, Some (printed out)) files) by (by apply Hf).
    assert (Hall' : forall f, In f files -> exists s R, f.2 = Some s /\ file_says s R /\ (f = (name, Some (printed out)) -> R = map (user_record company base md) out)).
    { intros [n c] H. apply Hf in H as [H1 H2]. destruct (Hall n c H1 H2) as (s & R & -> & HR).
      destruct (decide ((n, Some s) = (name, Some (printed out)))) as [E|E]; [|by exists s, R].
      injection E as -> ->. by exists (printed out), (map (user_record company base md) out). }
    clear Hf Hall. enough (H : exists Ls Rs, Forall2 (fun f L => dir_text false f.2 = Some (Bytes.join [lf] L) /\ L <> []) files Ls /\ Forall2 says Ls Rs /\
      (In (name, Some (printed out)) files -> In (map (user_record company base md) out) Rs)).
    { destruct H as (Ls & Rs & H1 & H2 & H3). by exists Ls, Rs. }
    clear Hin'. induction files as [|f fs IH]; [by exists [], []|].
    destruct IH as (Ls & Rs & H1 & H2 & H3); [by intros g Hg; apply Hall'; right|].
    destruct (Hall' f) as (s & R & Hs & (L & HLn & Hpr & Hsay) & Hown); [by left|].
    exists (L :: Ls), (R :: Rs). split; [|split].
    - constructor; [|done]. rewrite Hs. cbn [dir_text]. by rewrite Hpr.
    - by constructor.
    - intros [E|Hg]; [left; by apply Hown|right; by apply H3]. }
  destruct HL as (Ls & Rs & H1 & H2 & Hg & H3). specialize (H3 Hg).
  assert (Et : map (fun f => dir_text false f.2) files = map (fun L => Some (Bytes.join [lf] L)) Ls).
  { clear -H1. induction H1 as [|f L fs Ls [H _] _ IH]; [done|]. cbn [map]. by rewrite H, IH. }
  rewrite Et, map_map. rewrite (join_files Ls) by (clear -H1; induction H1 as [|f L fs Ls [_ H] _ IH]; by constructor).
  assert (En : bfilter (fun t : option str => match t with None => true | Some _ => false end) (map (fun L => Some (Bytes.join [lf] L)) Ls) = []).
  { clear. by induction Ls. }
  rewrite En. cbn [length].
  destruct (su_reads _ _ _ _ _ _ HS _ _ (says_concat Ls Rs H2)) as (es & Hun & Hes).
  { intros E. assert (Hx : In (user_record company base md (hd (mkUser 0 [] [] [] [] [], mkDetail 0 0 [] [] [] [] [], 0%Z) out)) (List.concat Rs)).
    { apply in_concat. exists (map (user_record company base md) out). split; [done|]. apply in_map. destruct out; [done|by left]. }
    by rewrite E in Hx. }
  exists es. split; [done|]. intros o Ho.
  assert (Hx : In (user_record company base md o) (List.concat Rs)).
  { apply in_concat. exists (map (user_record company base md) out). split; [done|]. by apply in_map. }
  clear -Hes Hx. induction Hes as [|r e R es H Hes IH]; [done|]. destruct Hx as [->|Hx]; [exists e; split; [by left|done]|].
  destruct (IH Hx) as (e' & ? & ?). exists e'. split; [by right|done].
Qed.
Print Assumptions C93_folder.

(** A user of the file logs in with the password given there and no other: whatever
    else is served, the answer to a bind message for its DN, in any case, is success
    exactly for that password. *)
Theorem C93_login (T : Text) (C : Crypto) (F : Files) (W : Wire) (Tr : Trees) (HT : TextOK T) (HC : CryptoOK C)
    vars company base md b strength least maildomain salts file attrs records d c cfg ev bound id dn pw o e :
  setup F vars company base md b ->
  In o (newusers strength least (B "{ARGON2}") maildomain salts file).1 -> plain_user o ->
  In (Some e) records -> is_record (user_record company base md o) e ->
  build attrs records = Some d -> re_send ev 0 = true -> lc_base c = to_lower base ->
  to_lower dn = to_lower (dn_of_user company base o) -> parse_dn dn <> None ->
  (r_out (handle cfg (ldif_handler c) ev bound (p_msg id (enc_bind dn pw)) d) = [RFinal id 1 0 None] <-> pw = password_of o.1.1).
Proof.
  intros HS Hin Hpl He Hrec Hbd Hs Hlc Hdn Hp.
  pose proof (record_password HT company base md o e Hpl (password_not_nil _ _ _ _ _ HS _ _ _ _ _ o Hin Hpl) Hrec) as Hpw.
  pose proof (printed_password HT HC _ _ _ _ _ o Hin) as Hacc.
  assert (Hq : quiet (u_name o.1.1)) by (destruct o as [[u dd] n]; apply Hpl). destruct Hq as [Hq1 Hq2].
  specialize (Hacc (safe_not_nil _ Hq1) Hq2). pose proof (prints_asciis _ (dn_prints _ _ _ _ _ HS o Hpl)) as Ha.
  assert (Hok : ldif_allowed c (re_h ev) dn).
  { right. rewrite Hdn, Hlc. pose proof Ha as Ha'. unfold dn_of_user in Ha'. unfold asciis in *. rewrite !Forall_app in Ha'.
    rewrite !(lower_ascii_ok T HT) by (done || tauto). unfold dn_of_user. rewrite !lower_ascii_app. split; [done|].
    eexists. rewrite !app_assoc. done. }
  assert (Hnn : to_lower dn <> []).
  { rewrite Hdn, (lower_ascii_ok T HT) by done. unfold dn_of_user. by rewrite lower_ascii_app. }
  destruct (C82_bind T C W Tr HT attrs records d c cfg ev bound id dn pw Hbd Hs) as (code & -> & _ & _ & H0 & _).
  assert (Hr : code = 0%N <-> pw = password_of o.1.1).
  { rewrite H0. split.
    - intros [_ [[_ ?]|(Hn & e' & h & [He' Hd'] & Hh & Hax)]]; [done|].
      assert (e' = e) as ->.
      { eapply record_unique; eauto. rewrite Hd', Hdn. destruct Hrec as (-> & _). by rewrite record_dn. }
      apply Hpw in Hh as ->. by apply Hacc.
    - intros ->. split; [done|]. right. split.
      + unfold password_of. destruct (u_passwd o.1.1); [|done]. by apply safe_not_nil.
      + exists e, (d_password o.1.2). split; [split; [done|]|split; [by apply Hpw|by apply Hacc]].
        destruct Hrec as (-> & _). by rewrite record_dn. }
  rewrite <- Hr. destruct (N.eqb_spec code 0) as [->|Hc].
  - destruct (parse_dn dn); [done|]. by exfalso.
  - cbn [r_out]. split; [|done]. intros [= ->]. done.
Qed.
Print Assumptions C93_login.

(** If the printed text is all there is, nobody else can log in. *)
Theorem C93_nobody_else (T : Text) (C : Crypto) (F : Files) (W : Wire) (Tr : Trees) (HT : TextOK T)
    vars company base md b strength least maildomain salts file attrs records d c cfg ev bound id dn pw :
  setup F vars company base md b ->
  let out := (newusers strength least (B "{ARGON2}") maildomain salts file).1 in
  out <> [] -> Forall plain_user out -> short_lines (printed out) ->
  load_source false (OneFile (Some (printed out))) = Some records -> build attrs records = Some d ->
  re_send ev 0 = true -> to_lower dn <> [] ->
  r_out (handle cfg (ldif_handler c) ev bound (p_msg id (enc_bind dn pw)) d) = [RFinal id 1 0 None] ->
  exists o, In o out /\ to_lower dn = to_lower (dn_of_user company base o).
Proof.
  intros HS out Hne Hpl Hsh Hl Hbd Hs Hnn Hsucc.
  destruct (C93_file T C F HT vars company base md b strength least maildomain salts file attrs HS Hne Hpl Hsh) as (es & Hl' & H2 & _).
  fold out in Hl', H2. rewrite Hl in Hl'. injection Hl' as ->. clearbody out.
  destruct (C82_bind T C W Tr HT attrs (map Some es) d c cfg ev bound id dn pw Hbd Hs) as (code & Eh & _ & _ & H0 & _).
  rewrite Eh in Hsucc. clear Eh. assert (Hc : code = 0%N).
  { destruct (N.eqb_spec code 0) as [Hc|Hc]; [done|]. cbn [r_out] in Hsucc. by injection Hsucc. }
  apply H0 in Hc as [_ [[_ ?]|(_ & e & h & [He Hd] & _)]]; [done|]. apply in_map_iff in He as (e' & [= ->] & He).
  clear -H2 He Hd. induction H2 as [|o x out es Hx H2 IH]; [done|]. destruct He as [->|He].
  - exists o. split; [by left|]. destruct Hx as (Hx & _). rewrite <- Hd, Hx. by rewrite record_dn.
  - destruct (IH He) as (o' & ? & ?). exists o'. split; [by right|done].
Qed.
Print Assumptions C93_nobody_else.

(** The output is a template: read as it is, by the load command of the database
    backend, its names are no DNs and nothing is loaded. *)
Theorem C93_not_for_boltdb (T : Text) (C : Crypto) (HT : TextOK T) base (u : user) (e : entry) (es : list entry) (stored : db) :
  encode_rdn_value (u_name u) = u_name u -> e_dn e = user_dn u ->
  parse_dn (e_dn e) = None /\
  run_op (db_base base) no_faults (OpPut e) stored = (Done Panic, stored) /\
  load_cmd base (Some (e :: es)) stored = (false, stored).
Proof.
  intros Hn He. assert (Hp : parse_dn (e_dn e) = None).
  { rewrite He. unfold user_dn, base_dn.
    assert (F1 : forall t v, encode_rdn_value v = v -> flat_rdn [(t, v)] = t ++ B "=" ++ v).
    { intros t v Hv. unfold flat_rdn. cbn [map Bytes.join]. unfold flat_ava. cbn [fst snd]. by rewrite Hv. }
    assert (E : B "uid=" ++ u_name u ++ B "," ++ B "ou=Users,ou={{.Company}},{{.BaseDN}}" =
      flat_rdn [(B "uid", u_name u)] ++ ","%char :: flat_rdn [(B "ou", B "Users")] ++ ","%char :: flat_rdn [(B "ou", B "{{.Company}}")] ++ ","%char :: B "{{.BaseDN}}").
    { rewrite !F1 by done. rewrite <- !app_assoc. done. }
    assert (Hpr : prints (B "uid=" ++ u_name u ++ B "," ++ B "ou=Users,ou={{.Company}},{{.BaseDN}}")).
    { repeat (apply prints_app; split); try (by repeat constructor). rewrite <- Hn. apply enc_prints. }
    unfold parse_dn. rewrite (trim_dn_print T HT) by done.
    assert (Et : trim_sp (B "uid=" ++ u_name u ++ B "," ++ B "ou=Users,ou={{.Company}},{{.BaseDN}}") = B "uid=" ++ u_name u ++ B "," ++ B "ou=Users,ou={{.Company}},{{.BaseDN}}").
    { unfold trim_sp. change (ltrim (B "uid=" ++ u_name u ++ B "," ++ B "ou=Users,ou={{.Company}},{{.BaseDN}}")) with
        (B "uid=" ++ u_name u ++ B "," ++ B "ou=Users,ou={{.Company}},{{.BaseDN}}").
      unfold rtrim. rewrite !rev_app_distr. change (ltrim (((rev (B "ou=Users,ou={{.Company}},{{.BaseDN}}") ++ rev (B ",")) ++ rev (u_name u)) ++ rev (B "uid=")))
        with (((rev (B "ou=Users,ou={{.Company}},{{.BaseDN}}") ++ rev (B ",")) ++ rev (u_name u)) ++ rev (B "uid=")).
      rewrite !rev_app_distr, !rev_involutive. done. }
    rewrite Et, E. cbv zeta.
    destruct (is_empty _) eqn:Ee; [by apply is_empty_true, app_eq_nil in Ee as [_ ?]|]. clear Ee.
    assert (St : forall r s rdns, wf_rdn r = true -> dn_loop (flat_rdn r ++ ","%char :: s) false [] [] [] rdns = dn_loop s false [] [] [] (r :: rdns)).
    { intros r s rdns Hr. destruct (dn_loop_rdn HT r (","%char :: s) [] rdns Hr) as (t & v & i & Ht & Hl & ->). rewrite (dn_loop_comma HT) by done.
      rewrite app_nil_r, <- Hl, rev_involutive. done. }
    rewrite !St by done. done. }
  assert (Hrun : run_op (db_base base) no_faults (OpPut e) stored = (Done Panic, stored)).
  { unfold run_op. cbn [op_body]. unfold entry_put. by rewrite Hp. }
  split; [done|]. split; [done|]. cbn [load_cmd load_db]. by rewrite Hrun.
Qed.
Print Assumptions C93_not_for_boltdb.

(** The user file of C69 with a hash that prints the password in hexadecimal, the
    small template engine and LDIF reader of ProvisionProofs.v, and the company
    Acme below o=base: Ann logs in with the password of the file, Bob, who has
    none, with the name; a second file of the folder has the units. *)
Definition hexy : Crypto := {|
  argon2_compare p h := LOk (seqb h ("$"%char :: flat_map hex_enc p));
  argon2_hash p salt := LOk ("$"%char :: flat_map hex_enc p);
  crypt p salt := LErr; sha1 s := s; b64dec s := None
|}.
Lemma hex_inj p q : flat_map hex_enc p = flat_map hex_enc q -> p = q.
Proof.
  revert q. induction p as [|c p IH]; intros [|d q] H; [done|done|done|]. cbn [flat_map app] in H.
  unfold hex_enc at 1 3 in H. cbn [app] in H. injection H as H1 H2 H3.
  assert (Hc : hex_enc c = hex_enc d) by (unfold hex_enc; by rewrite H1, H2).
  pose proof (hex_roundtrip c) as Rc. pose proof (hex_roundtrip d) as Rd. rewrite Hc in Rc.
  destruct (hex_enc d) as [|x [|y [|? ?]]]; try done. rewrite Rc in Rd. injection Rd as ->. f_equal. by apply IH.
Qed.
Lemma hexy_ok : CryptoOK hexy.
Proof.
  split; cbn [argon2_hash argon2_compare hexy].
  - intros p salt h [= <-]. by rewrite (proj2 (seqb_eq _ _) eq_refl).
  - intros p q salt h [= <-] Hq H. injection H as H. apply seqb_eq in H. apply Hq. symmetry. by apply hex_inj.
Qed.
Definition acme_vars : gmap str tval := template_vars ∅ ∅ (mkTO (B "o=base") (B "Acme") (B "acme.org") ∅).
Lemma acme_setup : setup (T:=ascii_text) (C:=hexy) (mini_files acme_vars) acme_vars (B "Acme") (B "o=base") (B "acme.org") [[(B "o", B "base")]].
Proof.
  split; try (vm_compute; reflexivity).
  - done.
  - split; [by repeat constructor|]. split; [by exists "o"%char, (B "=base")|by exists (B "o=bas"), "e"%char].
  - split; [by repeat constructor|]. split; [by exists "a"%char, (B "cme.org")|by exists (B "acme.or"), "g"%char].
  - apply mini_renders.
  - apply mini_reads.
  - cbn [argon2_hash hexy]. intros p _ h [= <-].
    assert (Hx : forall c, Forall (fun x => is_print x = true /\ x <> "{"%char /\ x <> space) (hex_enc c)).
    { intros c. assert (H : forallb (fun x => is_print x && negb (aeqb x "{"%char) && negb (aeqb x space)) (hex_enc c) = true) by (by destruct c as [[] [] [] [] [] [] [] []]; vm_compute).
      apply List.Forall_forall. intros x Hx. rewrite forallb_forall in H. specialize (H x Hx). rewrite !andb_true_iff in H.
      destruct H as [[? H1] H2]. split; [done|]. split; intros ->; done. }
    assert (Ha : Forall (fun x => is_print x = true /\ x <> "{"%char /\ x <> space) ("$"%char :: flat_map hex_enc p)).
    { constructor; [done|]. induction p as [|c p IH]; [constructor|]. cbn [flat_map]. apply Forall_app. by split. }
    split; [eapply Forall_impl; [exact Ha|]; by intros x (? & _)|]. split; [eapply Forall_impl; [exact Ha|]; by intros x (_ & ? & _)|].
    assert (Hne : "$"%char :: flat_map hex_enc p <> []) by done. generalize dependent ("$"%char :: flat_map hex_enc p). intros h Ha Hne.
    destruct h as [|x l _] using rev_ind; [done|]. exists l, x. split; [done|].
    apply Forall_app in Ha as [_ Ha]. by apply Forall_inv in Ha as (_ & _ & ?).
Qed.
Definition acme_file : str := gen_file [B "ann:secret:5:0:Ann Lee,ann.lee@example.org::"; B "bob::::::"].
Definition acme_out := (newusers (T:=ascii_text) (C:=hexy) score 3 (B "{ARGON2}") (B "example.org") (fun _ => B "salt") acme_file).1.
Definition units : str := B "dn: ou=Acme,{{.BaseDN}}" ++ [lf] ++ B "ou: Acme" ++ [lf; lf].
Definition acme_folder : source := Folder [(B "20-users.ldif", Some (printed (T:=ascii_text) acme_out)); (B "10-main.ldif", Some units); (B "readme", None)].
Definition acme_records : list (option entry) := default [] (load_source (F:=mini_files acme_vars) false acme_folder).
Definition acme_data : dataset := default (mkData [] ∅ ∅) (build (T:=ascii_text) index_attributes acme_records).
Definition acme_bind (dn pw : string) :=
  r_out (handle (T:=ascii_text) (C:=hexy) (W:=wire_f (FPres (B "uid"))) (mkServer false 16)
    (ldif_handler (T:=ascii_text) (C:=hexy) (W:=wire_f (FPres (B "uid"))) (Tr:=plain_trees) (mkLdif (B "o=base") false index_attributes))
    (mkREnv false (B "salt") [] (fun _ => true)) [] (p_msg 7 (enc_bind (B dn) (B pw))) acme_data).
Example C93_case :
  Forall plain_user acme_out /\ short_lines (printed (T:=ascii_text) acme_out) /\ acme_out <> [] /\
  map (fun r => match r with Some e => e_dn e | None => [] end) acme_records =
    [B "ou=Acme,o=base"; B "uid=ann,ou=Users,ou=Acme,o=base"; B "uid=bob,ou=Users,ou=Acme,o=base"] /\
  is_Some (build (T:=ascii_text) index_attributes acme_records) /\
  acme_bind "UID=ann,ou=users,ou=ACME,o=base" "secret" = [RFinal 7 1 0 None] /\
  acme_bind "uid=ann,ou=Users,ou=Acme,o=base" "ann" = [RFinal 7 1 49 None] /\
  acme_bind "uid=bob,ou=Users,ou=Acme,o=base" "bob" = [RFinal 7 1 0 None] /\
  acme_bind "uid=bob,ou=Users,ou=Acme,o=base" "secret" = [RFinal 7 1 49 None] /\
  exists R, file_says (F:=mini_files acme_vars) (T:=ascii_text) units R.
Proof.
  assert (Eo : acme_out = [(mkUser 1 (B "ann") (B "secret") (B "5") (B "0") (B "Ann Lee,ann.lee@example.org"),
      mkDetail 5 0 (B "{ARGON2}$736563726574") [B "ann.lee@{{.MailDomain}}"] (B "Ann Lee") (B "Ann") (B "Lee"), 5%Z);
    (mkUser 2 (B "bob") [] [] [] [], mkDetail 1001 1001 (B "bob") [] (B "bob") [] [], 1001%Z)]) by (vm_compute; reflexivity).
  assert (QB : forall s : string, forallb (fun c => is_print c && negb (aeqb c ":"%char) && negb (aeqb c "<"%char) && negb (aeqb c "{"%char)) (B s) = true ->
    match B s with c :: _ => negb (aeqb c space) | [] => false end = true ->
    match rev (B s) with c :: _ => negb (aeqb c space) | [] => false end = true -> quiet (B s)).
  { intros s H1 H2 H3. assert (H : forall c, In c (B s) -> is_print c = true /\ c <> ":"%char /\ c <> "<"%char /\ c <> "{"%char).
    { intros c Hc. rewrite forallb_forall in H1. specialize (H1 c Hc). rewrite !andb_true_iff in H1. destruct H1 as [[[? ?] ?] ?].
      repeat split; [done|intros ->; done..]. }
    split; [split; [|split]|].
    - apply List.Forall_forall. intros c Hc. by destruct (H c Hc).
    - destruct (B s) as [|c t]; [done|]. exists c, t. split; [done|]. destruct (H c) as (_ & ? & ? & _); [by left|]. split; [|done].
      intros ->. done.
    - destruct (B s) as [|c t _] using rev_ind; [done|]. rewrite rev_app_distr in H3. exists t, c. split; [done|]. intros ->. done.
    - apply List.Forall_forall. intros c Hc. by destruct (H c Hc) as (_ & _ & _ & ?). }
  split; [|split; [|split; [by rewrite Eo|]; split; [vm_compute; reflexivity|]; split; [|do 4 (split; [vm_compute; reflexivity|])]]].
  - rewrite Eo. repeat (apply List.Forall_cons); try apply List.Forall_nil.
    + repeat split; try (by apply QB); try (by right; apply QB). repeat constructor. exists (B "ann.lee"). split; [by apply QB|]. by right.
    + repeat split; try (by apply QB); try (by left).
  - unfold short_lines. apply List.Forall_forall. intros l Hl.
    assert (H : forallb (fun l => (Z.of_nat (length l) <? 65536)%Z) (Bytes.split lf (printed (T:=ascii_text) acme_out)) = true) by (vm_compute; reflexivity).
    rewrite forallb_forall in H. apply Z.ltb_lt. by apply H.
  - apply (bool_decide_unpack _). vm_compute. exact I.
  - exists [(B "ou=Acme,o=base", [(B "ou", B "Acme")])]. exists [B "dn: " ++ B "ou=Acme,o=base"; line_of (B "ou", B "Acme"); []].
    split; [done|]. split; [vm_compute; reflexivity|].
    apply (says_record (T:=ascii_text) (B "ou=Acme,o=base") [(B "ou", B "Acme")] [] []); [apply QB; done|vm_compute; done|done| |constructor].
    repeat constructor; try (by left); try (by right); try (intros Hin; cbn in Hin; by repeat (destruct Hin as [Hin|Hin]; [done|])).
    all: try apply QB; done.
Qed.
Example C93_not_for_boltdb_case :
  parse_dn (T:=ascii_text) (user_dn (mkUser 2 (B "bob") [] [] [] [])) = None /\
  load_cmd (T:=ascii_text) (C:=hexy) (B "o=base") (Some [mkEntry (user_dn (mkUser 2 (B "bob") [] [] [] [])) []]) d0 = (false, d0).
Proof.
  split; [vm_compute; reflexivity|].
  apply (C93_not_for_boltdb ascii_text hexy ascii_text_ok (B "o=base") (mkUser 2 (B "bob") [] [] [] []) (mkEntry (user_dn (mkUser 2 (B "bob") [] [] [] [])) []) [] d0); reflexivity.
Qed.
