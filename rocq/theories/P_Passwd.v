(** Property C75: the passwd command. *)
From Verif Require Import Bytes Text Res Password PasswordProofs P_Password Passwd.

(** Where the secret comes from.  The flags are looked at in the order -s, -T, -g;
    an unreadable file, or a generator without result, ends the looking. *)
Inductive chosen (gen : option str) (fl : pflags) (p1 p2 : str) : str -> str -> Prop :=
| chosen_secret s : f_secret fl = Some s -> f_file fl = None -> f_generate fl = None ->
    chosen gen fl p1 p2 s (f_scheme fl)
| chosen_file s : f_secret fl = None -> f_file fl = Some (Some s) -> f_generate fl = None ->
    chosen gen fl p1 p2 s (f_scheme fl)
| chosen_generated s b : f_secret fl = None -> f_file fl = None -> f_generate fl = Some b -> gen = Some s ->
    chosen gen fl p1 p2 s (B "{CLEARTEXT}")
| chosen_typed : f_secret fl = None -> f_file fl = None -> f_generate fl = None -> p1 = p2 -> p1 <> [] ->
    chosen gen fl p1 p2 p1 (f_scheme fl)
| chosen_unreadable : f_secret fl = None -> f_file fl = Some None -> p1 = p2 -> p1 <> [] ->
    chosen gen fl p1 p2 p1 (f_scheme fl)
| chosen_no_generator b : f_secret fl = None -> f_file fl = None -> f_generate fl = Some b -> gen = None ->
    p1 = p2 -> p1 <> [] -> chosen gen fl p1 p2 p1 (f_scheme fl).

Section proofs.
Context {T : Text} {C : Crypto} (strength : str -> Z) (gen : option str).
Lemma prompted_ok p1 p2 s : prompted p1 p2 = Ok s <-> s = p1 /\ p1 = p2 /\ p1 <> [].
Proof.
  unfold prompted. destruct (seqb p1 p2) eqn:E; cbn [negb orb].
  - apply seqb_eq in E as ->. destruct p2 as [|c p2]; cbn [is_empty]; [split; [done|by intros (_&_&?)]|].
    split; [by intros [= <-]|by intros (->&_)].
  - apply seqb_neq in E. split; [done|]. by intros (_&?&_).
Qed.
Lemma passwd_ok fl p1 p2 salt o :
  passwd strength gen fl p1 p2 salt = Ok o <->
  exists s scheme h, chosen gen fl p1 p2 s scheme /\ trim_dn s <> [] /\ (f_least fl <= strength s)%Z /\
    hash_password s scheme salt = Ok h /\
    o = (fun t => if f_omit fl then t else t ++ ["010"%char]) <$> printf0 FText h.
Proof.
  assert (F : forall s scheme,
    (if is_empty (trim_dn s) then Err EOther else if (strength s <? f_least fl)%Z then Err EOther
     else hash <-- hash_password s scheme salt ;;
       Ok ((fun t => if f_omit fl then t else t ++ ["010"%char]) <$> printf0 FText hash)) = Ok o <->
    exists h, trim_dn s <> [] /\ (f_least fl <= strength s)%Z /\ hash_password s scheme salt = Ok h /\
      o = (fun t => if f_omit fl then t else t ++ ["010"%char]) <$> printf0 FText h).
  { intros s scheme. destruct (trim_dn s) as [|c t] eqn:Et; cbn [is_empty].
    - split; [done|by intros (h & ? & _)].
    - destruct (Z.ltb_spec (strength s) (f_least fl)).
      + split; [done|]. intros (h & _ & ? & _). lia.
      + destruct (hash_password s scheme salt) as [h| | |]; cbn [rbind].
        * split; [intros [= <-]; by exists h|]. by intros (h' & _ & _ & [= ->] & ->).
        * split; [done|by intros (h' & _ & _ & ? & _)].
        * split; [done|by intros (h' & _ & _ & ? & _)].
        * split; [done|by intros (h' & _ & _ & ? & _)]. }
  assert (G : forall s scheme, (forall s' scheme', chosen gen fl p1 p2 s' scheme' <-> s' = s /\ scheme' = scheme) ->
    ((if is_empty (trim_dn s) then Err EOther else if (strength s <? f_least fl)%Z then Err EOther
     else hash <-- hash_password s scheme salt ;;
       Ok ((fun t => if f_omit fl then t else t ++ ["010"%char]) <$> printf0 FText hash)) = Ok o <->
    exists s scheme h, chosen gen fl p1 p2 s scheme /\ trim_dn s <> [] /\ (f_least fl <= strength s)%Z /\
      hash_password s scheme salt = Ok h /\
      o = (fun t => if f_omit fl then t else t ++ ["010"%char]) <$> printf0 FText h)).
  { intros s scheme Hc. rewrite F. split.
    - intros (h & H). exists s, scheme, h. split; [by apply Hc|done].
    - intros (s' & scheme' & h & Hch & H). apply Hc in Hch as [-> ->]. by exists h. }
  assert (N : (forall s' scheme', ~ chosen gen fl p1 p2 s' scheme') ->
    ~ exists s scheme h, chosen gen fl p1 p2 s scheme /\ trim_dn s <> [] /\ (f_least fl <= strength s)%Z /\
      hash_password s scheme salt = Ok h /\
      o = (fun t => if f_omit fl then t else t ++ ["010"%char]) <$> printf0 FText h).
  { intros Hn (s & sc & h & Hc & _). by apply Hn in Hc. }
  assert (P : (forall s' scheme', chosen gen fl p1 p2 s' scheme' <-> s' = p1 /\ scheme' = f_scheme fl /\ p1 = p2 /\ p1 <> []) ->
    (secret <-- prompted p1 p2 ;;
     (if is_empty (trim_dn secret) then Err EOther else if (strength secret <? f_least fl)%Z then Err EOther
     else hash <-- hash_password secret (f_scheme fl) salt ;;
       Ok ((fun t => if f_omit fl then t else t ++ ["010"%char]) <$> printf0 FText hash))) = Ok o <->
    exists s scheme h, chosen gen fl p1 p2 s scheme /\ trim_dn s <> [] /\ (f_least fl <= strength s)%Z /\
      hash_password s scheme salt = Ok h /\
      o = (fun t => if f_omit fl then t else t ++ ["010"%char]) <$> printf0 FText h).
  { intros Hc. destruct (prompted p1 p2) as [s| | |] eqn:Ep; cbn [rbind].
    - apply prompted_ok in Ep as (-> & E1 & E2). apply G. intros s' sc. rewrite Hc. tauto.
    - split; [done|]. intros HH. exfalso. revert HH. apply N. intros s' sc. rewrite Hc. intros (-> & -> & E1 & E2).
      by rewrite (proj2 (prompted_ok p1 p2 p1) (conj eq_refl (conj E1 E2))) in Ep.
    - unfold prompted in Ep. by destruct (_ || _).
    - unfold prompted in Ep. by destruct (_ || _). }
  unfold passwd, flag_secret.
  destruct (f_secret fl) as [s|] eqn:Es, (f_file fl) as [[c|]|] eqn:Ef, (f_generate fl) as [b|] eqn:Eg; cbn -[printf0];
    try (split; [done|]; intros HH; exfalso; revert HH; apply N; intros s' sc Hch; inversion Hch; congruence).
  - apply G. intros s' sc. split; [intros Hch; inversion Hch; split; congruence|]. intros [-> ->]. by constructor.
  - apply G. intros s' sc. split; [intros Hch; inversion Hch; split; congruence|]. intros [-> ->]. by constructor.
  - apply P. intros s' sc. split; [intros Hch; inversion Hch; try congruence; done|]. intros (-> & -> & ? & ?). by apply chosen_unreadable.
  - apply P. intros s' sc. split; [intros Hch; inversion Hch; try congruence; done|]. intros (-> & -> & ? & ?). by apply chosen_unreadable.
  - destruct gen as [g|] eqn:Egen; cbn -[printf0].
    + apply (G g (B "{CLEARTEXT}")). intros s' sc. split; [intros Hch; inversion Hch; split; congruence|]. intros [-> ->]. by eapply chosen_generated.
    + apply P. intros s' sc. split; [intros Hch; inversion Hch; try congruence; done|]. intros (-> & -> & ? & ?). by eapply chosen_no_generator.
  - apply P. intros s' sc. split; [intros Hch; inversion Hch; try congruence; done|]. intros (-> & -> & ? & ?). by apply chosen_typed.
Qed.
End proofs.
Lemma printf0_plain s : Forall (fun c => c <> "%"%char) s -> printf0 FText s = Some s.
Proof.
  induction 1 as [|c s Hc _ IH]; [done|]. cbn [printf0]. destruct (aeqb c "%"%char) eqn:E; [by apply aeqb_eq in E|]. by rewrite IH.
Qed.

(** C75.  The command succeeds exactly if there is a secret, not blank and strong
    enough, that can be hashed; then it prints the hash, as a format. *)
Theorem C75_succeeds (T : Text) (C : Crypto) strength gen (fl : pflags) (p1 p2 salt : str) (o : option str) :
  passwd strength gen fl p1 p2 salt = Ok o <->
  exists s scheme h, chosen gen fl p1 p2 s scheme /\ trim_dn s <> [] /\ (f_least fl <= strength s)%Z /\
    hash_password s scheme salt = Ok h /\
    o = (fun t => if f_omit fl then t else t ++ ["010"%char]) <$> printf0 FText h.
Proof. apply passwd_ok. Qed.
Print Assumptions C75_succeeds.
(** A hash without percent sign is printed as it is. *)
Theorem C75_plain (h : str) : ~ In "%"%char h -> printf0 FText h = Some h.
Proof. intros H. apply printf0_plain, List.Forall_forall. by intros c Hc ->. Qed.
Print Assumptions C75_plain.
(** A letter after a percent sign is taken for a verb. *)
Theorem C75_percent (a b : str) (c : ascii) :
  ~ In "%"%char a -> ~ In "%"%char b -> is_lower c || is_upper c = true ->
  printf0 FText (a ++ "%"%char :: c :: b) = Some (a ++ B "%!" ++ c :: B "(MISSING)" ++ b).
Proof.
  intros Ha Hb Hc. induction a as [|x a IH].
  - assert (E : forall d : ascii, (is_lower d || is_upper d) = true -> is_flag d = false /\ is_digit d = false /\ aeqb d "." = false /\
      aeqb d "%" = false /\ (aeqb d "[" || aeqb d "*" || negb (is_ascii d)) = false).
    { intros [[] [] [] [] [] [] [] []]; vm_compute; by intros. }
    destruct (E c Hc) as (E1 & E2 & E3 & E4 & E5). cbn [app printf0]. change (aeqb "%" "%") with true. cbn iota.
    rewrite E1, E2, E3, E4, E5. by rewrite (C75_plain b Hb).
  - cbn [app printf0]. destruct (aeqb x "%") eqn:E; [apply aeqb_eq in E as ->; destruct Ha; by left|].
    rewrite IH; [done|]. intros ?. apply Ha. by right.
Qed.
Print Assumptions C75_percent.
(** Flags, a width and a precision between the two are skipped; a second percent
    sign prints one, and without a verb the text says so. *)
Theorem C75_directive (fs w p b : str) (c : ascii) :
  Forall (fun x => In x (B "#0+- ")) fs -> Forall (fun x => In x (B "0123456789")) w -> length w <= 6 ->
  (p = [] \/ exists q, p = "."%char :: q /\ Forall (fun x => In x (B "0123456789")) q /\ length q <= 6) ->
  (is_lower c || is_upper c = true -> printf0 FText ("%"%char :: fs ++ w ++ p ++ c :: b) =
     (fun t => B "%!" ++ c :: B "(MISSING)" ++ t) <$> printf0 FText b) /\
  printf0 FText ("%"%char :: fs ++ w ++ p ++ "%"%char :: b) = cons "%"%char <$> printf0 FText b /\
  printf0 FText ("%"%char :: fs ++ w ++ p) = Some (B "%!(NOVERB)").
Proof.
  intros Hfs Hw Hlw Hp.
  assert (G : forall t v, (forall n, printf0 FFlags t = v /\ printf0 (FWidth n) t = v /\ printf0 (FPrec n) t = v) ->
    printf0 FText ("%"%char :: fs ++ w ++ p ++ t) = v).
  { intros t v Ht.
    assert (D : forall x, In x (B "0123456789") -> is_digit x = true /\ aeqb x "." = false).
    { intros x Hx. vm_compute in Hx. by repeat (destruct Hx as [<-|Hx]; [done|]). }
    assert (H1 : forall q n, Forall (fun x => In x (B "0123456789")) q -> n + length q <= 6 -> printf0 (FPrec n) (q ++ t) = v).
    { induction q as [|x q IH]; intros n Hq Hl; [apply (Ht n)|]. cbn [length] in Hl. apply Forall_cons in Hq as [Hx Hq].
      cbn [app printf0]. rewrite (proj1 (D x Hx)). rewrite (proj2 (Nat.leb_gt 6 n)) by lia. apply IH; [done|lia]. }
    assert (H2 : forall n, printf0 (FWidth n) (p ++ t) = v /\ printf0 FFlags (p ++ t) = v).
    { intros n. destruct Hp as [-> |(q & -> & Hq & Hl)]; [split; apply (Ht n)|]. split; cbn [app printf0];
        apply (H1 q 0 Hq); lia. }
    assert (H3 : forall u n, Forall (fun x => In x (B "0123456789")) u -> n + length u <= 6 -> printf0 (FWidth n) (u ++ p ++ t) = v).
    { induction u as [|x u IH]; intros n Hu Hl; [apply H2|]. cbn [length] in Hl. apply Forall_cons in Hu as [Hx Hu].
      cbn [app printf0]. rewrite (proj1 (D x Hx)). rewrite (proj2 (Nat.leb_gt 6 n)) by lia. apply IH; [done|lia]. }
    assert (H4 : forall u, Forall (fun x => In x (B "0123456789")) u -> length u <= 6 -> printf0 FFlags (u ++ p ++ t) = v).
    { induction u as [|x u IH]; intros Hu Hl; [apply (H2 0)|]. cbn [length] in Hl. apply Forall_cons in Hu as [Hx Hu].
      cbn [app printf0]. rewrite (proj1 (D x Hx)). destruct (is_flag x); [apply IH; [done|lia]|].
      change (6 <=? 0) with false. cbn iota. apply H3; [done|lia]. }
    cbn [printf0]. change (aeqb "%" "%") with true. cbn iota. clear - Hfs Hw Hlw H4.
    induction fs as [|x fs IH]; [by apply H4|]. apply Forall_cons in Hfs as [Hx Hfs]. cbn [app printf0].
    assert (is_flag x = true) as -> by (vm_compute in Hx; by repeat (destruct Hx as [<-|Hx]; [done|])). by apply IH. }
  split; [|split].
  - intros Hc. apply G. intros n.
    assert (E : forall d : ascii, (is_lower d || is_upper d) = true -> is_flag d = false /\ is_digit d = false /\ aeqb d "." = false /\
      aeqb d "%" = false /\ (aeqb d "[" || aeqb d "*" || negb (is_ascii d)) = false).
    { intros [[] [] [] [] [] [] [] []]; vm_compute; by intros. }
    destruct (E c Hc) as (E1 & E2 & E3 & E4 & E5). cbn [printf0]. by rewrite E1, E2, E3, E4, E5.
  - apply G. intros n. done.
  - rewrite <- (app_nil_r p). by apply G.
Qed.
Print Assumptions C75_directive.
(** Two of the three flags are refused, whatever is typed, unless the first of
    them is a file that cannot be read. *)
Theorem C75_exclusive (T : Text) (C : Crypto) strength gen (fl : pflags) (p1 p2 salt : str) :
  is_Some (f_secret fl) /\ is_Some (f_file fl) \/ is_Some (f_secret fl) /\ is_Some (f_generate fl) \/
  is_Some (f_file fl) /\ f_file fl <> Some None /\ is_Some (f_generate fl) ->
  passwd strength gen fl p1 p2 salt = Err EOther.
Proof.
  unfold passwd, flag_secret.
  destruct (f_secret fl) as [s|], (f_file fl) as [[c|]|], (f_generate fl) as [b|]; cbn -[printf0]; try done;
    intros [[H1 H2]|[[H1 H2]|[H1 [H2 H3]]]]; try (by destruct H1); try (by destruct H2); try (by destruct H3).
Qed.
Print Assumptions C75_exclusive.
(** With ARGON2: what is printed is a value that accepts the secret and no other,
    if the library's hash has no percent sign. *)
Theorem C75_argon2 (T : Text) (C : Crypto) (HT : TextOK T) (HC : CryptoOK C) strength gen (fl : pflags)
    (p1 p2 salt s : str) (o : option str) :
  (forall h, argon2_hash s salt = LOk h -> ~ In "%"%char h) ->
  passwd strength gen fl p1 p2 salt = Ok o -> chosen gen fl p1 p2 s (B "{ARGON2}") ->
  exists h, o = Some (if f_omit fl then h else h ++ ["010"%char]) /\ forall q, validate q h = Ok true <-> q = s.
Proof.
  intros Hl Hp Hc. apply passwd_ok in Hp as (s' & sc & h & Hc' & _ & _ & Hh & ->).
  assert (s' = s /\ sc = B "{ARGON2}") as [-> ->].
  { remember (B "{ARGON2}") as ar eqn:Ear. remember (B "{CLEARTEXT}") as ct eqn:Ect.
    destruct Hc, Hc'; try (split; congruence); subst; discriminate. }
  exists h. split.
  - rewrite C75_plain; [done|]. cbn in Hh. destruct (argon2_hash s salt) as [a| |] eqn:Ea; [|done|done].
    injection Hh as <-. intros Hin. apply (Hl _ eq_refl). do 8 (destruct Hin as [Hin|Hin]; [done|]). done.
  - intros q. by destruct (hash_then_validate HT HC s (B "{ARGON2}") salt h q Hh) as [[_ H]|[H _]].
Qed.
Print Assumptions C75_argon2.
(** For the examples: a score of one for each byte; at least three. *)
Definition pscore (s : str) : Z := Z.of_nat (length s).
Definition pw_run := passwd (T:=ascii_text) (C:=toy) pscore.
Example C75_case :
  printf0 FText (B "a%+ 05.2db%-%c%7") = Some (B "a%!d(MISSING)b%c%!(NOVERB)") /\
  pw_run None (mkFlags (Some (B "secret")) None None (B "{ARGON2}") false 3) [] [] (B "salt") = Ok (Some (B "{ARGON2}salt|secret" ++ ["010"%char])) /\
  pw_run None (mkFlags (Some (B "secret")) None None (B "{ARGON2}") true 3) [] [] (B "salt") = Ok (Some (B "{ARGON2}salt|secret")) /\
  pw_run None (mkFlags None None None (B "") true 3) (B "typed") (B "typed") [] = Ok (Some (B "typed")) /\
  pw_run None (mkFlags None None None (B "") true 3) (B "typed") (B "typo") [] = Err EOther /\
  pw_run None (mkFlags (Some (B "secret")) (Some (Some (B "other"))) None (B "") true 3) [] [] [] = Err EOther /\
  pw_run None (mkFlags (Some (B "     ")) None None (B "") true 3) [] [] [] = Err EOther /\
  pw_run None (mkFlags (Some (B "pw")) None None (B "") true 3) [] [] [] = Err EOther.
Proof. repeat split; vm_compute; reflexivity. Qed.
(** A generated password (twelve characters, two digits, two symbols) with a percent
    sign is not printed as it was generated: what is printed is not the password. *)
Theorem C75_generated_refuted : exists g shown,
  length g = 12 /\
  pw_run (Some g) (mkFlags None None (Some true) (B "{ARGON2}") true 3) [] [] (B "salt") = Ok (Some shown) /\
  shown <> g.
Proof. exists (B "Ab%dEf7Gh9!k"), (B "Ab%!d(MISSING)Ef7Gh9!k"). vm_compute. repeat split. discriminate. Qed.
Print Assumptions C75_generated_refuted.
(** A generated password that looks like a scheme cannot be used at all. *)
Theorem C75_braces_refuted : exists g,
  length g = 12 /\
  pw_run (Some g) (mkFlags None None (Some true) (B "{ARGON2}") true 3) [] [] (B "salt") = Ok (Some g) /\
  validate (T:=ascii_text) (C:=toy) g g <> Ok true.
Proof. exists (B "{a}bEf7Gh9xk"). vm_compute. repeat split. discriminate. Qed.
Print Assumptions C75_braces_refuted.
(** A secret file that cannot be read is not an error: the secret is asked for. *)
Theorem C75_unreadable_refuted : exists fl,
  f_file fl = Some None /\
  pw_run None fl (B "typed") (B "typed") (B "salt") = Ok (Some (B "{ARGON2}salt|typed")).
Proof. exists (mkFlags None (Some None) (Some true) (B "{ARGON2}") true 3). vm_compute. done. Qed.
Print Assumptions C75_unreadable_refuted.
(** --generate=false generates. *)
Theorem C75_false_refuted : exists fl g,
  f_generate fl = Some false /\ pw_run (Some g) fl [] [] [] = Ok (Some g).
Proof. exists (mkFlags None None (Some false) (B "{ARGON2}") true 3), (B "AbcdEf7Gh9!k"). vm_compute. done. Qed.
Print Assumptions C75_false_refuted.
(** The line feed at the end of a secret file is part of the secret. *)
Theorem C75_file_refuted : exists fl h,
  f_file fl = Some (Some (B "secret" ++ ["010"%char])) /\
  pw_run None fl [] [] (B "salt") = Ok (Some h) /\
  validate (T:=ascii_text) (C:=toy) (B "secret") h <> Ok true.
Proof.
  exists (mkFlags None (Some (Some (B "secret" ++ ["010"%char]))) None (B "{ARGON2}") true 3), (B "{ARGON2}salt|secret" ++ ["010"%char]).
  vm_compute. repeat split. discriminate.
Qed.
Print Assumptions C75_file_refuted.
