(** Lemmas about Password.v. *)
From Verif Require Import Bytes Text Res Password.

Lemma index_of_spec c s i :
  index_of c s = Some i <->
  exists a b, s = a ++ c :: b /\ ~ In c a /\ length a = i.
Proof.
  revert i. induction s as [|d s IH]; intros i; simpl.
  - split; [done|]. intros (a & b & H & _). by destruct a.
  - destruct (aeqb c d) eqn:E.
    + apply aeqb_eq in E. subst d. split.
      * intros [= <-]. exists [], s. split; [done|]. split; [tauto|done].
      * intros ([|x a] & b & Heq & Hn & Hl); simplify_eq/=; [done|].
        exfalso. apply Hn. by left.
    + apply aeqb_neq in E. split.
      * intros H. destruct (index_of c s) as [j|] eqn:Ej; [|done]. simpl in H.
        injection H as <-. destruct (proj1 (IH j) eq_refl) as (a & b & -> & Hn & <-).
        exists (d :: a), b. split; [done|]. split; [|done]. intros [->|?]; done.
      * intros ([|x a] & b & Heq & Hn & Hl); simplify_eq/=.
        rewrite (proj2 (IH (length a))); [done|]. exists a, b. split; [done|].
        split; [|done]. intros ?. apply Hn. by right.
Qed.
Lemma index_of_none c s : index_of c s = None <-> ~ In c s.
Proof.
  induction s as [|d s IH]; simpl; [tauto|].
  destruct (aeqb c d) eqn:E.
  - apply aeqb_eq in E. subst. split; [done|]. intros H. exfalso. apply H. by left.
  - apply aeqb_neq in E. destruct (index_of c s); simpl; split; try done.
    + intros H. assert (Some n = None) by (apply IH; tauto). done.
    + intros _ [->|H]; [done|]. by apply IH in H.
Qed.

(** [splitn] and [join] are inverse. *)
Lemma splitn_SS c n s :
  splitn c (S (S n)) s =
  match index_of c s with
  | None => [s]
  | Some i => take i s :: splitn c (S n) (drop (S i) s)
  end.
Proof. done. Qed.
Lemma drop_1_app (a b : str) c : drop (S (length a)) (a ++ c :: b) = b.
Proof.
  replace (S (length a)) with (length (a ++ [c])) by (rewrite app_length; simpl; lia).
  change (c :: b) with ([c] ++ b). by rewrite app_assoc, drop_app.
Qed.
Lemma join_splitn c n s : 0 < n -> join [c] (splitn c n s) = s.
Proof.
  revert s. induction n as [|n IH]; intros s Hn; [lia|].
  destruct n as [|n]; [done|].
  rewrite splitn_SS. destruct (index_of c s) as [i|] eqn:E; [|done].
  apply index_of_spec in E as (a & b & -> & _ & <-).
  rewrite take_app, drop_1_app.
  assert (Hne : splitn c (S n) b <> []).
  { cbn [splitn]. destruct n; [done|]. by destruct (index_of c b). }
  destruct (splitn c (S n) b) as [|p ps] eqn:Ep; [done|].
  change (join [c] (a :: p :: ps)) with (a ++ [c] ++ join [c] (p :: ps)).
  assert (Hj : join [c] (p :: ps) = b) by (rewrite <- Ep; apply IH; lia).
  by rewrite Hj.
Qed.
Definition count (c : ascii) (s : str) : nat := length (bfilter (aeqb c) s).
Lemma count_app c a b : count c (a ++ b) = count c a + count c b.
Proof. unfold count. by rewrite List.filter_app, app_length. Qed.
Lemma count_zero c s : ~ In c s -> count c s = 0.
Proof.
  unfold count. induction s as [|d s IH]; [done|]. intros H. simpl.
  destruct (aeqb c d) eqn:E.
  - apply aeqb_eq in E. subst. exfalso. apply H. by left.
  - apply IH. intros ?. apply H. by right.
Qed.
Lemma splitn_length c n s : 0 < n -> length (splitn c n s) = min n (S (count c s)).
Proof.
  revert s. induction n as [|n IH]; intros s Hn; [lia|].
  destruct n as [|n]; [simpl; lia|].
  rewrite splitn_SS. destruct (index_of c s) as [i|] eqn:E.
  - apply index_of_spec in E as (a & b & -> & Hna & <-).
    rewrite drop_1_app. cbn [length].
    rewrite IH by lia. rewrite count_app, (count_zero c a) by done.
    unfold count at 2. simpl. rewrite aeqb_refl. simpl. unfold count. lia.
  - apply index_of_none in E. rewrite count_zero by done. simpl. lia.
Qed.

Section password.
Context {T : Text} {C : Crypto}.

Lemma split_scheme_some h sch rest :
  has_scheme h sch rest -> split_scheme h = (sch, rest).
Proof.
  intros (s & -> & Hs & ->). unfold split_scheme.
  set (sch := B "{" ++ s ++ B "}").
  assert (Hl : length sch = S (S (length s))).
  { subst sch. rewrite !app_length. simpl. lia. }
  assert (Hi : index_of "}"%char (sch ++ rest) = Some (S (length s))).
  { apply index_of_spec. exists ("{"%char :: s), rest. subst sch. split.
    - simpl. by rewrite <- app_assoc.
    - split; [|done]. intros [H|H]; done. }
  rewrite Hi. rewrite <- Hl, take_app, drop_app. done.
Qed.
Lemma split_scheme_none h :
  (forall sch rest, ~ has_scheme h sch rest) -> split_scheme h = ([], h).
Proof.
  intros H. unfold split_scheme. destruct h as [|c h]; [done|].
  destruct (aeqb c "{"%char) eqn:E; [|done]. apply aeqb_eq in E. subst c.
  destruct (index_of "}"%char ("{"%char :: h)) as [[|i]|] eqn:Ei; try done.
  exfalso. apply index_of_spec in Ei as ([|x a] & b & [= <- ->] & Hn & Hl).
  apply (H (B "{" ++ a ++ B "}") b). exists a. split; [done|].
  split; [intros ?; apply Hn; by right|]. simpl. by rewrite <- app_assoc.
Qed.
Lemma scheme_dec h :
  (exists sch rest, has_scheme h sch rest) \/ (forall sch rest, ~ has_scheme h sch rest).
Proof.
  destruct h as [|c h].
  - right. intros sch rest (s & -> & _ & H). done.
  - destruct (aeqb c "{"%char) eqn:E.
    2:{ right. intros sch rest (s & -> & _ & H). simpl in H. injection H as -> _.
        by rewrite aeqb_refl in E. }
    apply aeqb_eq in E. subst c.
    destruct (index_of "}"%char h) as [i|] eqn:Ei.
    + left. apply index_of_spec in Ei as (a & b & -> & Hn & _).
      exists (B "{" ++ a ++ B "}"), b. exists a. split; [done|]. split; [done|].
      simpl. by rewrite <- app_assoc.
    + right. apply index_of_none in Ei. intros sch rest (s & -> & _ & H).
      simpl in H. injection H as ->. apply Ei. rewrite <- app_assoc.
      apply in_or_app. right. by left.
Qed.
Lemma scheme_fun h sch rest sch' rest' :
  has_scheme h sch rest -> has_scheme h sch' rest' -> sch = sch' /\ rest = rest'.
Proof.
  intros H1 H2. apply split_scheme_some in H1, H2. rewrite H1 in H2. by injection H2.
Qed.

Lemma crypt_salt_spec rest : crypt_salt rest = salt_of rest.
Proof.
  unfold crypt_salt, salt_of, glibc_crypt. destruct rest as [|c rest]; [done|].
  destruct (aeqb c "$"%char) eqn:E; [|done]. apply aeqb_eq in E. subst c.
  pose proof (splitn_length "$"%char 4 ("$"%char :: rest) ltac:(lia)) as Hl.
  assert (Hc : count "$"%char ("$"%char :: rest) = S (count "$"%char rest)) by done.
  rewrite Hc in Hl. unfold count in Hl. cbn [andb].
  destruct (2 <=? length (bfilter (aeqb "$"%char) rest)) eqn:E2.
  - apply Nat.leb_le in E2. rewrite (proj2 (Nat.eqb_eq _ 4)) by (rewrite Hl; lia).
    rewrite take_ge by lia. apply (join_splitn "$"%char 4). lia.
  - apply Nat.leb_gt in E2. rewrite (proj2 (Nat.eqb_neq _ 4)) by (rewrite Hl; lia). done.
Qed.

Lemma seqb_ne a b : a <> b -> seqb a b = false.
Proof. intros H. by apply seqb_neq. Qed.
Lemma scheme_ne h sch rest : has_scheme h sch rest -> h <> [].
Proof. by intros (s & -> & _ & ->). Qed.

(** [validate] by cases on the scheme. *)
Lemma validate_clear p h :
  (forall sch rest, ~ has_scheme h sch rest) -> h <> [] -> to_upper [] = [] ->
  validate p h = if seqb h p then Ok true else Err EOther.
Proof.
  intros Hs Hne Hu. unfold validate. destruct h as [|c h]; [done|].
  rewrite split_scheme_none by done. by rewrite Hu.
Qed.
Lemma validate_scheme p h sch rest :
  has_scheme h sch rest ->
  validate p h =
   let compare (h p : str) := if seqb h p then Ok true else Err EOther in
      let a := to_upper sch in
      if seqb a [] then compare rest p
      else if seqb a (B "{ARGON2}") then
        match argon2_compare p rest with
        | LOk true => Ok true
        | LOk false | LErr => Err EOther
        | LPanic => Panic
        end
      else if seqb a (B "{CRYPT}") then
        if length rest <? 2 then Panic
        else match crypt p (salt_of rest) with
             | LOk enc => compare rest enc
             | LErr => Err EOther
             | LPanic => Panic
             end
      else if seqb a (B "{SSHA}") then
        match b64dec rest with
        | None => Err EOther
        | Some dec =>
            if length dec <? 4 then Panic
            else let salt := drop (length dec - 4) dec in
                 compare dec (sha1 (p ++ salt) ++ salt)
        end
      else Err EOther.
Proof.
  intros H. pose proof (scheme_ne _ _ _ H) as Hne. unfold validate.
  destruct h as [|c h]; [done|]. rewrite (split_scheme_some _ _ _ H).
  by rewrite crypt_salt_spec.
Qed.

Context (HT : TextOK T).

Lemma upper_nil : to_upper [] = [].
Proof using HT. rewrite (upper_ascii_ok _ HT) by constructor. done. Qed.

Lemma sch_upper_ne h sch rest : has_scheme h sch rest -> seqb (to_upper sch) [] = false.
Proof using HT.
  intros (s & -> & _). apply seqb_ne. intros H. apply (upper_nonempty _ HT) in H. done.
Qed.

Lemma validate_accepts p h : validate p h = Ok true <-> accepts p h.
Proof using HT.
  split.
  - intros H. destruct h as [|c h0] eqn:Eh; [done|]. rewrite <- Eh in *.
    assert (Hne : h <> []) by (subst; done). clear Eh.
    destruct (scheme_dec h) as [(sch & rest & Hs)|Hs].
    + rewrite (validate_scheme p h sch rest Hs) in H. cbv zeta in H.
      rewrite (sch_upper_ne _ _ _ Hs) in H.
      destruct (seqb (to_upper sch) (B "{ARGON2}")) eqn:E1.
      { apply seqb_eq in E1. destruct (argon2_compare p rest) as [[]| |] eqn:Ea; try done.
        by eapply acc_argon2. }
      destruct (seqb (to_upper sch) (B "{CRYPT}")) eqn:E2.
      { apply seqb_eq in E2. destruct (length rest <? 2) eqn:El; [done|].
        apply Nat.ltb_ge in El.
        destruct (crypt p (salt_of rest)) as [enc| |] eqn:Ec; try done.
        destruct (seqb rest enc) eqn:Ee; [|done]. apply seqb_eq in Ee. subst enc.
        by eapply acc_crypt. }
      destruct (seqb (to_upper sch) (B "{SSHA}")) eqn:E3; [|done].
      apply seqb_eq in E3. destruct (b64dec rest) as [dec|] eqn:Eb; [|done].
      destruct (length dec <? 4) eqn:El; [done|]. apply Nat.ltb_ge in El.
      destruct (seqb dec _) eqn:Ee; [|done]. apply seqb_eq in Ee.
      eapply (acc_ssha p h sch rest (drop (length dec - 4) dec)); try done.
      * rewrite drop_length. lia.
      * by rewrite <- Ee.
    + rewrite validate_clear in H by (try apply upper_nil; done).
      destruct (seqb h p) eqn:E; [|done]. apply seqb_eq in E. by apply acc_clear.
  - intros H. inversion H as [h' Hs Hp Hne|h' sch rest Hs Hu Hc|h' sch rest Hs Hu Hl Hc|h' sch rest salt Hs Hu Hl Hb]; subst h'.
    + rewrite validate_clear by (try apply upper_nil; done). subst. by rewrite seqb_refl.
    + rewrite (validate_scheme p h sch rest Hs). cbv zeta. rewrite Hu. simpl. by rewrite Hc.
    + rewrite (validate_scheme p h sch rest Hs). cbv zeta. rewrite Hu. simpl seqb. cbv iota.
      rewrite (proj2 (Nat.ltb_ge _ _)) by done. rewrite Hc. by rewrite seqb_refl.
    + rewrite (validate_scheme p h sch rest Hs). cbv zeta. rewrite Hu. simpl seqb. cbv iota.
      rewrite Hb. rewrite (proj2 (Nat.ltb_ge _ _)) by (rewrite app_length; lia).
      replace (length (sha1 (p ++ salt) ++ salt) - 4) with (length (sha1 (p ++ salt)))
        by (rewrite app_length; lia).
      rewrite drop_app. by rewrite seqb_refl.
Qed.

Lemma validate_chokes p h : validate p h = Panic <-> chokes p h.
Proof using HT.
  split.
  - intros H. destruct h as [|c h0] eqn:Eh; [constructor|]. rewrite <- Eh in *.
    assert (Hne : h <> []) by (subst; done). clear Eh.
    destruct (scheme_dec h) as [(sch & rest & Hs)|Hs].
    + rewrite (validate_scheme p h sch rest Hs) in H. cbv zeta in H.
      rewrite (sch_upper_ne _ _ _ Hs) in H.
      destruct (seqb (to_upper sch) (B "{ARGON2}")) eqn:E1.
      { apply seqb_eq in E1. destruct (argon2_compare p rest) as [[]| |] eqn:Ea; try done.
        by eapply choke_argon2_lib. }
      destruct (seqb (to_upper sch) (B "{CRYPT}")) eqn:E2.
      { apply seqb_eq in E2. destruct (length rest <? 2) eqn:El.
        { apply Nat.ltb_lt in El. by eapply choke_crypt. }
        apply Nat.ltb_ge in El.
        destruct (crypt p (salt_of rest)) as [enc| |] eqn:Ec; try done.
        { by destruct (seqb rest enc). }
        by eapply choke_crypt_lib. }
      destruct (seqb (to_upper sch) (B "{SSHA}")) eqn:E3; [|done].
      apply seqb_eq in E3. destruct (b64dec rest) as [dec|] eqn:Eb; [|done].
      destruct (length dec <? 4) eqn:El.
      { apply Nat.ltb_lt in El. by eapply choke_ssha. }
      by destruct (seqb dec _).
    + rewrite validate_clear in H by (try apply upper_nil; done).
      by destruct (seqb h p).
  - intros H. inversion H as [|h' sch rest Hs Hu Hl|h' sch rest dec Hs Hu Hb Hl|h' sch rest Hs Hu Hc|h' sch rest Hs Hu Hl Hc]; try subst h'.
    + done.
    + rewrite (validate_scheme p h sch rest Hs). cbv zeta. rewrite Hu. simpl seqb. cbv iota.
      rewrite (proj2 (Nat.ltb_lt _ _)) by done. done.
    + rewrite (validate_scheme p h sch rest Hs). cbv zeta. rewrite Hu. simpl seqb. cbv iota.
      rewrite Hb. rewrite (proj2 (Nat.ltb_lt _ _)) by done. done.
    + rewrite (validate_scheme p h sch rest Hs). cbv zeta. rewrite Hu. simpl seqb. cbv iota.
      by rewrite Hc.
    + rewrite (validate_scheme p h sch rest Hs). cbv zeta. rewrite Hu. simpl seqb. cbv iota.
      rewrite (proj2 (Nat.ltb_ge _ _)) by done. by rewrite Hc.
Qed.
(** [validate] never returns [Ok false], and never diverges. *)
Lemma validate_shape p h :
  validate p h = Ok true \/ validate p h = Err EOther \/ validate p h = Panic.
Proof using HT.
  destruct h as [|c h0] eqn:Eh; [auto|]. rewrite <- Eh in *.
  assert (Hne : h <> []) by (subst; done). clear Eh.
  destruct (scheme_dec h) as [(sch & rest & Hs)|Hs].
  - rewrite (validate_scheme p h sch rest Hs). cbv zeta.
    rewrite (sch_upper_ne _ _ _ Hs).
    destruct (seqb (to_upper sch) (B "{ARGON2}")).
    { destruct (argon2_compare p rest) as [[]| |]; auto. }
    destruct (seqb (to_upper sch) (B "{CRYPT}")).
    { destruct (length rest <? 2); auto.
      destruct (crypt p (salt_of rest)) as [enc| |]; auto. destruct (seqb rest enc); auto. }
    destruct (seqb (to_upper sch) (B "{SSHA}")); [|auto].
    destruct (b64dec rest) as [dec|]; auto. destruct (length dec <? 4); auto.
    destruct (seqb dec _); auto.
  - rewrite validate_clear by (try apply upper_nil; done). destruct (seqb h p); auto.
Qed.

(** Hash then validate. *)
Lemma argon2_scheme h : has_scheme (B "{ARGON2}" ++ h) (B "{ARGON2}") h.
Proof using Type.
  exists (B "ARGON2"). split; [done|]. split; [|done].
  vm_compute. intuition discriminate.
Qed.
Lemma argon2_upper : to_upper (B "{ARGON2}") = B "{ARGON2}".
Proof using HT. rewrite (upper_ascii_ok _ HT); [done|]. repeat constructor. Qed.

Lemma hash_then_validate (HC : CryptoOK C) p alg salt h q :
  hash_password p alg salt = Ok h ->
  (alg = B "{ARGON2}" /\ (validate q h = Ok true <-> q = p)) \/
  (alg <> B "{ARGON2}" /\ h = p).
Proof using HT.
  unfold hash_password. destruct (seqb alg [] || seqb alg (B "{CLEARTEXT}")) eqn:E.
  - intros [= <-]. right. split; [|done]. intros ->. done.
  - destruct (seqb alg (B "{ARGON2}")) eqn:Ea; [|done]. apply seqb_eq in Ea.
    destruct (argon2_hash p salt) as [x| |] eqn:Eh; try done. intros [= <-].
    left. split; [done|]. rewrite validate_accepts. split.
    + intros H. inversion H as [h' Hs Hp Hne|h' sch rest Hs Hu Hc|h' sch rest Hs Hu Hl Hc|h' sch rest s Hs Hu Hl Hb]; subst h'.
      * exfalso. eapply Hs, argon2_scheme.
      * destruct (scheme_fun _ _ _ _ _ Hs (argon2_scheme x)) as [-> ->].
        destruct (decide (q = p)) as [|Hne]; [done|]. exfalso.
        by eapply (argon2_rejects _ HC p q).
      * destruct (scheme_fun _ _ _ _ _ Hs (argon2_scheme x)) as [-> ->].
        rewrite argon2_upper in Hu. done.
      * destruct (scheme_fun _ _ _ _ _ Hs (argon2_scheme x)) as [-> ->].
        rewrite argon2_upper in Hu. done.
    + intros ->. eapply acc_argon2; [apply argon2_scheme|apply argon2_upper|].
      by eapply (argon2_accepts _ HC).
Qed.
Lemma clear_validates p q :
  (forall sch rest, ~ has_scheme p sch rest) -> p <> [] ->
  validate q p = Ok true <-> q = p.
Proof using HT.
  intros Hs Hne. rewrite validate_clear by (try apply upper_nil; done).
  destruct (seqb p q) eqn:E.
  - apply seqb_eq in E. subst. done.
  - split; [done|]. intros ->. by rewrite seqb_refl in E.
Qed.
End password.

(** ** Random passwords *)
Lemma gen_loop_spec n draws s :
  gen_loop n draws = Ok s ->
  n <= length draws /\ length s = n /\ Forall2 (fun d c => pw_chars !! d = Some c) (take n draws) s.
Proof.
  revert draws s. induction n as [|n IH]; intros draws s; simpl.
  - intros [= <-]. split; [lia|]. split; [done|constructor].
  - destruct draws as [|d draws]; [done|]. simpl.
    destruct (pw_chars !! d) as [c|] eqn:Ed; [|done].
    destruct (gen_loop n draws) as [s'| | |] eqn:Eg; try done. simpl.
    intros [= <-]. apply IH in Eg as (H1 & H2 & H3). simpl. split; [lia|].
    split; [lia|]. by constructor.
Qed.
Lemma gen_loop_ok n draws :
  n <= length draws -> Forall (fun d => d < length pw_chars) draws ->
  exists s, gen_loop n draws = Ok s.
Proof.
  revert draws. induction n as [|n IH]; intros draws Hl Hd; [by eexists|].
  destruct draws as [|d draws]; simpl in Hl; [lia|].
  apply Forall_cons in Hd as [Hd1 Hd2]. cbn [gen_loop].
  destruct (pw_chars !! d) as [c|] eqn:Hc.
  2:{ exfalso. pose proof (lookup_lt_is_Some_2 pw_chars d Hd1) as [x Hx]. congruence. }
  destruct (IH draws) as [s Hs]; [lia|done|]. rewrite Hs. by eexists.
Qed.
Lemma pw_chars_nodup : NoDup pw_chars.
Proof. apply (bool_decide_unpack _). vm_compute. exact I. Qed.
Lemma gen_loop_inj n d1 d2 s :
  length d1 = n -> length d2 = n ->
  gen_loop n d1 = Ok s -> gen_loop n d2 = Ok s -> d1 = d2.
Proof.
  intros H1 H2 G1 G2. apply gen_loop_spec in G1 as (_ & _ & F1), G2 as (_ & _ & F2).
  rewrite take_ge in F1, F2 by lia. clear H1 H2 n. revert d2 F2.
  induction F1 as [|d c d1 s Hd F1 IH]; intros d2 F2; inversion F2; subst; [done|].
  f_equal; [|by apply IH]. eapply (NoDup_lookup pw_chars); eauto. apply pw_chars_nodup.
Qed.
Lemma gen_loop_surj s :
  Forall (fun c => In c pw_chars) s ->
  exists draws, length draws = length s /\ gen_loop (length s) draws = Ok s.
Proof.
  intros H. induction H as [|c s Hc Hs (draws & Hl & IH)]; [by exists []|].
  apply elem_of_list_In, elem_of_list_lookup in Hc as [d Hd].
  exists (d :: draws). cbn [gen_loop length]. rewrite Hd, IH. by rewrite Hl.
Qed.
