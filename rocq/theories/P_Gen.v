(** Properties C55 and C67-C69: the newusers generator. *)
From Verif Require Import Bytes Text Res Dn DnProofs Password PasswordProofs P_Password Source SourceProofs TemplateProofs Gen GenProofs.

(** For the examples: a score of one for each byte, at least three. *)
Definition score (s : str) : Z := Z.of_nat (length s).
Definition nl : str := [lf].
Definition gen_file (lines : list str) : str := List.concat (map (fun l => l ++ nl) lines).
Definition run (lines : list str) : list (str * Z * Z) * res unit :=
  let '(out, r) := newusers (T:=ascii_text) (C:=toy) score 3 (B "{ARGON2}") (B "example.org") (fun _ => B "salt") (gen_file lines) in
  (map (fun o => (u_name o.1.1, o.2, d_gid o.1.2)) out, r).

(** * C55 *)
(** What a number is: an optional sign and at least one digit, of 64 bits. *)
Definition decimal (ds : str) : Z := fold_left (fun a c => (10 * a + (Z.of_N (N_of_ascii c) - 48))%Z) ds 0%Z.
Theorem C55_number (s : str) (z : Z) :
  parse_int s = Some z <->
  exists ds, ds <> [] /\ Forall (fun c => (48 <= N_of_ascii c <= 57)%N) ds /\
    (s = ds /\ z = decimal ds \/ s = "+"%char :: ds /\ z = decimal ds \/ s = "-"%char :: ds /\ z = (- decimal ds)%Z) /\
    (- 9223372036854775808 <= z <= 9223372036854775807)%Z.
Proof.
  assert (D : forall ds a n, digits ds a = Some n <->
    Forall (fun c => (48 <= N_of_ascii c <= 57)%N) ds /\ n = fold_left (fun a c => (10 * a + (Z.of_N (N_of_ascii c) - 48))%Z) ds a).
  { induction ds as [|c ds IH]; intros a n; cbn [digits fold_left].
    - split; [by intros [= ->]|by intros [_ ->]].
    - unfold is_digit, code. destruct ((48 <=? N_of_ascii c)%N && (N_of_ascii c <=? 57)%N) eqn:E.
      + rewrite IH, Forall_cons. apply andb_true_iff in E as [?%N.leb_le ?%N.leb_le]. tauto.
      + split; [done|]. intros [H _]. apply Forall_inv in H. lia. }
  assert (R : forall y, ((- 2 ^ 63 <=? y) && (y <? 2 ^ 63))%Z = true <-> (- 9223372036854775808 <= y <= 9223372036854775807)%Z) by (intros; lia).
  assert (Sgn : forall c, (48 <= N_of_ascii c <= 57)%N -> c <> "-"%char /\ c <> "+"%char).
  { intros c Hc. split; intros ->; destruct Hc as [Hc _]; by destruct (Hc eq_refl). }
  unfold parse_int. split.
  - destruct s as [|c s]; [done|].
    assert (G : forall (neg : bool) d, (if is_empty d then None else match digits d 0 with
       | Some n => let z := if neg then (- n)%Z else n in if ((- 2 ^ 63 <=? z) && (z <? 2 ^ 63))%Z then Some z else None
       | None => None end) = Some z -> d <> [] /\ Forall (fun c => (48 <= N_of_ascii c <= 57)%N) d /\
         z = (if neg then - decimal d else decimal d)%Z /\ (- 9223372036854775808 <= z <= 9223372036854775807)%Z).
    { intros neg d. destruct d as [|x d]; [done|]. cbn [is_empty]. destruct (digits (x :: d) 0) as [n|] eqn:En; [|done].
      apply D in En as [H1 ->]. cbn zeta. destruct (_ && _)%bool eqn:Er; [|done]. apply R in Er. intros [= <-]. done. }
    destruct (aeqb c "-"%char) eqn:E1; [|destruct (aeqb c "+"%char) eqn:E2].
    + apply aeqb_eq in E1 as ->. intros H. destruct (G true s H) as (?&?&?&?). exists s. eauto 10.
    + apply aeqb_eq in E2 as ->. intros H. destruct (G false s H) as (?&?&?&?). exists s. eauto 10.
    + intros H. destruct (G false (c :: s) H) as (?&?&?&?). exists (c :: s). eauto 10.
  - intros (ds & Hne & Hf & Hs & Hz).
    assert (Hd : digits ds 0 = Some (decimal ds)) by (by apply D).
    assert (He : is_empty ds = false) by (by destruct ds).
    destruct Hs as [[-> ->]|[[-> ->]|[-> ->]]].
    + destruct ds as [|c ds]; [done|]. pose proof (Forall_inv Hf) as Hc. destruct (Sgn c Hc) as [N1 N2].
      destruct (aeqb c "-"%char) eqn:E1; [by apply aeqb_eq in E1|]. destruct (aeqb c "+"%char) eqn:E2; [by apply aeqb_eq in E2|].
      cbn [is_empty]. rewrite Hd. cbn zeta. by rewrite (proj2 (R _) Hz).
    + change (aeqb "+"%char "-"%char) with false. change (aeqb "+"%char "+"%char) with true. cbn iota. rewrite He, Hd. cbn zeta. by rewrite (proj2 (R _) Hz).
    + change (aeqb "-"%char "-"%char) with true. cbn iota. rewrite He, Hd. cbn zeta. by rewrite (proj2 (R _) Hz).
Qed.
Print Assumptions C55_number.
Example C55_number_case :
  (parse_int (B "-12"), parse_int (B "+007"), parse_int (B "9223372036854775807"), parse_int (B "9223372036854775808"),
   parse_int (B "1_0"), parse_int (B "-")) = (Some (-12)%Z, Some 7%Z, Some 9223372036854775807%Z, None, None, None).
Proof. vm_compute. reflexivity. Qed.
(** All users of the file are printed, each with its own number, if the explicit
    numbers are different, not zero and small enough. *)
Theorem C55_distinct (T : Text) (C : Crypto) strength least scheme maildomain salts (file : str) us out :
  parse_passwd strength least file = Ok us ->
  (1000 + Z.of_nat (length us) < 2 ^ 63)%Z ->
  (forall u n, In u us -> parse_int (u_uid u) = Some n \/ parse_int (u_gid u) = Some n -> (n + Z.of_nat (length us) < 2 ^ 63)%Z) ->
  (forall u, In u us -> parse_int (u_uid u) <> Some 0%Z) ->
  (forall i j u v n, us !! i = Some u -> us !! j = Some v -> parse_int (u_uid u) = Some n -> parse_int (u_uid v) = Some n -> i = j) ->
  newusers strength least scheme maildomain salts file = (out, Ok tt) ->
  map (fun o => o.1.1) out = us /\ NoDup (map snd out).
Proof.
  intros H1 H2 H3 H4 H5 Hr. destruct (newusers_spec scheme maildomain strength least salts file us H1 H2 H3 H4 H5) as (_ & Ha & Hb & _).
  rewrite Hr in Ha, Hb. split; [by apply Ha|done].
Qed.
Print Assumptions C55_distinct.
(** A number in the file is used as it is; any other is above all of them and above
    1000. *)
Theorem C55_above (T : Text) (C : Crypto) strength least scheme maildomain salts (file : str) us :
  parse_passwd strength least file = Ok us ->
  (1000 + Z.of_nat (length us) < 2 ^ 63)%Z ->
  (forall u n, In u us -> parse_int (u_uid u) = Some n \/ parse_int (u_gid u) = Some n -> (n + Z.of_nat (length us) < 2 ^ 63)%Z) ->
  (forall u, In u us -> parse_int (u_uid u) <> Some 0%Z) ->
  (forall i j u v n, us !! i = Some u -> us !! j = Some v -> parse_int (u_uid u) = Some n -> parse_int (u_uid v) = Some n -> i = j) ->
  forall u d number, In (u, d, number) (newusers strength least scheme maildomain salts file).1 ->
  In u us /\ d_uid d = number /\
  (u_uid u <> [] -> parse_int (u_uid u) = Some number) /\
  (u_gid u <> [] -> parse_int (u_gid u) = Some (d_gid d)) /\
  (u_uid u = [] -> (1000 < number)%Z /\ forall v n, In v us -> parse_int (u_uid v) = Some n \/ parse_int (u_gid v) = Some n -> (n < number)%Z) /\
  (u_gid u = [] -> (1000 < d_gid d)%Z /\ forall v n, In v us -> parse_int (u_uid v) = Some n \/ parse_int (u_gid v) = Some n -> (n < d_gid d)%Z).
Proof.
  intros H1 H2 H3 H4 H5 u d number Hin.
  destruct (newusers_spec scheme maildomain strength least salts file us H1 H2 H3 H4 H5) as (Ha & _ & _ & c & Hc & Hall & Hnum & Hb).
  rewrite List.Forall_forall in Hb. destruct (Hb _ Hin) as (A & B0 & D).
  assert (Hu : In u us).
  { destruct Ha as [rest ->]. apply in_or_app. left. apply in_map_iff. by exists (u, d, number). }
  assert (Hne : (newusers strength least scheme maildomain salts file).1 <> []) by (by destruct (newusers _ _ _ _ _ _).1).
  specialize (Hnum Hne). rewrite List.Forall_forall in Hnum. destruct (Hnum u Hu) as [N1 N2].
  split; [done|]. split; [done|]. split; [|split; [|split]].
  - intros ?. destruct N1 as [?|[z Hz]]; [done|]. rewrite (proj2 (field_spec _ z) Hz) in A. by subst.
  - intros ?. destruct N2 as [?|[z Hz]]; [done|]. rewrite (proj2 (field_spec _ z) Hz) in B0. by subst.
  - intros He. rewrite He in A. cbn in A. split; [lia|]. intros v n Hv Hn. specialize (Hall v n Hv Hn). lia.
  - intros He. rewrite He in B0. cbn in B0. split; [lia|]. intros v n Hv Hn. specialize (Hall v n Hv Hn). lia.
Qed.
Print Assumptions C55_above.
Example C55_case :
  run [B "ann:secret:1500:100:Ann Lee:/home/ann:/bin/sh"; B "# skipped"; B "bob::::::"; B "cy:secret:2000::Cy,cy@example.org::";
       B "dora::1002:1:::"; B "eve::::::"] =
  ([(B "ann", 1500%Z, 100%Z); (B "bob", 2001%Z, 2001%Z); (B "cy", 2000%Z, 2002%Z); (B "dora", 1002%Z, 1%Z); (B "eve", 2003%Z, 2003%Z)], Ok tt).
Proof. vm_compute. reflexivity. Qed.
(** An explicit zero takes a number from a counter of its own, starting at 1001
    whatever else is in the file. *)
Theorem C55_zero_refuted : exists lines,
  run lines = ([(B "root", 1001%Z, 1002%Z); (B "ann", 1001%Z, 7%Z)], Ok tt).
Proof. exists [B "root:secret:0::::"; B "ann::1001:7:::"]. vm_compute. reflexivity. Qed.
Print Assumptions C55_zero_refuted.
(** The numbers given for zero count from 1001 on their own. *)
Theorem C55_zero (T : Text) (C : Crypto) strength least scheme maildomain salts (file : str) (i : nat) u d number :
  bfilter (fun o => (d_uid o.1.2 =? 0)%Z) (newusers strength least scheme maildomain salts file).1 !! i = Some (u, d, number) ->
  (Z.of_nat i < 2 ^ 63)%Z -> number = (1001 + Z.of_nat i)%Z.
Proof.
  unfold newusers. set (x := rbind _ _). destruct x as [[us [xs c]]|e| |]; try done. cbn [fst snd].
  assert (G : forall us c auto i, bfilter (fun o => (d_uid o.1.2 =? 0)%Z) (print_users scheme maildomain salts us c auto).1 !! i = Some (u, d, number) ->
    (0 <= auto)%Z -> (auto + 1 + Z.of_nat i < 2 ^ 64)%Z -> number = (auto + 1 + Z.of_nat i)%Z).
  { clear. induction us as [|[u0 x] us IH]; intros c auto i; cbn [print_users]; [done|].
    destruct (one_user scheme maildomain (salts (u_line u0)) u0 x c auto) as [[[[d0 n0] c'] auto']|e| |] eqn:E; try done.
    specialize (IH c' auto'). destruct (print_users scheme maildomain salts us c' auto') as [out r]. cbn [fst] in *.
    assert (Ho : n0 = (if (d_uid d0 =? 0)%Z then auto' else d_uid d0) /\ auto' = if (d_uid d0 =? 0)%Z then ((auto + 1) mod 2 ^ 64)%Z else auto).
    { revert E. unfold one_user. destruct (if is_empty _ then _ else _) as [pw|e| |]; cbn [rbind]; try done.
      destruct (names_of maildomain u0) as [[[mail cn] given] sn]. cbv zeta. intros [= <- <- _ <-]. done. }
    destruct Ho as [-> Ho]. cbn [List.filter fst snd]. destruct (d_uid d0 =? 0)%Z eqn:Ez.
    - destruct i as [|i]; cbn [lookup list_lookup].
      + intros [= <- <- <-] H1 H2. rewrite Ho, Z.mod_small by lia. lia.
      + intros H H1 H2. rewrite Ho, Z.mod_small in IH by lia. rewrite (IH i H) by lia. lia.
    - intros H H1 H2. rewrite Ho in IH. by apply IH. }
  intros H Hi. rewrite (G _ _ _ _ H); lia.
Qed.
Print Assumptions C55_zero.
Example C55_zero_case :
  run [B "root:secret:0:1:::"; B "ann::1500:7:::"; B "toor::+0:1:::"] =
  ([(B "root", 1001%Z, 1%Z); (B "ann", 1500%Z, 7%Z); (B "toor", 1002%Z, 1%Z)], Ok tt).
Proof. vm_compute. reflexivity. Qed.
(** After the largest number the counter goes on with the smallest. *)
Theorem C55_overflow_refuted : exists lines,
  run lines = ([(B "a", 9223372036854775807%Z, 1%Z); (B "b", (-9223372036854775808)%Z, 1%Z);
                (B "c", (-9223372036854775808)%Z, (-9223372036854775808)%Z)], Ok tt).
Proof. exists [B "a::9223372036854775807:1:::"; B "b::-9223372036854775808:1:::"; B "c::::::"]. vm_compute. reflexivity. Qed.
Print Assumptions C55_overflow_refuted.
(** Equal explicit numbers are not noticed. *)
Theorem C55_duplicates_refuted : exists lines,
  run lines = ([(B "a", 5%Z, 1%Z); (B "b", 5%Z, 1%Z)], Ok tt).
Proof. exists [B "a::5:1:::"; B "b::5:1:::"]. vm_compute. reflexivity. Qed.
Print Assumptions C55_duplicates_refuted.

(** * C67 *)
(** The file is accepted exactly if every line that is neither blank nor a comment
    has at least seven fields and no weak password; the users are those lines. *)
Theorem C67_accepted (T : Text) strength least (file : str) us :
  parse_passwd strength least file = Ok us <->
  let lines := relevant 1 (scan_lines file) in
  Forall2 (fun nl u => u_line u = nl.1 /\
    exists d s rest, Bytes.split ":"%char (trim_dn nl.2) = [u_name u; u_passwd u; u_uid u; u_gid u; u_gecos u] ++ d :: s :: rest) lines us /\
  Forall (fun nl => 7 <= length (Bytes.split ":"%char (trim_dn nl.2)) /\
    forall pw, Bytes.split ":"%char (trim_dn nl.2) !! 1 = Some pw -> pw = [] \/ (least <= strength pw)%Z) lines.
Proof.
  unfold parse_passwd. rewrite parse_users_ok. cbn zeta. apply and_iff_compat_l.
  assert (E : forall l, good_line strength least l <-> 7 <= length (fields l) /\ forall pw, fields l !! 1 = Some pw -> pw = [] \/ (least <= strength pw)%Z).
  { intros l. unfold good_line. apply and_iff_compat_l. split; intros H pw Hp; specialize (H pw Hp).
    - unfold weak in H. destruct pw; [by left|]. right. cbn [is_empty negb andb] in H. by apply Z.ltb_ge.
    - unfold weak. destruct H as [->|H]; [done|]. apply Z.ltb_ge in H. rewrite H. apply andb_false_r. }
  split; intros H; (eapply Forall_impl; [exact H|]; intros [n l] Hl; by apply E).
Qed.
Print Assumptions C67_accepted.
(** The lines in question: those that are not blank and do not begin with '#', with
    their numbers, counted from one. *)
Theorem C67_relevant (T : Text) (lines : list str) (n : nat) (l : str) :
  In (n, l) (relevant 1 lines) <->
  1 <= n /\ lines !! (n - 1) = Some l /\ trim_dn l <> [] /\ (forall t, trim_dn l <> "#"%char :: t).
Proof.
  assert (G : forall k, In (n, l) (relevant k lines) <-> k <= n /\ lines !! (n - k) = Some l /\ skipped l = false).
  { induction lines as [|x lines IH]; intros k; cbn [relevant].
    - split; [done|]. intros (_ & H & _). done.
    - assert (E : k <= n /\ (x :: lines) !! (n - k) = Some l <-> (n, l) = (k, x) \/ S k <= n /\ lines !! (n - S k) = Some l).
      { split.
        - intros [H1 H2]. destruct (n - k) as [|m] eqn:Em.
          + left. cbn in H2. injection H2 as ->. f_equal. lia.
          + right. split; [lia|]. by replace (n - S k) with m by lia.
        - intros [[= -> ->]|[H1 H2]]; [by rewrite Nat.sub_diag|]. split; [lia|]. by replace (n - k) with (S (n - S k)) by lia. }
      destruct (skipped x) eqn:Es.
      + rewrite IH. rewrite (assoc and (k <= n)), E, (assoc and (S k <= n)).
        split; [intros [? ?]; split; auto|]. intros [[[= -> ->]|?] ?]; [congruence|done].
      + cbn [In]. rewrite IH, (assoc and (k <= n)), E, (assoc and (S k <= n)).
        split; [intros [[= -> ->]|[? ?]]; auto|]. intros [[[= -> ->]|?] ?]; auto. }
  rewrite G. repeat apply and_iff_compat_l. unfold skipped, is_comment. destruct (trim_dn l) as [|c t]; cbn [is_empty orb].
  - split; [done|by intros [? _]].
  - destruct (has_prefix (c :: t) (B "#")) eqn:E.
    + split; [done|]. intros [_ H]. apply has_prefix_spec in E as [t' E]. by apply H in E.
    + split; [|done]. intros _. split; [done|]. intros t' [= -> ->].
      assert (has_prefix ("#"%char :: t') (B "#") = true) by (apply has_prefix_spec; by exists t'). congruence.
Qed.
Print Assumptions C67_relevant.
(** A line of five or six fields, with only good lines before it, crashes the
    program before it has printed anything; nothing else does, hashing aside. *)
Theorem C67_crash (T : Text) strength least (file : str) :
  parse_passwd strength least file = Panic <->
  exists before nl after, relevant 1 (scan_lines file) = before ++ nl :: after /\
    Forall (fun nl => 7 <= length (Bytes.split ":"%char (trim_dn nl.2)) /\
      forall pw, Bytes.split ":"%char (trim_dn nl.2) !! 1 = Some pw -> pw = [] \/ (least <= strength pw)%Z) before /\
    5 <= length (Bytes.split ":"%char (trim_dn nl.2)) < 7.
Proof.
  unfold parse_passwd. rewrite parse_users_panic.
  assert (E : forall l, good_line strength least l <-> 7 <= length (fields l) /\ forall pw, fields l !! 1 = Some pw -> pw = [] \/ (least <= strength pw)%Z).
  { intros l. unfold good_line. apply and_iff_compat_l. split; intros H pw Hp; specialize (H pw Hp).
    - unfold weak in H. destruct pw; [by left|]. right. cbn [is_empty negb andb] in H. by apply Z.ltb_ge.
    - unfold weak. destruct H as [->|H]; [done|]. apply Z.ltb_ge in H. rewrite H. apply andb_false_r. }
  split; intros (b & nl & a & H1 & H2 & H3); exists b, nl, a; (split; [done|]; split; [|done]);
    (eapply Forall_impl; [exact H2|]; intros [n l] Hl; by apply E).
Qed.
Print Assumptions C67_crash.
(** Unless every line and every number is good nothing is printed. *)
Theorem C67_nothing_printed (T : Text) (C : Crypto) strength least scheme maildomain salts (file : str) :
  (forall us, parse_passwd strength least file = Ok us ->
     exists u, In u us /\ (u_uid u <> [] /\ parse_int (u_uid u) = None \/ u_gid u <> [] /\ parse_int (u_gid u) = None)) ->
  exists r, newusers strength least scheme maildomain salts file = ([], r) /\ r <> Ok tt.
Proof.
  intros H. unfold newusers. destruct (parse_passwd strength least file) as [us|e| |] eqn:E; cbn [rbind]; [|by eexists..].
  specialize (H us eq_refl) as (u & Hu & Hn).
  destruct (explicit us 1000) as [x|e| |] eqn:Ex; cbn [rbind]; [|by eexists..]. exfalso.
  assert (Hf : Forall (fun u => numeric (u_uid u) /\ numeric (u_gid u)) us) by (apply (explicit_ok us 1000); eauto).
  rewrite List.Forall_forall in Hf. destruct (Hf u Hu) as [N1 N2]. unfold numeric in *.
  destruct Hn as [[Hn1 Hn2]|[Hn1 Hn2]]; [destruct N1 as [?|[? ?]]|destruct N2 as [?|[? ?]]]; congruence.
Qed.
Print Assumptions C67_nothing_printed.
(** So it ends the run: with a crash, or with an error for lines of less than five
    fields, weak passwords and numbers that are none. *)
Theorem C67_ends (T : Text) (C : Crypto) strength least scheme maildomain salts (file : str) :
  let run := newusers strength least scheme maildomain salts file in
  (parse_passwd strength least file = Panic -> run = ([], Panic)) /\
  (forall e, parse_passwd strength least file = Err e -> run = ([], Err EOther)) /\
  (forall us u, parse_passwd strength least file = Ok us -> In u us ->
     u_uid u <> [] /\ parse_int (u_uid u) = None \/ u_gid u <> [] /\ parse_int (u_gid u) = None -> run = ([], Err EOther)) /\
  parse_passwd strength least file <> Diverge.
Proof.
  assert (Hp : forall n ls e, parse_users strength least n ls = Err e -> e = EOther).
  { intros n ls. revert n. induction ls as [|l ls IH]; intros n e; cbn [parse_users]; [done|].
    destruct (parse_user strength least n l) as [r|] eqn:Er; [|apply IH]. unfold parse_user in Er.
    destruct (is_empty (trim_dn l) || is_comment (trim_dn l)); [done|]. injection Er as <-.
    destruct (Bytes.split ":"%char (trim_dn l)) as [|? [|? [|? [|? [|? [|? [|? ?]]]]]]]; cbn [rbind]; try (by intros [= <-]); try done.
    match goal with |- context [negb (is_empty ?x) && ?y] => destruct (negb (is_empty x) && y) end; cbn [rbind]; [by intros [= <-]|].
    destruct (parse_users strength least (S n) ls) as [us|e'| |] eqn:E; cbn [rbind]; try done. intros [= <-]. by apply (IH (S n)). }
  assert (Hd : forall n ls, parse_users strength least n ls <> Diverge).
  { intros n ls. revert n. induction ls as [|l ls IH]; intros n; cbn [parse_users]; [done|].
    destruct (parse_user strength least n l) as [r|] eqn:Er; [|apply IH]. unfold parse_user in Er.
    destruct (is_empty (trim_dn l) || is_comment (trim_dn l)); [done|]. injection Er as <-.
    destruct (Bytes.split ":"%char (trim_dn l)) as [|? [|? [|? [|? [|? [|? [|? ?]]]]]]]; cbn [rbind]; try done.
    match goal with |- context [negb (is_empty ?x) && ?y] => destruct (negb (is_empty x) && y) end; cbn [rbind]; [done|].
    specialize (IH (S n)). destruct (parse_users strength least (S n) ls); done. }
  assert (Hx : forall us c, (exists x, explicit us c = Ok x) \/ explicit us c = Err EOther).
  { induction us as [|u us IH]; intros c; cbn [explicit]; [left; by eexists|]. unfold number_of.
    destruct (is_empty (u_uid u)), (is_empty (u_gid u)); cbn [rbind];
      repeat match goal with |- context [match parse_int ?s with _ => _ end] => destruct (parse_int s); cbn [rbind]; [|by right] end;
      match goal with |- context [explicit us ?c] => destruct (IH c) as [[x ->]| ->] end; cbn [rbind]; eauto. }
  cbv zeta. unfold newusers. split; [by intros ->|]. split; [|split; [|apply Hd]].
  - intros e He. rewrite He. cbn [rbind]. by rewrite (Hp _ _ _ He).
  - intros us u -> Hu Hn. cbn [rbind]. destruct (Hx us 1000%Z) as [[x Ex]| ->]; [|done]. exfalso.
    assert (Hf : Forall (fun u => numeric (u_uid u) /\ numeric (u_gid u)) us) by (apply (explicit_ok us 1000); eauto).
    rewrite List.Forall_forall in Hf. destruct (Hf u Hu) as [N1 N2]. unfold numeric in *.
    destruct Hn as [[Hn1 Hn2]|[Hn1 Hn2]]; [destruct N1 as [?|[? ?]]|destruct N2 as [?|[? ?]]]; congruence.
Qed.
Print Assumptions C67_ends.
(** A line of 65536 bytes or more ends the input: it and everything after it is
    left out without an error. *)
Theorem C67_long_line (T : Text) (C : Crypto) strength least scheme maildomain salts (lines : list str) (long rest : str) :
  Forall (fun l => Forall (fun x => aeqb lf x = false) l /\ (Z.of_nat (length l) < 65536)%Z) lines ->
  Forall (fun x => aeqb lf x = false) long -> (65536 <= Z.of_nat (length long))%Z ->
  let file := List.concat (map (fun l => l ++ [lf]) lines) in
  newusers strength least scheme maildomain salts (file ++ long ++ lf :: rest) = newusers strength least scheme maildomain salts file.
Proof.
  intros H Hl1 Hl2 file. unfold newusers, parse_passwd.
  assert (scan_lines (file ++ long ++ lf :: rest) = scan_lines file) as ->; [|done].
  assert (E : forall t, Bytes.split lf (file ++ t) = lines ++ Bytes.split lf t).
  { intros t. unfold file. clear file. induction H as [|l lines [Hl _] _ IH]; [done|]. cbn [map List.concat]. rewrite <- !app_assoc. cbn [app].
    rewrite split_app_sep by done. by rewrite IH. }
  unfold scan_lines. rewrite <- (app_nil_r file) at 2. rewrite !E, split_app_sep by done.
  assert (Hs : Forall short lines) by (eapply Forall_impl; [exact H|]; by intros x [_ Hx]).
  rewrite !fitting_short by done. f_equal. f_equal. rewrite fitting_long; [done|]. unfold short, max_line. lia.
Qed.
Print Assumptions C67_long_line.
Example C67_case :
  run [B "  # ann:x"; B "ann:secret:1500:100:Ann Lee:/home/ann:/bin/sh:extra"; []; B "bob::::::"] =
    ([(B "ann", 1500%Z, 100%Z); (B "bob", 1501%Z, 1501%Z)], Ok tt) /\
  run [B "ann:secret:1500:100:Ann Lee:/home/ann"] = ([], Panic) /\
  run [B "ann:secret:1500:100"; B "bob::::"] = ([], Err EOther) /\
  run [B "ann::::::"; B "bob:pw:1500::::"] = ([], Err EOther) /\
  run [B "ann::::::"; B "bob::x::::"] = ([], Err EOther).
Proof. vm_compute. repeat split. Qed.

(** * C68 *)
(** A password in the file is stored as a hash that accepts it and nothing else, and
    it was not weak. *)
Theorem C68_given (T : Text) (C : Crypto) (HT : TextOK T) (HC : CryptoOK C) strength least maildomain salts (file : str) u d number q :
  In (u, d, number) (newusers strength least (B "{ARGON2}") maildomain salts file).1 ->
  u_passwd u <> [] ->
  (validate q (d_password d) = Ok true <-> q = u_passwd u) /\ (least <= strength (u_passwd u))%Z.
Proof.
  intros Hin Hne. unfold newusers in Hin.
  destruct (parse_passwd strength least file) as [us|e| |] eqn:E; cbn [rbind] in Hin; try done.
  destruct (explicit us 1000) as [[xs c]|e| |]; cbn [rbind fst snd] in Hin; try done.
  pose proof (print_each (B "{ARGON2}") maildomain salts (combine us xs) c 1000) as H. rewrite List.Forall_forall in H.
  destruct (H _ Hin) as (Hu & Hp & _). destruct (u_passwd u) as [|c0 pw] eqn:Ep; [done|]. cbn [is_empty] in Hp. rewrite <- Ep in *. split.
  - destruct (C29_hash_then_validate T C HT HC _ _ _ _ q Hp) as [[_ ?]|[? _]]; done.
  - apply in_map_iff in Hu as ([u' x] & Hx & Hu). cbn in Hx. subst u'. apply in_combine_l in Hu. apply parse_users_ok in E as [E1 E2].
    apply elem_of_list_In, elem_of_list_lookup in Hu as [i Hi]. destruct (Forall2_lookup_r _ _ _ _ _ E1 Hi) as ([n l] & Hl & _ & a & b & rest & Hf).
    rewrite List.Forall_forall in E2. apply elem_of_list_lookup_2, elem_of_list_In in Hl. destruct (E2 _ Hl) as [_ Hw].
    cbn [snd] in *. specialize (Hw (u_passwd u)). rewrite Hf in Hw. specialize (Hw eq_refl). unfold weak in Hw. rewrite Ep in *.
    cbn [is_empty negb andb] in Hw. by apply Z.ltb_ge in Hw.
Qed.
Print Assumptions C68_given.
(** Without a password the name of the user is the password, in clear text. *)
Theorem C68_missing (T : Text) (C : Crypto) (HT : TextOK T) strength least scheme maildomain salts (file : str) u d number :
  In (u, d, number) (newusers strength least scheme maildomain salts file).1 ->
  u_passwd u = [] ->
  d_password d = u_name u /\
  (u_name u <> [] -> (forall sch rest, ~ has_scheme (u_name u) sch rest) ->
   forall q, validate q (d_password d) = Ok true <-> q = u_name u).
Proof.
  intros Hin He. unfold newusers in Hin.
  destruct (parse_passwd strength least file) as [us|e| |] eqn:E; cbn [rbind] in Hin; try done.
  destruct (explicit us 1000) as [[xs c]|e| |]; cbn [rbind fst snd] in Hin; try done.
  pose proof (print_each scheme maildomain salts (combine us xs) c 1000) as H. rewrite List.Forall_forall in H.
  destruct (H _ Hin) as (_ & Hp & _). rewrite He in Hp. injection Hp as Hp. rewrite <- Hp. split; [done|].
  intros Hn Hs q. by apply (C29_clear_text_validates_exactly T C HT).
Qed.
Print Assumptions C68_missing.
Definition passwords (lines : list str) : list (str * str) :=
  map (fun o => (u_name o.1.1, d_password o.1.2))
    (newusers (T:=ascii_text) (C:=toy) score 3 (B "{ARGON2}") (B "example.org") (fun _ => B "salt") (gen_file lines)).1.
Example C68_case :
  passwords [B "ann:secret:::::"; B "bob::::::"] = [(B "ann", B "{ARGON2}salt|secret"); (B "bob", B "bob")] /\
  validate (T:=ascii_text) (C:=toy) (B "secret") (B "{ARGON2}salt|secret") = Ok true /\
  validate (T:=ascii_text) (C:=toy) (B "bob") (B "bob") = Ok true.
Proof. vm_compute. repeat split. Qed.

(** * C69 *)
(** Whatever is in the file, each user gives one entry: the printed text has one dn
    line for each user, at most one userPassword line and exactly one uidNumber
    line, all from the values of that user.  Fields cannot add lines. *)
Theorem C69_entries (T : Text) (C : Crypto) strength least scheme maildomain salts (file : str) :
  (forall s, exists a b, s = a ++ trim_dn s ++ b) ->
  (forall p salt h, argon2_hash p salt = LOk h -> Forall (fun x => aeqb lf x = false) h) ->
  Forall (fun x => aeqb lf x = false) maildomain ->
  let out := (newusers strength least scheme maildomain salts file).1 in
  let lines := Bytes.split lf (printed out) in
  bfilter (fun l => has_prefix l (B "dn:")) lines =
    map (fun o => B "dn: uid=" ++ u_name o.1.1 ++ B ",ou=Users,ou={{.Company}},{{.BaseDN}}") out /\
  bfilter (fun l => has_prefix l (B "userPassword:")) lines =
    flat_map (fun o => if is_empty (d_password o.1.2) then [] else [B "userPassword: " ++ d_password o.1.2]) out /\
  bfilter (fun l => has_prefix l (B "uidNumber:")) lines = map (fun o => B "uidNumber: " ++ dec o.2) out.
Proof.
  intros H1 H2 H3 out lines. subst lines out. rewrite newusers_lines by done.
  set (out := (newusers _ _ _ _ _ _).1). clearbody out.
  assert (E : forall (p : str) (g : user * detail * Z -> list str), has_prefix [] p = false ->
    (forall u d n, bfilter (fun l => has_prefix l p) (user_lines u d n) = g (u, d, n)) ->
    bfilter (fun l => has_prefix l p) (List.concat (map (fun o => user_lines o.1.1 o.1.2 o.2) out) ++ [[]]) = flat_map g out).
  { intros p g Hp Hg. rewrite List.filter_app. cbn [bfilter]. rewrite Hp, app_nil_r. clear -Hg. induction out as [|[[u d] n] out IH]; [done|].
    cbn [map List.concat flat_map]. rewrite List.filter_app, IH. cbn [fst snd]. by rewrite Hg. }
  assert (F : forall (f : user * detail * Z -> str), flat_map (fun o => [f o]) out = map f out).
  { intros f. clear. induction out as [|o out IH]; [done|]. cbn. by rewrite IH. }
  assert (Hmap : forall (p a : str) ms, (forall m, has_prefix (a ++ m) p = false) -> bfilter (fun l => has_prefix l p) (map (fun m => a ++ m) ms) = []).
  { intros p a ms Hm. induction ms as [|m ms IH]; [done|]. cbn [map bfilter]. by rewrite Hm, IH. }
  split; [|split].
  - rewrite <- F. apply E; [done|]. intros u d n. unfold user_lines, user_dn, base_dn, opt_line.
    rewrite !List.filter_app, Hmap by done.
    destruct (d_gid d =? 0)%Z, (is_empty (d_password d)), (is_empty (d_given d)), (is_empty (d_sn d)); reflexivity.
  - apply E; [done|]. intros u d n. unfold user_lines, user_dn, base_dn, opt_line. cbn [fst snd].
    rewrite !List.filter_app, Hmap by done.
    destruct (d_gid d =? 0)%Z, (is_empty (d_password d)), (is_empty (d_given d)), (is_empty (d_sn d)); reflexivity.
  - rewrite <- F. apply E; [done|]. intros u d n. unfold user_lines, user_dn, base_dn, opt_line.
    rewrite !List.filter_app, Hmap by done.
    destruct (d_gid d =? 0)%Z, (is_empty (d_password d)), (is_empty (d_given d)), (is_empty (d_sn d)); reflexivity.
Qed.
Print Assumptions C69_entries.
(** What is printed about a user, line by line. *)
Theorem C69_lines (T : Text) (u : user) (d : detail) (number : Z) :
  user_lines u d number =
  [B "# " ++ dec (Z.of_nat (u_line u)) ++ B ": " ++ trim_dn (u_name u);
   B "dn: uid=" ++ u_name u ++ B ",ou=Users,ou={{.Company}},{{.BaseDN}}";
   B "objectClass: posixAccount"; B "objectClass: top"; B "objectClass: inetOrgPerson";
   B "uid: " ++ u_name u; B "uidNumber: " ++ dec number] ++
  (if (d_gid d =? 0)%Z then [] else [B "gidNumber: " ++ dec (d_gid d)]) ++
  (if is_empty (d_password d) then [] else [B "userPassword: " ++ d_password d]) ++
  [B "mail: " ++ u_name u ++ B "@{{.MailDomain}}"] ++
  map (fun m => B "mailAlternateAddress: " ++ m) (d_mail d) ++
  [B "cn: " ++ d_cn d] ++
  (if is_empty (d_given d) then [] else [B "givenName: " ++ d_given d]) ++
  (if is_empty (d_sn d) then [] else [B "sn: " ++ d_sn d]) ++ [[]].
Proof. reflexivity. Qed.
Print Assumptions C69_lines.
(** An address as the regular expression of utils.go wants it. *)
Definition alphanumeric (c : ascii) : Prop :=
  (97 <= N_of_ascii c <= 122 \/ 65 <= N_of_ascii c <= 90 \/ 48 <= N_of_ascii c <= 57)%N.
Definition label (l : str) : Prop :=
  (exists a, l = [a] /\ alphanumeric a) \/
  exists a m z, l = a :: m ++ [z] /\ alphanumeric a /\ alphanumeric z /\ length m <= 61 /\
    Forall (fun c => alphanumeric c \/ c = "-"%char) m.
Definition address (v : str) : Prop :=
  exists local labels, v = local ++ B "@" ++ Bytes.join (B ".") labels /\ local <> [] /\ labels <> [] /\
    Forall (fun c => alphanumeric c \/ In c (B ".!#$%&'*+/=?^_`{|}~-")) local /\ Forall label labels.
Lemma alnum_spec c : alnum c = true <-> alphanumeric c.
Proof.
  unfold alnum, alphanumeric, is_lower, is_upper, is_digit, code. rewrite !orb_true_iff, !andb_true_iff, !N.leb_le. tauto.
Qed.
Lemma mail_char_spec c : mail_char c = true <-> alphanumeric c \/ In c (B ".!#$%&'*+/=?^_`{|}~-").
Proof.
  unfold mail_char. rewrite orb_true_iff, alnum_spec. apply or_iff_compat_l. rewrite existsb_exists. split.
  - intros (x & Hx & E). apply aeqb_eq in E. by subst.
  - intros H. exists c. split; [done|apply aeqb_refl].
Qed.
Lemma inner_spec c : alnum c || aeqb c "-"%char = true <-> alphanumeric c \/ c = "-"%char.
Proof. by rewrite orb_true_iff, alnum_spec, aeqb_eq. Qed.
Lemma mail_label_spec l : mail_label l = true <-> label l.
Proof.
  unfold mail_label, label. destruct l as [|a l].
  { split; [done|]. intros [(? & ? & _)|(? & ? & ? & ? & _)]; done. }
  rewrite !andb_true_iff, Nat.leb_le, !alnum_spec, forallb_forall. split.
  - intros (((H1 & H2) & H3) & H4). destruct l as [|z l' _] using rev_ind; [left; by exists a|].
    right. exists a, l', z. split; [done|]. split; [done|].
    replace (List.last (a :: l' ++ [z]) a) with z in H2 by (change (a :: l' ++ [z]) with ((a :: l') ++ [z]); by rewrite last_last).
    split; [done|]. cbn [length] in H4. rewrite app_length in H4. cbn [length] in H4. split; [lia|].
    apply List.Forall_forall. intros c Hc. apply inner_spec, H3. right. apply in_app_iff. by left.
  - intros [(x & [= -> ->] & Hx)|(x & m & z & [= -> ->] & Hx & Hz & Hm & Hf)].
    + cbn [List.last length]. repeat split; [done|done| |lia]. intros c [->|[]]. by apply inner_spec; left.
    + replace (List.last (x :: m ++ [z]) x) with z by (change (x :: m ++ [z]) with ((x :: m) ++ [z]); by rewrite last_last).
      repeat split; [done|done| |cbn [length]; rewrite app_length; cbn [length]; lia].
      rewrite List.Forall_forall in Hf. intros c [<-|Hc]; [by apply inner_spec; left|].
      apply inner_spec. apply in_app_iff in Hc as [Hc|[<-|[]]]; [by apply Hf|by left].
Qed.
Lemma label_chars x l : alnum x = false -> aeqb x "-"%char = false -> mail_label l = true -> Forall (fun c => aeqb x c = false) l.
Proof.
  unfold mail_label. destruct l as [|a l]; [done|]. rewrite !andb_true_iff, forallb_forall. intros Hx1 Hx2 (((_ & _) & H) & _).
  apply List.Forall_forall. intros c Hc. specialize (H c Hc). destruct (aeqb x c) eqn:E; [|done]. apply aeqb_eq in E. subst c.
  by rewrite Hx1, Hx2 in H.
Qed.
Lemma address_spec v : is_email v = true <-> address v.
Proof.
  unfold is_email, address. split.
  - destruct (Bytes.split "@"%char v) as [|local [|domain [|? ?]]] eqn:E; try done.
    rewrite !andb_true_iff, negb_true_iff, is_empty_false, !forallb_forall. intros ((H1 & H2) & H3).
    exists local, (Bytes.split "."%char domain). split.
    { change (B "." : str) with ["."%char]. rewrite join_split, <- (join_split "@"%char v), E. done. }
    split; [done|]. split; [apply split_nonempty|]. split; apply List.Forall_forall.
    + intros c Hc. by apply mail_char_spec, H2.
    + intros l Hl. by apply mail_label_spec, H3.
  - intros (local & labels & -> & H1 & H2 & H3 & H4).
    assert (Hl : Forall (fun c => aeqb "@"%char c = false) local).
    { eapply Forall_impl; [exact H3|]. intros c Hc. apply mail_char_spec in Hc. destruct (aeqb "@"%char c) eqn:E; [|done].
      apply aeqb_eq in E. by subst c. }
    assert (H4' : Forall (fun l => mail_label l = true) labels).
    { eapply Forall_impl; [exact H4|]. intros l Hc. by apply mail_label_spec. }
    assert (Hd : Forall (fun c => aeqb "@"%char c = false) (Bytes.join (B ".") labels)).
    { clear -H4'. induction H4' as [|l ls Hl _ IH]; [constructor|]. apply (label_chars "@"%char) in Hl; [|done..].
      destruct ls; [done|]. cbn [Bytes.join]. apply Forall_app. split; [done|]. constructor; [done|]. exact IH. }
    change (B "@" ++ Bytes.join (B ".") labels) with ("@"%char :: Bytes.join (B ".") labels).
    rewrite (split_app_sep "@"%char local _ Hl), (split_no_sep _ _ Hd).
    change (B "." : str) with ["."%char]. rewrite split_join_ch; [|done|].
    + rewrite !andb_true_iff, negb_true_iff, is_empty_false, !forallb_forall. split; [split; [done|]|].
      * rewrite List.Forall_forall in H3. intros c Hc. by apply mail_char_spec, H3.
      * rewrite List.Forall_forall in H4'. exact H4'.
    + eapply Forall_impl; [exact H4'|]. intros l Hc. by apply label_chars.
Qed.
(** The addresses among some fields, the own domain replaced. *)
Definition shown (domain v w : str) : Prop :=
  (exists a, domain <> [] /\ v = a ++ B "@" ++ domain /\ w = a ++ B "@{{.MailDomain}}") \/
  w = v /\ forall a, domain <> [] -> v <> a ++ B "@" ++ domain.
Inductive addresses (domain : str) : list str -> list str -> Prop :=
| addresses_nil : addresses domain [] []
| addresses_skip v vs ws : ~ address v -> addresses domain vs ws -> addresses domain (v :: vs) ws
| addresses_take v w vs ws : address v -> shown domain v w -> addresses domain vs ws -> addresses domain (v :: vs) (w :: ws).
Lemma mail_of_spec domain vs : addresses domain vs (flat_map (mail_of domain) vs).
Proof.
  induction vs as [|v vs IH]; [constructor|]. cbn [flat_map]. unfold mail_of at 1. destruct (is_email v) eqn:E.
  - apply address_spec in E. cbn [app]. constructor; [done| |done].
    destruct (negb (is_empty domain) && has_suffix v (B "@" ++ domain)) eqn:Es.
    + apply andb_true_iff in Es as [E1 E2]. rewrite negb_true_iff, is_empty_false in E1.
      apply has_suffix_spec in E2 as [t ->]. left. exists t. split; [done|]. split; [done|].
      rewrite app_length. replace (length t + length (B "@" ++ domain) - length (B "@" ++ domain)) with (length t) by lia.
      by rewrite take_app.
    + right. split; [done|]. intros a Hd ->. apply andb_false_iff in Es as [Es|Es].
      * apply negb_false_iff, is_empty_true in Es. done.
      * apply not_true_iff_false in Es. apply Es, has_suffix_spec. by exists a.
  - cbn [app]. constructor; [|done]. intros H. apply address_spec in H. congruence.
Qed.
(** Where the values come from: without a GECOS field the name is the full name,
    otherwise what is before its first comma; the given name is what is before the
    first space of that; the other parts are searched for addresses. *)
Theorem C69_values (T : Text) (C : Crypto) strength least scheme maildomain salts (file : str) u d number :
  In (u, d, number) (newusers strength least scheme maildomain salts file).1 ->
  (u_gecos u = [] -> d_cn d = u_name u /\ d_given d = [] /\ d_sn d = [] /\ d_mail d = []) /\
  (u_gecos u <> [] -> exists full rest,
     u_gecos u = Bytes.join (B ",") (full :: rest) /\ Forall (fun s => ~ In ","%char s) (full :: rest) /\
     d_cn d = full /\
     (~ In " "%char full /\ d_given d = [] /\ d_sn d = [] \/
      full = d_given d ++ B " " ++ d_sn d /\ ~ In " "%char (d_given d)) /\
     addresses maildomain rest (d_mail d)).
Proof.
  unfold newusers. destruct (us <-- parse_passwd strength least file ;; x <-- explicit us 1000 ;; Ok (us, x)) as [[us x]|e| |]; [|done..].
  pose proof (print_each scheme maildomain salts (combine us x.1) x.2 1000%Z) as H.
  rewrite List.Forall_forall in H. intros Hin. specialize (H _ Hin) as (_ & _ & H). clear Hin. unfold names_of in H.
  destruct (is_empty (u_gecos u)) eqn:E.
  { apply is_empty_true in E. injection H as <- <- <- <-. by split. }
  apply is_empty_false in E. split; [done|]. intros _.
  pose proof (join_split ","%char (u_gecos u)) as Hj. pose proof (split_parts ","%char (u_gecos u)) as Hs.
  destruct (Bytes.split ","%char (u_gecos u)) as [|full rest] eqn:Ef; [by apply split_nonempty in Ef|].
  exists full, rest. split; [done|]. split.
  { eapply Forall_impl; [exact Hs|]. intros s Hc Hi. rewrite List.Forall_forall in Hc. specialize (Hc _ Hi). by rewrite aeqb_refl in Hc. }
  cbn [splitn] in H. destruct (index_of " "%char full) as [i|] eqn:Ei.
  - apply index_of_spec in Ei as (a & b & -> & Ha & <-). rewrite take_app, drop_1_app in H. injection H as <- <- <- <-.
    split; [done|]. split; [right; by split|apply mail_of_spec].
  - apply index_of_none in Ei. injection H as <- <- <- <-. split; [done|]. split; [by left|apply mail_of_spec].
Qed.
Print Assumptions C69_values.
(** If the name needs no escaping its entry is directly below the users. *)
Theorem C69_place (T : Text) (HT : TextOK T) (name : str) (base : dn) :
  encode_rdn_value name = name -> base <> [] -> wf_dn base = true -> last_ok base = true ->
  parse_dn (B "uid=" ++ name ++ B "," ++ flat base) = Some ([(B "uid", name)] :: base).
Proof.
  intros Hn Hb Hw Hl. destruct base as [|r base]; [done|].
  assert (E : B "uid=" ++ name ++ B "," ++ flat (r :: base) = flat ([(B "uid", name)] :: r :: base)).
  { rewrite <- Hn at 1. unfold flat. cbn [map Bytes.join]. unfold flat_rdn at 2. cbn [map Bytes.join]. unfold flat_ava. cbn [fst snd].
    done. }
  rewrite E. apply (parse_flat HT); [|done]. cbn [wf_dn forallb]. rewrite andb_true_iff. by split.
Qed.
Print Assumptions C69_place.
(** But names are printed without escaping: a name with a comma puts its entry
    elsewhere, and one with template commands is a template. *)
Theorem C69_place_refuted : exists name : str,
  passwords [name ++ B ":secret:::::"] = [(name, B "{ARGON2}salt|secret")] /\
  parse_dn (T:=ascii_text) (B "uid=" ++ name ++ B ",ou=Users,o=x") =
    Some [[(B "uid", B "eve")]; [(B "ou", B "admins")]; [(B "ou", B "Users")]; [(B "o", B "x")]].
Proof. exists (B "eve,ou=admins"). vm_compute. repeat split. Qed.
Print Assumptions C69_place_refuted.
Example C69_case :
  Bytes.split lf (printed (T:=ascii_text) (newusers (T:=ascii_text) (C:=toy) score 3 (B "{ARGON2}") (B "example.org") (fun _ => B "salt")
    (gen_file [B "ann:secret:5:0:Ann Lee,ann.lee@example.org,al@x.net::"; B "bob::::::"])).1) =
  [B "# 1: ann"; B "dn: uid=ann,ou=Users,ou={{.Company}},{{.BaseDN}}";
   B "objectClass: posixAccount"; B "objectClass: top"; B "objectClass: inetOrgPerson"; B "uid: ann"; B "uidNumber: 5";
   B "userPassword: {ARGON2}salt|secret"; B "mail: ann@{{.MailDomain}}"; B "mailAlternateAddress: ann.lee@{{.MailDomain}}";
   B "mailAlternateAddress: al@x.net"; B "cn: Ann Lee"; B "givenName: Ann"; B "sn: Lee"; [];
   B "# 2: bob"; B "dn: uid=bob,ou=Users,ou={{.Company}},{{.BaseDN}}";
   B "objectClass: posixAccount"; B "objectClass: top"; B "objectClass: inetOrgPerson"; B "uid: bob"; B "uidNumber: 1001"; B "gidNumber: 1001";
   B "userPassword: bob"; B "mail: bob@{{.MailDomain}}"; B "cn: bob"; []; []] /\
  encode_rdn_value (B "ann") = B "ann" /\ encode_rdn_value (B "eve,ou=admins") <> B "eve,ou=admins".
Proof. vm_compute. repeat split. discriminate. Qed.
