(** Properties C29-C32: passwords. *)
From Verif Require Import Bytes Text Res Password PasswordProofs.

(** A toy instance used for the examples: the argon2 "hash" is the salt, a
    separator and the password; crypt appends the password to the salt; base64
    decoding is the identity; sha1 is the identity. *)
Definition toy : Crypto := {|
  argon2_compare p h := if has_suffix h (B "|" ++ p) && (length h =? 5 + length p)
                        then LOk true else LOk false;
  argon2_hash p salt := if length salt =? 4 then LOk (salt ++ B "|" ++ p) else LErr;
  crypt p salt := LOk (take 2 salt ++ p);
  sha1 s := s;
  b64dec s := if contains s (B "!") then None else Some s
|}.
Lemma toy_ok : CryptoOK toy.
Proof.
  split.
  - intros p salt h. simpl. destruct (length salt =? 4) eqn:E; [|done].
    apply Nat.eqb_eq in E. intros [= <-].
    rewrite has_suffix_app, app_length. cbn [length]. rewrite E.
    cbn [plus]. rewrite Nat.eqb_refl. done.
  - intros p q salt h. simpl. destruct (length salt =? 4) eqn:E; [|done].
    apply Nat.eqb_eq in E. intros [= <-] Hne.
    destruct (has_suffix _ _) eqn:Es; simpl; [|done].
    destruct (Nat.eqb _ _) eqn:El; [|done]. apply Nat.eqb_eq in El.
    apply has_suffix_spec in Es as [x Hx]. exfalso. apply Hne.
    assert (Hlen : length x = length salt).
    { apply (f_equal length) in Hx. rewrite app_length in El, Hx. cbn [length] in El, Hx.
      rewrite app_length in Hx. cbn [length] in Hx. lia. }
    symmetry in Hlen. destruct (app_inj_1 _ _ _ _ Hlen Hx) as [_ [= Hp]]. done.
Qed.

(** C29.  A password hashed with ARGON2 validates against its hash and no other
    does; hashing in clear text stores the password itself ... *)
Theorem C29_hash_then_validate (T : Text) (C : Crypto) (HT : TextOK T) (HC : CryptoOK C)
    (p alg salt h q : str) :
  hash_password p alg salt = Ok h ->
  (alg = B "{ARGON2}" /\ (validate q h = Ok true <-> q = p)) \/
  (alg <> B "{ARGON2}" /\ h = p).
Proof. apply (hash_then_validate HT HC). Qed.
Print Assumptions C29_hash_then_validate.

(** ... and a clear-text value not beginning with a brace expression validates
    exactly the identical password. *)
Theorem C29_clear_text_validates_exactly (T : Text) (C : Crypto) (HT : TextOK T) (p q : str) :
  (forall sch rest, ~ has_scheme p sch rest) -> p <> [] ->
  validate q p = Ok true <-> q = p.
Proof. apply (clear_validates HT). Qed.
Print Assumptions C29_clear_text_validates_exactly.

Example C29_case :
  hash_password (C:=toy) (B "secret") (B "{ARGON2}") (B "salt") = Ok (B "{ARGON2}salt|secret") /\
  validate (T:=ascii_text) (C:=toy) (B "secret") (B "{ARGON2}salt|secret") = Ok true /\
  validate (T:=ascii_text) (C:=toy) (B "Secret") (B "{ARGON2}salt|secret") = Err EOther /\
  validate (T:=ascii_text) (C:=toy) (B "{open") (B "{open") = Ok true.
Proof. vm_compute. repeat split. Qed.

(** A password hashed in clear text that looks like a scheme does not validate
    against its own stored form. *)
Theorem C29_brace_password_refuted :
  exists (T : Text) (C : Crypto) (p salt : str), TextOK T /\ CryptoOK C /\
    hash_password p (B "{CLEARTEXT}") salt = Ok p /\ validate p p <> Ok true.
Proof.
  exists ascii_text, toy, (B "{x}y"), []. split; [apply ascii_text_ok|].
  split; [apply toy_ok|]. vm_compute. repeat split. discriminate.
Qed.
Print Assumptions C29_brace_password_refuted.

(** Not even the scheme name Hash itself knows is understood by Validate. *)
Theorem C29_cleartext_scheme_refuted :
  exists (T : Text) (C : Crypto) (p : str), TextOK T /\ CryptoOK C /\
    validate p (B "{CLEARTEXT}" ++ p) = Err EOther.
Proof.
  exists ascii_text, toy, (B "secret"). split; [apply ascii_text_ok|].
  split; [apply toy_ok|]. vm_compute. reflexivity.
Qed.
Print Assumptions C29_cleartext_scheme_refuted.

(** C30.  Validation says yes exactly in the listed cases, for any behaviour of
    the hash libraries. *)
Theorem C30_validation_not_fail_open (T : Text) (C : Crypto) (HT : TextOK T) (p h : str) :
  validate p h = Ok true <-> accepts p h.
Proof. apply (validate_accepts HT). Qed.
Print Assumptions C30_validation_not_fail_open.

(** Any other outcome is an error or a panic, never a bare "no". *)
Theorem C30_outcomes (T : Text) (C : Crypto) (HT : TextOK T) (p h : str) :
  validate p h = Ok true \/ validate p h = Err EOther \/ validate p h = Panic.
Proof. apply (validate_shape HT). Qed.
Print Assumptions C30_outcomes.

Example C30_case :
  validate (T:=ascii_text) (C:=toy) (B "pw") (B "{Crypt}sapw") = Ok true /\
  accepts (T:=ascii_text) (C:=toy) (B "pw") (B "{ssha}pwSALTSALT") /\
  validate (T:=ascii_text) (C:=toy) (B "pw") (B "{MD5}pw") = Err EOther /\
  validate (T:=ascii_text) (C:=toy) (B "pw") (B "{SSHA}pw!SALT") = Err EOther.
Proof.
  split; [vm_compute; reflexivity|]. split; [|vm_compute; repeat split].
  apply (validate_accepts ascii_text_ok). vm_compute. reflexivity.
Qed.

(** C31.  Validation panics exactly on the listed stored values. *)
Theorem C31_validation_panics_exactly (T : Text) (C : Crypto) (HT : TextOK T) (p h : str) :
  validate p h = Panic <-> chokes p h.
Proof. apply (validate_chokes HT). Qed.
Print Assumptions C31_validation_panics_exactly.

Example C31_case :
  validate (T:=ascii_text) (C:=toy) (B "pw") [] = Panic /\
  validate (T:=ascii_text) (C:=toy) (B "pw") (B "{CRYPT}x") = Panic /\
  validate (T:=ascii_text) (C:=toy) (B "pw") (B "{SSHA}abc") = Panic /\
  ~ chokes (T:=ascii_text) (C:=toy) (B "pw") (B "{SSHA}abcd").
Proof.
  repeat (split; [vm_compute; reflexivity|]).
  intros H. apply (validate_chokes ascii_text_ok) in H. vm_compute in H. discriminate.
Qed.

(** C32.  A generated password has the requested length and alphabet ... *)
Theorem C32_length_and_alphabet (len : Z) (draws : list nat) (s : str) :
  generate_password len draws = Ok s ->
  Z.of_nat (length s) = len /\ Forall (fun c => In c pw_chars) s /\
  length pw_chars = 74 /\ NoDup pw_chars.
Proof.
  unfold generate_password. destruct (len <? 0)%Z eqn:E; [done|]. intros H.
  apply gen_loop_spec in H as (_ & Hl & Hf). split; [lia|]. split.
  - apply List.Forall_forall. intros c Hc. apply elem_of_list_In.
    apply elem_of_list_In, elem_of_list_lookup in Hc as [i Hi].
    destruct (Forall2_lookup_r _ _ _ _ _ Hf Hi) as (d & _ & Hd).
    by eapply elem_of_list_lookup_2.
  - split; [done|apply pw_chars_nodup].
Qed.
Print Assumptions C32_length_and_alphabet.

(** ... and distinct draws give distinct passwords, every password over the
    alphabet being reached, so uniform draws give uniform passwords. *)
Theorem C32_one_to_one (n : nat) :
  (forall d1 d2 s, length d1 = n -> length d2 = n ->
     generate_password (Z.of_nat n) d1 = Ok s -> generate_password (Z.of_nat n) d2 = Ok s ->
     d1 = d2) /\
  (forall s, length s = n -> Forall (fun c => In c pw_chars) s ->
     exists d, length d = n /\ generate_password (Z.of_nat n) d = Ok s) /\
  (forall d, length d = n -> Forall (fun x => x < 74) d ->
     exists s, generate_password (Z.of_nat n) d = Ok s).
Proof.
  unfold generate_password. rewrite (proj2 (Z.ltb_ge _ _)), Nat2Z.id by lia.
  split; [|split].
  - intros d1 d2 s. apply gen_loop_inj.
  - intros s <- Hs. by apply gen_loop_surj.
  - intros d Hd Hf. apply gen_loop_ok; [lia|done].
Qed.
Print Assumptions C32_one_to_one.

Example C32_case :
  generate_password 5 [0; 73; 10; 36; 62] = Ok (B "0.Aa-").
Proof. vm_compute. reflexivity. Qed.
