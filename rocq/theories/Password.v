(** pkg/ldappassword.  Definitions only. *)
From Verif Require Import Bytes Text Res.

(** Outcome of a library call: result, error, or panic. *)
Inductive lib (A : Type) := LOk (a : A) | LErr | LPanic.
Arguments LOk {A} a.
Arguments LErr {A}.
Arguments LPanic {A}.

(** The hash libraries.  Not in /repo; arbitrary functions unless a theorem
    assumes [CryptoOK]. *)
Class Crypto := {
  (** argon2id.ComparePasswordAndHash(password, hash) *)
  argon2_compare : str -> str -> lib bool;
  (** argon2id.CreateHash(password, params), the random salt being an argument *)
  argon2_hash : str -> str -> lib str;
  (** pkg/ldappassword/crypt.go, crypt_disabled.go: crypt(pass, salt) *)
  crypt : str -> str -> lib str;
  (** crypto/sha1 Sum *)
  sha1 : str -> str;
  (** base64.StdEncoding.DecodeString *)
  b64dec : str -> option str
}.

(** What the salted hash promises: a created hash accepts its password and no
    other (ignoring collisions). *)
Record CryptoOK (C : Crypto) : Prop := {
  argon2_accepts : forall p salt h, argon2_hash p salt = LOk h -> argon2_compare p h = LOk true;
  argon2_rejects : forall p q salt h, argon2_hash p salt = LOk h -> q <> p ->
    argon2_compare q h <> LOk true
}.

Section password.
Context {T : Text} {C : Crypto}.

(** pkg/ldappassword/ldappassword.go:24-31: split off a leading "{...}".  The
    caller has checked that the string is not empty. *)
Definition split_scheme (hash : str) : str * str :=
  match hash with
  | c :: _ =>
      if aeqb c "{"%char then
        match index_of "}"%char hash with
        | Some (S i) => (take (S (S i)) hash, drop (S (S i)) hash)
        | _ => ([], hash)
        end
      else ([], hash)
  | [] => ([], hash)
  end.

(** pkg/ldappassword/ldappassword.go:54-63: the salt of a CRYPT hash of length
    at least two. *)
Definition crypt_salt (hash : str) : str :=
  match hash with
  | c :: _ =>
      if aeqb c "$"%char then
        let parts := splitn "$"%char 4 hash in
        if (length parts =? 4) then join (B "$") (take 4 parts) else take 2 hash
      else take 2 hash
  | [] => take 2 hash
  end.

(** pkg/ldappassword/ldappassword.go:23-93 Validate.  [hash[0]], [hash[:2]] and
    [decoded[len-4:]] panic when too short.  Simplification: the error texts
    are one [EOther]; ConstantTimeCompare is equality. *)
Definition validate (password hash : str) : res bool :=
  match hash with
  | [] => Panic
  | _ =>
      let '(alg, hash) := split_scheme hash in
      let compare (h p : str) := if seqb h p then Ok true else Err EOther in
      let a := to_upper alg in
      if seqb a [] then compare hash password
      else if seqb a (B "{ARGON2}") then
        match argon2_compare password hash with
        | LOk true => Ok true
        | LOk false | LErr => Err EOther
        | LPanic => Panic
        end
      else if seqb a (B "{CRYPT}") then
        if length hash <? 2 then Panic
        else match crypt password (crypt_salt hash) with
             | LOk enc => compare hash enc
             | LErr => Err EOther
             | LPanic => Panic
             end
      else if seqb a (B "{SSHA}") then
        match b64dec hash with
        | None => Err EOther
        | Some dec =>
            if length dec <? 4 then Panic
            else let salt := drop (length dec - 4) dec in
                 compare dec (sha1 (password ++ salt) ++ salt)
        end
      else Err EOther
  end.

(** pkg/ldappassword/ldappassword.go:95-114 Hash. *)
Definition hash_password (password algorithm salt : str) : res str :=
  if seqb algorithm [] || seqb algorithm (B "{CLEARTEXT}") then Ok password
  else if seqb algorithm (B "{ARGON2}") then
    match argon2_hash password salt with
    | LOk h => Ok (B "{ARGON2}" ++ h)
    | LErr => Err EOther
    | LPanic => Panic
    end
  else Err EOther.

(** pkg/ldappassword/ldappassword.go:122 *)
Definition pw_chars : str :=
  B "0123456789ABCDEFGHIJKLMNOPQRSTUVWXYZabcdefghijklmnopqrstuvwxyz-=+!@#$%^&*.".

(** pkg/ldappassword/ldappassword.go:121-133 GenerateRandomPassword.  [draws]
    are the successive results of rand.Int(rand.Reader, 74); a missing draw is
    a failure of the random source. *)
Fixpoint gen_loop (n : nat) (draws : list nat) : res str :=
  match n with
  | 0 => Ok []
  | S n' =>
      match draws with
      | [] => Err EOther
      | d :: draws' =>
          match pw_chars !! d with
          | Some c => s <-- gen_loop n' draws' ;; Ok (c :: s)
          | None => Panic
          end
      end
  end.
Definition generate_password (len : Z) (draws : list nat) : res str :=
  if (len <? 0)%Z then Panic else gen_loop (Z.to_nat len) draws.

(** * Specification vocabulary *)

(** The stored value [h] is the scheme [sch] (braces included) followed by
    [rest]. *)
Definition has_scheme (h sch rest : str) : Prop :=
  exists s, sch = B "{" ++ s ++ B "}" /\ ~ In "}"%char s /\ h = sch ++ rest.

(** The salt a CRYPT hash carries: the whole text if it begins with '$' and
    has at least two more of them ("$id$salt$..."), else the first two
    characters. *)
Definition glibc_crypt (rest : str) : bool :=
  match rest with
  | c :: r => aeqb c "$"%char && (2 <=? length (bfilter (aeqb "$"%char) r))
  | [] => false
  end.
Definition salt_of (rest : str) : str :=
  if glibc_crypt rest then rest else take 2 rest.

(** The password is accepted by the stored value. *)
Inductive accepts (p : str) : str -> Prop :=
| acc_clear h : (forall sch rest, ~ has_scheme h sch rest) -> h = p -> h <> [] -> accepts p h
| acc_argon2 h sch rest : has_scheme h sch rest -> to_upper sch = B "{ARGON2}" ->
    argon2_compare p rest = LOk true -> accepts p h
| acc_crypt h sch rest : has_scheme h sch rest -> to_upper sch = B "{CRYPT}" ->
    2 <= length rest -> crypt p (salt_of rest) = LOk rest -> accepts p h
| acc_ssha h sch rest salt : has_scheme h sch rest -> to_upper sch = B "{SSHA}" ->
    length salt = 4 -> b64dec rest = Some (sha1 (p ++ salt) ++ salt) -> accepts p h.

(** The stored values on which validating [p] panics. *)
Inductive chokes (p : str) : str -> Prop :=
| choke_empty : chokes p []
| choke_crypt h sch rest : has_scheme h sch rest -> to_upper sch = B "{CRYPT}" ->
    length rest < 2 -> chokes p h
| choke_ssha h sch rest dec : has_scheme h sch rest -> to_upper sch = B "{SSHA}" ->
    b64dec rest = Some dec -> length dec < 4 -> chokes p h
| choke_argon2_lib h sch rest : has_scheme h sch rest -> to_upper sch = B "{ARGON2}" ->
    argon2_compare p rest = LPanic -> chokes p h
| choke_crypt_lib h sch rest : has_scheme h sch rest -> to_upper sch = B "{CRYPT}" ->
    2 <= length rest -> crypt p (salt_of rest) = LPanic -> chokes p h.
End password.
