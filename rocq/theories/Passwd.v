(** The passwd command (cmd/idmd/gen/passwd).  Definitions only. *)
From Verif Require Import Bytes Text Res Password.

(** fmt.Fprintf(os.Stdout, format) without further arguments (passwd.go:144), a
    library call: what the documentation of package fmt says about "%%", about a
    verb without argument and about a missing verb, with flags, width and precision
    skipped.  Simplification: None, not modelled, for an explicit argument index
    or a star, for numbers of more than six digits and for verbs outside ASCII. *)
Inductive fstate := FText | FFlags | FWidth (n : nat) | FPrec (n : nat).
Definition is_flag (c : ascii) : bool := existsb (aeqb c) (B "#0+- ").
Fixpoint printf0 (st : fstate) (s : str) : option str :=
  match s with
  | [] => match st with FText => Some [] | _ => Some (B "%!(NOVERB)") end
  | c :: s' =>
      let verb :=
        if aeqb c "%"%char then cons c <$> printf0 FText s'
        else if aeqb c "["%char || aeqb c "*"%char || negb (is_ascii c) then None
        else (fun t => B "%!" ++ c :: B "(MISSING)" ++ t) <$> printf0 FText s' in
      let number (n : nat) (next : nat -> fstate) := if 6 <=? n then None else printf0 (next (S n)) s' in
      match st with
      | FText => if aeqb c "%"%char then printf0 FFlags s' else cons c <$> printf0 FText s'
      | FFlags => if is_flag c then printf0 FFlags s'
                  else if is_digit c then number 0 FWidth
                  else if aeqb c "."%char then printf0 (FPrec 0) s' else verb
      | FWidth n => if is_digit c then number n FWidth
                    else if aeqb c "."%char then printf0 (FPrec 0) s' else verb
      | FPrec n => if is_digit c then number n FPrec else verb
      end
  end.

(** The flags of passwd.go:54-66: each of -s, -T and -g with its value if it was
    given on the command line ([Changed]); of a secret file the contents, None if
    it cannot be read. *)
Record pflags := mkFlags {
  f_secret : option str; f_file : option (option str); f_generate : option bool;
  f_scheme : str; f_omit : bool; f_least : Z }.

Section passwd.
Context {T : Text} {C : Crypto}.
(** EstimatePasswordStrength (pkg/ldappassword/ldappassword.go:116-119) and
    password.Generate(12, 2, 2, false, false), library calls. *)
Context (strength : str -> Z) (generated : option str).

(** passwd.go:76-107, the function that looks at the flags: the secret, the number
    of flags counted and the scheme.  Simplification: its error is dropped, as no
    one looks at it (108-115: the counter is tested first, and with a count of zero
    the error is overwritten). *)
Definition flag_secret (fl : pflags) : str * nat * str :=
  let '(secret, n) := match f_secret fl with Some s => (s, 1) | None => ([], 0) end in
  let file := match f_file fl with
    | None => Some (secret, n)
    | Some c => if n =? 0 then match c with None => None | Some s => Some (s, 1) end else Some (secret, S n)
    end in
  match file with
  | None => (secret, n, f_scheme fl)
  | Some (secret, n) =>
      match f_generate fl with
      | None => (secret, n, f_scheme fl)
      | Some _ =>
          if n =? 0 then
            match generated with
            | None => (secret, n, f_scheme fl)
            | Some s => (s, 1, B "{CLEARTEXT}")
            end
          else (secret, S n, f_scheme fl)
      end
  end.

(** prompt.go:14-32 promptForPassword, the two lines typed being arguments.
    Simplification: the prompts themselves. *)
Definition prompted (p1 p2 : str) : res str :=
  if negb (seqb p1 p2) || is_empty p1 then Err EOther else Ok p1.

(** passwd.go:69-149 passwd: what is written to standard output (None: see
    [printf0]); nothing is with an error.  Simplification: the argon2 parameters
    (70-72) are part of the library call. *)
Definition passwd (fl : pflags) (p1 p2 salt : str) : res (option str) :=
  let '(secret, n, scheme) := flag_secret fl in
  if 1 <? n then Err EOther
  else
    secret <-- (if n =? 0 then prompted p1 p2 else Ok secret) ;;
    if is_empty (trim_dn secret) then Err EOther
    else if (strength secret <? f_least fl)%Z then Err EOther
    else
      hash <-- hash_password secret scheme salt ;;
      Ok ((fun t => if f_omit fl then t else t ++ ["010"%char]) <$> printf0 FText hash).
End passwd.
