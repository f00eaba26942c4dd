(** The newusers generator (cmd/idmd/gen/newusers): from a passwd-like file to
    LDIF text.  Definitions only. *)
From Coq Require Import DecimalString.
From Verif Require Import Bytes Text Res Password Source.

(** strconv.ParseInt(s, 10, 64): an optional sign and digits, in range. *)
Fixpoint digits (s : str) (acc : Z) : option Z :=
  match s with
  | [] => Some acc
  | c :: s' => if is_digit c then digits s' (10 * acc + (Z.of_N (code c) - 48))%Z else None
  end.
Definition parse_int (s : str) : option Z :=
  let '(neg, d) := match s with
    | c :: s' => if aeqb c "-"%char then (true, s') else if aeqb c "+"%char then (false, s') else (false, s)
    | [] => (false, s)
    end in
  if is_empty d then None
  else match digits d 0 with
       | Some n => let z := if neg then (- n)%Z else n in
                   if ((- 2 ^ 63 <=? z) && (z <? 2 ^ 63))%Z then Some z else None
       | None => None
       end.
(** Decimal notation, as fmt prints an integer. *)
Definition dec (z : Z) : str := B (NilZero.string_of_int (Z.to_int z)).
(** int64 arithmetic wraps. *)
Definition i64 (z : Z) : Z := ((z + 2 ^ 63) mod 2 ^ 64 - 2 ^ 63)%Z.

(** newusers.go:126-137 entry, without Dir, Shell and raw, which are not used. *)
Record user := mkUser { u_line : nat; u_name : str; u_passwd : str; u_uid : str; u_gid : str; u_gecos : str }.

Section gen.
Context {T : Text} {C : Crypto}.
(** EstimatePasswordStrength (pkg/ldappassword/ldappassword.go:116-119, a library
    call), the least score wanted (newusers.go:29) and the password scheme
    (newusers.go:25). *)
Context (strength : str -> Z) (least : Z) (scheme : str).
(** idm.DefaultMailDomain (newusers.go:66-68). *)
Context (maildomain : str).

(** newusers.go:144-181, one line: None if it is skipped.  parts[5] and parts[6]
    panic on a line of five or six fields (160-171). *)
Definition parse_user (n : nat) (line0 : str) : option (res user) :=
  let line := trim_dn line0 in
  if is_empty line || is_comment line then None
  else Some (
    match Bytes.split ":"%char line with
    | name :: pw :: uid :: gid :: gecos :: rest =>
        match rest with
        | _ :: _ :: _ =>
            if negb (is_empty pw) && (strength pw <? least)%Z then Err EOther
            else Ok (mkUser n name pw uid gid gecos)
        | _ => Panic
        end
    | _ => Err EOther
    end).
(** newusers.go:139-184 parsePasswdFile.  Simplification: the line count is a
    natural number. *)
Fixpoint parse_users (n : nat) (lines : list str) : res (list user) :=
  match lines with
  | [] => Ok []
  | l :: ls =>
      match parse_user n l with
      | None => parse_users (S n) ls
      | Some r => u <-- r ;; us <-- parse_users (S n) ls ;; Ok (u :: us)
      end
  end.
Definition parse_passwd (file : str) : res (list user) := parse_users 1 (scan_lines file).

(** output_ldif.go:33-60: the explicit numbers and the counter they leave. *)
Definition number_of (s : str) : res (option Z) :=
  if is_empty s then Ok None else match parse_int s with Some n => Ok (Some n) | None => Err EOther end.
Definition at_least (x : option Z) (n : Z) : Z := match x with Some m => if (n <? m)%Z then m else n | None => n end.
Fixpoint explicit (us : list user) (counter : Z) : res (list (option Z * option Z) * Z) :=
  match us with
  | [] => Ok ([], counter)
  | u :: us' =>
      uid <-- number_of (u_uid u) ;;
      gid <-- number_of (u_gid u) ;;
      r <-- explicit us' (at_least gid (at_least uid counter)) ;;
      Ok ((uid, gid) :: r.1, r.2)
  end.

(** utils.go:12-19 isValidEmail; the length test there is never true.  The regular
    expression: a name of certain characters, '@', and labels of letters, digits
    and inner hyphens, at most 63 long, separated by dots. *)
Definition alnum (c : ascii) : bool := is_lower c || is_upper c || is_digit c.
Definition mail_char (c : ascii) : bool := alnum c || existsb (aeqb c) (B ".!#$%&'*+/=?^_`{|}~-").
Definition mail_label (l : str) : bool :=
  match l with
  | [] => false
  | c :: _ => alnum c && alnum (List.last l c) && forallb (fun x => alnum x || aeqb x "-"%char) l && (length l <=? 63)
  end.
Definition is_email (s : str) : bool :=
  match Bytes.split "@"%char s with
  | [local; domain] => negb (is_empty local) && forallb mail_char local && forallb mail_label (Bytes.split "."%char domain)
  | _ => false
  end.
(** output_ldif.go:98-105 *)
Definition mail_of (value : str) : list str :=
  if is_email value then
    let at_domain := B "@" ++ maildomain in
    [if negb (is_empty maildomain) && has_suffix value at_domain
     then take (length value - length at_domain) value ++ B "@{{.MailDomain}}"
     else value]
  else [].

(** What the template is given for one user (detail). *)
Record detail := mkDetail {
  d_uid : Z; d_gid : Z; d_password : str; d_mail : list str; d_cn : str; d_given : str; d_sn : str
}.
(** output_ldif.go:83-110: mail, cn, givenName, sn; an absent value is empty, which
    the template treats in the same way. *)
Definition names_of (u : user) : list str * str * str * str :=
  if is_empty (u_gecos u) then ([], u_name u, [], [])
  else match Bytes.split ","%char (u_gecos u) with
       | full :: rest =>
           let '(given, sn) := match splitn " "%char 2 full with [a; b] => (a, b) | _ => ([], []) end in
           (flat_map mail_of rest, full, given, sn)
       | [] => ([], [], [], [])
       end.

(** newusers.go:35-59 and output_ldif.go:121-125: the text for one user; [number]
    is the uidNumber printed. *)
Definition base_dn : str := B "ou=Users,ou={{.Company}},{{.BaseDN}}".
Definition opt_line (name value : str) : list str := if is_empty value then [] else [name ++ B ": " ++ value].
Definition user_dn (u : user) : str := B "uid=" ++ u_name u ++ B "," ++ base_dn.
Definition user_lines (u : user) (d : detail) (number : Z) : list str :=
  [B "# " ++ dec (Z.of_nat (u_line u)) ++ B ": " ++ trim_dn (u_name u);
   B "dn: " ++ user_dn u;
   B "objectClass: posixAccount"; B "objectClass: top"; B "objectClass: inetOrgPerson";
   B "uid: " ++ u_name u;
   B "uidNumber: " ++ dec number] ++
  (if (d_gid d =? 0)%Z then [] else [B "gidNumber: " ++ dec (d_gid d)]) ++
  opt_line (B "userPassword") (d_password d) ++
  [B "mail: " ++ u_name u ++ B "@{{.MailDomain}}"] ++
  map (fun m => B "mailAlternateAddress: " ++ m) (d_mail d) ++
  [B "cn: " ++ d_cn d] ++
  opt_line (B "givenName") (d_given d) ++ opt_line (B "sn") (d_sn d) ++ [[]].

(** output_ldif.go:68-126: the users one after the other.  [counter] is
    autoIncrement, [auto] the counter behind the template function AutoIncrement
    (template.go:49-76), used for the number zero (newusers.go:41); [salts] are the
    random salts.  The users printed before an error stay printed. *)
Definition one_user (salt : str) (u : user) (x : option Z * option Z) (counter auto : Z)
    : res (detail * Z * Z * Z) :=
  pw <-- (if is_empty (u_passwd u) then Ok (u_name u) else hash_password (u_passwd u) scheme salt) ;;
  let '(mail, cn, given, sn) := names_of u in
  let counter' := match x with (Some _, Some _) => counter | _ => i64 (counter + 1) end in
  let uid := default counter' x.1 in
  let gid := default counter' x.2 in
  let auto' := if (uid =? 0)%Z then ((auto + 1) mod 2 ^ 64)%Z else auto in
  Ok (mkDetail uid gid pw mail cn given sn, (if (uid =? 0)%Z then auto' else uid), counter', auto').
Fixpoint print_users (salts : nat -> str) (us : list (user * (option Z * option Z))) (counter auto : Z)
    : list (user * detail * Z) * res unit :=
  match us with
  | [] => ([], Ok tt)
  | (u, x) :: us' =>
      match one_user (salts (u_line u)) u x counter auto with
      | Ok (d, number, counter', auto') =>
          let '(out, r) := print_users salts us' counter' auto' in ((u, d, number) :: out, r)
      | Err e => ([], Err e)
      | Panic => ([], Panic)
      | Diverge => ([], Diverge)
      end
  end.
(** output_ldif.go:20-129 outputLDIF: what is printed and how it ends. *)
Definition newusers (salts : nat -> str) (file : str) : list (user * detail * Z) * res unit :=
  match (us <-- parse_passwd file ;; x <-- explicit us 1000 ;; Ok (us, x)) with
  | Ok (us, x) => print_users salts (combine us x.1) x.2 1000
  | Err e => ([], Err e)
  | Panic => ([], Panic)
  | Diverge => ([], Diverge)
  end.
Definition printed (out : list (user * detail * Z)) : str :=
  List.concat (map (fun o => List.concat (map (fun l => l ++ [lf]) (user_lines o.1.1 o.1.2 o.2))) out).
End gen.
