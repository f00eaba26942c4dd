(** The command line and the environment (cmd/idmd): from the arguments of the
    process to the settings its commands run with.  Definitions only. *)
From Verif Require Import Bytes Text Dn Res Entry Password Db Packet Filter Handler Server Ldif Startup Source Gen Passwd Life.

(** * Flags *)

(** The kinds of flags declared with BoolVar, StringVar, IntVar, Uint32Var and
    Uint8Var.  A flag set: the flags by name and by shorthand letter, those of the
    tables below and cobra's own [help]. *)
Inductive fkind := KBool | KStr | KInt | KUint32 | KUint8.
Record flagset := mkSet { fs_kind : str -> option fkind; fs_short : ascii -> option str }.

(** strconv.ParseBool, a library call. *)
Definition parse_bool (s : str) : option bool :=
  if existsb (seqb s) [B "1"; B "t"; B "T"; B "TRUE"; B "true"; B "True"] then Some true
  else if existsb (seqb s) [B "0"; B "f"; B "F"; B "FALSE"; B "false"; B "False"] then Some false
  else None.

(** strings.SplitN(s, sep, 2), a library call: the part before the first separator,
    and the part after it if there is one. *)
Fixpoint cut_at (sep : ascii) (s : str) : str * option str :=
  match s with
  | [] => ([], None)
  | c :: s' => if aeqb c sep then ([], Some s') else let '(a, b) := cut_at sep s' in (c :: a, b)
  end.

Section pflag.
(** strconv.ParseInt and ParseUint with base 0 and the size of the kind, library
    calls. *)
Context (number : fkind -> str -> option Z).

Definition valid (k : fkind) (v : str) : bool :=
  match k with
  | KBool => match parse_bool v with Some _ => true | None => false end
  | KStr => true
  | _ => match number k v with Some _ => true | None => false end
  end.
Definition takes_value (k : fkind) : bool := match k with KBool => false | _ => true end.

(** What one argument is to pflag (library github.com/spf13/pflag v1.0.6,
    FlagSet.parseArgs, parseLongArg and parseSingleShortArg): no flag; the end of
    the flags; not accepted; some flags with their values; the same and a flag
    whose value is the next argument. *)
Inductive arg := APlain | AEnd | ABad | AFlags (l : list (str * str)) | ANext (l : list (str * str)) (k : fkind) (n : str).
Definition more (l : list (str * str)) (a : arg) : arg :=
  match a with AFlags l' => AFlags (l ++ l') | ANext l' k n => ANext (l ++ l') k n | _ => ABad end.
Definition set_to (k : fkind) (n v : str) : arg := if valid k v then AFlags [(n, v)] else ABad.
(** parseLongArg, after the two dashes. *)
Definition long_arg (fs : flagset) (s : str) : arg :=
  match s with
  | [] => ABad
  | c :: _ =>
      if aeqb c "-"%char || aeqb c "="%char then ABad
      else
        let '(n, v) := cut_at "="%char s in
        match fs_kind fs n, v with
        | None, _ => ABad
        | Some k, Some v => set_to k n v
        | Some k, None => if takes_value k then ANext [] k n else AFlags [(n, B "true")]
        end
  end.
(** parseShortArg, after the dash. *)
Fixpoint short_args (fs : flagset) (s : str) : arg :=
  if has_prefix s (B "test.") then AFlags []
  else
    match s with
    | [] => AFlags []
    | c :: s' =>
        match fs_short fs c with
        | None => ABad
        | Some n =>
            match fs_kind fs n with
            | None => ABad
            | Some k =>
                match s' with
                | e :: ((_ :: _) as v) =>
                    if aeqb e "="%char then set_to k n v
                    else if takes_value k then set_to k n s' else more [(n, B "true")] (short_args fs s')
                | _ =>
                    if takes_value k then (if is_empty s' then ANext [] k n else set_to k n s')
                    else more [(n, B "true")] (short_args fs s')
                end
            end
        end
    end.
Definition arg_of (fs : flagset) (s : str) : arg :=
  match s with
  | d :: e :: s' =>
      if negb (aeqb d "-"%char) then APlain
      else if aeqb e "-"%char then (if is_empty s' then AEnd else long_arg fs s')
      else short_args fs (e :: s')
  | _ => APlain
  end.
(** parseArgs: the flags given, in order, and the other arguments. *)
Fixpoint parse_args (fs : flagset) (args : list str) : option (list (str * str) * list str) :=
  match args with
  | [] => Some ([], [])
  | s :: rest =>
      match arg_of fs s with
      | APlain => '(l, p) ← parse_args fs rest; Some (l, s :: p)
      | AEnd => Some ([], rest)
      | ABad => None
      | AFlags l => '(l', p) ← parse_args fs rest; Some (l ++ l', p)
      | ANext l k n =>
          match rest with
          | [] => None
          | v :: rest' => if valid k v then '(l', p) ← parse_args fs rest'; Some (l ++ (n, v) :: l', p) else None
          end
      end
  end.

(** The value a flag is given last, if it is given: Changed and the variable of
    the flag. *)
Definition given (n : str) (l : list (str * str)) : option str :=
  foldl (fun o x => if seqb x.1 n then Some x.2 else o) None l.
Definition given_bool (n : str) (l : list (str * str)) : option bool := given n l ≫= parse_bool.
End pflag.

(** A flag set from a list. *)
Definition kind_in (t : list (str * fkind)) (n : str) : option fkind :=
  snd <$> List.find (fun x => seqb x.1 n) ((B "help", KBool) :: t).
Definition short_in (t : list (ascii * str)) (c : ascii) : option str :=
  snd <$> List.find (fun x => aeqb x.1 c) (("h"%char, B "help") :: t).
Definition flags_of (t : list (str * fkind)) (short : list (ascii * str)) : flagset := mkSet (kind_in t) (short_in short).

(** logrus.ParseLevel, a library call: whether the level is known (cmd/idmd/serve/log.go:14-18,
    cmd/idmd/boltdb/export/export.go:27-30, cmd/idmd/boltdb/load/load.go:25-28). *)
Definition level_ok {T : Text} (l : str) : bool :=
  existsb (seqb (to_lower l)) [B "panic"; B "fatal"; B "error"; B "warn"; B "warning"; B "info"; B "debug"; B "trace"].

(** * idmd serve *)

(** cmd/idmd/serve/serve.go:27-59, the variables that the command changes. *)
Record settings := mkSettings {
  s_stamp : bool; s_level : str; s_notify : bool; s_handler : str; s_listen : str; s_tls : str; s_cert : str; s_key : str;
  s_base : str; s_admin : str; s_anon : bool; s_bolt : str; s_main : str; s_config : str; s_company : str; s_domain : str;
  s_pprof : bool; s_pprof_at : str; s_metrics : bool; s_metrics_at : str }.
Definition builtin : settings :=
  mkSettings true (B "info") false (B "ldif") (B "127.0.0.1:10389") [] [] [] [] [] false (B "idmbolt.db") [] [] (B "Default") []
    false (B "127.0.0.1:6060") false (B "127.0.0.1:6389").
(** serve.go:119-121. *)
Definition with_env_base (name : str) : str := B "IDMD_" ++ name.
(** serve.go:61-117 setDefaults; [getenv] is os.Getenv, empty for a variable that
    is not set.  The base DN and mail domain are those of defaults.go:9-12. *)
Definition or_else (v d : str) : str := if is_empty v then d else v.
Definition set_defaults (getenv : str -> str) (s : settings) : settings :=
  let env n := getenv (with_env_base n) in
  mkSettings (s_stamp s) (s_level s) (s_notify s) (s_handler s)
    (or_else (env (B "DEFAULT_LDAP_LISTEN")) (s_listen s))
    (or_else (env (B "DEFAULT_LDAPS_LISTEN")) (s_tls s))
    (or_else (env (B "DEFAULT_TLS_CERT_FILE")) (s_cert s))
    (or_else (env (B "DEFAULT_TLS_KEY_FILE")) (s_key s))
    (or_else (env (B "DEFAULT_LDAP_BASEDN")) (or_else (s_base s) (B "dc=lg,dc=local")))
    (or_else (env (B "DEFAULT_LDAP_ADMINDN")) (s_admin s))
    (s_anon s)
    (or_else (env (B "DEFAULT_BOLTDB_FILE")) (s_bolt s))
    (env (B "DEFAULT_LDIF_MAIN_PATH"))
    (env (B "DEFAULT_LDIF_CONFIG_PATH"))
    (or_else (env (B "DEFAULT_LDIF_TEMPLATE_COMPANY")) (s_company s))
    (or_else (env (B "DEFAULT_LDIF_TEMPLATE_MAIL_DOMAIN")) (or_else (s_domain s) (B "lg.local")))
    (s_pprof s) (s_pprof_at s) (s_metrics s) (s_metrics_at s).
(** serve.go:153-182, the flags, with the variables as their defaults. *)
Definition serve_flags : flagset :=
  flags_of
    [(B "log-timestamp", KBool); (B "log-level", KStr); (B "systemd-notify", KBool); (B "ldap-handler", KStr);
     (B "ldap-listen", KStr); (B "ldaps-listen", KStr); (B "tls-cert-file", KStr); (B "tls-key-file", KStr);
     (B "ldap-base-dn", KStr); (B "ldap-admin-dn", KStr); (B "ldap-allow-local-anonymous", KBool); (B "boltdb-file", KStr);
     (B "ldif-main", KStr); (B "ldif-config", KStr); (B "ldif-template-default-company", KStr);
     (B "ldif-template-default-mail-domain", KStr); (B "with-pprof", KBool); (B "pprof-listen", KStr);
     (B "with-metrics", KBool); (B "metrics-listen", KStr)] [].
Definition set_flags (l : list (str * str)) (s : settings) : settings :=
  let text n d := default d (given n l) in
  let flag n d := default d (given_bool n l) in
  mkSettings (flag (B "log-timestamp") (s_stamp s)) (text (B "log-level") (s_level s)) (flag (B "systemd-notify") (s_notify s))
    (text (B "ldap-handler") (s_handler s)) (text (B "ldap-listen") (s_listen s)) (text (B "ldaps-listen") (s_tls s))
    (text (B "tls-cert-file") (s_cert s)) (text (B "tls-key-file") (s_key s)) (text (B "ldap-base-dn") (s_base s))
    (text (B "ldap-admin-dn") (s_admin s)) (flag (B "ldap-allow-local-anonymous") (s_anon s)) (text (B "boltdb-file") (s_bolt s))
    (text (B "ldif-main") (s_main s)) (text (B "ldif-config") (s_config s)) (text (B "ldif-template-default-company") (s_company s))
    (text (B "ldif-template-default-mail-domain") (s_domain s)) (flag (B "with-pprof") (s_pprof s)) (text (B "pprof-listen") (s_pprof_at s))
    (flag (B "with-metrics") (s_metrics s)) (text (B "metrics-listen") (s_metrics_at s)).
(** serve.go:228-250, the configuration of the server; serve.go:264, 289-291: the
    addresses at which metrics and profiles are served. *)
Definition server_config (s : settings) : config :=
  mkConfig (s_handler s) (s_listen s) (s_tls s) (s_cert s) (s_key s) (s_base s) (s_admin s) (s_anon s)
    (s_bolt s) (s_main s) (s_config s).
Definition metrics_at (s : settings) : option str := if s_metrics s && negb (is_empty (s_metrics_at s)) then Some (s_metrics_at s) else None.
Definition pprof_at (s : settings) : option str := if s_pprof s && negb (is_empty (s_pprof_at s)) then Some (s_pprof_at s) else None.

(** serve.go:123-185 and 198-260 with cobra (library v1.9.1): the command ends with
    an exit code before anything is served, printing its help or an error
    (cmd/idmd/main.go:24-27); or a server is made.  [attrs] to [stored] are as for
    [new_server], for the files that the settings name.  Simplifications: [args] are
    the arguments after the word serve; flags of cobra other than help; systemd is
    notified of nothing. *)
Inductive started := Ends (code : nat) | Serves (s : settings) (cfg : server_cfg) (b : backend).
Definition serve_cmd {T : Text} (number : fkind -> str -> option Z) (attrs : list (str * str))
    (main extra : settings -> option (list (option entry))) (stored : settings -> option db)
    (getenv : str -> str) (args : list str) : started :=
  match parse_args number serve_flags args with
  | None => Ends 1
  | Some (l, _) =>
      if default false (given_bool (B "help") l) then Ends 0
      else
        let s := set_flags l (set_defaults getenv builtin) in
        let made := if level_ok (s_level s) then new_server attrs (main s) (extra s) (stored s) (server_config s) else None in
        if negb (tls_ok (server_config s)) then Ends (exit_code false false false)
        else match made with
             | None => Ends (exit_code true false false)
             | Some (cfg, b) => Serves s cfg b
             end
  end.

(** * idmd boltdb load, idmd boltdb export *)

(** cmd/idmd/boltdb/boltdb.go:18-23, 31-32, 46-47, 68: variables and flags of the
    two commands. *)
Definition load_flags : flagset :=
  flags_of [(B "log-level", KStr); (B "boltdb-file", KStr); (B "input-file", KStr); (B "ldap-base-dn", KStr)] [].
Definition export_flags : flagset :=
  flags_of [(B "log-level", KStr); (B "boltdb-file", KStr); (B "ldap-base-dn", KStr)] [].
(** What a command does: it ends with an exit code, or it runs with a database
    file, a base and, for load, an input file (None otherwise). *)
Inductive boltrun := BEnds (code : nat) | BRuns (file base : str) (input : option str).
(** boltdb.go:39-44, 61-66, 80-95, the required flags (48-55, 69-72) and the log level.
    Simplification: the flags are given after the words load or export. *)
Definition load_args {T : Text} (number : fkind -> str -> option Z) (args : list str) : boltrun :=
  match parse_args number load_flags args with
  | None => BEnds 1
  | Some (l, _) =>
      if default false (given_bool (B "help") l) then BEnds 0
      else match given (B "input-file") l, given (B "ldap-base-dn") l with
           | Some i, Some b =>
               if level_ok (default (B "info") (given (B "log-level") l))
               then BRuns (default [] (given (B "boltdb-file") l)) b (Some i) else BEnds 1
           | _, _ => BEnds 1
           end
  end.
Definition export_args {T : Text} (number : fkind -> str -> option Z) (args : list str) : boltrun :=
  match parse_args number export_flags args with
  | None => BEnds 1
  | Some (l, _) =>
      if default false (given_bool (B "help") l) then BEnds 0
      else match given (B "ldap-base-dn") l with
           | Some b =>
               if level_ok (default (B "info") (given (B "log-level") l))
               then BRuns (default [] (given (B "boltdb-file") l)) b None else BEnds 1
           | None => BEnds 1
           end
  end.

(** * idmd gen newusers, idmd gen passwd *)

(** cmd/idmd/gen/newusers/newusers.go:23-33, 87-92. *)
Definition newusers_flags : flagset :=
  flags_of [(B "format", KStr); (B "password-scheme", KStr); (B "argon2-memory", KUint32); (B "argon2-iterations", KUint32);
            (B "argon2-lanes", KUint8); (B "min-password-strength", KInt)] [].
(** newusers.go:71-124: the exit code, or the name of the input (None is standard
    input), the scheme and the least strength that outputLDIF runs with.
    Simplification: the argon2 parameters (115-117) are part of the library call. *)
Inductive genrun := GEnds (code : nat) | GRuns (file : option str) (scheme : str) (least : Z).
Definition newusers_args (number : fkind -> str -> option Z) (args : list str) : genrun :=
  match parse_args number newusers_flags args with
  | None => GEnds 1
  | Some (l, p) =>
      if default false (given_bool (B "help") l) then GEnds 0
      else match p with
           | [f] =>
               if seqb (default (B "ldif") (given (B "format") l)) (B "ldif")
               then GRuns (if seqb f (B "-") then None else Some f) (default (B "{ARGON2}") (given (B "password-scheme") l))
                      (default 3%Z (given (B "min-password-strength") l ≫= number KInt))
               else GEnds 1
           | _ => GEnds 1
           end
  end.
(** cmd/idmd/gen/passwd/passwd.go:22-30, 54-64. *)
Definition passwd_flags : flagset :=
  flags_of [(B "password-scheme", KStr); (B "argon2-memory", KUint32); (B "argon2-iterations", KUint32); (B "argon2-lanes", KUint8);
            (B "secret", KStr); (B "generate", KBool); (B "secret-file", KStr); (B "omit-newline", KBool);
            (B "min-password-strength", KInt)]
    [("s"%char, B "secret"); ("g"%char, B "generate"); ("T"%char, B "secret-file"); ("n"%char, B "omit-newline")].
(** passwd.go:38-67 and the flags as [passwd] takes them; [file] is reading a file. *)
Definition passwd_args (number : fkind -> str -> option Z) (file : str -> option str) (args : list str) : nat + pflags :=
  match parse_args number passwd_flags args with
  | None => inl 1
  | Some (l, p) =>
      if default false (given_bool (B "help") l) then inl 0
      else match p with
           | [] => inr (mkFlags (given (B "secret") l) (file <$> given (B "secret-file") l) (given_bool (B "generate") l)
                     (default (B "{ARGON2}") (given (B "password-scheme") l)) (default false (given_bool (B "omit-newline") l))
                     (default 3%Z (given (B "min-password-strength") l ≫= number KInt)))
           | _ => inl 1
           end
  end.
