(** Starting the server (cmd/idmd/serve, server/server.go) and the load command
    (cmd/idmd/boltdb/load).  Definitions only. *)
From Verif Require Import Bytes Text Dn Res Entry Password Db Packet Filter Handler Server Ldif.

(** server/config.go:14-43, the settings that decide what is served and where. *)
Record config := mkConfig {
  cf_handler : str; cf_listen : str; cf_listen_tls : str; cf_cert : str; cf_key : str;
  cf_base : str; cf_admin : str; cf_anon : bool;
  cf_boltfile : str; cf_ldif_main : str; cf_ldif_config : str }.

(** One setting of cmd/idmd/serve/serve.go: the built-in default (27-59), the
    environment variable if it is set and not empty (setDefaults, 61-117), the flag
    if it is given (153-182).  The LDIF files (70-71) take an empty variable too,
    but their default is empty. *)
Definition setting (builtin : str) (env flag : option str) : str :=
  match flag with
  | Some v => v
  | None => match env with Some (c :: v) => c :: v | _ => builtin end
  end.
(** serve.go:187-196 checkTLSConfig: false is an error, before anything is started. *)
Definition tls_ok (c : config) : bool :=
  is_empty (cf_listen_tls c) || negb (is_empty (cf_cert c)) && negb (is_empty (cf_key c)).

Section startup.
Context {T : Text} {C : Crypto}.

(** pkg/ldbbolt/ldbbolt.go:54-67 Configure: the base the database uses.  An error
    of ParseNormalize is dropped (65).  Simplification: opening the file. *)
Definition db_base (base : str) : str := default [] (parse_normalize base).

(** What serves requests. *)
Inductive backend :=
| BLdif (c : ldif_cfg) (d : dataset)
| BOverlay (base : str) (c : ldif_cfg) (o d : dataset)
| BBolt (c : bolt_cfg) (base : str) (d : db).

(** server/handler/ldif/handler.go:89-148 open, the first time. *)
Definition ldif_open (attrs : list (str * str)) (parsed : option (list (option entry))) : option dataset :=
  records ← parsed; build attrs records.

(** server/server.go:41-103 NewServer: None is an error.  [attrs] are the indexed
    attributes (server/handler/ldif/index.go:17-40), [main] and [extra] the outcomes of
    reading and parsing the two LDIF sources, [stored] that of opening the database.
    The middleware indexes nothing (middleware.go:79).  Simplifications: the file
    names only count as empty or not; metrics and logging are left out. *)
Definition new_server (attrs : list (str * str)) (main extra : option (list (option entry))) (stored : option db)
    (c : config) : option (server_cfg * backend) :=
  if seqb (cf_handler c) (B "ldif") then
    if is_empty (cf_ldif_main c) then None
    else
      lc ← ldif_new (cf_base c) (cf_admin c) (cf_anon c) attrs;
      d ← ldif_open attrs main;
      if is_empty (cf_ldif_config c) then Some (mkServer false 16, BLdif lc d)
      else
        (* middleware.go:38-98 *)
        if eqfold (cf_base c) (to_lower (cf_base c)) then
          o ← ldif_open [] extra;
          Some (mkServer false 16, BOverlay (to_lower (cf_base c)) lc o d)
        else None
  else if seqb (cf_handler c) (B "boltdb") then
    if is_empty (cf_boltfile c) then None
    else
      bc ← bolt_new (cf_base c) (cf_admin c) (cf_anon c);
      d ← stored;
      Some (mkServer true 16, BBolt bc (db_base (bc_base bc)) d)
  else None.

(** cmd/idmd/boltdb/load/load.go:42-72 Load: [stored] is the database the file
    holds (empty if it is new), [parsed] the outcome of reading the LDIF file. *)
Definition load_cmd (base : str) (parsed : option (list entry)) (stored : db) : bool * db :=
  match parsed with
  | None => (false, stored)
  | Some es =>
      match load_db (db_base base) es stored with
      | (Done (Ok _), d) => (true, d)
      | (_, d) => (false, d)
      end
  end.
End startup.
