(** The handler interface of pkg/ldapserver and the boltdb handler
    (server/handler/boltdb/handler.go).  Definitions only. *)
From Verif Require Import Bytes Text Dn Res Entry Password Db Packet Filter.

(** How a handler method ends: it returns, it panics (recoverable), or the
    process is gone (killed, or a fatal error such as stack exhaustion). *)
Inductive hout (A : Type) := HRet (a : A) | HPanic | HKill.
Arguments HRet {A} a.
Arguments HPanic {A}.
Arguments HKill {A}.

(** What a write or bind method returns: the result code, and whether the
    error value is non-nil (its text is left out). *)
Definition answer : Type := N * bool.
(** ldapserver.ServerSearchResult (Entries, ResultCode) and whether the error
    is non-nil.  Simplification: Referrals (always empty) and Controls are left
    out here; paging has its own model. *)
Record found := mkFound { f_entries : list entry; f_code : N; f_err : bool }.

(** pkg/ldapserver/server.go:24-54, the interfaces Adder ... Searcher, over a
    backend state [S].  [E] is what the environment decides during one call
    (I/O faults, the client's address). *)
Record handler (S E : Type) := mkHandler {
  h_add : E -> str -> add_req -> S -> hout answer * S;
  h_bind : E -> str -> str -> S -> hout answer * S;
  h_delete : E -> str -> str -> S -> hout answer * S;
  h_modify : E -> str -> modify_req -> S -> hout answer * S;
  h_moddn : E -> str -> moddn_req -> S -> hout answer * S;
  h_password : E -> str -> pw_req -> S -> hout answer * S;
  h_search : E -> str -> search_req -> S -> hout found * S
}.
Arguments mkHandler {S E}.
Arguments h_add {S E}.
Arguments h_bind {S E}.
Arguments h_delete {S E}.
Arguments h_modify {S E}.
Arguments h_moddn {S E}.
Arguments h_password {S E}.
Arguments h_search {S E}.

(** server/handler/boltdb/handler.go:27-35: the configuration after
    NewBoltDBHandler (44-76) has normalised the names. *)
Record bolt_cfg := mkCfg { bc_base : str; bc_admin : str; bc_anon : bool }.

Section boltdb.
Context {T : Text} {C : Crypto}.

(** server/handler/boltdb/handler.go:44-76 NewBoltDBHandler, the part that
    computes the configuration.  Simplification: the file name checks and the
    opening of the database (setup, 78-90) are left out. *)
Definition bolt_new (base admin : str) (anon : bool) : option bolt_cfg :=
  if is_empty base then None
  else match parse_normalize base, parse_normalize admin with
       | Some b, Some a => Some (mkCfg b a anon)
       | _, _ => None
       end.

(** server/handler/boltdb/handler.go:328-333 writeAllowed. *)
Definition write_allowed (c : bolt_cfg) (bound : str) : bool :=
  negb (is_empty (bc_admin c)) && seqb (bc_admin c) bound.

(** A write operation of ldbbolt and the handler's translation of its error. *)
Definition bolt_write (c : bolt_cfg) (ev : env) (o : op) (tr : err -> answer) (d : db)
    : hout answer * db :=
  match run_op (bc_base c) ev o d with
  | (Done (Ok _), d') => (HRet (Success, false), d')
  | (Done (Err e), d') => (HRet (tr e), d')
  | (Done Panic, d') => (HPanic, d')
  | (Done Diverge, d') => (HKill, d')
  | (Crashed, d') => (HKill, d')
  end.
(** handler.go:105-111 and 189-195: EntryAlreadyExists, else UnwillingToPerform
    with the error. *)
Definition plain_error (e : err) : answer :=
  match e with
  | EExists => (EntryAlreadyExists, false)
  | _ => (UnwillingToPerform, true)
  end.
(** handler.go:213-223 and 240-250: an LDAP error keeps its code; the error
    value passed on is its Err field.  LDAPResultCode is a uint8. *)
Definition ldap_error (e : err) : answer :=
  match e with
  | EExists => (EntryAlreadyExists, false)
  | ELdap code inner => (code mod 256, inner)%N
  | _ => (UnwillingToPerform, true)
  end.

(** server/handler/boltdb/handler.go:92-113 Add. *)
Definition bolt_add (c : bolt_cfg) (ev : env) (bound : str) (r : add_req) (d : db) :=
  if write_allowed c bound then bolt_write c ev (OpPut (entry_from_add r)) plain_error d
  else (HRet (InsufficientAccessRights, false), d).
(** server/handler/boltdb/handler.go:177-198 Delete. *)
Definition bolt_delete (c : bolt_cfg) (ev : env) (bound dn : str) (d : db) :=
  if write_allowed c bound then bolt_write c ev (OpDelete dn) plain_error d
  else (HRet (InsufficientAccessRights, false), d).
(** server/handler/boltdb/handler.go:200-226 Modify. *)
Definition bolt_modify (c : bolt_cfg) (ev : env) (bound : str) (r : modify_req) (d : db) :=
  if write_allowed c bound then bolt_write c ev (OpModify r) ldap_error d
  else (HRet (InsufficientAccessRights, false), d).
(** server/handler/boltdb/handler.go:228-254 ModifyDN. *)
Definition bolt_moddn (c : bolt_cfg) (ev : env) (bound : str) (r : moddn_req) (d : db) :=
  if write_allowed c bound then bolt_write c ev (OpModDn r) ldap_error d
  else (HRet (InsufficientAccessRights, false), d).

(** server/handler/boltdb/handler.go:256-286 ModifyPasswordExop. *)
Definition bolt_password (c : bolt_cfg) (ev : env) (bound : str) (r : pw_req) (d : db) :=
  let go := bolt_write c ev (OpPassword r) (fun _ => (ResultOther, true)) d in
  if is_empty bound then (HRet (InsufficientAccessRights, false), d)
  else if is_empty (pw_user r) then go
  else match parse_normalize (pw_user r) with
       | None => (HRet (OperationsError, true), d)
       | Some u =>
           if negb (seqb bound u) && negb (seqb bound (bc_admin c))
           then (HRet (InsufficientAccessRights, false), d) else go
       end.

(** server/handler/boltdb/handler.go:152-175 validatePassword. *)
Definition bolt_validate (dn pw : str) (d : db) : hout answer :=
  match search d dn ScopeBase with
  | Ok ([e], None) =>
      match validate pw (get_eqfold_val (B "userPassword") (e_attrs e)) with
      | Ok true => HRet (Success, false)
      | Ok false | Err _ => HRet (InvalidCredentials, false)
      | Panic => HPanic
      | Diverge => HKill
      end
  | Ok _ | Err _ => HRet (InvalidCredentials, false)
  | Panic => HPanic
  | Diverge => HKill
  end.
(** server/handler/boltdb/handler.go:115-150 Bind. *)
Definition bolt_bind (c : bolt_cfg) (_ : env) (dn pw : str) (d : db) : hout answer * db :=
  let rest :=
    match parse_normalize dn with
    | None => HRet (InvalidDNSyntax, false)
    | Some n =>
        if negb (has_suffix n (bc_base c)) then HRet (InvalidCredentials, false)
        else if is_empty pw then HRet (InvalidCredentials, false)
        else bolt_validate n pw d
    end in
  (if is_empty dn then
     if negb (bc_anon c) then HRet (InvalidCredentials, false)
     else if is_empty pw then HRet (Success, false)
     else rest
   else rest, d).

(** server/handler/boltdb/handler.go:288-307 Search: the error of the database
    search is dropped. *)
Definition bolt_search (_ : bolt_cfg) (_ : env) (_ : str) (r : search_req) (d : db)
    : hout found * db :=
  (match search d (sr_base r) (sr_scope r) with
   | Ok (es, _) => HRet (mkFound es Success false)
   | Err _ => HRet (mkFound [] Success false)
   | Panic => HPanic
   | Diverge => HKill
   end, d).

Definition bolt_handler (c : bolt_cfg) : handler db env :=
  mkHandler (bolt_add c) (bolt_bind c) (bolt_delete c) (bolt_modify c) (bolt_moddn c)
    (bolt_password c) (bolt_search c).
End boltdb.
