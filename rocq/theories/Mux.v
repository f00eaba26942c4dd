(** Several handlers registered for different parts of the tree.  Definitions
    only. *)
From Verif Require Import Bytes Text Dn Res Entry Password Db Packet Filter Handler.

Section mux.
Context {S E : Type}.

(** pkg/ldapserver/server.go:58-71, the maps from a suffix to the handler
    registered for it, one map for each operation.  A list stands for a map, in
    the order in which [range] runs through it while one request is handled; Go
    leaves that order open, so claims are made for every order.
    Simplification: CloseFns is left out.  The Close methods of the three
    handlers do nothing or write a line of the log (boltdb/handler.go:309-311,
    ldif/handler.go:505-512, ldif/middleware.go:188-190), and that of the default
    handler closes the connection, which server.go:437 does all the same. *)
Record registry := mkRegistry {
  rg_add : list (str * (E -> str -> add_req -> S -> hout answer * S));
  rg_bind : list (str * (E -> str -> str -> S -> hout answer * S));
  rg_delete : list (str * (E -> str -> str -> S -> hout answer * S));
  rg_modify : list (str * (E -> str -> modify_req -> S -> hout answer * S));
  rg_moddn : list (str * (E -> str -> moddn_req -> S -> hout answer * S));
  rg_password : list (str * (E -> str -> pw_req -> S -> hout answer * S));
  rg_search : list (str * (E -> str -> search_req -> S -> hout found * S))
}.

(** An assignment to a Go map. *)
Definition assign {A} (name : str) (f : A) (l : list (str * A)) : list (str * A) :=
  (name, f) :: bfilter (fun p => negb (seqb p.1 name)) l.
(** Reading a Go map; [None] is the nil interface. *)
Fixpoint read {A} (name : str) (l : list (str * A)) : option A :=
  match l with
  | [] => None
  | (n, f) :: l' => if seqb n name then Some f else read name l'
  end.

(** pkg/ldapserver/server.go:480-487, Bind and Search of defaultHandler. *)
Definition default_bind (ev : E) (dn pw : str) (s : S) : hout answer * S :=
  (HRet (InvalidCredentials, false), s).
Definition default_search (ev : E) (bound : str) (r : search_req) (s : S) : hout found * S :=
  (HRet (mkFound [] Success false), s).
(** pkg/ldapserver/server.go:80-99 NewServer, its maps. *)
Definition new_registry : registry :=
  mkRegistry [] (assign [] default_bind []) [] [] [] [] (assign [] default_search []).

(** pkg/ldapserver/server.go:105-131 AddFunc ... SearchFunc, called one after the
    other for one handler, as server/server.go:139-145 does. *)
Definition register (name : str) (h : handler S E) (g : registry) : registry :=
  mkRegistry
    (assign name (h_add h) (rg_add g))
    (assign name (h_bind h) (rg_bind g))
    (assign name (h_delete h) (rg_delete g))
    (assign name (h_modify h) (rg_modify g))
    (assign name (h_moddn h) (rg_moddn g))
    (assign name (h_password h) (rg_password g))
    (assign name (h_search h) (rg_search g)).

(** The handler found for a name: add.go:20-26, bind.go:44-49, delete.go:20-26,
    modify.go:23-29, modifydn.go:22-28, pwmodifyexop.go:59-65, search.go:31-36. *)
Definition pick {A} (dn : str) (l : list (str * A)) : option A :=
  read (route dn (map fst l)) l.

(** No handler: add.go:27-32, delete.go:27-32, modify.go:30-35,
    modifydn.go:29-34, pwmodifyexop.go:66-71. *)
Definition unsupported (s : S) : hout answer * S := (HRet (UnwillingToPerform, true), s).

(** The registered handlers as one: every request goes to the one found for its
    name.  A missing Binder or Searcher is a call on a nil interface, which
    panics (bind.go:49, search.go:36). *)
Definition mux (g : registry) : handler S E := mkHandler
  (fun ev bound r s => match pick (ad_dn r) (rg_add g) with Some f => f ev bound r s | None => unsupported s end)
  (fun ev dn pw s => match pick dn (rg_bind g) with Some f => f ev dn pw s | None => (HPanic, s) end)
  (fun ev bound dn s => match pick dn (rg_delete g) with Some f => f ev bound dn s | None => unsupported s end)
  (fun ev bound r s => match pick (m_dn r) (rg_modify g) with Some f => f ev bound r s | None => unsupported s end)
  (fun ev bound r s => match pick (md_dn r) (rg_moddn g) with Some f => f ev bound r s | None => unsupported s end)
  (fun ev bound r s => match pick (pw_user r) (rg_password g) with Some f => f ev bound r s | None => unsupported s end)
  (fun ev bound r s => match pick (sr_base r) (rg_search g) with Some f => f ev bound r s | None => (HPanic, s) end).

(** server/server.go:138-146: what Serve registers with the server that
    server/server.go:48 made. *)
Definition serve_registry (h : handler S E) : registry := register [] h new_registry.
End mux.
Arguments registry : clear implicits.
