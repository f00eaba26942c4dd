(** Connections served at the same time on the database backend: a request is no
    single step, but reading, a transaction and any number of writes to the
    client, and those of all connections interleave.  Definitions only. *)
From Verif Require Import Bytes Text Dn Res Entry Password Db Packet Filter Handler Server.

(** * One request around its transaction *)

(** What a request asks the database for, and what it is told. *)
Inductive call := CUpdate (ev : env) (o : op) | CView (base : str) (scope : Z).
Inductive reply := RUpdate (out : outcome) | RView (r : res (list entry * option err)).
(** Where the code of a request is: nothing asked yet, waiting for the database,
    or told its answer. *)
Inductive stage := Silent | Waiting (k : call) | Told (a : reply).

Section staged.
Context {T : Text} {C : Crypto} {W : Wire}.
Variable (cfg : server_cfg) (c : bolt_cfg).

(** server/handler/boltdb/handler.go, the methods of [bolt_handler] with the
    transactions left out: on reaching one they stop, and told its outcome they
    go on.  bdb.EntryPut, EntryDelete, EntryModify, EntryModifyDN and
    UpdatePassword (handler.go:105, 189, 213, 240, 280) make one DB.Update each,
    bdb.Search (handler.go:154, 298) one DB.View. *)
Definition staged_write (ev : env) (o : op) (tr : err -> answer) (s : stage) : hout answer * stage :=
  match s with
  | Told (RUpdate (Done (Ok _))) => (HRet (Success, false), s)
  | Told (RUpdate (Done (Err e))) => (HRet (tr e), s)
  | Told (RUpdate (Done Panic)) => (HPanic, s)
  | Told (RUpdate _) => (HKill, s)
  | _ => (HKill, Waiting (CUpdate ev o))
  end.
(** handler.go:92-113, 177-198, 200-226, 228-254. *)
Definition staged_add (ev : env) (bound : str) (r : add_req) (s : stage) :=
  if write_allowed c bound then staged_write ev (OpPut (entry_from_add r)) plain_error s
  else (HRet (InsufficientAccessRights, false), s).
Definition staged_delete (ev : env) (bound dn : str) (s : stage) :=
  if write_allowed c bound then staged_write ev (OpDelete dn) plain_error s
  else (HRet (InsufficientAccessRights, false), s).
Definition staged_modify (ev : env) (bound : str) (r : modify_req) (s : stage) :=
  if write_allowed c bound then staged_write ev (OpModify r) ldap_error s
  else (HRet (InsufficientAccessRights, false), s).
Definition staged_moddn (ev : env) (bound : str) (r : moddn_req) (s : stage) :=
  if write_allowed c bound then staged_write ev (OpModDn r) ldap_error s
  else (HRet (InsufficientAccessRights, false), s).
(** handler.go:256-286. *)
Definition staged_password (ev : env) (bound : str) (r : pw_req) (s : stage) :=
  let go := staged_write ev (OpPassword r) (fun _ => (ResultOther, true)) s in
  if is_empty bound then (HRet (InsufficientAccessRights, false), s)
  else if is_empty (pw_user r) then go
  else match parse_normalize (pw_user r) with
       | None => (HRet (OperationsError, true), s)
       | Some u =>
           if negb (seqb bound u) && negb (seqb bound (bc_admin c))
           then (HRet (InsufficientAccessRights, false), s) else go
       end.
(** handler.go:152-175 and 115-150. *)
Definition staged_validate (dn pw : str) (s : stage) : hout answer * stage :=
  match s with
  | Told (RView r) =>
      (match r with
       | Ok ([e], None) =>
           match validate pw (get_eqfold_val (B "userPassword") (e_attrs e)) with
           | Ok true => HRet (Success, false)
           | Ok false | Err _ => HRet (InvalidCredentials, false)
           | Panic => HPanic
           | Diverge => HKill
           end
       | Ok _ | Err _ => HRet (InvalidCredentials, false)
       | Panic => HPanic
       | Diverge => HKill
       end, s)
  | _ => (HKill, Waiting (CView dn ScopeBase))
  end.
Definition staged_bind (_ : env) (dn pw : str) (s : stage) : hout answer * stage :=
  let rest :=
    match parse_normalize dn with
    | None => (HRet (InvalidDNSyntax, false), s)
    | Some n =>
        if negb (has_suffix n (bc_base c)) then (HRet (InvalidCredentials, false), s)
        else if is_empty pw then (HRet (InvalidCredentials, false), s)
        else staged_validate n pw s
    end in
  if is_empty dn then
    if negb (bc_anon c) then (HRet (InvalidCredentials, false), s)
    else if is_empty pw then (HRet (Success, false), s)
    else rest
  else rest.
(** handler.go:288-307. *)
Definition staged_search (_ : env) (_ : str) (r : search_req) (s : stage) : hout found * stage :=
  match s with
  | Told (RView a) =>
      (match a with
       | Ok (es, _) => HRet (mkFound es Success false)
       | Err _ => HRet (mkFound [] Success false)
       | Panic => HPanic
       | Diverge => HKill
       end, s)
  | _ => (HKill, Waiting (CView (sr_base r) (sr_scope r)))
  end.
Definition staged_handler : handler stage env :=
  mkHandler staged_add staged_bind staged_delete staged_modify staged_moddn staged_password staged_search.

(** The transaction a request makes, if any: its code runs until it stops. *)
Definition wants (ev : renv env) (bound : str) (p : packet) : option call :=
  match r_state (handle cfg staged_handler ev bound p Silent) with Waiting k => Some k | _ => None end.
(** What it writes and does next, told the outcome of the transaction (or having
    made none): its code runs again, deterministically, and passes the place. *)
Definition continues (ev : renv env) (bound : str) (p : packet) (a : option reply) : list response * next :=
  let r := handle cfg staged_handler ev bound p (match a with Some x => Told x | None => Silent end) in
  (r_out r, r_next r).

(** * Many connections *)

(** What the goroutine of a connection is doing (pkg/ldapserver/server.go:212-439
    handleConnection): waiting for a packet (218); a packet was read; inside
    DB.Update, the state at its beginning; inside DB.View, the snapshot; writing
    responses and then going on; ended.  Simplification: the deferred Close calls
    (433-437) do nothing to the database and are left out. *)
Inductive phase :=
| PIdle
| PAsked (ev : renv env) (p : packet)
| PUpdate (ev : renv env) (p : packet) (e : env) (o : op) (snap : db)
| PView (ev : renv env) (p : packet) (base : str) (scope : Z) (snap : db)
| PSend (rest : list response) (n : next)
| PClosed.
(** A connection: the bound DN (a local variable of handleConnection, line 213),
    the phase, and everything written to the client so far. *)
Record conn := mkConn { cn_bound : str; cn_phase : phase; cn_sent : list response }.

(** [cw_lock] is the holder of bbolt's writer lock.  [cw_log] is ghost: the
    events in the order in which they took effect. *)
Record cworld := mkCWorld {
  cw_db : db; cw_lock : option nat; cw_conns : gmap nat conn; cw_alive : bool;
  cw_log : list (event (E:=env))
}.
Definition cstart (d : db) : cworld := mkCWorld d None ∅ true [].
Definition put (w : cworld) (k : nat) (x : conn) : gmap nat conn := <[k := x]> (cw_conns w).
(** A request that will end the process takes no effect in the order. *)
Definition note (ev : renv env) (p : packet) (k : nat) (n : next) : list (event (E:=env)) :=
  match n with Dead => [] | _ => [EPacket k ev p] end.

(** The steps, all of a process that is alive.
    - A connection is accepted (server.go:202-204); its client closes it (218-225).
    - A packet is read.
    - A request that needs no transaction is dealt with.
    - DB.Update: the lock is taken; the transaction ends and the lock is released;
      or the machine fails during the commit.
    - DB.View: the snapshot is taken; the transaction ends.
    - One response is written (server.go:441-448; the requests' [re_send] says
      which writes fail, and [handle] what is not written then).
    - All are written: the next packet is awaited, the connection is closed
      (server.go:433-437), or a panic nobody recovers ends the process.
    Simplification: what happens inside a transaction is private to it and part
    of its last step (as in Conc.v); reads of the mmap lock are left out. *)
Inductive cstep (w : cworld) : cworld -> Prop :=
| cs_open k :
    cw_alive w = true -> cw_conns w !! k = None ->
    cstep w (mkCWorld (cw_db w) (cw_lock w) (put w k (mkConn [] PIdle [])) true (cw_log w ++ [EOpen k]))
| cs_eof k b out :
    cw_alive w = true -> cw_conns w !! k = Some (mkConn b PIdle out) ->
    cstep w (mkCWorld (cw_db w) (cw_lock w) (put w k (mkConn b PClosed out)) true (cw_log w ++ [EClose k]))
| cs_packet k b out ev p :
    cw_alive w = true -> cw_conns w !! k = Some (mkConn b PIdle out) ->
    cstep w (mkCWorld (cw_db w) (cw_lock w) (put w k (mkConn b (PAsked ev p) out)) true (cw_log w))
| cs_plain k b out ev p rest n :
    cw_alive w = true -> cw_conns w !! k = Some (mkConn b (PAsked ev p) out) ->
    wants ev b p = None -> continues ev b p None = (rest, n) ->
    cstep w (mkCWorld (cw_db w) (cw_lock w) (put w k (mkConn b (PSend rest n) out)) true (cw_log w ++ note ev p k n))
| cs_begin_update k b out ev p e o :
    cw_alive w = true -> cw_conns w !! k = Some (mkConn b (PAsked ev p) out) ->
    wants ev b p = Some (CUpdate e o) -> cw_lock w = None ->
    cstep w (mkCWorld (cw_db w) (Some k) (put w k (mkConn b (PUpdate ev p e o (cw_db w)) out)) true (cw_log w))
| cs_end_update k b out ev p e o snap r d' rest n :
    cw_alive w = true -> cw_conns w !! k = Some (mkConn b (PUpdate ev p e o snap) out) ->
    run_op (bc_base c) e o snap = (Done r, d') -> continues ev b p (Some (RUpdate (Done r))) = (rest, n) ->
    cstep w (mkCWorld d' None (put w k (mkConn b (PSend rest n) out)) true (cw_log w ++ note ev p k n))
| cs_crash k b out ev p e o snap d' :
    cw_alive w = true -> cw_conns w !! k = Some (mkConn b (PUpdate ev p e o snap) out) ->
    run_op (bc_base c) e o snap = (Crashed, d') ->
    cstep w (mkCWorld d' None (cw_conns w) false (cw_log w ++ [EPacket k ev p]))
| cs_begin_view k b out ev p base scope :
    cw_alive w = true -> cw_conns w !! k = Some (mkConn b (PAsked ev p) out) ->
    wants ev b p = Some (CView base scope) ->
    cstep w (mkCWorld (cw_db w) (cw_lock w) (put w k (mkConn b (PView ev p base scope (cw_db w)) out)) true
               (cw_log w ++ note ev p k (continues ev b p (Some (RView (search (cw_db w) base scope)))).2))
| cs_end_view k b out ev p base scope snap rest n :
    cw_alive w = true -> cw_conns w !! k = Some (mkConn b (PView ev p base scope snap) out) ->
    continues ev b p (Some (RView (search snap base scope))) = (rest, n) ->
    cstep w (mkCWorld (cw_db w) (cw_lock w) (put w k (mkConn b (PSend rest n) out)) true (cw_log w))
| cs_send k b out r rest n :
    cw_alive w = true -> cw_conns w !! k = Some (mkConn b (PSend (r :: rest) n) out) ->
    cstep w (mkCWorld (cw_db w) (cw_lock w) (put w k (mkConn b (PSend rest n) (out ++ [r]))) true (cw_log w))
| cs_go k b out b' :
    cw_alive w = true -> cw_conns w !! k = Some (mkConn b (PSend [] (Go b')) out) ->
    cstep w (mkCWorld (cw_db w) (cw_lock w) (put w k (mkConn b' PIdle out)) true (cw_log w))
| cs_drop k b out :
    cw_alive w = true -> cw_conns w !! k = Some (mkConn b (PSend [] Drop) out) ->
    cstep w (mkCWorld (cw_db w) (cw_lock w) (put w k (mkConn b PClosed out)) true (cw_log w))
| cs_die k b out :
    cw_alive w = true -> cw_conns w !! k = Some (mkConn b (PSend [] Dead) out) ->
    cstep w (mkCWorld (cw_db w) (cw_lock w) (cw_conns w) false (cw_log w)).
Inductive csteps (w : cworld) : cworld -> Prop :=
| cs_refl : csteps w w
| cs_more w1 w2 : csteps w w1 -> cstep w1 w2 -> csteps w w2.

(** * Specification vocabulary *)

(** Whose event it is. *)
Definition whose (e : event (E:=env)) : nat :=
  match e with EOpen k | EPacket k _ _ | EClose k => k end.
(** What is written on connection [k] if the events happen one after the other,
    each as a whole. *)
Fixpoint written (k : nat) (w : world (S:=db)) (es : list (event (E:=env))) : list response :=
  match es with
  | [] => []
  | e :: es' =>
      let '(w', out) := step cfg (bolt_handler c) w e in
      (if whose e =? k then out else []) ++ written k w' es'
  end.
(** A connection waits for its next request, or has ended. *)
Definition quiet_conn (x : conn) : Prop := cn_phase x = PIdle \/ cn_phase x = PClosed.

(** [served d w h]: from [d], [w] was reached while the packets [h] were read, in
    this order, each on its connection. *)
Definition reads (w w' : cworld) : Prop :=
  exists k x x' ev p, cw_conns w !! k = Some x /\ cw_conns w' !! k = Some x' /\
    cn_phase x = PIdle /\ cn_phase x' = PAsked ev p.
Inductive served (d : db) : cworld -> list (nat * (renv env * packet)) -> Prop :=
| sv_start : served d (cstart d) []
| sv_read w h k b out ev p :
    served d w h -> cw_alive w = true -> cw_conns w !! k = Some (mkConn b PIdle out) ->
    served d (mkCWorld (cw_db w) (cw_lock w) (put w k (mkConn b (PAsked ev p) out)) true (cw_log w)) (h ++ [(k, (ev, p))])
| sv_other w w' h : served d w h -> cstep w w' -> ~ reads w w' -> served d w' h.
(** The packets of connection [k] among those read, and among the events. *)
Definition read_on (k : nat) (h : list (nat * (renv env * packet))) : list (renv env * packet) :=
  omap (fun x => if x.1 =? k then Some x.2 else None) h.
Definition asked_on (k : nat) (es : list (event (E:=env))) : list (renv env * packet) :=
  omap (fun e => match e with EPacket j ev p => if j =? k then Some (ev, p) else None | _ => None end) es.
End staged.
