(** The connection loop of pkg/ldapserver and a server with any number of
    connections.  Definitions only. *)
From Verif Require Import Bytes Text Dn Res Entry Password Db Packet Filter Handler.

(** A message written to the client: a search entry, or a final response with
    its application tag, result code and (extended response) value.
    Simplification: matchedDN (always empty) and the diagnostic text are left
    out, as are response controls. *)
Inductive response :=
| REntry (id : Z) (e : entry)
| RFinal (id : Z) (tag : N) (code : N) (v : option str).

(** What happens to the connection after a packet: it goes on with the given
    bound DN, it is closed, or the process ends. *)
Inductive next := Go (bound : str) | Drop | Dead.

(** What the environment decides during one request: the handler's part, the
    salt of a new hash, the random draws of a generated password, and which
    writes to the client succeed. *)
Record renv (E : Type) := mkREnv {
  re_h : E; re_salt : str; re_draws : list nat; re_send : nat -> bool
}.
Arguments mkREnv {E}.
Arguments re_h {E}.
Arguments re_salt {E}.
Arguments re_draws {E}.
Arguments re_send {E}.

(** pkg/ldapserver/server.go:58-71: EnforceLDAP and GeneratedPasswordLength.
    Simplification: one handler, registered under the empty suffix as
    server/server.go:138-146 does.  That routing then always finds it, and the
    default handlers of NewServer are out of use, is C86_single (Mux.v). *)
Record server_cfg := mkServer { sv_enforce : bool; sv_genlen : Z }.

(** ber.Packet class of requests etc. are in Packet.v. *)
Definition pwmod_oid : str := B "1.3.6.1.4.1.4203.1.11.1".

Section server.
Context {T : Text} {C : Crypto} {W : Wire} {S E : Type}.
Variable (cfg : server_cfg) (h : handler S E).

(** An outcome of a request handler: result code of the final response, or the
    ways not to get there. *)
Definition lift_res {A} (r : res A) (k : A -> hout answer * S) (s : S) : hout answer * S :=
  match r with
  | Ok a => k a
  | Err (ELdap code _) => (HRet (code, true), s)
  | Err _ => (HRet (OperationsError, true), s)
  | Panic => (HPanic, s)
  | Diverge => (HKill, s)
  end.

(** pkg/ldapserver/add.go:12-36 HandleAddRequest, and the code server.go:273-286
    puts into the response. *)
Definition handle_add (ev : renv E) (bound : str) (req : packet) (s : S) : hout answer * S :=
  if is_empty bound then (HRet (InsufficientAccessRights, true), s)
  else lift_res (parse_add req) (fun r => h_add h (re_h ev) bound r s) s.
(** pkg/ldapserver/delete.go:12-36 HandleDeleteRequest, server.go:325-338. *)
Definition handle_delete (ev : renv E) (bound : str) (req : packet) (s : S) : hout answer * S :=
  if is_empty bound then (HRet (InsufficientAccessRights, true), s)
  else lift_res (parse_delete req) (fun dn => h_delete h (re_h ev) bound dn s) s.
(** pkg/ldapserver/modify.go:12-39 HandleModifyRequest, server.go:389-402. *)
Definition handle_modify (ev : renv E) (bound : str) (req : packet) (s : S) : hout answer * S :=
  if is_empty bound then (HRet (InsufficientAccessRights, true), s)
  else lift_res (parse_modify req) (fun r => h_modify h (re_h ev) bound r s) s.
(** pkg/ldapserver/modifydn.go:12-39 HandleModifyDNRequest, server.go:367-380. *)
Definition handle_moddn (ev : renv E) (bound : str) (req : packet) (s : S) : hout answer * S :=
  if is_empty bound then (HRet (InsufficientAccessRights, true), s)
  else lift_res (parse_moddn req) (fun r => h_moddn h (re_h ev) bound r s) s.

(** pkg/ldapserver/bind.go:15-64 HandleBindRequest.  The deferred recover turns
    every panic into OperationsError; an error of the handler does so too. *)
Definition handle_bind (ev : renv E) (req : packet) (s : S) : hout N * S :=
  match p_kids req with
  | [] => (HRet OperationsError, s)
  | v :: rest =>
      match as_int (p_val v) with
      | None => (HRet ProtocolError, s)
      | Some n =>
          if negb (n =? 3)%Z then (HRet InappropriateAuthentication, s)
          else match rest with
               | [] => (HRet OperationsError, s)
               | d :: rest' =>
                   match as_str (p_val d) with
                   | None => (HRet ProtocolError, s)
                   | Some dn =>
                       match rest' with
                       | [] => (HRet OperationsError, s)
                       | a :: rest'' =>
                           if negb (p_tag a =? 0)%N then (HRet InappropriateAuthentication, s)
                           else if negb (is_empty rest'') then (HRet InappropriateAuthentication, s)
                           else match h_bind h (re_h ev) dn (p_data a) s with
                                | (HRet (code, false), s') => (HRet code, s')
                                | (HRet (_, true), s') => (HRet OperationsError, s')
                                | (HPanic, s') => (HRet OperationsError, s')
                                | (HKill, s') => (HKill, s')
                                end
                       end
                   end
               end
      end
  end.

(** pkg/ldapserver/pwmodifyexop.go:26-83 HandlePasswordModifyExOp: the value of
    the response (the generated "password"), or an error. *)
Definition handle_pwmod (ev : renv E) (bound : str) (body : option packet) (s : S)
    : hout (answer * option str) * S :=
  let fail (code : N) (err : bool) := (HRet ((code, err), None), s) in
  if is_empty bound then fail UnwillingToPerform true
  else match parse_pwmod body with
       | Ok r =>
           let user := if is_empty (pw_user r) then bound else pw_user r in
           let gen := is_empty (pw_new r) in
           match (if gen then generate_password (sv_genlen cfg) (re_draws ev) else Ok (pw_new r)) with
           | Ok pw =>
               match hash_password pw (B "{ARGON2}") (re_salt ev) with
               | Ok hash =>
                   match h_password h (re_h ev) bound (mkPw user (pw_old r) hash) s with
                   | (HRet (code, err), s') =>
                       if (code =? Success)%N
                       then (HRet ((Success, false), if gen then Some hash else None), s')
                       else (HRet ((code, err), None), s')
                   | (HPanic, s') => (HPanic, s')
                   | (HKill, s') => (HKill, s')
                   end
               | Err _ => fail OperationsError true
               | Panic => (HPanic, s)
               | Diverge => (HKill, s)
               end
           | Err _ => fail OperationsError true
           | Panic => (HPanic, s)
           | Diverge => (HKill, s)
           end
       | Err (ELdap code i) => fail code i
       | Err _ => fail ResultOther true
       | Panic => (HPanic, s)
       | Diverge => (HKill, s)
       end.
(** pkg/ldapserver/extended.go:24-48 HandleExtendedRequest and
    server.go:346-358: code and value of the response.  [lerr.Err.Error()]
    (extended.go:36) panics when the inner error is nil.  The only registered
    operation is the password modification (pwmodifyexop.go:22-24). *)
Definition handle_extended (ev : renv E) (bound : str) (req : packet) (s : S)
    : hout (N * option str) * S :=
  match parse_extended req with
  | Ok (oid, body) =>
      if seqb oid pwmod_oid then
        match handle_pwmod ev bound body s with
        | (HRet ((code, err), v), s') =>
            if negb (code =? Success)%N && negb err then (HPanic, s') else (HRet (code, v), s')
        | (HPanic, s') => (HPanic, s')
        | (HKill, s') => (HKill, s')
        end
      else (HRet (OperationsError, None), s)
  | Err _ => (HRet (OperationsError, None), s)
  | Panic => (HPanic, s)
  | Diverge => (HKill, s)
  end.

(** pkg/ldapserver/search.go:17-93 HandleSearchRequest: the entries sent, and
    then no error ([None]) or the code of the error.  Entries sent before a panic
    have reached the client. *)
Definition handle_search (ev : renv E) (bound : str) (req : packet) (s : S)
    : list entry * hout (option N) * S :=
  match parse_search req with
  | Ok r =>
      let run (flt : packet) :=
        match h_search h (re_h ev) bound r s with
        | (HRet f, s') =>
            if f_err f then ([], HRet (Some (f_code f)), s')
            else match search_loop (sv_enforce cfg) flt r (re_send ev) (f_entries f) 0 with
                 | (es, Ok _) => (es, HRet None, s')
                 | (es, Err (ELdap code _)) => (es, HRet (Some code), s')
                 | (es, Err _) => (es, HRet (Some OperationsError), s')
                 | (es, Panic) => (es, HPanic, s')
                 | (es, Diverge) => (es, HKill, s')
                 end
        | (HPanic, s') => ([], HPanic, s')
        | (HKill, s') => ([], HKill, s')
        end in
      if sv_enforce cfg then
        match compile_filter (sr_filter r) with
        | Some flt => run flt
        | None => ([], HRet (Some OperationsError), s)
        end
      else run (Pkt 0 false 0 VNil [] [])
  | Err _ => ([], HRet (Some OperationsError), s)
  | Panic => ([], HPanic, s)
  | Diverge => ([], HKill, s)
  end.

(** The result of one packet. *)
Record result := mkResult { r_out : list response; r_next : next; r_state : S }.

(** A response written as the [k]-th message of the request (server.go:441-448
    sendPacket): if the write fails the connection is closed.  After the entries
    of a search one number is left unused: it may have been taken by an entry
    whose write failed, and the final message is attempted all the same. *)
Definition send_final (ev : renv E) (k : nat) (pre : list response) (r : response) (n : next) (s : S)
    : result :=
  if re_send ev k then mkResult (pre ++ [r]) n s else mkResult pre Drop s.
(** server.go:273-292 and its repetitions for delete, modify and modifyDN. *)
Definition finish (ev : renv E) (id : Z) (tag : N) (bound : str) (r : hout answer * S) : result :=
  match r with
  | (HRet (code, _), s') => send_final ev 0 [] (RFinal id tag code None) (Go bound) s'
  | (_, s') => mkResult [] Dead s'
  end.

(** pkg/ldapserver/server.go:259-430, the dispatch on the operation. *)
Definition dispatch (ev : renv E) (bound : str) (id : Z) (req : packet) (s : S) : result :=
  let tag := p_tag req in
  if (tag =? AddRequest)%N then finish ev id AddResponse bound (handle_add ev bound req s)
  else if (tag =? BindRequest)%N then
    match handle_bind ev req s with
    | (HRet code, s') =>
        if (code =? Success)%N then
          match p_kids req with
          | _ :: d :: _ =>
              match as_str (p_val d) with
              | Some dn =>
                  match parse_normalize dn with
                  | Some n => send_final ev 0 [] (RFinal id BindResponse code None) (Go n) s'
                  | None => mkResult [] Drop s'
                  end
              | None => mkResult [] Drop s'
              end
          | _ => mkResult [] Dead s'
          end
        else send_final ev 0 [] (RFinal id BindResponse code None) (Go bound) s'
    | (_, s') => mkResult [] Dead s'
    end
  else if (tag =? CompareRequest)%N then
    send_final ev 0 [] (RFinal id CompareRequest OperationsError None) Drop s
  else if (tag =? DelRequest)%N then finish ev id DelResponse bound (handle_delete ev bound req s)
  else if (tag =? ExtendedRequest)%N then
    match handle_extended ev bound req s with
    | (HRet (code, v), s') => send_final ev 0 [] (RFinal id ExtendedResponse code v) (Go bound) s'
    | (_, s') => mkResult [] Dead s'
    end
  else if (tag =? ModifyDNRequest)%N then
    finish ev id ModifyDNResponse bound (handle_moddn ev bound req s)
  else if (tag =? ModifyRequest)%N then
    finish ev id ModifyResponse bound (handle_modify ev bound req s)
  else if (tag =? SearchRequest)%N then
    match handle_search ev bound req s with
    | (es, HRet o, s') =>
        send_final ev (Datatypes.S (length es)) (map (REntry id) es)
          (RFinal id SearchResultDone (match o with Some code => code | None => Success end) None)
          (match o with Some _ => Drop | None => Go bound end) s'
    | (es, _, s') => mkResult (map (REntry id) es) Dead s'
    end
  else mkResult [] Drop s.

(** pkg/ldapserver/server.go:243-254: the controls are decoded one after the
    other; errors are skipped, a panic is not recovered. *)
Fixpoint decode_controls (l : list packet) : bool :=
  match l with
  | [] => true
  | c :: l' =>
      match decode_control c with
      | Ok _ | Err _ => decode_controls l'
      | _ => false
      end
  end.

(** pkg/ldapserver/server.go:216-431, one iteration of the loop of
    handleConnection on a packet that was read successfully.  Simplification: a
    request is one atomic step; every handler method makes a single database
    transaction, and the bound DN is local to the connection (that this is no
    loss is C85, by the finer model of Conns.v).  Statistics are
    modelled separately (Stats.v); here they are disabled (nil). *)
Definition handle (ev : renv E) (bound : str) (p : packet) (s : S) : result :=
  match p_kids p with
  | i :: req :: rest =>
      match as_int (p_val i) with
      | None => mkResult [] Drop s
      | Some id =>
          if negb (p_cls req =? ClassApplication)%N then mkResult [] Drop s
          else if match rest with c :: _ => decode_controls (p_kids c) | [] => true end
          then dispatch ev bound id req s
          else mkResult [] Dead s
      end
  | _ => mkResult [] Drop s
  end.

(** * Many connections *)

(** Open connections with their bound DN, the backend state, and whether the
    process is alive. *)
Record world := mkWorld { w_conns : gmap nat str; w_state : S; w_alive : bool }.
(** Connection [c] is accepted (server.go:202-204), sends a packet, or ends
    (end of file or read error, server.go:219-225). *)
Inductive event :=
| EOpen (c : nat)
| EPacket (c : nat) (ev : renv E) (p : packet)
| EClose (c : nat).
(** The effect of an event, with the messages written.  Events that cannot
    happen (no such connection) leave the world alone. *)
Definition step (w : world) (e : event) : world * list response :=
  if negb (w_alive w) then (w, [])
  else match e with
       | EOpen c =>
           match w_conns w !! c with
           | Some _ => (w, [])
           | None => (mkWorld (<[c := []]> (w_conns w)) (w_state w) true, [])
           end
       | EClose c => (mkWorld (delete c (w_conns w)) (w_state w) true, [])
       | EPacket c ev p =>
           match w_conns w !! c with
           | None => (w, [])
           | Some bound =>
               let r := handle ev bound p (w_state w) in
               (match r_next r with
                | Go b => mkWorld (<[c := b]> (w_conns w)) (r_state r) true
                | Drop => mkWorld (delete c (w_conns w)) (r_state r) true
                | Dead => mkWorld ∅ (r_state r) false
                end, r_out r)
           end
       end.
Fixpoint run (w : world) (es : list event) : world :=
  match es with
  | [] => w
  | e :: es' => run (step w e).1 es'
  end.
Definition start (s : S) : world := mkWorld ∅ s true.
End server.
Arguments mkResult {S}.
Arguments r_out {S}.
Arguments r_next {S}.
Arguments r_state {S}.
Arguments mkWorld {S}.
Arguments w_conns {S}.
Arguments w_state {S}.
Arguments w_alive {S}.
Arguments EOpen {E}.
Arguments EPacket {E}.
Arguments EClose {E}.
