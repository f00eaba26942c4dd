(** Connections served at the same time by the LDIF backend, while its files are
    reloaded: the loop of every connection around the searches of Paging.v, with
    the controls of requests and answers.  Definitions only. *)
From Verif Require Import Bytes Text Dn Res Entry Password Db Packet Filter Handler Server Ldif Paging.

(** A message written to the client with the cookie of the paged results control
    of a search result (pkg/ldapserver/search.go:207-225 encodeSearchDone,
    server/handler/ldif/handler.go:395-400).  Simplifications: its size is always
    0, and a search result without this control has an empty list of controls or
    none. *)
Definition message : Type := response * option str.
Definition plain_messages (l : list response) : list message := map (fun m => (m, None)) l.
Definition with_cookie (ck : option str) (l : list response) : list message :=
  map (fun m => (m, match m with RFinal _ _ _ _ => ck | REntry _ _ => None end)) l.

Section ldif_conns.
Context {T : Text} {C : Crypto} {W : Wire} {Tr : Trees}.
Variable (cfg : server_cfg) (c : ldif_cfg).

(** pkg/ldapserver/server.go:243-254: the controls of a message, those that cannot
    be decoded left out; ldap.FindControl takes the first of its kind. *)
Definition find_paging (l : list packet) : option paging :=
  head (omap (fun k => match decode_control k with Ok (KPaging p) => Some p | _ => None end) l).
Definition paging_control (p : packet) : option paging :=
  match p_kids p with _ :: _ :: x :: _ => find_paging (p_kids x) | _ => None end.

(** server.go:227-259, 409-411 and pkg/ldapserver/search.go:17-36: the request a
    message calls Search of the handler with, if it gets there. *)
Definition calls_search (p : packet) : option search_req :=
  match p_kids p with
  | i :: req :: rest =>
      match as_int (p_val i) with
      | None => None
      | Some _ =>
          if negb (p_cls req =? ClassApplication)%N then None
          else if negb match rest with x :: _ => decode_controls (p_kids x) | [] => true end then None
          else if negb (p_tag req =? SearchRequest)%N then None
          else match parse_search req with
               | Ok r =>
                   if sv_enforce cfg then match compile_filter (sr_filter r) with Some _ => Some r | None => None end
                   else Some r
               | _ => None
               end
      end
  | _ => None
  end.
(** The handler whose Search has returned. *)
Definition returned (f : hout found) : handler dataset bool :=
  mkHandler (h_add (ldif_handler c)) (h_bind (ldif_handler c)) (h_delete (ldif_handler c)) (h_modify (ldif_handler c))
    (h_moddn (ldif_handler c)) (h_password (ldif_handler c)) (fun _ _ _ d => (f, d)).
Definition found_in (x : hout page) : hout found :=
  match x with HRet pg => HRet (pa_found pg) | HPanic => HPanic | HKill => HKill end.
Definition cookie_in (x : hout page) : option str := match x with HRet pg => pa_cookie pg | _ => None end.

(** The goroutine of a connection (pkg/ldapserver/server.go:212-439
    handleConnection) waits for a packet; has read one; is inside Search; is
    writing and then goes on; has ended. *)
Inductive lphase :=
| LIdle
| LAsked (ev : renv bool) (p : packet)
| LSearch (ev : renv bool) (p : packet)
| LSend (rest : list message) (n : next)
| LClosed.
(** The bound DN (a local variable, server.go:213), the phase, and everything
    written to the client so far. *)
Record lconn := mkLC { ln_bound : str; ln_phase : lphase; ln_sent : list message }.
(** For the record: a reload with what the parser delivered, or a request that
    takes the data current at this point. *)
Inductive levent := VReload (parsed : option (list (option entry))) | VTake (k : nat) (ev : renv bool) (p : packet).
(** [lw_log] is ghost: what took effect, in order. *)
Record lworld := mkLW { lw_p : pstate; lw_conns : gmap nat lconn; lw_alive : bool; lw_log : list levent }.
Definition lstart (d : dataset) : lworld := mkLW (p_init d) ∅ true [].
Definition lput (w : lworld) (k : nat) (x : lconn) : gmap nat lconn := <[k := x]> (lw_conns w).

(** pkg/ldapserver/search.go:36-92 and server.go:411-425: what a request does once
    Search has returned [x] (see [handle]); the data is not looked at any more. *)
Definition replies (ev : renv bool) (b : str) (p : packet) (d : dataset) (x : hout page) : lphase :=
  let r := handle cfg (returned (found_in x)) ev b p d in
  LSend (with_cookie (cookie_in x) (r_out r)) (r_next r).
Definition after_step (ev : renv bool) (b : str) (p : packet) (d : dataset) (o : option answered) : lphase :=
  match o with Some a => replies ev b p d (an_out a) | None => LSearch ev p end.

(** What happens, for the record; [LbSearch] with the number of the channel a
    search would create. *)
Inductive llabel :=
| LbOpen (k : nat) | LbEof (k : nat) | LbRead (k : nat) (ev : renv bool) (p : packet)
| LbPlain (k : nat) | LbSearch (k ch : nat) (e : pevent) | LbPump (e : pevent) | LbWait (k : nat) (e : pevent)
| LbSend (k : nat).
(** The steps of pumps and reloads, which belong to no connection. *)
Definition pump_event (e : pevent) : Prop :=
  match e with PDone _ | PShut _ | PGiveUp _ | PReload _ => True | _ => False end.
Definition noted (e : pevent) : list levent := match e with PReload parsed => [VReload parsed] | _ => [] end.

(** The steps of a process that is alive.
    - A connection is accepted (server.go:202-204), ends (219-225), or a packet is
      read (218).
    - A packet that does not lead to Search is dealt with: Bind loads the data set
      once (server/handler/ldif/handler.go:198), nothing else does.
    - Search runs up to its loop, or returns before ([p_start]).
    - Pumps and reloads make a step.
    - Search receives an entry or sees its channel closed.
    - A message is written; the last one written, the next packet is waited for,
      the connection closed, or the process ends. *)
Inductive lstep (w : lworld) : llabel -> lworld -> Prop :=
| ls_open k :
    lw_alive w = true -> lw_conns w !! k = None ->
    lstep w (LbOpen k) (mkLW (lw_p w) (lput w k (mkLC [] LIdle [])) true (lw_log w))
| ls_eof k b out :
    lw_alive w = true -> lw_conns w !! k = Some (mkLC b LIdle out) ->
    lstep w (LbEof k) (mkLW (lw_p w) (lput w k (mkLC b LClosed out)) true (lw_log w))
| ls_read k b out ev p :
    lw_alive w = true -> lw_conns w !! k = Some (mkLC b LIdle out) ->
    lstep w (LbRead k ev p) (mkLW (lw_p w) (lput w k (mkLC b (LAsked ev p) out)) true (lw_log w))
| ls_plain k b out ev p :
    lw_alive w = true -> lw_conns w !! k = Some (mkLC b (LAsked ev p) out) -> calls_search p = None ->
    let r := handle cfg (ldif_handler c) ev b p (ps_data (lw_p w)) in
    lstep w (LbPlain k)
      (mkLW (lw_p w) (lput w k (mkLC b (LSend (plain_messages (r_out r)) (r_next r)) out)) true (lw_log w ++ [VTake k ev p]))
| ls_search k b out ev p r fresh :
    lw_alive w = true -> lw_conns w !! k = Some (mkLC b (LAsked ev p) out) -> calls_search p = Some r ->
    let e := PStart k (re_h ev) b r (paging_control p) fresh in
    let s := p_step c (lw_p w) e in
    lstep w (LbSearch k (ps_next (lw_p w)) e)
      (mkLW s.1 (lput w k (mkLC b (after_step ev b p (ps_data (lw_p w)) s.2) out)) true (lw_log w ++ [VTake k ev p]))
| ls_pump e :
    lw_alive w = true -> pump_event e ->
    lstep w (LbPump e) (mkLW (p_step c (lw_p w) e).1 (lw_conns w) true (lw_log w ++ noted e))
| ls_wait k b out ev p e :
    lw_alive w = true -> lw_conns w !! k = Some (mkLC b (LSearch ev p) out) -> e = PRecv k \/ e = PEmpty k ->
    let s := p_step c (lw_p w) e in
    lstep w (LbWait k e)
      (mkLW s.1 (lput w k (mkLC b (after_step ev b p (ps_data (lw_p w)) s.2) out)) true (lw_log w))
| ls_send k b out m rest n :
    lw_alive w = true -> lw_conns w !! k = Some (mkLC b (LSend (m :: rest) n) out) ->
    lstep w (LbSend k) (mkLW (lw_p w) (lput w k (mkLC b (LSend rest n) (out ++ [m]))) true (lw_log w))
| ls_go k b out b' :
    lw_alive w = true -> lw_conns w !! k = Some (mkLC b (LSend [] (Go b')) out) ->
    lstep w (LbSend k) (mkLW (lw_p w) (lput w k (mkLC b' LIdle out)) true (lw_log w))
| ls_drop k b out :
    lw_alive w = true -> lw_conns w !! k = Some (mkLC b (LSend [] Drop) out) ->
    lstep w (LbSend k) (mkLW (lw_p w) (lput w k (mkLC b LClosed out)) true (lw_log w))
| ls_die k b out :
    lw_alive w = true -> lw_conns w !! k = Some (mkLC b (LSend [] Dead) out) ->
    lstep w (LbSend k) (mkLW (lw_p w) (lw_conns w) false (lw_log w)).
Inductive lrun (w : lworld) : list llabel -> lworld -> Prop :=
| lr_refl : lrun w [] w
| lr_more tr w1 l w2 : lrun w tr w1 -> lstep w1 l w2 -> lrun w (tr ++ [l]) w2.

(** * Specification vocabulary *)

(** One connection on its own: its requests one after the other, each as a whole
    and answered from the data of the last successful reload before it; how it
    goes on after the last one. *)
Record solo := mkSolo { so_data : dataset; so_next : next; so_out : list response }.
Definition solo_step (k : nat) (x : solo) (e : levent) : solo :=
  match e with
  | VReload parsed => mkSolo (ldif_reload c parsed (so_data x)).2 (so_next x) (so_out x)
  | VTake j ev p =>
      if j =? k then
        match so_next x with
        | Go b =>
            let r := handle cfg (ldif_handler c) ev b p (so_data x) in
            mkSolo (so_data x) (r_next r) (so_out x ++ r_out r)
        | _ => x
        end
      else x
  end.
Definition alone (k : nat) (d : dataset) (log : list levent) : solo := foldl (solo_step k) (mkSolo d (Go []) []) log.
(** The packets read on connection [k], and those dealt with. *)
Definition read_from (k : nat) (tr : list llabel) : list (renv bool * packet) :=
  omap (fun l => match l with LbRead j ev p => if j =? k then Some (ev, p) else None | _ => None end) tr.
Definition taken_from (k : nat) (log : list levent) : list (renv bool * packet) :=
  omap (fun e => match e with VTake j ev p => if j =? k then Some (ev, p) else None | _ => None end) log.
(** A packet read on connection [k] and not dealt with yet. *)
Definition not_taken (k : nat) (w : lworld) : list (renv bool * packet) :=
  match lw_conns w !! k with Some (mkLC _ (LAsked ev p) _) => [(ev, p)] | _ => [] end.
(** The request is over. *)
Definition over (k : nat) (w : lworld) : Prop :=
  lw_alive w = false \/ exists b out, lw_conns w !! k = Some (mkLC b LIdle out) \/ lw_conns w !! k = Some (mkLC b LClosed out).
(** A request that presents a cookie and asks for no entries, which is meant to
    end the paged search. *)
Definition abandons (p : packet) : Prop :=
  exists r pg, calls_search p = Some r /\ paging_of r (paging_control p) = Some pg /\ pg_cookie pg <> [] /\ (pg_size pg <= 0)%Z.
(** A client goes on with its paged search: the same request with the cookie and
    a positive page size the size limit leaves alone; the messages to it can be
    written. *)
Definition continues (r : search_req) (ck : str) (local : bool) (ev : renv bool) (p : packet) : Prop :=
  calls_search p = Some r /\ re_h ev = local /\ (forall i, re_send ev i = true) /\
  exists m, paging_control p = Some (mkPaging m ck) /\ (0 < m)%Z /\ ((0 < sr_size r)%Z -> (m < u32 (sr_size r))%Z).
End ldif_conns.
(** The number of a message. *)
Definition message_id (p : packet) : option Z :=
  match p_kids p with i :: _ => as_int (p_val i) | [] => None end.
(** What is written for one page: the entries, then the result with its cookie. *)
Record reply := mkReply { rp_id : Z; rp_size : Z; rp_entries : list entry; rp_code : N; rp_cookie : option str }.
Definition written (x : reply) : list message :=
  map (fun e => (REntry (rp_id x) e, None)) (rp_entries x) ++ [(RFinal (rp_id x) SearchResultDone (rp_code x) None, rp_cookie x)].
(** The reply has the number of the request and is to a page size. *)
Definition answers_to {W : Wire} (q : renv bool * packet) (x : reply) : Prop :=
  message_id q.2 = Some (rp_id x) /\ exists ck, paging_control q.2 = Some (mkPaging (rp_size x) ck).
(** A full page with the cookie; or the last page, less than full; or the answer
    to a request after everything was sent. *)
Definition page_reply (ck : str) (all log : list entry) (x : reply) : Prop :=
  (rp_code x = Success /\ rp_cookie x = Some ck /\ Z.of_nat (length (rp_entries x)) = Z.max 1 (rp_size x)) \/
  (rp_code x = Success /\ rp_cookie x = Some [] /\ (Z.of_nat (length (rp_entries x)) < Z.max 1 (rp_size x))%Z /\ log = all) \/
  (rp_code x = UnwillingToPerform /\ rp_cookie x = None /\ rp_entries x = [] /\ log = all).
(** What the others may do meanwhile: present other cookies only, draw other
    cookies; and the pump of the search does not give up. *)
Definition leaves_alone (k ch : nat) (ck : str) (l : llabel) : Prop :=
  match l with
  | LbSearch j _ (PStart _ _ _ _ p fresh) => fresh <> ck /\ (j <> k -> forall pg, p = Some pg -> pg_cookie pg <> ck)
  | LbPump (PGiveUp ch') => ch' <> ch
  | _ => True
  end.
