(** The goroutines behind a search in the LDIF backend
    (server/handler/ldif/handler.go): the pump that sends entries, the Search
    call that receives them, paging cookies and reloads, as one transition
    system over all connections.  Definitions only. *)
From Verif Require Import Bytes Text Dn Res Entry Password Db Packet Filter Handler Ldif.

(** handler.go:411-419, 421-440: a pump is sending; or it has left and taken its
    cookie out of activeSearchPagings; or it has closed its channel too. *)
Inductive phase := Sending | Removed | Closed.
(** One searchEntriesPump goroutine with its channel: the entries it has still
    to send and its cookie.  [pm_full] is everything it set out to send; no step
    looks at it. *)
Record pump := mkPump {
  pm_full : list entry; pm_todo : list entry; pm_phase : phase; pm_cookie : option str
}.
(** One Search call in its loop (handler.go:323-393): the channel it reads (None
    is the nil channel), the compiled filter, the request, the paging control it
    keeps (with the cookie it will answer) and the entries so far. *)
Record reader := mkReader {
  rd_chan : option nat; rd_flt : packet; rd_req : search_req; rd_page : option paging;
  rd_acc : list entry
}.
(** handler.go:31-45 ldifHandler: current and activeSearchPagings, with the
    running goroutines.  A channel is named by a number; [ps_next] is the next
    unused one.  Search calls are named by their connection: a connection waits
    for the answer before it reads the next request (pkg/ldapserver/server.go:213-439). *)
Record pstate := mkP {
  ps_data : dataset; ps_next : nat; ps_pumps : gmap nat pump; ps_reg : gmap str nat;
  ps_readers : gmap nat reader
}.
Definition p_init (d : dataset) : pstate := mkP d 0 ∅ ∅ ∅.

(** ldapserver.ServerSearchResult as Search returns it, with the cookie of its
    paging control if there is one (handler.go:395-407). *)
Record page := mkPage { pa_found : found; pa_cookie : option str }.
(** An answer of the Search call of a connection.  The channel the entries were
    read from and the paging control of the request are kept beside it. *)
Record answered := mkAns {
  an_conn : nat; an_chan : option nat; an_page : option paging; an_out : hout page
}.

(** handler.go:260-270: the paging control is dropped if the size limit would end
    the page first. *)
Definition paging_of (r : search_req) (p : option paging) : option paging :=
  match p with
  | Some p => if (0 <? sr_size r)%Z && (u32 (sr_size r) <=? pg_size p)%Z then None else Some p
  | None => None
  end.

Section paging.
Context {T : Text} {C : Crypto} {W : Wire} {Tr : Trees}.
Variable (c : ldif_cfg).

(** handler.go:442-484: the entries a pump sends, in order; the pointers followed. *)
Definition sends (d : dataset) (base : str) (fs : list leaf) : list entry :=
  omap (fun p => l_entry <$> (d_heap d !! p)) (candidates d base fs).
(** handler.go:251: the index filter; an error leaves none. *)
Definition leaves_of (r : search_req) : res (list leaf) :=
  match compile_filter (sr_filter r) with
  | Some f => index_filter f
  | None => Ok []
  end.

Definition say (k : nat) (o : hout page) : option answered := Some (mkAns k None None o).
Definition no_page (f : hout found) : hout page :=
  match f with HRet f => HRet (mkPage f None) | HPanic => HPanic | HKill => HKill end.
(** handler.go:316-328: with the channel at hand the filter is compiled and the
    loop entered. *)
Definition enter (k : nat) (ch : option nat) (r : search_req) (pg : option paging) (st : pstate)
    : pstate * option answered :=
  match compile_filter (sr_filter r) with
  | None => (st, say k (no_page (refused OperationsError)))
  | Some flt =>
      (mkP (ps_data st) (ps_next st) (ps_pumps st) (ps_reg st)
         (<[k := mkReader ch flt r pg []]> (ps_readers st)), None)
  end.
(** handler.go:299-305 and 276-281: a new channel and its pump, registered under
    the cookie if there is one.  The pump takes the data current at this point. *)
Definition spawn (fs : list leaf) (r : search_req) (ck : option str) (st : pstate) : pstate :=
  let all := sends (ps_data st) (sr_base r) fs in
  mkP (ps_data st) (S (ps_next st)) (<[ps_next st := mkPump all all Sending ck]> (ps_pumps st))
    (match ck with Some ck => <[ck := ps_next st]> (ps_reg st) | None => ps_reg st end)
    (ps_readers st).
Definition forget (ck : str) (st : pstate) : pstate :=
  mkP (ps_data st) (ps_next st) (ps_pumps st) (delete ck (ps_reg st)) (ps_readers st).
(** handler.go:244-321 Search up to its loop.  [fresh] is the cookie the random
    number generator gives (277); nothing is assumed about it here. *)
Definition p_start (k : nat) (local : bool) (bound : str) (r : search_req) (p : option paging)
    (fresh : str) (st : pstate) : pstate * option answered :=
  if negb (bind_dn_ok c local (to_lower bound)) then (st, say k (no_page (refused InsufficientAccessRights)))
  else match leaves_of r with
       | Panic => (st, say k HPanic)
       | Diverge => (st, say k HKill)
       | Err _ => (st, say k (no_page (refused OperationsError)))
       | Ok fs =>
           if negb (has_suffix (to_lower (sr_base r)) (lc_base c))
           then (st, say k (no_page (refused InsufficientAccessRights)))
           else match paging_of r p with
                | None => enter k (Some (ps_next st)) r None (spawn fs r None st)
                | Some pg =>
                    if is_empty (pg_cookie pg) then
                      enter k (Some (ps_next st)) r (Some (mkPaging (pg_size pg) fresh))
                        (spawn fs r (Some fresh) st)
                    else match ps_reg st !! pg_cookie pg with
                         | None => (st, say k (no_page (refused UnwillingToPerform)))
                         | Some ch =>
                             if (0 <? pg_size pg)%Z then enter k (Some ch) r (Some pg) st
                             else enter k None r (Some pg) (forget (pg_cookie pg) st)
                         end
                end
       end.

(** The Search call of a connection returns. *)
Definition p_leave (k : nat) (rd : reader) (o : hout page) (st : pstate) : pstate * option answered :=
  (mkP (ps_data st) (ps_next st) (ps_pumps st) (ps_reg st) (delete k (ps_readers st)),
   Some (mkAns k (rd_chan rd) (rd_page rd) o)).
Definition set_reader (k : nat) (rd : reader) (st : pstate) : pstate :=
  mkP (ps_data st) (ps_next st) (ps_pumps st) (ps_reg st) (<[k := rd]> (ps_readers st)).
Definition set_pump (ch : nat) (pm : pump) (st : pstate) : pstate :=
  mkP (ps_data st) (ps_next st) (<[ch := pm]> (ps_pumps st)) (ps_reg st) (ps_readers st).
(** handler.go:331-391 with an entry received. *)
Definition p_take (k : nat) (rd : reader) (e : entry) (st : pstate) : pstate * option answered :=
  match take_entry (rd_flt rd) (rd_req rd) e with
  | Ok None => (st, None)
  | Ok (Some e') =>
      let acc := rd_acc rd ++ [e'] in
      if enough (pg_size <$> rd_page rd) (sr_size (rd_req rd)) (length acc)
      then p_leave k rd (HRet (mkPage (mkFound acc Success false) (pg_cookie <$> rd_page rd))) st
      else (set_reader k (mkReader (rd_chan rd) (rd_flt rd) (rd_req rd) (rd_page rd) acc) st, None)
  | Err (ELdap code _) => p_leave k rd (no_page (refused code)) st
  | Err _ => p_leave k rd (no_page (refused OperationsError)) st
  | Panic => p_leave k rd HPanic st
  | Diverge => p_leave k rd HKill st
  end.

(** The steps.  Those that cannot happen change nothing.  [PRecv]: pump and
    Search meet on the unbuffered channel (331, 423).  [PDone]: the pump has sent
    everything and runs the first half of its deferred function (411-413).
    [PShut]: it closes the channel (414, 417).  [PEmpty]: Search sees the closed
    channel (332-335).  [PGiveUp]: the timer or the context ends the pump with
    entries unsent (424-437).  [PReload]: Reload with what the parser delivers. *)
Inductive pevent :=
| PStart (k : nat) (local : bool) (bound : str) (r : search_req) (p : option paging) (fresh : str)
| PRecv (k : nat)
| PDone (ch : nat)
| PShut (ch : nat)
| PEmpty (k : nat)
| PGiveUp (ch : nat)
| PReload (parsed : option (list (option entry))).
Definition unregister (pm : pump) (st : pstate) : pstate :=
  match pm_cookie pm with Some ck => forget ck st | None => st end.
Definition p_step (st : pstate) (e : pevent) : pstate * option answered :=
  match e with
  | PStart k local bound r p fresh =>
      match ps_readers st !! k with
      | Some _ => (st, None)
      | None => p_start k local bound r p fresh st
      end
  | PRecv k =>
      match ps_readers st !! k with
      | Some rd =>
          match rd_chan rd with
          | Some ch =>
              match ps_pumps st !! ch with
              | Some (mkPump full (e :: todo) Sending ck) =>
                  p_take k rd e (set_pump ch (mkPump full todo Sending ck) st)
              | _ => (st, None)
              end
          | None => (st, None)
          end
      | None => (st, None)
      end
  | PDone ch =>
      match ps_pumps st !! ch with
      | Some (mkPump full [] Sending ck) =>
          let pm := mkPump full [] Removed ck in (unregister pm (set_pump ch pm st), None)
      | _ => (st, None)
      end
  | PShut ch =>
      match ps_pumps st !! ch with
      | Some (mkPump full todo Removed ck) => (set_pump ch (mkPump full todo Closed ck) st, None)
      | _ => (st, None)
      end
  | PEmpty k =>
      match ps_readers st !! k with
      | Some rd =>
          match rd_chan rd with
          | Some ch =>
              match ps_pumps st !! ch with
              | Some (mkPump _ _ Closed _) =>
                  p_leave k rd (HRet (mkPage (mkFound (rd_acc rd) Success false)
                                        ((fun _ => []) <$> rd_page rd))) st
              | _ => (st, None)
              end
          | None => (st, None)
          end
      | None => (st, None)
      end
  | PGiveUp ch =>
      match ps_pumps st !! ch with
      | Some (mkPump full (e :: todo) Sending ck) =>
          let pm := mkPump full (e :: todo) Removed ck in (unregister pm (set_pump ch pm st), None)
      | _ => (st, None)
      end
  | PReload parsed =>
      (mkP (ldif_reload c parsed (ps_data st)).2 (ps_next st) (ps_pumps st) (ps_reg st) (ps_readers st), None)
  end.
Definition p_run (st : pstate) (es : list pevent) : pstate :=
  foldl (fun st e => (p_step st e).1) st es.
(** The answers given along the way, in order. *)
Fixpoint p_outs (st : pstate) (es : list pevent) : list answered :=
  match es with
  | [] => []
  | e :: es' =>
      let '(st', o) := p_step st e in
      match o with Some a => a :: p_outs st' es' | None => p_outs st' es' end
  end.
End paging.
