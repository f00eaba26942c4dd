(** The server with metrics enabled: the connections of Conns.v, the listeners and
    the readers of the metrics endpoint share the mutex of Stats.v.  Definitions
    only. *)
From Verif Require Import Bytes Text Dn Res Entry Password Db Packet Filter Handler Server.
From Verif Require Stats.
From Verif Require Import Conns.

(** server/metrics.go:35-76, 87-125 NewLDAPServerCollector and Collect: the values
    shown at /metrics, by name.  The names are joined by prometheus.BuildFQName, a
    library call, and prefixed at cmd/idmd/serve/serve.go:266.  Simplifications: help
    texts and the kind of a value (counter or gauge) are left out; a value is shown
    as a float64, which is exact below 2^53. *)
Definition collected (s : Stats.stats) : list (str * Z) :=
  let c := Stats.clone s in
  [(B "kidm_ldapserver_connections_total", Stats.s_conns c);
   (B "kidm_ldapserver_connections_current", Stats.s_current c);
   (B "kidm_ldapserver_connections_max", Stats.s_max c);
   (B "kidm_ldapserver_binds_total", Stats.s_binds c);
   (B "kidm_ldapserver_unbinds_total", Stats.s_unbinds c);
   (B "kidm_ldapserver_searches_total", Stats.s_searches c)].

Section counted.
Context {T : Text} {C : Crypto} {W : Wire}.
Variable (cfg : server_cfg) (c : bolt_cfg).

(** pkg/ldapserver/server.go:270-271, 294-295, 323-324, 365-366, 387-388, 409-410,
    426-427: what is counted for a request, by its tag. *)
Definition counted_tag (tag : N) : option Stats.call :=
  if (tag =? AddRequest)%N then Some Stats.CAdd
  else if (tag =? BindRequest)%N then Some Stats.CBind
  else if (tag =? DelRequest)%N then Some Stats.CDelete
  else if (tag =? ModifyDNRequest)%N then Some Stats.CModDN
  else if (tag =? ModifyRequest)%N then Some Stats.CModify
  else if (tag =? SearchRequest)%N then Some Stats.CSearch
  else if (tag =? UnbindRequest)%N then Some Stats.CUnbind
  else None.
(** server.go:227-259: what a packet is counted as, if the loop gets as far as the
    dispatch; nothing of the request itself has been looked at then. *)
Definition counted (p : packet) : option Stats.call :=
  match p_kids p with
  | i :: req :: rest =>
      match as_int (p_val i) with
      | None => None
      | Some _ =>
          if negb (p_cls req =? ClassApplication)%N then None
          else if match rest with x :: _ => decode_controls (p_kids x) | [] => true end
          then counted_tag (p_tag req)
          else None
      end
  | _ => None
  end.

(** The goroutines that use the statistics: that of a listener, that of a
    connection, and one for each reader of /metrics; numbered apart. *)
Definition listener_id (i : nat) : nat := 3 * i.
Definition conn_id (k : nat) : nat := 3 * k + 1.
Definition reader_id (j : nat) : nat := 3 * j + 2.

(** [m_new]: the connection that a listener has accepted and is counting.  It is
    nobody's yet (server.go:203-204). *)
Record mworld := mkM { m_srv : cworld; m_stats : Stats.sstate; m_new : gmap nat nat }.
Definition mstart (d : db) : mworld := mkM (cstart d) Stats.s_init ∅.
(** Not inside a call of the statistics. *)
Definition free (w : mworld) (t : nat) : Prop :=
  forall x, Stats.ss_threads (m_stats w) !! t = Some x -> Stats.th_prog x = [].
(** A step of the server that ends connection [k]; one that creates it. *)
Definition ends (s s' : cworld) (k : nat) : Prop :=
  exists x x', cw_conns s !! k = Some x /\ cw_conns s' !! k = Some x' /\ cn_phase x <> PClosed /\ cn_phase x' = PClosed.
Definition creates (s s' : cworld) (k : nat) : Prop := cw_conns s !! k = None /\ cw_conns s' !! k <> None.

(** What happens, for the record. *)
Inductive label :=
| LAccept (i k : nat) | LStart (i k : nat) | LRead (k : nat) (ev : renv env) (p : packet)
| LEnd (k : nat) | LWork | LCount (t : nat) | LMetrics (j : nat).
(** The calls of the statistics it makes. *)
Definition calls_of (l : label) : list Stats.sevent :=
  match l with
  | LAccept i _ => [Stats.SCall (listener_id i) Stats.COpen]
  | LRead k _ p => match counted p with Some x => [Stats.SCall (conn_id k) x] | None => [] end
  | LEnd k => [Stats.SCall (conn_id k) Stats.CClose]
  | LCount t => [Stats.SRun t]
  | LMetrics j => [Stats.SCall (reader_id j) Stats.CClone]
  | LStart _ _ | LWork => []
  end.
(** The steps of a process that is alive.
    - A listener takes an accepted connection and counts it (server.go:202-203);
      then it starts the goroutine of the connection (204).
    - A connection reads a packet and counts it, if it is of a counted kind.
    - It ends, and is counted (server.go:437-438).
    - The server makes any other step of its own; a connection that is counting
      makes none.
    - A goroutine makes a step of its call of the statistics, if it can.
    - The metrics are read (metrics.go:88). *)
Inductive mstep (w : mworld) : label -> mworld -> Prop :=
| ms_accept i k :
    cw_alive (m_srv w) = true -> free w (listener_id i) -> m_new w !! i = None ->
    cw_conns (m_srv w) !! k = None -> (forall j, m_new w !! j <> Some k) ->
    mstep w (LAccept i k) (mkM (m_srv w) (Stats.s_run (m_stats w) (calls_of (LAccept i k))) (<[i := k]> (m_new w)))
| ms_start i k :
    cw_alive (m_srv w) = true -> free w (listener_id i) -> m_new w !! i = Some k -> cw_conns (m_srv w) !! k = None ->
    mstep w (LStart i k)
      (mkM (mkCWorld (cw_db (m_srv w)) (cw_lock (m_srv w)) (put (m_srv w) k (mkConn [] PIdle [])) true (cw_log (m_srv w) ++ [EOpen k]))
         (m_stats w) (delete i (m_new w)))
| ms_read k b out ev p :
    cw_alive (m_srv w) = true -> free w (conn_id k) -> cw_conns (m_srv w) !! k = Some (mkConn b PIdle out) ->
    mstep w (LRead k ev p)
      (mkM (mkCWorld (cw_db (m_srv w)) (cw_lock (m_srv w)) (put (m_srv w) k (mkConn b (PAsked ev p) out)) true (cw_log (m_srv w)))
         (Stats.s_run (m_stats w) (calls_of (LRead k ev p))) (m_new w))
| ms_end k s' :
    cstep cfg c (m_srv w) s' -> ends (m_srv w) s' k -> free w (conn_id k) ->
    mstep w (LEnd k) (mkM s' (Stats.s_run (m_stats w) (calls_of (LEnd k))) (m_new w))
| ms_work k s' :
    cstep cfg c (m_srv w) s' -> ~ reads (m_srv w) s' -> (forall k, ~ ends (m_srv w) s' k) -> (forall k, ~ creates (m_srv w) s' k) ->
    free w (conn_id k) -> (forall j, j <> k -> cw_conns s' !! j = cw_conns (m_srv w) !! j) ->
    mstep w LWork (mkM s' (m_stats w) (m_new w))
| ms_count t :
    cw_alive (m_srv w) = true ->
    mstep w (LCount t) (mkM (m_srv w) (Stats.s_run (m_stats w) (calls_of (LCount t))) (m_new w))
| ms_metrics j :
    cw_alive (m_srv w) = true -> free w (reader_id j) ->
    mstep w (LMetrics j) (mkM (m_srv w) (Stats.s_run (m_stats w) (calls_of (LMetrics j))) (m_new w)).
(** [mrun w tr w']: from [w] to [w'] by the steps [tr]. *)
Inductive mrun (w : mworld) : list label -> mworld -> Prop :=
| mr_refl : mrun w [] w
| mr_more tr w1 l w2 : mrun w tr w1 -> mstep w1 l w2 -> mrun w (tr ++ [l]) w2.
End counted.
