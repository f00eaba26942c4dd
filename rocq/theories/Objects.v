(** The LDIF handler objects of a running server in memory: which object holds
    which data, what WithHandler, WithContext and Reload do to them, and requests
    made while a reload is under way.  Definitions only. *)
From stdpp Require Export gmap.
From Verif Require Import Bytes Text Dn Res Entry Password Db Packet Filter Handler Ldif Template.

(** server/handler/ldif/handler.go:31-45 ldifHandler and middleware.go:24-35
    ldifMiddleware: what is not fixed.  [current] is None before the first Store;
    [serving] says that the context is that of Serve and not the background
    context; [next] is None before WithHandler.  Simplification: the map of active
    paged searches, which the copies of a handler share, is left to Paging.v. *)
Inductive obj :=
| OLdif (current : option dataset) (serving : bool)
| OOverlay (current : option dataset) (next : option nat).
(** The objects by address; the next free address; templateBasePath in the options,
    one object for both handlers (server/server.go:55-74, options.go:20). *)
Record mem := mkMem { m_objs : gmap nat obj; m_next : nat; m_path : str }.
Definition mem0 : mem := mkMem ∅ 0 [].
Definition alloc (x : obj) (m : mem) : nat * mem :=
  (m_next m, mkMem (<[m_next m := x]> (m_objs m)) (S (m_next m)) (m_path m)).

(** What is on disk at some moment.  The main source: None if there is nothing,
    else whether it is a folder and what reading and parsing it gives, which
    depends on the folder that templates may include files from; the same for the
    configuration file of the middleware. *)
Record disk := mkDisk {
  dk_main : option (bool * (str -> option (list (option entry))));
  dk_conf : str -> option (list (option entry)) }.

(** path/filepath Dir on Unix: what is before the last slash, cleaned. *)
Fixpoint to_last_slash (s : str) : str :=
  match s with
  | [] => []
  | x :: s' => let t := to_last_slash s' in if negb (is_empty t) || aeqb x slash then x :: t else []
  end.
Definition dir_of (fn : str) : str := clean (to_last_slash fn).

Section objects.
Context {T : Text} {C : Crypto} {W : Wire} {Tr : Trees}.
(** The settings after the names were checked and normalised, the lower-cased base
    DN of the middleware and the absolute name of the main source. *)
Variable (c : ldif_cfg) (base fn : str).

(** current.Store *)
Definition set_current (d : dataset) (x : obj) : obj :=
  match x with OLdif _ s => OLdif (Some d) s | OOverlay _ n => OOverlay (Some d) n end.
Definition store (p : nat) (d : dataset) (m : mem) : mem := mkMem (alter (set_current d) p (m_objs m)) (m_next m) (m_path m).

(** handler.go:89-148 open: the folder for templates is set before anything is
    read, and stays set if there is an error.  Simplification: the base DN check
    (90-92) is that of [ldif_new]. *)
Definition main_open (p : nat) (k : disk) (m : mem) : bool * mem :=
  match dk_main k with
  | None => (false, m)
  | Some (folder, parse) =>
      let path := if folder : bool then fn else dir_of fn in
      let m1 := mkMem (m_objs m) (m_next m) path in
      match parse path with
      | None => (false, m1)
      | Some records =>
          match build (lc_attrs c) records with
          | None => (false, m1)
          | Some d => (true, store p d m1)
          end
      end
  end.
(** middleware.go:68-98 open; it does not set the folder for templates. *)
Definition conf_open (p : nat) (k : disk) (m : mem) : bool * mem :=
  match dk_conf k (m_path m) with
  | None => (false, m)
  | Some records =>
      match build [] records with
      | None => (false, m)
      | Some d => (true, store p d m)
      end
  end.

(** handler.go:49-87 NewLDIFHandler and middleware.go:38-66 NewLDIFMiddleware, from
    the settings computed: the new object, None after an error. *)
Definition new_main (k : disk) (m : mem) : option nat * mem :=
  let '(p, m1) := alloc (OLdif None false) m in
  let '(ok, m2) := main_open p k m1 in (if ok : bool then Some p else None, m2).
Definition new_overlay (k : disk) (m : mem) : option nat * mem :=
  let '(p, m1) := alloc (OOverlay None None) m in
  let '(ok, m2) := conf_open p k m1 in (if ok : bool then Some p else None, m2).
(** middleware.go:105-109 WithHandler changes the object and returns it. *)
Definition with_handler (p next : nat) (m : mem) : nat * mem :=
  (p, mkMem (alter (fun x => match x with OOverlay o _ => OOverlay o (Some next) | _ => x end) p (m_objs m)) (m_next m) (m_path m)).
(** handler.go:155-164 and middleware.go:111-120 WithContext: a copy, with a copy
    of the next handler.  None: a nil pointer, or more than [n] handlers in a row. *)
Fixpoint with_context (n p : nat) (m : mem) : option (nat * mem) :=
  match n with
  | 0 => None
  | S n' =>
      match m_objs m !! p with
      | Some (OLdif d _) => Some (alloc (OLdif d true) m)
      | Some (OOverlay o (Some q)) =>
          match with_context n' q m with
          | Some (q', m') => Some (alloc (OOverlay o (Some q')) m')
          | None => None
          end
      | _ => None
      end
  end.
(** server/server.go:53-78 NewServer, the case "ldif", with a configuration file for
    the middleware or without. *)
Definition new_handler (conf : bool) (k : disk) : option (nat * mem) :=
  match new_main k mem0 with
  | (None, _) => None
  | (Some p, m) =>
      if conf then
        match new_overlay k m with
        | (None, _) => None
        | (Some q, m') => Some (with_handler q p m')
        end
      else Some (p, m)
  end.
(** server/server.go:138 Serve: the handler that is registered for all operations
    (139-146) and that is reloaded (154). *)
Definition serve_handler (conf : bool) (k : disk) : option (nat * mem) :=
  match new_handler conf k with
  | Some (p, m) => with_context 2 p m
  | None => None
  end.

(** * A reload and requests at the same time *)

(** A call of Bind or of Search (without paging, see Paging.v) and its result. *)
Inductive hcall := HBind (local : bool) (dn pw : str) | HSearch (local : bool) (bound : str) (r : search_req).
Inductive hresult := RBind (a : hout answer) | RSearch (f : hout found).
(** The goroutine of a connection has entered the method of an object, or the
    outermost call has returned. *)
Inductive progress := At (p : nat) (q : hcall) | Returned (x : hresult).
(** [ow_reload]: the object whose Reload is about to be entered by the goroutine of
    server.go:149-163, None if it waits for a signal; [ow_reports]: how the reloads
    ended. *)
Record oworld := mkO { ow_mem : mem; ow_reload : option nat; ow_calls : gmap nat progress; ow_reports : list bool }.
Definition o_start (m : mem) : oworld := mkO m None ∅ [].

(** handler.go:174-213 and 231-408: one Load of [current]. *)
Definition at_main (d : option dataset) (q : hcall) : progress :=
  match d, q with
  | Some d, HBind local dn pw => Returned (RBind (ldif_bind c local dn pw d).1)
  | Some d, HSearch local bound r => Returned (RSearch (ldif_search c local bound r d).1)
  | None, HBind _ _ _ => Returned (RBind HPanic)
  | None, HSearch _ _ _ => Returned (RSearch HPanic)
  end.
(** middleware.go:135-166 Bind up to the call of the next handler; 184-186 Search. *)
Definition at_overlay (o : option dataset) (next : nat) (q : hcall) : progress :=
  match q with
  | HBind local dn0 pw =>
      let dn := to_lower dn0 in
      if is_empty pw then At next (HBind local dn pw)
      else match o with
           | None => Returned (RBind HPanic)
           | Some o =>
               match tree_get o dn with
               | Some x => Returned (RBind (if negb (has_suffix dn base) then HRet (InvalidCredentials, false) else check_password x pw))
               | None => At next (HBind local dn pw)
               end
           end
  | HSearch _ _ _ => At next q
  end.
Definition crashed (q : hcall) : progress :=
  Returned (match q with HBind _ _ _ => RBind HPanic | HSearch _ _ _ => RSearch HPanic end).

(** The signal arrives at the idle goroutine; it reads files and stores what they
    give, with this on disk; a request is made on connection [j], which waits for
    its result; the call on connection [j] gets to the next handler or returns. *)
Inductive oevent := EReload | EOpen (k : disk) | ECall (j : nat) (q : hcall) | ELook (j : nat).
(** [h] is the handler of [serve_handler]. *)
Definition o_step (h : nat) (w : oworld) (e : oevent) : oworld :=
  match e with
  | EReload =>
      match ow_reload w with
      | None => mkO (ow_mem w) (Some h) (ow_calls w) (ow_reports w)
      | Some _ => w
      end
  | EOpen k =>
      match ow_reload w with
      | None => w
      | Some p =>
          match m_objs (ow_mem w) !! p with
          | Some (OLdif _ _) =>
              let '(ok, m) := main_open p k (ow_mem w) in mkO m None (ow_calls w) (ow_reports w ++ [ok])
          | Some (OOverlay _ next) =>
              (* middleware.go:122-129 Reload *)
              let '(ok, m) := conf_open p k (ow_mem w) in
              if ok : bool then mkO m next (ow_calls w) (ow_reports w) else mkO m None (ow_calls w) (ow_reports w ++ [false])
          | None => w
          end
      end
  | ECall j q =>
      match ow_calls w !! j with
      | Some (At _ _) => w
      | _ => mkO (ow_mem w) (ow_reload w) (<[j := At h q]> (ow_calls w)) (ow_reports w)
      end
  | ELook j =>
      match ow_calls w !! j with
      | Some (At p q) =>
          let next := match m_objs (ow_mem w) !! p with
            | Some (OLdif d _) => at_main d q
            | Some (OOverlay o (Some n)) => at_overlay o n q
            | _ => crashed q
            end in
          mkO (ow_mem w) (ow_reload w) (<[j := next]> (ow_calls w)) (ow_reports w)
      | _ => w
      end
  end.
Definition o_run (h : nat) (w : oworld) (es : list oevent) : oworld := foldl (o_step h) w es.

(** * Specification vocabulary *)

(** What a handler object serves: the data of the middleware, if there is one, and
    the main data; and that it belongs to Serve. *)
Inductive serves (m : mem) (h : nat) : option dataset -> dataset -> Prop :=
| serves_main d : m_objs m !! h = Some (OLdif (Some d) true) -> serves m h None d
| serves_overlay o d q : m_objs m !! h = Some (OOverlay (Some o) (Some q)) -> m_objs m !! q = Some (OLdif (Some d) true) ->
    serves m h (Some o) d.
(** What a call returns when nothing happens meanwhile (see Ldif.v). *)
Definition result_with (o : option dataset) (d : dataset) (q : hcall) : hresult :=
  match o, q with
  | None, HBind local dn pw => RBind (h_bind (ldif_handler c) local dn pw d).1
  | None, HSearch local bound r => RSearch (h_search (ldif_handler c) local bound r d).1
  | Some o, HBind local dn pw => RBind (h_bind (overlay base (ldif_handler c)) local dn pw (o, d)).1
  | Some o, HSearch local bound r => RSearch (h_search (overlay base (ldif_handler c)) local bound r (o, d)).1
  end.
(** What the main source gives, read as it is on disk. *)
Definition main_parsed (k : disk) : option (list (option entry)) :=
  match dk_main k with Some (folder, parse) => parse (if folder : bool then fn else dir_of fn) | None => None end.
End objects.
