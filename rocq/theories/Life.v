(** The life of the server process: listeners, signals, shutdown and exit code
    (pkg/ldapserver/server.go:141-211, server/server.go:105-254,
    cmd/idmd/serve/serve.go:123-211), as a transition system.  Definitions only. *)
From Verif Require Import Bytes Reload.

(** The goroutine of Serve that accepts (pkg/ldapserver/server.go:185-197): in
    Accept, blocked sending a connection on newConn, or ended by an error. *)
Inductive acceptor := AWait | ACarry (conn : nat) | AEnd.
(** A listener (server/server.go:166-187): its goroutine is about to listen
    (pkg/ldapserver/server.go:141-157, 172-181); in the select loop (199-209); out
    of it; or listening failed and the error was sent. *)
Inductive listener := LNew | LRun (a : acceptor) | LGone (a : acceptor) | LErr.
(** The goroutine that reloads (server/server.go:149-164): at its select, in Reload,
    or returned. *)
Inductive reloader := RIdle | RBusy | RGone.
(** Serve itself: in the loop of 203-222; in that of 233-250, to return an error or
    not; returned. *)
Inductive mainloop := MRun | MStop (err : bool) | MExit (err : bool).
(** [lf_errs] counts what is in errCh (room for 2, server.go:115), [lf_queue] is
    signalCh (room for one), [lf_trigger] triggerCh (room for one), [lf_quit] says that
    Quit is closed, [lf_cancel] that serveCtx is cancelled, [lf_done] that exitCh is
    closed.  [lf_taken] and [lf_served] are the connections that Accept returned and
    those handed to handleConnection, each with its listener; [lf_live] are those
    whose goroutine is still running. *)
Record life := mkLife {
  lf_list : list listener; lf_errs : nat; lf_queue : option sig; lf_trigger : bool;
  lf_quit : bool; lf_cancel : bool; lf_done : bool; lf_reload : reloader; lf_main : mainloop;
  lf_taken : list (nat * nat); lf_served : list (nat * nat); lf_live : list (nat * nat) }.
(** [n] listeners, one for each address that is set. *)
Definition life_init (n : nat) : life :=
  mkLife (replicate n LNew) 0 None false false false false RIdle MRun [] [] [].

(** - [EListen i ok]: listener [i] listens, or fails to (the certificate cannot be
      read, the address is in use) and sends the error (server.go:172-174, 183-185);
    - [EAccept i c]: Accept returns connection [c], or an error (186-196); once the
      socket is closed (206) it returns no more connections;
    - [EHand i]: the select takes the connection and starts handleConnection (202-204);
    - [EQuit i]: the select sees Quit closed, closes the socket and returns (205-210);
    - [EEnd c]: handleConnection returns;
    - [ESignal s]: a signal is delivered; it is dropped if the queue is full;
    - [ETake]: Serve takes a signal (server.go:209-219; 243-246 during the shutdown,
      where any signal, SIGHUP too, ends the waiting);
    - [EFail]: Serve takes an error (207-208);
    - [EClose]: the goroutine started in 227-229 closes Quit;
    - [EReload], [EReloaded], [EStop]: the reload goroutine takes the trigger, ends a
      reload, sees the context cancelled (153-162);
    - [EWait]: everything waited for has ended; exitCh is closed (189-193);
    - [ELeave]: Serve sees that (236-238).
    A step that cannot happen changes nothing.  Simplification: there is no clock; the
    waiting of 100 ms (247) is left out, and so is the limit of ten seconds (226), whose
    context nobody looks at; so are signals before signal.Notify (204). *)
Inductive levent :=
| EListen (i : nat) (ok : bool) | EAccept (i : nat) (c : option nat) | EHand (i : nat) | EQuit (i : nat)
| EEnd (c : nat * nat) | ESignal (s : sig) | ETake | EFail | EClose | EReload | EReloaded | EStop | EWait | ELeave.
Definition listener_done (l : listener) : bool := match l with LGone _ | LErr => true | _ => false end.
Definition l_step (st : life) (e : levent) : life :=
  let 'mkLife ls errs q t quit cancel fin rl m taken served live := st in
  match e with
  | EListen i ok =>
      match ls !! i with
      | Some LNew =>
          if ok then mkLife (<[i := LRun AWait]> ls) errs q t quit cancel fin rl m taken served live
          else if errs <? 2 then mkLife (<[i := LErr]> ls) (S errs) q t quit cancel fin rl m taken served live
          else st
      | _ => st
      end
  | EAccept i c =>
      match ls !! i, c with
      | Some (LRun AWait), Some c => mkLife (<[i := LRun (ACarry c)]> ls) errs q t quit cancel fin rl m (taken ++ [(i, c)]) served live
      | Some (LRun AWait), None => mkLife (<[i := LRun AEnd]> ls) errs q t quit cancel fin rl m taken served live
      | Some (LGone AWait), None => mkLife (<[i := LGone AEnd]> ls) errs q t quit cancel fin rl m taken served live
      | _, _ => st
      end
  | EHand i =>
      match ls !! i with
      | Some (LRun (ACarry c)) =>
          mkLife (<[i := LRun AWait]> ls) errs q t quit cancel fin rl m taken (served ++ [(i, c)]) ((i, c) :: live)
      | _ => st
      end
  | EQuit i =>
      match ls !! i with
      | Some (LRun a) => if quit then mkLife (<[i := LGone a]> ls) errs q t quit cancel fin rl m taken served live else st
      | _ => st
      end
  | EEnd c => mkLife ls errs q t quit cancel fin rl m taken served (List.filter (fun x => negb (bool_decide (x = c))) live)
  | ESignal s => match q with None => mkLife ls errs (Some s) t quit cancel fin rl m taken served live | Some _ => st end
  | ETake =>
      match q, m with
      | Some HUP, MRun => mkLife ls errs None true quit cancel fin rl m taken served live
      | Some _, MRun => mkLife ls errs None t quit true fin rl (MStop false) taken served live
      | Some _, MStop e => mkLife ls errs None t quit cancel fin rl (MExit e) taken served live
      | _, _ => st
      end
  | EFail =>
      match errs, m with
      | S n, MRun => mkLife ls n q t quit true fin rl (MStop true) taken served live
      | _, _ => st
      end
  | EClose => match m with MRun => st | _ => mkLife ls errs q t true cancel fin rl m taken served live end
  | EReload => match rl with RIdle => if t then mkLife ls errs q false quit cancel fin RBusy m taken served live else st | _ => st end
  | EReloaded => match rl with RBusy => mkLife ls errs q t quit cancel fin RIdle m taken served live | _ => st end
  | EStop => match rl with RIdle => if cancel then mkLife ls errs q t quit cancel fin RGone m taken served live else st | _ => st end
  | EWait =>
      match rl with
      | RGone => if forallb listener_done ls then mkLife ls errs q t quit cancel true rl m taken served live else st
      | _ => st
      end
  | ELeave => match m with MStop e => if fin then mkLife ls errs q t quit cancel fin rl (MExit e) taken served live else st | _ => st end
  end.
Definition l_run (st : life) (es : list levent) : life := foldl l_step st es.

(** The exit code of the command (cmd/idmd/serve/serve.go:129-150, 198-211,
    cmd/idmd/serve/error.go:8-32): [tls] is checkTLSConfig, [conf] whether configure
    succeeds, [served] the error of Serve. *)
Definition exit_code (tls conf served : bool) : nat :=
  if negb tls then 1 else if negb conf then 64 else if negb served then 1 else 0.
