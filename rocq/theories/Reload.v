(** Signals and reloads (server/server.go:105-222): the signal queue, the main
    loop, the reload goroutine and the file it reads, as a transition system.
    Definitions only. *)
From Verif Require Import Bytes.

Inductive sig := HUP | INT | TERM.
(** server.go:149-164 with ldapHandler.Reload: waiting for the trigger; about to
    read; holding the version read, about to store it. *)
Inductive loader := Idle | Opening | Holding (v : nat).
(** server.go:115-119, 151-164, 203-222.  signalCh and triggerCh have room for
    one element.  The files of the LDIF backend are one file with a version
    number (simplification: a reload reads all of them at one moment); the data
    served is named by the version it was read from.  [rs_out] says that the main
    loop has been left (207-208, 218-219). *)
Record rstate := mkR {
  rs_queue : option sig; rs_trigger : bool; rs_loader : loader;
  rs_file : nat; rs_served : nat; rs_out : bool
}.
Definition r_init (v : nat) : rstate := mkR None false Idle v v false.

(** [RWrite]: the file is changed.  [RSignal]: the runtime delivers a signal; os/signal
    does not block and drops it if the queue is full.  [RTake]: the main loop takes
    a signal (209-219); the send on triggerCh does not block (212-215).  [RFail]: an
    error of a listener (207-208).  [RBegin]: the reload goroutine takes the trigger
    (153-154).  [RRead]: it reads the file, which parses or not (handler.go:94-128).
    [RStore]: it stores what it has read (handler.go:130-137).  A step that cannot
    happen changes nothing. *)
Inductive revent := RWrite | RSignal (s : sig) | RTake | RFail | RBegin | RRead (good : bool) | RStore.
Definition r_step (st : rstate) (e : revent) : rstate :=
  let 'mkR q t l f d out := st in
  match e with
  | RWrite => mkR q t l (S f) d out
  | RSignal s => match q with None => mkR (Some s) t l f d out | Some _ => st end
  | RTake =>
      if out then st
      else match q with
           | Some HUP => mkR None true l f d out
           | Some _ => mkR None t l f d true
           | None => st
           end
  | RFail => mkR q t l f d true
  | RBegin => match l with Idle => if t then mkR q false Opening f d out else st | _ => st end
  | RRead good => match l with Opening => mkR q t (if good then Holding f else Idle) f d out | _ => st end
  | RStore => match l with Holding v => mkR q t Idle f v out | _ => st end
  end.
Definition r_run (st : rstate) (es : list revent) : rstate := foldl r_step st es.
(** The versions read along the way. *)
Fixpoint r_reads (st : rstate) (es : list revent) : list nat :=
  match es with
  | [] => []
  | e :: es' =>
      match e, rs_loader st with
      | RRead _, Opening => [rs_file st]
      | _, _ => []
      end ++ r_reads (r_step st e) es'
  end.
