(** The database file shared by several processes: servers, [boltdb load] and
    [boltdb export].  Definitions only. *)
From Verif Require Import Bytes Text Dn Res Entry Password Db Packet Filter Handler Server Conns Startup.

Section procs.
Context {T : Text} {C : Crypto} {W : Wire}.

(** What a process was started to do: serve the file (server/server.go:79-89), load
    entries into it (cmd/idmd/boltdb/load/load.go:42-72; [parsed] is the outcome of
    reading the LDIF file), or export it (cmd/idmd/boltdb/export/export.go:44-76). *)
Inductive job := JServe (cfg : server_cfg) (c : bolt_cfg) | JLoad (base : str) (parsed : option (list entry)) | JExport (base : str).
(** How a process ended: it was stopped or killed after, or before, it got the file;
    load with or without success; export with what it prints. *)
Inductive ending := Stopped | GaveUp | Exited (ok : bool) | Printed (r : res (list entry * option err)).
(** Where it is: waiting for the file in bolt.Open; serving; loading, with the
    entries not yet added; exporting; at its end. *)
Inductive progress :=
| Opening | Serving (w : cworld) | Loading (rest : option (list entry)) | Exporting | Ended (e : ending).

(** [fw_db] is what is committed in the file; [fw_log] is ghost: who got the file,
    in order. *)
Record fworld := mkFW { fw_db : db; fw_procs : gmap nat (job * progress); fw_log : list nat }.
Definition fstart (d : db) : fworld := mkFW d ∅ [].
Definition upd (w : fworld) (i : nat) (j : job) (p : progress) : gmap nat (job * progress) := <[i := (j, p)]> (fw_procs w).

(** The lock of bbolt (external library): bolt.Open (pkg/ldbbolt/ldbbolt.go:58) locks
    the file with flock until it is closed or the process ends, exclusively, or
    shared if Options.ReadOnly is set, as export does (export.go:47).  The server
    (server/handler/boltdb/handler.go:81) and load (load.go:45) pass no options.
    Nobody sets Options.Timeout, so that Open waits without limit. *)
Definition writer (p : progress) : Prop := match p with Serving _ | Loading _ => True | _ => False end.
Definition holds (p : progress) : Prop := match p with Serving _ | Loading _ | Exporting => True | _ => False end.
Definition unheld (w : fworld) : Prop := forall i j p, fw_procs w !! i = Some (j, p) -> ~ holds p.
Definition unwritten (w : fworld) : Prop := forall i j p, fw_procs w !! i = Some (j, p) -> ~ writer p.

(** The steps.
    - A process is started.
    - It gets the file: ldbbolt.go:58-66.  The server then begins as in Conns.v.
    - The server makes one of the steps of Conns.v.
    - load adds its next entry (load.go:65-70), in a transaction of its own, and
      ends at the first error; it ends when there are none left, or when the LDIF
      file could not be read (load.go:54-63).
    - export reads everything in one transaction and prints it (export.go:56-75).
    - A process is stopped or killed, while it waits for the file or later.
    Simplifications: the buckets are always there (Initialize, ldbbolt.go:69-96);
    the file can be opened; load meets no I/O errors; a server that crashed stays
    where it is until it is stopped. *)
Inductive fstep (w : fworld) : fworld -> Prop :=
| fs_start i j :
    fw_procs w !! i = None -> fstep w (mkFW (fw_db w) (upd w i j Opening) (fw_log w))
| fs_get_serve i cfg c :
    fw_procs w !! i = Some (JServe cfg c, Opening) -> unheld w ->
    fstep w (mkFW (fw_db w) (upd w i (JServe cfg c) (Serving (cstart (fw_db w)))) (fw_log w ++ [i]))
| fs_get_load i base parsed :
    fw_procs w !! i = Some (JLoad base parsed, Opening) -> unheld w ->
    fstep w (mkFW (fw_db w) (upd w i (JLoad base parsed) (Loading parsed)) (fw_log w ++ [i]))
| fs_get_export i base :
    fw_procs w !! i = Some (JExport base, Opening) -> unwritten w ->
    fstep w (mkFW (fw_db w) (upd w i (JExport base) Exporting) (fw_log w ++ [i]))
| fs_serve i cfg c s s' :
    fw_procs w !! i = Some (JServe cfg c, Serving s) -> cstep cfg c s s' ->
    fstep w (mkFW (cw_db s') (upd w i (JServe cfg c) (Serving s')) (fw_log w))
| fs_put i base parsed e rest d' :
    fw_procs w !! i = Some (JLoad base parsed, Loading (Some (e :: rest))) ->
    run_op (db_base base) no_faults (OpPut e) (fw_db w) = (Done (Ok tt), d') ->
    fstep w (mkFW d' (upd w i (JLoad base parsed) (Loading (Some rest))) (fw_log w))
| fs_put_fails i base parsed e rest out d' :
    fw_procs w !! i = Some (JLoad base parsed, Loading (Some (e :: rest))) ->
    run_op (db_base base) no_faults (OpPut e) (fw_db w) = (out, d') -> out <> Done (Ok tt) ->
    fstep w (mkFW d' (upd w i (JLoad base parsed) (Ended (Exited false))) (fw_log w))
| fs_loaded i base parsed :
    fw_procs w !! i = Some (JLoad base parsed, Loading (Some [])) ->
    fstep w (mkFW (fw_db w) (upd w i (JLoad base parsed) (Ended (Exited true))) (fw_log w))
| fs_unreadable i base parsed :
    fw_procs w !! i = Some (JLoad base parsed, Loading None) ->
    fstep w (mkFW (fw_db w) (upd w i (JLoad base parsed) (Ended (Exited false))) (fw_log w))
| fs_export i base :
    fw_procs w !! i = Some (JExport base, Exporting) ->
    fstep w (mkFW (fw_db w) (upd w i (JExport base) (Ended (Printed (export_db (fw_db w) base)))) (fw_log w))
| fs_stop i j p :
    fw_procs w !! i = Some (j, p) -> holds p ->
    fstep w (mkFW (fw_db w) (upd w i j (Ended Stopped)) (fw_log w))
| fs_give_up i j :
    fw_procs w !! i = Some (j, Opening) ->
    fstep w (mkFW (fw_db w) (upd w i j (Ended GaveUp)) (fw_log w)).
Inductive fsteps (w : fworld) : fworld -> Prop :=
| fr_refl : fsteps w w
| fr_more w1 w2 : fsteps w w1 -> fstep w1 w2 -> fsteps w w2.
End procs.
