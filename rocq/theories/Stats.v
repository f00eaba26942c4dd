(** Connection statistics (pkg/ldapserver/stats.go) as a transition system over
    any number of goroutines.  Definitions only. *)
From stdpp Require Export gmap.
From Verif Require Import Bytes.

(** stats.go:12-24 Stats without the mutex.  The counters are uint64. *)
Record stats := mkStats {
  s_conns : Z; s_current : Z; s_max : Z; s_adds : Z; s_binds : Z; s_deletes : Z;
  s_moddns : Z; s_modifies : Z; s_unbinds : Z; s_searches : Z
}.
Definition stats0 : stats := mkStats 0 0 0 0 0 0 0 0 0 0.
Definition u64 (z : Z) : Z := (z mod 2 ^ 64)%Z.

(** The counting functions (every caller passes delta 1: server.go:203-438) and Clone. *)
Inductive call := COpen | CClose | CAdd | CBind | CDelete | CModDN | CModify | CUnbind | CSearch | CClone.
(** stats.go:26-100, what a counting function does between its first lock and the
    next instruction on the mutex. *)
Definition count (c : call) (s : stats) : stats :=
  let 'mkStats co cu mx ad bi de md mo un se := s in
  match c with
  | COpen =>
      let cu' := u64 (cu + 1) in
      mkStats (u64 (co + 1)) cu' (if (mx <? cu')%Z then cu' else mx) ad bi de md mo un se
  | CClose => mkStats co (u64 (cu - 1)) mx ad bi de md mo un se
  | CAdd => mkStats co cu mx (u64 (ad + 1)) bi de md mo un se
  | CBind => mkStats co cu mx ad (u64 (bi + 1)) de md mo un se
  | CDelete => mkStats co cu mx ad bi (u64 (de + 1)) md mo un se
  | CModDN => mkStats co cu mx ad bi de (u64 (md + 1)) mo un se
  | CModify => mkStats co cu mx ad bi de md (u64 (mo + 1)) un se
  | CUnbind => mkStats co cu mx ad bi de md mo (u64 (un + 1)) se
  | CSearch => mkStats co cu mx ad bi de md mo un (u64 (se + 1))
  | CClone => s
  end.
(** stats.go:102-119 Clone: ConnsMax is not copied. *)
Definition clone (s : stats) : stats :=
  let 'mkStats co cu mx ad bi de md mo un se := s in mkStats co cu 0 ad bi de md mo un se.

(** The steps of one call.  Reading and writing the counters are two steps: what
    is written is computed from what was read.  countAdds locks a second time
    instead of unlocking (stats.go:50). *)
Inductive instr := ILock | IUnlock | IRLock | IRUnlock | IRead | IWrite.
Definition program (c : call) : list instr :=
  match c with
  | CAdd => [ILock; IRead; IWrite; ILock]
  | CClone => [IRLock; IRead; IRUnlock]
  | _ => [ILock; IRead; IWrite; IUnlock]
  end.
(** A goroutine in a call: what is left to do and what it has read. *)
Record thread := mkThr { th_call : call; th_prog : list instr; th_copy : stats }.
(** sync.RWMutex: a writer holds it, or some number of readers.  Simplification:
    a waiting writer does not keep readers out, so there are more schedules here
    than with the real mutex. *)
Record sstate := mkS { ss_stats : stats; ss_writer : bool; ss_nreaders : nat; ss_threads : gmap nat thread }.
Definition s_init : sstate := mkS stats0 false 0 ∅.

(** [SCall k c]: goroutine k, in no call, enters c.  [SRun k]: it makes its next
    step if it can. *)
Inductive sevent := SCall (k : nat) (c : call) | SRun (k : nat).
Definition s_step (st : sstate) (e : sevent) : sstate :=
  match e with
  | SCall k c =>
      match ss_threads st !! k with
      | Some (mkThr _ (_ :: _) _) => st
      | _ => mkS (ss_stats st) (ss_writer st) (ss_nreaders st) (<[k := mkThr c (program c) stats0]> (ss_threads st))
      end
  | SRun k =>
      match ss_threads st !! k with
      | Some (mkThr c (i :: p) x) =>
          let next s w n x := mkS s w n (<[k := mkThr c p x]> (ss_threads st)) in
          match i with
          | ILock => if ss_writer st || negb (ss_nreaders st =? 0) then st else next (ss_stats st) true 0 x
          | IUnlock => next (ss_stats st) false (ss_nreaders st) x
          | IRLock => if ss_writer st then st else next (ss_stats st) false (S (ss_nreaders st)) x
          | IRUnlock => next (ss_stats st) (ss_writer st) (pred (ss_nreaders st)) x
          | IRead => next (ss_stats st) (ss_writer st) (ss_nreaders st) (ss_stats st)
          | IWrite => next (count c x) (ss_writer st) (ss_nreaders st) x
          end
      | _ => st
      end
  end.
Definition s_run (st : sstate) (es : list sevent) : sstate := foldl s_step st es.
(** The calls that have been entered. *)
Fixpoint s_calls (st : sstate) (es : list sevent) : list call :=
  match es with
  | [] => []
  | e :: es' =>
      match e with
      | SCall k c => match ss_threads st !! k with Some (mkThr _ (_ :: _) _) => [] | _ => [c] end
      | SRun _ => []
      end ++ s_calls (s_step st e) es'
  end.
(** The calls that have written, in the order of writing. *)
Fixpoint s_done (st : sstate) (es : list sevent) : list call :=
  match es with
  | [] => []
  | e :: es' =>
      match e with
      | SRun k => match ss_threads st !! k with Some (mkThr c (IWrite :: _) _) => [c] | _ => [] end
      | SCall _ _ => []
      end ++ s_done (s_step st e) es'
  end.
