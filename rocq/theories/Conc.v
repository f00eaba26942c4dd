(** Concurrent use of one bbolt database.  Definitions only. *)
From Verif Require Import Bytes Text Dn Res Entry Password Db.

Section conc.
Context {T : Text} {C : Crypto}.

(** What a client (a goroutine serving a connection) is doing.  A write
    transaction works on the state it saw at its beginning; a read transaction
    reads the snapshot taken at its beginning ([since] is ghost: the number of
    commits before it). *)
Inductive activity :=
| Idle
| Writing (ev : env) (o : op) (snap : db)
| Reading (base : str) (scope : Z) (snap : db) (since : nat).

(** A finished search: when it began and ended, counted in commits, its
    arguments and its answer. *)
Record answer := mkAnswer {
  an_from : nat; an_to : nat; an_base : str; an_scope : Z;
  an_res : res (list entry * option err)
}.

(** [w_db] is the committed state, [w_lock] the holder of the writer lock of
    bbolt; [w_hist] (all committed states, oldest first), [w_log] (the finished
    write operations in the order in which they ended) and [w_answers] record
    what happened. *)
Record world := mkWorld {
  w_db : db;
  w_lock : option nat;
  w_act : nat -> activity;
  w_hist : list db;
  w_log : list (env * op * outcome);
  w_answers : list answer
}.
Definition set_act (a : nat -> activity) (c : nat) (x : activity) : nat -> activity :=
  fun c' => if c' =? c then x else a c'.
Definition start (d : db) : world := mkWorld d None (fun _ => Idle) [d] [] [].

(** The steps of go.etcd.io/bbolt DB.Update (used at pkg/ldbbolt/ldbbolt.go:193,
    234, 289, 330, 394) and DB.View (pkg/ldbbolt/ldbbolt.go:108).  Update waits
    for the writer lock, works on private pages, publishes them on commit and
    releases the lock; View copies the root page and is not blocked.
    Simplification: what happens between begin and end of a transaction is
    private, so it is folded into the end step. *)
Inductive step (base : str) (w : world) : world -> Prop :=
| st_begin_write c ev o :
    w_act w c = Idle -> w_lock w = None ->
    step base w (mkWorld (w_db w) (Some c) (set_act (w_act w) c (Writing ev o (w_db w)))
                   (w_hist w) (w_log w) (w_answers w))
| st_end_write c ev o snap r d' :
    w_act w c = Writing ev o snap -> run_op base ev o snap = (Done r, d') ->
    step base w (mkWorld d' None (set_act (w_act w) c Idle)
                   (w_hist w ++ [d']) (w_log w ++ [(ev, o, Done r)]) (w_answers w))
| st_crash_in_write c ev o snap d' :
    w_act w c = Writing ev o snap -> run_op base ev o snap = (Crashed, d') ->
    step base w (mkWorld d' None (fun _ => Idle)
                   (w_hist w ++ [d']) (w_log w ++ [(ev, o, Crashed)]) (w_answers w))
| st_begin_read c b scope :
    w_act w c = Idle ->
    step base w (mkWorld (w_db w) (w_lock w)
                   (set_act (w_act w) c (Reading b scope (w_db w) (length (w_hist w) - 1)))
                   (w_hist w) (w_log w) (w_answers w))
| st_end_read c b scope snap since :
    w_act w c = Reading b scope snap since ->
    step base w (mkWorld (w_db w) (w_lock w) (set_act (w_act w) c Idle)
                   (w_hist w) (w_log w)
                   (w_answers w ++
                    [mkAnswer since (length (w_hist w) - 1) b scope (search snap b scope)])).

Inductive steps (base : str) (w : world) : world -> Prop :=
| steps_refl : steps base w w
| steps_step w1 w2 : steps base w w1 -> step base w1 w2 -> steps base w w2.

(** * Specification vocabulary *)

(** Running the operations of a log one after the other from [d] ends in [d']
    and gives each the outcome in the log. *)
Inductive serial (base : str) (d : db) : list (env * op * outcome) -> db -> Prop :=
| serial_nil : serial base d [] d
| serial_snoc l d1 ev o out d2 :
    serial base d l d1 -> run_op base ev o d1 = (out, d2) ->
    serial base d (l ++ [(ev, o, out)]) d2.
(** The operations that took effect: those that reported success, and of those
    cut off by a crash any that had committed. *)
Inductive effective : list (env * op * outcome) -> list op -> Prop :=
| eff_nil : effective [] []
| eff_ok ev o l l' : effective l l' -> effective ((ev, o, Done (Ok tt)) :: l) (o :: l')
| eff_fail ev o r l l' : r <> Ok tt -> effective l l' -> effective ((ev, o, Done r) :: l) l'
| eff_crash_no ev o l l' : effective l l' -> effective ((ev, o, Crashed) :: l) l'
| eff_crash_yes ev o l l' : e_commit ev = CrashAfter -> effective l l' ->
    effective ((ev, o, Crashed) :: l) (o :: l').
(** Running operations one after the other without faults, all succeeding. *)
Fixpoint all_succeed (base : str) (ops : list op) (d d' : db) : Prop :=
  match ops with
  | [] => d' = d
  | o :: ops' => exists d1, run_op base no_faults o d = (Done (Ok tt), d1) /\
      all_succeed base ops' d1 d'
  end.
End conc.
