(** bbolt buckets and transactions, and pkg/ldbbolt on top of them.
    Definitions only. *)
From stdpp Require Export gmap.
From Verif Require Import Bytes Text Dn Res Entry Password.

(** * bbolt *)

(** The three buckets created by pkg/ldbbolt/ldbbolt.go:71-96 Initialize, plus
    the sequence counter of "id2entry".  Keys are byte strings.  Simplification:
    the values of "id2entry" are entries, not their gob encoding (decoding an
    encoded entry is trusted to give it back). *)
Record db := mkDb {
  dn2id : gmap str str;
  id2ch : gmap str str;
  id2ent : gmap str entry;
  idseq : N
}.
Definition empty_db : db := mkDb ∅ ∅ ∅ 0.

(** The body of a read-write transaction.  [fault n] says that the [n]-th write
    of the transaction reports an I/O error.  Since bbolt discards everything
    on error or panic, only a successful body has a resulting state. *)
Definition tx (A : Type) : Type := (nat -> bool) -> db -> nat -> res (A * (db * nat)).
Definition t_ret {A} (a : A) : tx A := fun _ d n => Ok (a, (d, n)).
Definition t_err {A} (e : err) : tx A := fun _ _ _ => Err e.
Definition t_bind {A B} (m : tx A) (k : A -> tx B) : tx B := fun f d n =>
  match m f d n with
  | Ok (a, (d', n')) => k a f d' n'
  | Err e => Err e
  | Panic => Panic
  | Diverge => Diverge
  end.
Notation "'let!' x ':=' m 'in' k" := (t_bind m (fun x => k))
  (at level 200, x pattern, m at level 100, k at level 200).
Notation "m ';;;' k" := (t_bind m (fun _ => k)) (at level 199, right associativity).
(** Reading the state seen by the transaction. *)
Definition t_read {A} (g : db -> res A) : tx A := fun _ d n =>
  match g d with
  | Ok a => Ok (a, (d, n))
  | Err e => Err e
  | Panic => Panic
  | Diverge => Diverge
  end.
Definition t_lift {A} (r : res A) : tx A := t_read (fun _ => r).
(** A write. *)
Definition t_write {A} (g : db -> res (A * db)) : tx A := fun f d n =>
  if f n then Err EIo
  else match g d with
       | Ok (a, d') => Ok (a, (d', S n))
       | Err e => Err e
       | Panic => Panic
       | Diverge => Diverge
       end.
(** Replacing the error of a body. *)
Definition t_maperr {A} (e : err) (m : tx A) : tx A := fun f d n =>
  match m f d n with
  | Err _ => Err e
  | r => r
  end.

(** bbolt Bucket.Put: ErrKeyRequired / ErrKeyTooLarge.  Simplification: no
    limit on values. *)
Definition key_ok (k : str) : bool :=
  negb (is_empty k) && (N.of_nat (length k) <=? 32768)%N.
Definition put_dn2id (k v : str) : tx unit := t_write (fun d =>
  if key_ok k then Ok (tt, mkDb (<[k := v]> (dn2id d)) (id2ch d) (id2ent d) (idseq d))
  else Err EKey).
Definition put_id2ch (k v : str) : tx unit := t_write (fun d =>
  if key_ok k then Ok (tt, mkDb (dn2id d) (<[k := v]> (id2ch d)) (id2ent d) (idseq d))
  else Err EKey).
Definition put_id2ent (k : str) (v : entry) : tx unit := t_write (fun d =>
  if key_ok k then Ok (tt, mkDb (dn2id d) (id2ch d) (<[k := v]> (id2ent d)) (idseq d))
  else Err EKey).
(** bbolt Bucket.Delete: deleting an absent key is no error. *)
Definition del_dn2id (k : str) : tx unit := t_write (fun d =>
  Ok (tt, mkDb (delete k (dn2id d)) (id2ch d) (id2ent d) (idseq d))).
Definition del_id2ent (k : str) : tx unit := t_write (fun d =>
  Ok (tt, mkDb (dn2id d) (id2ch d) (delete k (id2ent d)) (idseq d))).
(** bbolt Bucket.NextSequence on "id2entry" (uint64 increment). *)
Definition next_seq : tx N := t_write (fun d =>
  let s := ((idseq d + 1) mod 2 ^ 64)%N in
  Ok (s, mkDb (dn2id d) (id2ch d) (id2ent d) s)).

(** How a transaction ends once its body has succeeded. *)
Inductive commit := CommitOk | CommitFail | CrashBefore | CrashAfter.
(** What the environment does to one operation. *)
Record env := mkEnv { e_fault : nat -> bool; e_commit : commit }.
Definition no_faults : env := mkEnv (fun _ => false) CommitOk.

(** What the caller sees: a return (or panic), or the process is gone. *)
Inductive outcome := Done (r : res unit) | Crashed.

(** bbolt DB.Update: commit on success, roll back on error or panic. *)
Definition update (ev : env) (m : tx unit) (d : db) : outcome * db :=
  match m (e_fault ev) d 0 with
  | Ok (_, (d', _)) =>
      match e_commit ev with
      | CommitOk => (Done (Ok tt), d')
      | CommitFail => (Done (Err EIo), d)
      | CrashBefore => (Crashed, d)
      | CrashAfter => (Crashed, d')
      end
  | Err e => (Done (Err e), d)
  | Panic => (Done Panic, d)
  | Diverge => (Done Diverge, d)
  end.

(** * Identifiers *)

(** pkg/ldbbolt/ldbbolt.go:136-140 idToBytes: eight bytes, little endian. *)
Fixpoint le_bytes (k : nat) (n : N) : str :=
  match k with
  | 0 => []
  | S k' => ascii_of_N (n mod 256) :: le_bytes k' (n / 256)
  end.
Definition id_bytes (n : N) : str := le_bytes 8 n.
(** binary.LittleEndian.Uint64 of a byte string. *)
Fixpoint le_val (s : str) : N :=
  match s with
  | [] => 0
  | c :: s' => code c + 256 * le_val s'
  end.
(** The full 8-byte groups of a child list: binary.Read into len/8 numbers
    (pkg/ldbbolt/ldbbolt.go:145-149) and the io.ReadFull loop of EntryDelete
    (pkg/ldbbolt/ldbbolt.go:254-258). *)
Fixpoint chunks8 (s : str) : list str :=
  match s with
  | a :: b :: c :: d :: e :: f :: g :: h :: s' => [a; b; c; d; e; f; g; h] :: chunks8 s'
  | _ => []
  end.

(** * pkg/ldbbolt *)

(** pkg/ldbbolt/ldbbolt.go:449-461 getIDByDN; 0 when absent.  Uint64 panics on
    a value of less than eight bytes. *)
Definition get_id (ndn : str) (d : db) : res N :=
  match dn2id d !! ndn with
  | None => Ok 0%N
  | Some b => if length b <? 8 then Panic else Ok (le_val (take 8 b))
  end.
(** Raw child list of an id; Get of an absent key gives nil, i.e. no bytes. *)
Definition raw_children (id : N) (d : db) : str := default [] (id2ch d !! id_bytes id).
(** pkg/ldbbolt/ldbbolt.go:142-157 getChildrenIDs. *)
Definition get_children (d : db) (id : N) : list N :=
  map le_val (chunks8 (raw_children id d)).
(** pkg/ldbbolt/ldbbolt.go:463-472 getEntryByID. *)
Definition get_entry (id : N) (d : db) : res entry :=
  match id2ent d !! id_bytes id with
  | Some e => Ok e
  | None => Err EDecode
  end.
(** pkg/ldbbolt/ldbbolt.go:474-481 getEntryByDN. *)
Definition get_entry_by_dn (ndn : str) (d : db) : res (entry * N) :=
  id <-- get_id ndn d ;;
  if (id =? 0)%N then Err ENotFound
  else e <-- get_entry id d ;; Ok (e, id).

(** pkg/ldbbolt/ldbbolt.go:159-173 getSubtreeIDs.  The Go recursion has no
    bound; here it runs on fuel and reports [Diverge] when that is used up. *)
Fixpoint subtree (fuel : nat) (d : db) (root : N) : res (list N) :=
  match fuel with
  | 0 => Diverge
  | S fuel' =>
      let children := get_children d root in
      (fix each (l acc : list N) : res (list N) :=
         match l with
         | [] => Ok acc
         | c :: l' => sub <-- subtree fuel' d c ;; each l' (acc ++ sub)
         end) children children
  end.

(** go-ldap scope numbers. *)
Definition ScopeBase : Z := 0.
Definition ScopeOne : Z := 1.
Definition ScopeSub : Z := 2.

(** pkg/ldbbolt/ldbbolt.go:121-128, the loop fetching the entries: what was
    collected before an error stays in the result. *)
Fixpoint fetch (d : db) (ids : list N) : list entry * option err :=
  match ids with
  | [] => ([], None)
  | i :: ids' =>
      match get_entry i d with
      | Ok e => let '(es, r) := fetch d ids' in (e :: es, r)
      | _ => ([], Some EDecode)
      end
  end.

Section ldbbolt.
Context {T : Text} {C : Crypto}.

(** pkg/ldbbolt/ldbbolt.go:102-134 Search, on the snapshot [d] of the View
    transaction.  The error does not discard the collected entries. *)
Definition search (d : db) (base : str) (scope : Z) : res (list entry * option err) :=
  match parse_normalize base with
  | None => Ok ([], Some EParse)
  | Some ndn =>
      id <-- get_id ndn d ;;
      if (id =? 0)%N then Ok ([], Some ENotFound)
      else if (scope =? ScopeBase)%Z then Ok (fetch d [id])
      else if (scope =? ScopeOne)%Z then Ok (fetch d (get_children d id))
      else if (scope =? ScopeSub)%Z then
        ids <-- subtree (S (size (id2ch d))) d id ;;
        Ok (fetch d (id :: ids))
      else Ok ([], None)
  end.

(** pkg/ldbbolt/ldbbolt.go:428-447 addID2Children. *)
Definition add_child (pdn : str) (child : N) : tx unit :=
  let! pid := t_read (get_id pdn) in
  if (pid =? 0)%N then t_err ENoParent
  else let! raw := t_read (fun d => Ok (raw_children pid d)) in
       put_id2ch (id_bytes pid) (raw ++ id_bytes child).

(** pkg/ldbbolt/ldbbolt.go:193-217, the transaction of EntryPut. *)
Definition entry_put_tx (base : str) (e : entry) (ndn pdn : str) : tx unit :=
  let! id := t_read (get_id ndn) in
  if negb (id =? 0)%N then t_err EExists
  else
    let! id := next_seq in
    put_id2ent (id_bytes id) e ;;;
    (if seqb ndn base then t_ret tt else add_child pdn id) ;;;
    put_dn2id ndn (id_bytes id).

(** pkg/ldbbolt/ldbbolt.go:175-220 EntryPut.  A DN that does not parse is a nil
    pointer dereference, an empty DN an out-of-range slice. *)
Definition entry_put (base : str) (e : entry) : res (tx unit) :=
  match parse_dn (e_dn e) with
  | None => Panic
  | Some [] => Panic
  | Some ((_ :: parent) as dn) =>
      if negb (has_suffix (normalize dn) base) then Err ENotDescendant
      else Ok (entry_put_tx base e (normalize dn) (normalize parent))
  end.

(** pkg/ldbbolt/ldbbolt.go:234-278, the transaction of EntryDelete. *)
Definition entry_delete_tx (ndn pdn : str) : tx unit :=
  let! id := t_read (get_id ndn) in
  if (id =? 0)%N then t_err ENotFound
  else
    let! raw := t_read (fun d => Ok (raw_children id d)) in
    if negb (is_empty raw) then t_err ENonLeaf
    else
      let! pid := t_read (get_id pdn) in
      if (pid =? 0)%N then t_err ENotFound
      else
        let! praw := t_read (fun d => Ok (raw_children pid d)) in
        put_id2ch (id_bytes pid)
          (concat (bfilter (fun b => negb (le_val b =? id)%N) (chunks8 praw))) ;;;
        del_dn2id ndn ;;;
        del_id2ent (id_bytes id).
(** pkg/ldbbolt/ldbbolt.go:222-280 EntryDelete. *)
Definition entry_delete (dn : str) : res (tx unit) :=
  match parse_dn dn with
  | None => Err EParse
  | Some [] => Panic
  | Some ((_ :: parent) as p) => Ok (entry_delete_tx (normalize p) (normalize parent))
  end.

(** pkg/ldbbolt/ldbbolt.go:297-312 entryModifyWithTxn. *)
Definition entry_modify_with (id : N) (e : entry) (req : modify_req) : tx unit :=
  let! e' := t_lift (apply_modify e req) in
  put_id2ent (id_bytes id) e'.
(** pkg/ldbbolt/ldbbolt.go:282-295 EntryModify. *)
Definition entry_modify (req : modify_req) : res (tx unit) :=
  match parse_normalize (m_dn req) with
  | None => Err EParse
  | Some ndn => Ok (
      let! p := t_read (get_entry_by_dn ndn) in
      entry_modify_with p.2 p.1 req)
  end.

(** ldap.ModifyDNRequest (DN, NewRDN, DeleteOldRDN); NewSuperior is refused
    earlier, in pkg/ldapserver/modifydn.go. *)
Record moddn_req := mkModDn { md_dn : str; md_newrdn : str; md_delold : bool }.

(** pkg/ldbbolt/ldbbolt.go:352-365: the modify request of a rename. *)
Definition rename_req (flat_new : str) (delold : bool) (oldr newr : rdn) : modify_req :=
  mkModify flat_new
    ((if delold then map (fun p => mkChange MDelete p.1 [p.2]) oldr else [])
     ++ map (fun p => mkChange MAdd p.1 [p.2]) newr).
(** pkg/ldbbolt/ldbbolt.go:330-380, the transaction of EntryModifyDN. *)
Definition entry_moddn_tx (flat_old flat_new : str) (delold : bool) (oldr newr : rdn)
    : tx unit :=
  let! nid := t_read (get_id flat_new) in
  if negb (nid =? 0)%N then t_err EExists
  else
    let! p := t_read (get_entry_by_dn flat_old) in
    let! ch := t_read (fun d => Ok (get_children d p.2)) in
    if negb (is_empty ch) then t_err ENonLeaf
    else
      entry_modify_with p.2 (mkEntry flat_new (e_attrs p.1))
        (rename_req flat_new delold oldr newr) ;;;
      put_dn2id flat_new (id_bytes p.2) ;;;
      del_dn2id flat_old.
(** pkg/ldbbolt/ldbbolt.go:314-382 EntryModifyDN.  Only the first RDN of NewRDN
    is used; [newrdn.RDNs[0]] and [olddn.RDNs[1:]] panic on an empty DN. *)
Definition entry_moddn (req : moddn_req) : res (tx unit) :=
  match parse_dn (md_dn req), parse_dn (md_newrdn req) with
  | None, _ => Err EParse
  | _, None => Err EParse
  | Some _, Some [] => Panic
  | Some [], Some _ => Panic
  | Some ((oldr :: parent) as olddn), Some (newr :: _) =>
      Ok (entry_moddn_tx (normalize olddn) (normalize (newr :: parent))
            (md_delold req) oldr newr)
  end.

(** ldap.PasswordModifyRequest. *)
Record pw_req := mkPw { pw_user : str; pw_old : str; pw_new : str }.

(** pkg/ldbbolt/ldbbolt.go:401-413: the old password, if given, must match. *)
Definition check_old (e : entry) (old : str) : res unit :=
  if is_empty old then Ok tt
  else match validate old (get_eqfold_val (B "userPassword") (e_attrs e)) with
       | Ok true => Ok tt
       | Ok false => Err (ELdap UnwillingToPerform true)
       | Err _ => Err (ELdap UnwillingToPerform true)
       | Panic => Panic
       | Diverge => Diverge
       end.
(** pkg/ldbbolt/ldbbolt.go:384-426 UpdatePassword. *)
Definition update_password (req : pw_req) : res (tx unit) :=
  match parse_normalize (pw_user req) with
  | None => Err EParse
  | Some ndn => Ok (
      let! p := t_read (get_entry_by_dn ndn) in
      let! _ := t_lift (check_old p.1 (pw_old req)) in
      t_maperr (ELdap OperationsError true)
        (entry_modify_with p.2 p.1
           (mkModify (pw_user req) [mkChange MReplace (B "userPassword") [pw_new req]])))
  end.

(** The write operations of the package. *)
Inductive op :=
| OpPut (e : entry)
| OpDelete (dn : str)
| OpModify (req : modify_req)
| OpModDn (req : moddn_req)
| OpPassword (req : pw_req).
Definition op_body (base : str) (o : op) : res (tx unit) :=
  match o with
  | OpPut e => entry_put base e
  | OpDelete dn => entry_delete dn
  | OpModify r => entry_modify r
  | OpModDn r => entry_moddn r
  | OpPassword r => update_password r
  end.
(** One call of an operation in an environment: the code before the
    transaction, then the transaction. *)
Definition run_op (base : str) (ev : env) (o : op) (d : db) : outcome * db :=
  match op_body base o with
  | Ok m => update ev m d
  | Err e => (Done (Err e), d)
  | Panic => (Done Panic, d)
  | Diverge => (Done Diverge, d)
  end.
(** A history: operations, each with its environment. *)
Fixpoint run_ops (base : str) (h : list (env * op)) (d : db) : db :=
  match h with
  | [] => d
  | (ev, o) :: h' => run_ops base h' (run_op base ev o d).2
  end.

(** cmd/idmd/boltdb/export/export.go:44-76 Export: the subtree search at the
    base.  Simplification: the entries themselves, not their LDIF text. *)
Definition export_db (d : db) (base : str) : res (list entry * option err) :=
  search d base ScopeSub.
(** cmd/idmd/boltdb/load/load.go:65-70, the loop of Load over the entries of the
    LDIF file; it stops at the first error. *)
Fixpoint load_db (base : str) (es : list entry) (d : db) : outcome * db :=
  match es with
  | [] => (Done (Ok tt), d)
  | e :: es' =>
      match run_op base no_faults (OpPut e) d with
      | (Done (Ok _), d') => load_db base es' d'
      | r => r
      end
  end.
End ldbbolt.
