(** Specification of the database, independent of Db.v's internals: an abstract
    directory (a finite map from names to entries) with the operations on it,
    and what it means for the buckets to be consistent. *)
From stdpp Require Export gmap.
From Verif Require Import Bytes Text Dn Res Entry Password Db.

(** A directory maps names (case-folded DNs) to entries. *)
Notation dir := (gmap dn entry).

(** [k'] is a direct child of [k]. *)
Definition child_of (k k' : dn) : bool :=
  match k' with
  | _ :: t => bool_decide (t = k)
  | [] => false
  end.
(** [k'] is [k] or lies below it. *)
Definition at_or_below (k k' : dn) : bool := bool_decide (k `suffix_of` k').
(** [k'] is in the scope of a search at [k]. *)
Definition in_scope (scope : Z) (k k' : dn) : bool :=
  if (scope =? 0)%Z then bool_decide (k' = k)
  else if (scope =? 1)%Z then child_of k k'
  else if (scope =? 2)%Z then at_or_below k k'
  else false.
(** No entry has [k] as parent. *)
Definition is_leaf (m : dir) (k : dn) : bool :=
  forallb (fun p => negb (child_of k p.1)) (map_to_list m).

Section spec.
Context {T : Text} {C : Crypto}.

(** The text of a name is limited in length by the key-value store. *)
Definition name_fits (k : dn) : bool := (N.of_nat (length (normalize k)) <=? 32768)%N.

(** Adding [e] under the name [k] below the base name [b]. *)
Definition spec_put (b : dn) (k : dn) (e : entry) (m : dir) : res dir :=
  if negb (has_suffix (normalize k) (normalize b)) then Err ENotDescendant
  else if bool_decide (is_Some (m !! k)) then Err EExists
  else if negb (bool_decide (k = b)) && bool_decide (m !! tail k = None) then Err ENoParent
  else if negb (name_fits k) then Err EKey
  else Ok (<[k := e]> m).
(** Deleting the entry named [k]. *)
Definition spec_delete (k : dn) (m : dir) : res dir :=
  if bool_decide (m !! k = None) then Err ENotFound
  else if negb (is_leaf m k) then Err ENonLeaf
  else if bool_decide (m !! tail k = None) then Err ENotFound
  else Ok (delete k m).
(** Modifying the entry named [k]. *)
Definition spec_modify (k : dn) (r : modify_req) (m : dir) : res dir :=
  match m !! k with
  | None => Err ENotFound
  | Some e => e' <-- apply_modify e r ;; Ok (<[k := e']> m)
  end.
(** Renaming the entry named [k] to [newr :: tail k]; [oldr] and [newr] are the
    RDNs as written in the request. *)
Definition spec_rename (k : dn) (oldr newr : rdn) (delold : bool) (m : dir) : res dir :=
  let k' := fold_dn [newr] ++ tail k in
  if bool_decide (is_Some (m !! k')) then Err EExists
  else match m !! k with
       | None => Err ENotFound
       | Some e =>
           if negb (is_leaf m k) then Err ENonLeaf
           else
             e' <-- apply_modify (mkEntry (normalize k') (e_attrs e))
                      (mkModify (normalize k')
                         ((if delold then map (fun p => mkChange MDelete p.1 [p.2]) oldr else [])
                          ++ map (fun p => mkChange MAdd p.1 [p.2]) newr)) ;;
             if negb (name_fits k') then Err EKey
             else Ok (<[k' := e']> (delete k m))
       end.
(** Setting the password of the entry named [k]. *)
Definition spec_password (k : dn) (r : pw_req) (m : dir) : res dir :=
  match m !! k with
  | None => Err ENotFound
  | Some e =>
      _ <-- check_old e (pw_old r) ;;
      match apply_modify e (mkModify (pw_user r)
              [mkChange MReplace (B "userPassword") [pw_new r]]) with
      | Ok e' => Ok (<[k := e']> m)
      | Err _ => Err (ELdap OperationsError true)
      | Panic => Panic
      | Diverge => Diverge
      end
  end.

(** The operations on requests. *)
Definition spec_op (b : dn) (o : op) (m : dir) : res dir :=
  match o with
  | OpPut e =>
      match parse_dn (e_dn e) with
      | None | Some [] => Panic
      | Some d => spec_put b (fold_dn d) e m
      end
  | OpDelete s =>
      match parse_dn s with
      | None => Err EParse
      | Some [] => Panic
      | Some d => spec_delete (fold_dn d) m
      end
  | OpModify r =>
      match parse_dn (m_dn r) with
      | None => Err EParse
      | Some d => spec_modify (fold_dn d) r m
      end
  | OpModDn r =>
      match parse_dn (md_dn r), parse_dn (md_newrdn r) with
      | None, _ | _, None => Err EParse
      | Some [], _ | _, Some [] => Panic
      | Some ((oldr :: _) as d), Some (newr :: _) =>
          spec_rename (fold_dn d) oldr newr (md_delold r) m
      end
  | OpPassword r =>
      match parse_dn (pw_user r) with
      | None => Err EParse
      | Some d => spec_password (fold_dn d) r m
      end
  end.

(** ** Hypotheses on configurations and requests *)

(** The configured base: a non-empty name with descriptor types, case-folded,
    not ending in a space. *)
Record base_ok (b : dn) : Prop := {
  base_ne : b <> [];
  base_wf : wf_dn b = true;
  base_folded : fold_dn b = b;
  base_last : last_ok b = true
}.
(** A DN text whose attribute types are descriptors (if it parses). *)
Definition dn_text_ok (s : str) : Prop := forall d, parse_dn s = Some d -> wf_dn d = true.
Definition op_ok (o : op) : Prop :=
  match o with
  | OpPut e => dn_text_ok (e_dn e)
  | OpDelete s => dn_text_ok s
  | OpModify r => dn_text_ok (m_dn r)
  | OpModDn r => dn_text_ok (md_dn r) /\ dn_text_ok (md_newrdn r)
  | OpPassword r => dn_text_ok (pw_user r)
  end.

(** ** Consistency of the buckets *)

(** [s] is the key of the parent of the entry with key [s']. *)
Definition parent_key (s' s : str) : Prop :=
  exists d, parse_dn s' = Some d /\ d <> [] /\ normalize (tail d) = s.

Record consistent (d : db) : Prop := {
  (** every name resolves to a stored entry, which bears that name *)
  c_names : forall s b, dn2id d !! s = Some b ->
    exists i e, b = id_bytes i /\ (0 < i < 2 ^ 64)%N /\ id2ent d !! b = Some e /\
      parse_normalize (e_dn e) = Some s;
  (** every stored entry has exactly one name *)
  c_entries : forall b e, id2ent d !! b = Some e ->
    exists s, dn2id d !! s = Some b /\ forall s', dn2id d !! s' = Some b -> s' = s;
  (** the child list of an entry: its direct children, each once *)
  c_children : forall s i, (0 < i < 2 ^ 64)%N -> dn2id d !! s = Some (id_bytes i) ->
    NoDup (get_children d i) /\
    forall j, j ∈ get_children d i <->
      (0 < j < 2 ^ 64)%N /\ exists s', dn2id d !! s' = Some (id_bytes j) /\ parent_key s' s;
  (** every child list is a sequence of identifiers of stored entries *)
  c_lists : forall b v, id2ch d !! b = Some v ->
    concat (chunks8 v) = v /\ forall c, c ∈ chunks8 v -> is_Some (id2ent d !! c)
}.

(** ** What is stored *)

(** The buckets store exactly the directory [m]. *)
Record represents (d : db) (m : dir) : Prop := {
  r_down : forall k e, m !! k = Some e ->
    wf_dn k = true /\ fold_dn k = k /\
    exists v, dn2id d !! normalize k = Some v /\ id2ent d !! v = Some e;
  r_up : forall s v, dn2id d !! s = Some v ->
    exists k e, m !! k = Some e /\ normalize k = s
}.

(** [d] is the result of some history, with any faults and crashes in it, on an
    empty database with base name [b].  The bound leaves room in the 64-bit
    counter for one more operation. *)
Definition reachable (b : dn) (d : db) : Prop :=
  exists h, Forall (fun p => op_ok p.2) h /\ (N.of_nat (length h) + 1 < 2 ^ 64)%N /\
    d = run_ops (normalize b) h empty_db.

(** The names an operation is about. *)
Definition op_names (o : op) : list dn :=
  match o with
  | OpPut e => option_list (fold_dn <$> parse_dn (e_dn e))
  | OpDelete s => option_list (fold_dn <$> parse_dn s)
  | OpModify r => option_list (fold_dn <$> parse_dn (m_dn r))
  | OpPassword r => option_list (fold_dn <$> parse_dn (pw_user r))
  | OpModDn r =>
      match parse_dn (md_dn r), parse_dn (md_newrdn r) with
      | Some d, Some (n :: _) => [fold_dn d; fold_dn (n :: tail d)]
      | Some d, _ => [fold_dn d]
      | None, _ => []
      end
  end.
(** The operation renames the entry named [k]. *)
Definition renames (k : dn) (o : op) : Prop :=
  match o with
  | OpModDn r => fold_dn <$> parse_dn (md_dn r) = Some k
  | _ => False
  end.
End spec.
