(** Entries and pkg/ldapentry.  Definitions only. *)
From Verif Require Import Bytes Text Dn Res.

(** ldap.EntryAttribute (Name, Values).  Simplification: the redundant
    ByteValues copy of Values is left out. *)
Record attr := mkAttr { a_name : str; a_vals : list str }.
(** ldap.Entry. *)
Record entry := mkEntry { e_dn : str; e_attrs : list attr }.

(** ldap.Change / ldap.PartialAttribute; parseModList
    (pkg/ldapserver/modify.go:84-97) admits three operations only. *)
Inductive mod_op := MAdd | MDelete | MReplace.
Record change := mkChange { c_op : mod_op; c_type : str; c_vals : list str }.
(** ldap.ModifyRequest (DN, Changes). *)
Record modify_req := mkModify { m_dn : str; m_changes : list change }.
(** ldap.AddRequest (DN, Attributes as type/values). *)
Record add_req := mkAdd { ad_dn : str; ad_attrs : list (str * list str) }.

(** Byte-wise string order (Go's [<] on strings). *)
Fixpoint str_ltb (a b : str) : bool :=
  match a, b with
  | [], [] => false
  | [], _ :: _ => true
  | _ :: _, [] => false
  | x :: a', y :: b' =>
      if (code x <? code y)%N then true
      else if (code y <? code x)%N then false
      else str_ltb a' b'
  end.

(** Assignment into a Go map whose keys are later visited in sorted order:
    ldap.NewEntry sorts the attribute names. *)
Fixpoint sorted_put (k : str) (v : list str) (l : list attr) : list attr :=
  match l with
  | [] => [mkAttr k v]
  | a :: l' =>
      if seqb k (a_name a) then mkAttr k v :: l'
      else if str_ltb k (a_name a) then mkAttr k v :: a :: l'
      else a :: sorted_put k v l'
  end.

(** pkg/ldapentry/ldapentry.go:137-144 EntryFromAddRequest (with go-ldap
    NewEntry): later assignments to the same type overwrite earlier ones. *)
Definition entry_from_add (r : add_req) : entry :=
  mkEntry (ad_dn r)
    (fold_left (fun l p => sorted_put p.1 p.2 l) (ad_attrs r) []).

Section entry.
Context {T : Text}.

(** go-ldap Entry.GetEqualFoldAttributeValues: the values of the first
    attribute whose name matches. *)
Fixpoint get_eqfold_vals (t : str) (l : list attr) : list str :=
  match l with
  | [] => []
  | a :: l' => if eqfold t (a_name a) then a_vals a else get_eqfold_vals t l'
  end.
(** go-ldap Entry.GetEqualFoldAttributeValue: the first of these, or "". *)
Definition get_eqfold_val (t : str) (l : list attr) : str :=
  match get_eqfold_vals t l with v :: _ => v | [] => [] end.

(** [casefold.String(x) == casefold.String(y)] *)
Definition same (x y : str) : bool := seqb (fold x) (fold y).

(** pkg/ldapentry/ldapentry.go:75-96 entryReplaceValues. *)
Definition replace_values (ea : list attr) (t : str) (vs : list str) : list attr :=
  let upd := flat_map (fun a =>
    if same (a_name a) t
    then if is_empty vs then [] else [mkAttr (a_name a) vs]
    else [a]) ea in
  if existsb (fun a => same (a_name a) t) ea then upd
  else if is_empty vs then upd else upd ++ [mkAttr t vs].

(** pkg/ldapentry/ldapentry.go:98-114 entryApplyModAdd. *)
Definition mod_add (cur add : list str) : list str :=
  fold_left (fun acc n => if existsb (same n) cur then acc else acc ++ [n]) add cur.

(** pkg/ldapentry/ldapentry.go:116-135 entryApplyModDelete. *)
Definition mod_delete (cur del : list str) : list str :=
  if is_empty del then []
  else bfilter (fun c => negb (existsb (same c) del)) cur.

(** pkg/ldapentry/ldapentry.go:37-51: every RDN pair of the replaced type must
    be among the new values. *)
Definition replace_allowed (r : rdn) (t : str) (vs : list str) : bool :=
  forallb (fun p => if same t p.1 then existsb (same p.2) vs else true) r.
(** pkg/ldapentry/ldapentry.go:54-67: no RDN pair of the type may be deleted. *)
Definition delete_allowed (r : rdn) (t : str) (vs : list str) : bool :=
  forallb (fun p => if same t p.1
                    then negb (is_empty vs) && negb (existsb (same p.2) vs)
                    else true) r.

(** pkg/ldapentry/ldapentry.go:28-71, one iteration of the loop over the
    changes.  [old] is the list of attributes before the request, [cur] the
    list built so far. *)
Definition apply_change (r : rdn) (old cur : list attr) (c : change) : res (list attr) :=
  match c_op c with
  | MAdd =>
      Ok (replace_values cur (c_type c)
            (mod_add (get_eqfold_vals (fold (c_type c)) cur) (c_vals c)))
  | MReplace =>
      if replace_allowed r (c_type c) (c_vals c)
      then Ok (replace_values cur (c_type c) (c_vals c))
      else Err (ELdap NotAllowedOnRDN true)
  | MDelete =>
      if delete_allowed r (c_type c) (c_vals c)
      then Ok (replace_values cur (c_type c)
                 (mod_delete (get_eqfold_vals (fold (c_type c)) old) (c_vals c)))
      else Err (ELdap NotAllowedOnRDN true)
  end.
(** pkg/ldapentry/ldapentry.go:28-71, the loop. *)
Fixpoint apply_changes (r : rdn) (old cur : list attr) (cs : list change)
    : res (list attr) :=
  match cs with
  | [] => Ok cur
  | c :: cs' => cur' <-- apply_change r old cur c ;; apply_changes r old cur' cs'
  end.

(** pkg/ldapentry/ldapentry.go:10-73 ApplyModify.  [oldDN.RDNs[0]] panics for
    the empty DN. *)
Definition apply_modify (old : entry) (m : modify_req) : res entry :=
  match parse_dn (e_dn old) with
  | None => Err EParse
  | Some [] => Panic
  | Some ((r :: _) as od) =>
      match parse_dn (m_dn m) with
      | None => Err EParse
      | Some md =>
          if negb (dn_eqfold od md) then Err (ELdap UnwillingToPerform true)
          else attrs <-- apply_changes r (e_attrs old) (e_attrs old) (m_changes m) ;;
               Ok (mkEntry (e_dn old) attrs)
      end
  end.

(** * Specification vocabulary *)

(** The value lists an entry has under an attribute type. *)
Definition vals_of (t : str) (l : list attr) : list (list str) :=
  map a_vals (bfilter (fun a => same (a_name a) t) l).

(** Attribute names as LDAP has them: ASCII, distinct up to case. *)
Definition names_ok (l : list attr) : Prop :=
  Forall (fun a => asciis (a_name a)) l /\ NoDup (map (fun a => fold (a_name a)) l).

(** The pair (t, v) occurs in the entry (up to case folding). *)
Definition has_value (t v : str) (l : list attr) : Prop :=
  exists a x, a ∈ l /\ fold (a_name a) = fold t /\ x ∈ a_vals a /\ fold x = fold v.

(** The attribute is (case-insensitively) named by one of the changes. *)
Definition named_by (cs : list change) (a : attr) : bool :=
  existsb (fun c => same (a_name a) (c_type c)) cs.

(** The changes applied as separate modify requests. *)
Fixpoint one_by_one (e : entry) (dn : str) (cs : list change) : res entry :=
  match cs with
  | [] => Ok e
  | c :: cs' => e' <-- apply_modify e (mkModify dn [c]) ;; one_by_one e' dn cs'
  end.
(** No delete names an attribute an earlier change has touched. *)
Fixpoint fresh_deletes (seen : list str) (cs : list change) : bool :=
  match cs with
  | [] => true
  | c :: cs' =>
      match c_op c with
      | MDelete => negb (existsb (same (c_type c)) seen)
      | _ => true
      end && fresh_deletes (c_type c :: seen) cs'
  end.

End entry.

(** The last list given for [n] in [l] is [vs]. *)
Definition last_given (n : str) (vs : list str) (l : list (str * list str)) : Prop :=
  exists l1 l2, l = l1 ++ (n, vs) :: l2 /\ ~ In n (map fst l2).
