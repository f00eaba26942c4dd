(** The LDIF backend (server/handler/ldif): tree, index, bind and search.
    Paging and the goroutine that feeds a search are in Paging.v.  Definitions
    only. *)
From Verif Require Import Bytes Text Dn Res Entry Password Db Packet Filter Handler.

(** server/handler/ldif/entry.go:16-20 ldifEntry: the entry without its
    password, and the values of UserPassword (None is a nil pointer). *)
Record lentry := mkL { l_entry : entry; l_pw : option (list str) }.

(** server/handler/ldif/index.go:74-184.  An index holds pointers to entries;
    a pointer is a position in the heap of the data set.  The suffix tree
    (go-suffix-tree) and the radix tree (go-radix) are external libraries: a
    finite map with a walk over the keys with a given suffix or prefix. *)
Notation bag := (gmap str (list nat)).
Inductive idx :=
| IMap (m : bag)
| ISub (pres radix suf : bag).

(** The order in which the libraries walk a tree; nothing is assumed but that
    each key is visited once. *)
Class Trees := { visit : list str -> list str }.
Definition TreesOK (W : Trees) : Prop := forall l, Permutation (visit l) l.
Definition keys_of {A} (t : gmap str A) : list str := (map_to_list t).*1.
Definition walk {W : Trees} {A} (p : str -> bool) (t : gmap str A) : list A :=
  omap (fun k => t !! k) (visit (bfilter p (keys_of t))).

(** server/handler/ldif/memory.go:13-18 ldifMemoryValue, with the heap its
    pointers refer to. *)
Record dataset := mkData {
  d_heap : list lentry;
  d_tree : gmap str nat;
  d_index : gmap str idx
}.

(** server/handler/ldif/index.go:17-40 indexAttributes as initialised
    (AddIndexAttribute and RemoveIndexAttribute, 42-48, change it). *)
Definition index_attributes : list (str * str) := map (fun p => (B p.1, B p.2)) [
  ("entryCSN", "eq"); ("entryUUID", "eq"); ("objectClass", "eq");
  ("cn", "pres,eq,sub"); ("gidNumber", "eq"); ("mail", "pres,eq,sub");
  ("memberUid", "eq"); ("ou", "eq"); ("uid", "eq"); ("uidNumber", "eq");
  ("uniqueMember", "eq"); ("sn", "pres,eq,sub"); ("givenName", "pres,eq,sub");
  ("mailAlternateAddress", "eq"); ("objectGUID", "eq"); ("objectSID", "eq");
  ("otherMailbox", "eq"); ("samAccountName", "eq")]%string.

Section index.
Context {T : Text} {W : Trees}.

(** Appending a pointer under each of the given keys: index.go:61-67 (with
    [to_lower] as [key]), 84-95 and 117-128 (with the identity). *)
Definition bag_add (key : str -> str) (values : list str) (p : nat) (m : bag) : bag :=
  foldl (fun m v => <[key v := default [] (m !! key v) ++ [p]]> m) m values.
Definition bag_get (k : str) (m : bag) : list nat := default [] (m !! k).

(** index.go:205-207 getKey. *)
Definition index_key (name op : str) : str := to_lower name ++ B "," ++ op.

(** index.go:188-203 newIndexMapRegister.  The order of the map iteration does
    not matter: the kind of index depends on the operator only, which is part of
    the key. *)
Definition new_index (op : str) : option idx :=
  if seqb op (B "sub") then Some (ISub ∅ ∅ ∅)
  else if seqb op (B "pres") || seqb op (B "eq") then Some (IMap ∅)
  else None.
Definition new_register (attrs : list (str * str)) : gmap str idx :=
  foldl (fun m a =>
    foldl (fun m op =>
      match new_index op with
      | Some i => <[index_key a.1 op := i]> m
      | None => m
      end) m (Bytes.split ","%char a.2)) ∅ attrs.

(** index.go:209-216 and the Add methods (61-67, 154-159). *)
Definition idx_add (values : list str) (p : nat) (i : idx) : idx :=
  match i with
  | IMap m => IMap (bag_add to_lower values p m)
  | ISub pres radix suf =>
      ISub (bag_add to_lower [[]] p pres) (bag_add (fun v => v) values p radix)
        (bag_add (fun v => v) values p suf)
  end.
Definition register_add (name op : str) (values : list str) (p : nat) (r : gmap str idx) : gmap str idx :=
  match r !! index_key name op with
  | Some i => <[index_key name op := idx_add values p i]> r
  | None => r
  end.

(** filter.go:67, 74, 87: what one leaf of a filter is looked up by.
    Simplification: the level, which nobody reads, is left out and the list of
    strings is a record; the tag of a substring is not printed and parsed
    again. *)
Inductive lop := LEq | LPres | LSub (tag : N).
Record leaf := mkLeaf { lf_attr : str; lf_op : lop; lf_val : str }.
Definition op_name (o : lop) : str :=
  match o with LEq => B "eq" | LPres => B "pres" | LSub _ => B "sub" end.

(** index.go:218-225 and the Load methods (69-72, 97-105, 130-138, 161-184).
    None: no such index.  The index under ",sub" is a sub tree and the others
    are maps by construction; a map takes the first parameter and a sub tree
    needs two. *)
Definition idx_load (f : leaf) (i : idx) : option (list nat) :=
  match i with
  | IMap m => Some (bag_get (to_lower (lf_val f)) m)
  | ISub pres radix suf =>
      match lf_op f with
      | LSub tag =>
          if (tag =? SubAny)%N then Some (bag_get [] pres)
          else if (tag =? SubInitial)%N
          then Some (concat (walk (fun k => has_prefix k (lf_val f)) radix))
          else if (tag =? SubFinal)%N
          then Some (concat (walk (fun k => has_suffix k (lf_val f)) suf))
          else None
      | _ => None
      end
  end.
Definition register_load (f : leaf) (r : gmap str idx) : option (list nat) :=
  match r !! index_key (lf_attr f) (op_name (lf_op f)) with
  | Some i => idx_load f i
  | None => None
  end.

(** ldif.go:141-190 treeFromLDIF.  A record without an entry is None; the
    pointer of the next entry is the length of the heap.  Simplification: the
    middleware, which passes no index, gets one it never reads.  An error is
    None. *)
Definition is_userpassword (name : str) : bool := seqb (to_lower name) (B "userpassword").
Definition split_entry (e : entry) : lentry :=
  mkL (mkEntry (to_lower (e_dn e)) (bfilter (fun a => negb (is_userpassword (a_name a))) (e_attrs e)))
    (last (map a_vals (bfilter (fun a => is_userpassword (a_name a)) (e_attrs e)))).
Definition index_attr (p : nat) (r : gmap str idx) (a : attr) : gmap str idx :=
  register_add (a_name a) (B "sub") (a_vals a) p
    (register_add (a_name a) (B "pres") [[]] p
      (register_add (a_name a) (B "eq") (a_vals a) p r)).
Definition add_record (ds : option dataset) (rec : option entry) : option dataset :=
  match ds, rec with
  | Some d, Some e =>
      let p := length (d_heap d) in
      let x := split_entry e in
      match d_tree d !! e_dn (l_entry x) with
      | Some _ => None
      | None =>
          Some (mkData (d_heap d ++ [x]) (<[e_dn (l_entry x) := p]> (d_tree d))
                  (foldl (index_attr p) (d_index d) (e_attrs e)))
      end
  | _, _ => ds
  end.
Definition build (attrs : list (str * str)) (records : list (option entry)) : option dataset :=
  foldl add_record (Some (mkData [] ∅ (new_register attrs))) records.

(** filter.go:53-113 parseFilterMatchLeavesForIndex; the leaves are appended to
    [parent] in order. *)
Fixpoint leaves (f : packet) {struct f} : res (list leaf) :=
  let 'Pkt _ _ tag _ data kids := f in
  let all :=
    (fix all (l : list packet) : res (list leaf) :=
       match l with
       | [] => Ok []
       | c :: l' => x <-- leaves c ;; y <-- all l' ;; Ok (x ++ y)
       end) in
  if (tag =? FEqualityTag)%N then
    match kids with
    | [a; v] =>
        match p_val a, p_val v with
        | VStr a, VStr v => Ok [mkLeaf a LEq v]
        | _, _ => Panic
        end
    | _ => Err EOther
    end
  else if (tag =? FPresentTag)%N then
    match kids with
    | [] => Ok [mkLeaf data LPres []]
    | _ => Err EOther
    end
  else if (tag =? FSubstringsTag)%N then
    match kids with
    | [a; s] =>
        match p_val a with
        | VStr a =>
            match p_kids s with
            | [c] =>
                match p_val c with
                | VStr v =>
                    if existsb (N.eqb (p_tag c)) [SubInitial; SubAny; SubFinal]
                    then Ok [mkLeaf a (LSub (p_tag c)) v] else Ok []
                | _ => Panic
                end
            | _ => Err EOther
            end
        | _ => Panic
        end
    | _ => Err EOther
    end
  else if (tag =? FAndTag)%N then all kids
  else if (tag =? FOrTag)%N then all kids
  else Ok [].

(** filter.go:29-49. *)
Definition is_objectclass (f : leaf) : bool := eqfold (B "objectClass") (lf_attr f).
Definition drop_objectclass (l : list leaf) : list leaf :=
  if (1 <? length l) && existsb (fun f => negb (is_objectclass f)) l
  then bfilter (fun f => negb (is_objectclass f)) l else l.
(** filter.go:19-51 parseFilterToIndexFilter on the compiled filter; handler.go:251
    drops the error, leaving no index filter. *)
Definition index_filter (f : packet) : res (list leaf) :=
  match leaves f with
  | Ok l => Ok (drop_objectclass l)
  | Err _ => Ok []
  | Panic => Panic
  | Diverge => Diverge
  end.

(** handler.go:444-474, the entries an index filter selects: None if one of
    the leaves has no index. *)
Fixpoint load_all (fs : list leaf) (r : gmap str idx) : option (list nat) :=
  match fs with
  | [] => Some []
  | f :: fs' =>
      match register_load f r, load_all fs' r with
      | Some l, Some l' => Some (l ++ l')
      | _, _ => None
      end
  end.
(** The lookup in a heap; a pointer always refers to an entry (proved). *)
Definition dn_of (d : dataset) (p : nat) : str :=
  match d_heap d !! p with Some x => e_dn (l_entry x) | None => [] end.
Fixpoint uncached (d : dataset) (base : str) (cache : list nat) (ps : list nat) : list nat :=
  match ps with
  | [] => []
  | p :: ps' =>
      if existsb (Nat.eqb p) cache then uncached d base cache ps'
      else (if has_suffix (dn_of d p) base then [p] else []) ++ uncached d base (p :: cache) ps'
  end.
(** handler.go:442-484: what searchEntriesPump sends, in order. *)
Definition candidates (d : dataset) (base : str) (fs : list leaf) : list nat :=
  let all := walk (fun k => has_suffix k (to_lower base)) (d_tree d) in
  if is_empty fs then all
  else match load_all fs (d_index d) with
       | Some ps => uncached d (to_lower base) [] ps
       | None => all
       end.
End index.

(** handler.go:31-45: the configuration after NewLDIFHandler. *)
Record ldif_cfg := mkLdif { lc_base : str; lc_anon : bool; lc_attrs : list (str * str) }.

Section handler.
Context {T : Text} {C : Crypto} {W : Wire} {Tr : Trees}.

(** handler.go:49-87 NewLDIFHandler and the check at the start of open (89-92).
    Simplification: the file name checks are left out; AdminDN is parsed and
    stored but never used. *)
Definition ldif_new (base admin : str) (anon : bool) (attrs : list (str * str)) : option ldif_cfg :=
  if is_empty base then None
  else match parse_normalize base, parse_normalize admin with
       | Some b, Some _ => if eqfold base b then Some (mkLdif b anon attrs) else None
       | _, _ => None
       end.

(** handler.go:89-148 open, from the outcome of reading and parsing the files
    (None is an error); Reload (166-168) is open.  On an error the data served
    stays. *)
Definition ldif_reload (c : ldif_cfg) (parsed : option (list (option entry))) (d : dataset)
    : bool * dataset :=
  match parsed with
  | Some records =>
      match build (lc_attrs c) records with
      | Some d' => (true, d')
      | None => (false, d)
      end
  | None => (false, d)
  end.

(** handler.go:487-503 validateBindDN; [local] says that the client's address
    is a loopback address. *)
Definition bind_dn_ok (c : ldif_cfg) (local : bool) (dn : str) : bool :=
  if is_empty dn then lc_anon c && local else has_suffix dn (lc_base c).

(** entry.go:22-31 validatePassword: nil UserPassword and an empty list of
    values panic. *)
Definition validate_entry (x : lentry) (pw : str) : hout bool :=
  match l_pw x with
  | Some (h :: _) =>
      match validate pw h with
      | Ok b => HRet b
      | Err _ => HRet false
      | Panic => HPanic
      | Diverge => HKill
      end
  | _ => HPanic
  end.
(** current.t.Get. *)
Definition tree_get (d : dataset) (dn : str) : option lentry :=
  match d_tree d !! dn with Some p => d_heap d !! p | None => None end.
Definition check_password (x : lentry) (pw : str) : hout answer :=
  match validate_entry x pw with
  | HRet true => HRet (Success, false)
  | HRet false => HRet (InvalidCredentials, false)
  | HPanic => HPanic
  | HKill => HKill
  end.
(** handler.go:174-213 Bind. *)
Definition ldif_bind (c : ldif_cfg) (local : bool) (dn0 pw : str) (d : dataset) : hout answer * dataset :=
  let dn := to_lower dn0 in
  (if negb (bind_dn_ok c local dn) then HRet (InsufficientAccessRights, false)
   else if is_empty pw then
     if is_empty dn then HRet (Success, false) else HRet (UnwillingToPerform, false)
   else match tree_get d dn with
        | None => HRet (InvalidCredentials, false)
        | Some x => check_password x pw
        end, d).

(** handler.go:337-379: what becomes of an entry taken from the pump.  The copy
    of the entry made before the attributes are filtered is implicit. *)
Definition take_entry (flt : packet) (r : search_req) (e : entry) : res (option entry) :=
  keep <-- apply_filter flt e ;;
  if negb keep then Ok None
  else keep <-- filter_scope (sr_base r) (sr_scope r) e ;;
       if negb keep then Ok None else Ok (Some (select_attributes (sr_attrs r) e)).

(** uint32(x) of an int. *)
Definition u32 (z : Z) : Z := (z mod 2 ^ 32)%Z.
(** handler.go:381-390: whether the loop ends with the [count]-th entry.
    Simplification: count itself, a uint32, does not wrap (it would take 2^32
    entries in memory). *)
Definition enough (page : option Z) (size : Z) (count : nat) : bool :=
  match page with Some n => (n <=? Z.of_nat count)%Z | None => false end ||
  ((0 <? size)%Z && (u32 size <=? Z.of_nat count)%Z).

(** handler.go:328-393, the loop over the entries of the pump with no paging and
    nothing going wrong in between: the pump sends everything, then closes the
    channel. *)
Fixpoint take_all (d : dataset) (flt : packet) (r : search_req) (ps : list nat) (count : nat)
    : res (list entry) :=
  match ps with
  | [] => Ok []
  | p :: ps' =>
      match d_heap d !! p with
      | None => Panic
      | Some x =>
          o <-- take_entry flt r (l_entry x) ;;
          match o with
          | None => take_all d flt r ps' count
          | Some e =>
              if enough None (sr_size r) (S count) then Ok [e]
              else l <-- take_all d flt r ps' (S count) ;; Ok (e :: l)
          end
      end
  end.
(** handler.go:231-408 Search without a paging control, run from start to end
    with no timeout of the pump. *)
Definition ldif_found (x : res (list entry)) : hout found :=
  match x with
  | Ok es => HRet (mkFound es Success false)
  | Err (ELdap code _) => HRet (mkFound [] code true)
  | Err _ => HRet (mkFound [] OperationsError true)
  | Panic => HPanic
  | Diverge => HKill
  end.
Definition refused (code : N) : hout found := HRet (mkFound [] code true).
(** The checks before the pump is started (handler.go:244-258, 316-321): the
    compiled filter and the leaves to look up, or the answer. *)
Definition search_checks (c : ldif_cfg) (local : bool) (bound : str) (r : search_req)
    : hout found + (packet * list leaf) :=
  if negb (bind_dn_ok c local (to_lower bound)) then inl (refused InsufficientAccessRights)
  else match compile_filter (sr_filter r) with
       | None =>
           (* the index filter is empty; the base is looked at first *)
           inl (refused (if has_suffix (to_lower (sr_base r)) (lc_base c)
                         then OperationsError else InsufficientAccessRights))
       | Some flt =>
           match index_filter flt with
           | Ok fs =>
               if has_suffix (to_lower (sr_base r)) (lc_base c) then inr (flt, fs)
               else inl (refused InsufficientAccessRights)
           | Err _ => inl (refused OperationsError)
           | Panic => inl HPanic
           | Diverge => inl HKill
           end
       end.
Definition ldif_search (c : ldif_cfg) (local : bool) (bound : str) (r : search_req) (d : dataset)
    : hout found * dataset :=
  (match search_checks c local bound r with
   | inl x => x
   | inr (flt, fs) => ldif_found (take_all d flt r (candidates d (sr_base r) fs) 0)
   end, d).

(** handler.go:170-172, 215-229: the other operations. *)
Definition unsupported {S : Type} (s : S) : hout answer * S := (HRet (UnwillingToPerform, true), s).
Definition ldif_handler (c : ldif_cfg) : handler dataset bool :=
  mkHandler (fun _ _ _ d => unsupported d) (ldif_bind c) (fun _ _ _ d => unsupported d)
    (fun _ _ _ d => unsupported d) (fun _ _ _ d => unsupported d) (fun _ _ _ d => unsupported d)
    (ldif_search c).

(** middleware.go:135-166 Bind, over the next handler; [base] is the lower-cased
    BaseDN (57). *)
Definition overlay_bind {S E} (base : str) (next : handler S E) (ev : E) (dn0 pw : str) (s : dataset * S)
    : hout answer * (dataset * S) :=
  let dn := to_lower dn0 in
  let on_next := let '(a, s') := h_bind next ev dn pw s.2 in (a, (s.1, s')) in
  if is_empty pw then on_next
  else match tree_get s.1 dn with
       | Some x =>
           (if negb (has_suffix dn base) then HRet (InvalidCredentials, false)
            else check_password x pw, s)
       | None => on_next
       end.
(** middleware.go:131-133, 168-186. *)
Definition overlay_search {S E} (next : handler S E) (ev : E) (bound : str) (r : search_req) (s : dataset * S)
    : hout found * (dataset * S) :=
  let '(f, s') := h_search next ev bound r s.2 in (f, (s.1, s')).
Definition overlay {S E} (base : str) (next : handler S E) : handler (dataset * S) E :=
  mkHandler (fun _ _ _ d => unsupported d) (overlay_bind base next) (fun _ _ _ d => unsupported d)
    (fun _ _ _ d => unsupported d) (fun _ _ _ d => unsupported d) (fun _ _ _ d => unsupported d)
    (overlay_search next).
(** middleware.go:68-98 open and 122-129 Reload: the overlay first, which has no
    index (79), then the next handler; an error of the second leaves the new
    overlay in place. *)
Definition overlay_reload (c : ldif_cfg) (overlay_parsed parsed : option (list (option entry)))
    (s : dataset * dataset) : bool * (dataset * dataset) :=
  match ldif_reload (mkLdif (lc_base c) (lc_anon c) []) overlay_parsed s.1 with
  | (true, o) => let '(ok, d) := ldif_reload c parsed s.2 in (ok, (o, d))
  | (false, _) => (false, s)
  end.
End handler.
