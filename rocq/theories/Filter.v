(** Filtering of search results and routing (pkg/ldapserver/filter.go,
    search.go, server.go).  Definitions only. *)
From Verif Require Import Bytes Text Dn Res Entry Db Packet.

(** go-ldap filter tags, and the tags inside a substrings filter. *)
Definition FAndTag : N := 0.
Definition FOrTag : N := 1.
Definition FNotTag : N := 2.
Definition FEqualityTag : N := 3.
Definition FSubstringsTag : N := 4.
Definition FPresentTag : N := 7.
Definition SubInitial : N := 0.
Definition SubAny : N := 1.
Definition SubFinal : N := 2.

Section filter.
Context {T : Text}.

(** pkg/ldapserver/filter.go:59-67. *)
Definition match_equality (a v : str) (l : list attr) : bool :=
  existsb (fun x => eqfold (a_name x) a && existsb (fun y => eqfold y v) (a_vals x)) l.
(** pkg/ldapserver/filter.go:69-73. *)
Definition match_present (a : str) (l : list attr) : bool :=
  existsb (fun x => eqfold (a_name x) a) l.
(** pkg/ldapserver/filter.go:114-135; [v] is the folded text of the component. *)
Definition match_sub_value (tag : N) (v y : str) : bool :=
  if (tag =? SubInitial)%N then has_prefix (fold y) v
  else if (tag =? SubAny)%N then contains (fold y) v
  else if (tag =? SubFinal)%N then has_suffix (fold y) v
  else false.
Definition match_substring (a : str) (tag : N) (v : str) (l : list attr) : bool :=
  existsb (fun x => eqfold (a_name x) a && existsb (match_sub_value tag (fold v)) (a_vals x)) l.

(** pkg/ldapserver/filter.go:48-147 ServerApplyFilter.  A result code other
    than Success is an error value.  [.Value.(string)] panics on another type,
    [Children[1].Children[0]] panics without substrings.  All tags not listed
    (also the "Filter..." cases, which do not match any name in FilterMap) give
    OperationsError. *)
Fixpoint apply_filter (f : packet) (e : entry) {struct f} : res bool :=
  let 'Pkt _ _ tag _ data kids := f in
  if (tag =? FEqualityTag)%N then
    match kids with
    | [a; v] =>
        match p_val a, p_val v with
        | VStr a, VStr v => Ok (match_equality a v (e_attrs e))
        | _, _ => Panic
        end
    | _ => perr OperationsError
    end
  else if (tag =? FPresentTag)%N then Ok (match_present data (e_attrs e))
  else if (tag =? FAndTag)%N then
    (fix all (l : list packet) : res bool :=
       match l with
       | [] => Ok true
       | c :: l' => ok <-- apply_filter c e ;; if (ok : bool) then all l' else Ok false
       end) kids
  else if (tag =? FOrTag)%N then
    (fix any (l : list packet) (acc : bool) : res bool :=
       match l with
       | [] => Ok acc
       | c :: l' => ok <-- apply_filter c e ;; any l' (acc || ok)
       end) kids false
  else if (tag =? FNotTag)%N then
    match kids with
    | [c] => ok <-- apply_filter c e ;; Ok (negb ok)
    | _ => perr OperationsError
    end
  else if (tag =? FSubstringsTag)%N then
    match kids with
    | [a; s] =>
        match p_val a with
        | VStr a =>
            match p_kids s with
            | c :: _ => Ok (match_substring a (p_tag c) (p_data c) (e_attrs e))
            | [] => Panic
            end
        | _ => Panic
        end
    | _ => perr OperationsError
    end
  else perr OperationsError.

(** pkg/ldapserver/filter.go:149-181 ServerFilterScope.  The one-level case
    splits the text of the DN at every comma. *)
Definition filter_scope (base : str) (scope : Z) (e : entry) : res bool :=
  match parse_dn base, parse_dn (e_dn e) with
  | Some b, Some d =>
      if (scope =? ScopeBase)%Z then Ok (dn_eqfold d b)
      else if (scope =? ScopeOne)%Z then
        let parts := Bytes.split ","%char (e_dn e) in
        if (length parts <? 2) && negb (dn_eqfold d b) then Ok false
        else match parse_dn (Bytes.join (B ",") (tail parts)) with
             | Some s => Ok (dn_eqfold s b)
             | None => perr OperationsError
             end
      else Ok true
  | _, _ => perr OperationsError
  end.

(** pkg/ldapserver/search.go:159-173 filterAttributes. *)
Definition filter_attributes (req : list str) (l : list attr) : list attr :=
  flat_map (fun a =>
    flat_map (fun r => if seqb r (B "*") || eqfold (a_name a) r then [a] else []) req) l.
(** pkg/ldapserver/filter.go:183-193 ServerFilterAttributes (its error is always
    nil). *)
Definition select_attributes (req : list str) (e : entry) : entry :=
  let chosen := mkEntry (e_dn e) (filter_attributes req (e_attrs e)) in
  match req with
  | [] => e
  | [r] => if is_empty r then e else chosen
  | _ => chosen
  end.

(** pkg/ldapserver/search.go:50-92, the loop of HandleSearchRequest: the entries
    sent, and how the loop ends.  [i] counts the entries sent so far; [ok k]
    says that the [k]-th write to the client succeeds. *)
Fixpoint search_loop (enforce : bool) (flt : packet) (r : search_req) (ok : nat -> bool)
    (es : list entry) (i : nat) : list entry * res unit :=
  match es with
  | [] => ([], Ok tt)
  | e :: es' =>
      let send (e' : entry) :=
        if ok i then
          let '(l, x) := search_loop enforce flt r ok es' (S i) in (e' :: l, x)
        else ([], perr OperationsError) in
      if enforce then
        match apply_filter flt e with
        | Ok false => search_loop enforce flt r ok es' i
        | Ok true =>
            match filter_scope (sr_base r) (sr_scope r) e with
            | Ok false => search_loop enforce flt r ok es' i
            | Ok true =>
                if (0 <? sr_size r)%Z && (sr_size r <=? Z.of_nat i)%Z
                then ([], perr SizeLimitExceeded)
                else send (select_attributes (sr_attrs r) e)
            | Err x => ([], Err x)
            | Panic => ([], Panic)
            | Diverge => ([], Diverge)
            end
        | Err x => ([], Err x)
        | Panic => ([], Panic)
        | Diverge => ([], Diverge)
        end
      else send e
  end.
End filter.

(** pkg/ldapserver/server.go:450-464 routeFunc. *)
Definition components (s : str) : nat := length (Bytes.split ","%char s).
Fixpoint route_from (best dn : str) (names : list str) : str :=
  match names with
  | [] => best
  | n :: names' =>
      route_from
        (if has_suffix dn n then
           if (if is_empty best then 0 else components best) <? components n then n else best
         else best) dn names'
  end.
Definition route (dn : str) (names : list str) : str := route_from [] dn names.

(** * Specification vocabulary *)

(** A DN all of whose types and values are ASCII. *)
Definition ascii_dn (d : dn) : Prop := Forall (Forall (fun p => asciis p.1 /\ asciis p.2)) d.
(** Every RDN has exactly one pair. *)
Definition single_dn (d : dn) : Prop := Forall (fun r : rdn => length r = 1) d.
(** A printable DN text with neither an escape nor a semicolon before its first
    comma. *)
Definition plain_char1 (c : ascii) : bool :=
  negb (aeqb c ","%char || aeqb c "\"%char || aeqb c ";"%char).
Definition plain_first (s : str) : Prop :=
  prints s /\
  (Forall (fun c => plain_char1 c = true) s \/
   exists p rest, s = p ++ ","%char :: rest /\ Forall (fun c => plain_char1 c = true) p).

(** The filters a client can write (RFC 4511, 4.5.1.7), substrings as a list of
    components.  [FOther] holds the comparisons the code does not support:
    greaterOrEqual, lessOrEqual, approxMatch and extensibleMatch (rule, type,
    value, dnAttributes; an absent rule or type is empty). *)
Inductive cmp := CGreater | CLess | CApprox.
Inductive other := OCmp (c : cmp) (a v : str) | OExt (rule ty v : str) (dn : bool).
Inductive flt :=
| FAnd (l : list flt) | FOr (l : list flt) | FNot (f : flt)
| FEq (a v : str) | FSub (a : str) (parts : list (N * str)) | FPres (a : str)
| FOther (o : other).

(** The packet of a filter as go-ldap's compileFilter builds it (external
    library).  Simplification: the content octets of constructed packets, which
    nothing in /repo reads, are left empty. *)
Definition octets (tag : N) (s : str) : packet := Pkt ClassContext false tag (VStr s) s [].
Definition field (s : str) : packet := Pkt ClassUniversal false TagOctetString (VStr s) s [].
Definition cmp_tag (c : cmp) : N := match c with CGreater => 5 | CLess => 6 | CApprox => 8 end.
Definition other_packet (o : other) : packet :=
  match o with
  | OCmp c a v => Pkt ClassContext true (cmp_tag c) VNil [] [field a; field v]
  | OExt rule ty v dn => Pkt ClassContext true 9 VNil []
      ((if is_empty rule then [] else [octets 1 rule]) ++ (if is_empty ty then [] else [octets 2 ty]) ++
       [octets 3 v] ++ (if dn then [Pkt ClassContext false 4 (VBool true) [ascii_of_N 255] []] else []))
  end.
Fixpoint filter_packet (f : flt) : packet :=
  match f with
  | FAnd l => Pkt ClassContext true FAndTag VNil [] (map filter_packet l)
  | FOr l => Pkt ClassContext true FOrTag VNil [] (map filter_packet l)
  | FNot f => Pkt ClassContext true FNotTag VNil [] [filter_packet f]
  | FEq a v => Pkt ClassContext true FEqualityTag VNil [] [field a; field v]
  | FSub a ps => Pkt ClassContext true FSubstringsTag VNil []
                   [field a; Pkt ClassUniversal true TagSequence VNil [] (map (fun p => octets p.1 p.2) ps)]
  | FPres a => octets FPresentTag a
  | FOther o => other_packet o
  end.
Section semantics.
Context {T : Text}.

(** [y] consists of the given components in order, the first anchored at the
    start if it is initial, the last at the end if it is final. *)
Inductive in_order : str -> list (N * str) -> Prop :=
| io_nil y : in_order y []
| io_any y a b v ps : y = a ++ v ++ b -> in_order b ps -> in_order y ((SubAny, v) :: ps)
| io_final y a v : y = a ++ v -> in_order y [(SubFinal, v)].
Definition sub_matches (y : str) (ps : list (N * str)) : Prop :=
  match ps with
  | (t, v) :: ps' =>
      if (t =? SubInitial)%N then exists b, y = v ++ b /\ in_order b ps' else in_order y ps
  | [] => False
  end.
Definition folded (ps : list (N * str)) : list (N * str) := map (fun p => (p.1, fold p.2)) ps.

(** When an entry satisfies a filter: plain boolean logic over statements about
    attribute values; names and values are compared without regard to case. *)
Fixpoint sat (e : entry) (f : flt) : Prop :=
  match f with
  | FAnd l => foldr (fun g P => sat e g /\ P) True l
  | FOr l => foldr (fun g P => sat e g \/ P) False l
  | FNot g => ~ sat e g
  | FEq a v => exists x y, In x (e_attrs e) /\ In y (a_vals x) /\
      eqfold (a_name x) a = true /\ eqfold y v = true
  | FSub a ps => exists x y, In x (e_attrs e) /\ In y (a_vals x) /\
      eqfold (a_name x) a = true /\ sub_matches (fold y) (folded ps)
  | FPres a => exists x, In x (e_attrs e) /\ eqfold (a_name x) a = true
  | FOther _ => False
  end.

(** Filters the code evaluates as intended. *)
Fixpoint supported (f : flt) : bool :=
  match f with
  | FAnd l | FOr l => forallb supported l
  | FNot g => supported g
  | FEq _ _ | FPres _ => true
  | FSub _ ps => length ps =? 1
  | FOther _ => false
  end.
(** Filters the code evaluates at all. *)
Fixpoint evaluable (f : flt) : bool :=
  match f with
  | FAnd l | FOr l => forallb evaluable l
  | FNot g => evaluable g
  | FEq _ _ | FPres _ => true
  | FSub _ ps => negb (is_empty ps)
  | FOther _ => false
  end.
(** The filter the code evaluates instead: only the first component of a
    substring assertion. *)
Fixpoint first_only (f : flt) : flt :=
  match f with
  | FAnd l => FAnd (map first_only l)
  | FOr l => FOr (map first_only l)
  | FNot g => FNot (first_only g)
  | FSub a ps => FSub a (take 1 ps)
  | g => g
  end.
End semantics.
