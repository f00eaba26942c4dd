(** Filters as text: go-ldap v3.4.11 filter.go (external library, not in /repo),
    through which every filter a client sends passes on its way to the server:
    pkg/ldapserver/search.go:132 turns the packet into text (DecompileFilter,
    pkg/ldapserver/filter.go:44-46); pkg/ldapserver/search.go:25,
    server/handler/ldif/handler.go:316 and server/handler/ldif/filter.go:20
    turn the text into a packet again (CompileFilter, pkg/ldapserver/filter.go:40-42).  Written from the
    documented behaviour of that version.  Definitions only. *)
From Verif Require Import Bytes Text Res Packet Filter Ber.

(** ** UTF-8 *)

Definition byte_in (lo hi : N) (c : ascii) : bool := (lo <=? code c)%N && (code c <=? hi)%N.
Definition cont (c : ascii) : bool := byte_in 128 191 c.
(** utf8.DecodeRuneInString: the bytes of the first rune and what follows; None
    for utf8.RuneError, that is invalid UTF-8, U+FFFD (EF BF BD) or the end. *)
Definition rune (s : str) : option (str * str) :=
  match s with
  | [] => None
  | c :: s1 =>
      let n := code c in
      if (n <? 128)%N then Some ([c], s1)
      else if (n <? 194)%N then None
      else if (n <? 224)%N then
        match s1 with
        | d :: s2 => if cont d then Some ([c; d], s2) else None
        | _ => None
        end
      else if (n <? 240)%N then
        match s1 with
        | d :: e :: s3 =>
            if byte_in (if (n =? 224)%N then 160 else 128) (if (n =? 237)%N then 159 else 191) d && cont e &&
               negb ((n =? 239)%N && (code d =? 191)%N && (code e =? 189)%N)
            then Some ([c; d; e], s3) else None
        | _ => None
        end
      else if (n <? 245)%N then
        match s1 with
        | d :: e :: g :: s4 =>
            if byte_in (if (n =? 240)%N then 144 else 128) (if (n =? 244)%N then 143 else 191) d && cont e && cont g
            then Some ([c; d; e; g], s4) else None
        | _ => None
        end
      else None
  end.

(** ** From packets to text *)

(** go-ldap mustEscape and EscapeFilter. *)
Definition must_escape (c : ascii) : bool :=
  (127 <? code c)%N || existsb (aeqb c) ["("%char; ")"%char; "\"%char; "*"%char] || (code c =? 0)%N.
Definition escape_filter (s : str) : str :=
  flat_map (fun c => if must_escape c then "\"%char :: hex_enc c else [c]) s.
(** The components of a substrings filter with their stars. *)
Fixpoint sub_text (first : bool) (l : list packet) : str :=
  match l with
  | [] => []
  | c :: l' =>
      (if first && negb (p_tag c =? SubInitial)%N then B "*" else []) ++
      escape_filter (p_data c) ++
      (if (p_tag c =? SubFinal)%N then [] else B "*") ++ sub_text false l'
  end.
(** The fields of an extensible match, later ones overwriting: rule, type, value,
    dnAttributes; a dnAttributes field whose value is no boolean panics. *)
Fixpoint ext_fields (l : list packet) (x : str * str * str * bool) : option (str * str * str * bool) :=
  match l with
  | [] => Some x
  | c :: l' =>
      let '(rule, ty, v, dn) := x in
      if (p_tag c =? 1)%N then ext_fields l' (p_data c, ty, v, dn)
      else if (p_tag c =? 2)%N then ext_fields l' (rule, p_data c, v, dn)
      else if (p_tag c =? 3)%N then ext_fields l' (rule, ty, p_data c, dn)
      else if (p_tag c =? 4)%N then
        match as_bool (p_val c) with Some b => ext_fields l' (rule, ty, v, b) | None => None end
      else ext_fields l' x
  end.
(** go-ldap DecompileFilter.  A panic on missing children is recovered and is an
    error (None).  The attribute is written as it is, the value is escaped; an
    unknown tag gives "()". *)
Fixpoint decompile (p : packet) : option str :=
  let 'Pkt _ _ tag _ data kids := p in
  let each :=
    (fix each (l : list packet) : option str :=
       match l with
       | [] => Some []
       | c :: l' => match decompile c with
                    | Some x => match each l' with Some y => Some (x ++ y) | None => None end
                    | None => None
                    end
       end) in
  let pair (op : str) :=
    match kids with
    | a :: v :: _ => Some (p_data a ++ op ++ escape_filter (p_data v))
    | _ => None
    end in
  let inner :=
    if (tag =? FAndTag)%N then match each kids with Some x => Some ("&"%char :: x) | None => None end
    else if (tag =? FOrTag)%N then match each kids with Some x => Some ("|"%char :: x) | None => None end
    else if (tag =? FNotTag)%N then
      match kids with
      | c :: _ => match decompile c with Some x => Some ("!"%char :: x) | None => None end
      | [] => None
      end
    else if (tag =? FSubstringsTag)%N then
      match kids with
      | a :: s :: _ => Some (p_data a ++ B "=" ++ sub_text true (p_kids s))
      | _ => None
      end
    else if (tag =? FEqualityTag)%N then pair (B "=")
    else if (tag =? 5)%N then pair (B ">=")
    else if (tag =? 6)%N then pair (B "<=")
    else if (tag =? FPresentTag)%N then Some (data ++ B "=*")
    else if (tag =? 8)%N then pair (B "~=")
    else if (tag =? 9)%N then
      match ext_fields kids ([], [], [], false) with
      | Some (rule, ty, v, dn) =>
          Some (ty ++ (if (dn : bool) then B ":dn" else []) ++
                (if is_empty rule then [] else ":"%char :: rule) ++ B ":=" ++ escape_filter v)
      | None => None
      end
    else Some [] in
  match inner with Some x => Some ("("%char :: x ++ B ")") | None => None end.

(** ** From text to packets *)

(** go-ldap decodeEscapedSymbols. *)
Fixpoint unescape_loop (fuel : nat) (s : str) : option str :=
  match fuel with
  | O => None
  | S f =>
      match s with
      | [] => Some []
      | _ =>
          match rune s with
          | None => None
          | Some (r, s1) =>
              if seqb r (B "\") then
                match s1 with
                | a :: b :: s2 =>
                    match hex_dec a b, unescape_loop f s2 with
                    | Some c, Some x => Some (c :: x)
                    | _, _ => None
                    end
                | _ => None
                end
              else match unescape_loop f s1 with Some x => Some (r ++ x) | None => None end
          end
      end
  end.
Definition unescape (s : str) : option str := unescape_loop (S (length s)) s.

(** The state of the loop that reads one comparison: which comparison was seen,
    attribute, matching rule, condition, ":dn", and what is being read. *)
Inductive kind := KEq | KCmp (c : cmp) | KExt.
Inductive reading := RAttr | RRule | RCond.
Record leaf_state := mkLeaf {
  lt_kind : option kind; lt_attr : str; lt_rule : str; lt_cond : str; lt_dn : bool; lt_mode : reading
}.
Definition leaf_start : leaf_state := mkLeaf None [] [] [] false RAttr.
(** One round of the loop at text [s], whose first rune is [r] and followed by
    [s1]: the new state and the text still to be read. *)
Definition leaf_step (st : leaf_state) (s r s1 : str) : leaf_state * str :=
  let 'mkLeaf k a ru co dn m := st in
  match m with
  | RAttr =>
      if has_prefix s (B ":dn:=") then (mkLeaf (Some KExt) a ru co true RCond, drop 5 s)
      else if has_prefix s (B ":dn:") then (mkLeaf (Some KExt) a ru co true RRule, drop 4 s)
      else if has_prefix s (B ":=") then (mkLeaf (Some KExt) a ru co dn RCond, drop 2 s)
      else if has_prefix s (B ":") then (mkLeaf (Some KExt) a ru co dn RRule, drop 1 s)
      else if has_prefix s (B "=") then (mkLeaf (Some KEq) a ru co dn RCond, drop 1 s)
      else if has_prefix s (B ">=") then (mkLeaf (Some (KCmp CGreater)) a ru co dn RCond, drop 2 s)
      else if has_prefix s (B "<=") then (mkLeaf (Some (KCmp CLess)) a ru co dn RCond, drop 2 s)
      else if has_prefix s (B "~=") then (mkLeaf (Some (KCmp CApprox)) a ru co dn RCond, drop 2 s)
      else (mkLeaf k (a ++ r) ru co dn RAttr, s1)
  | RRule =>
      if has_prefix s (B ":=") then (mkLeaf k a ru co dn RCond, drop 2 s)
      else (mkLeaf k a (ru ++ r) co dn RRule, s1)
  | RCond => (mkLeaf k a ru (co ++ r) dn RCond, s1)
  end.
(** The loop: up to the first ")", which is consumed. *)
Fixpoint leaf_loop (fuel : nat) (st : leaf_state) (s : str) : option (leaf_state * str) :=
  match fuel with
  | O => None
  | S f =>
      match s with
      | [] => None
      | c :: s' =>
          if aeqb c ")"%char then Some (st, s')
          else match rune s with
               | Some (r, s1) => let '(st', s2) := leaf_step st s r s1 in leaf_loop f st' s2
               | None => None
               end
      end
  end.
(** The components of a condition with stars: empty ones are left out, the first
    is initial, the last is final. *)
Fixpoint sub_parts (first : bool) (l : list str) : option (list (N * str)) :=
  match l with
  | [] => Some []
  | p :: l' =>
      match sub_parts false l' with
      | None => None
      | Some ps =>
          if is_empty p then Some ps
          else match unescape p with
               | Some v => Some ((if first then SubInitial else if is_empty l' then SubFinal else SubAny, v) :: ps)
               | None => None
               end
      end
  end.
(** What was read, as a filter. *)
Definition leaf_end (st : leaf_state) : option flt :=
  match lt_kind st with
  | None => None
  | Some KExt =>
      match unescape (lt_cond st) with
      | Some v => Some (FOther (OExt (lt_rule st) (lt_attr st) v (lt_dn st)))
      | None => None
      end
  | Some (KCmp c) =>
      match unescape (lt_cond st) with Some v => Some (FOther (OCmp c (lt_attr st) v)) | None => None end
  | Some KEq =>
      if seqb (lt_cond st) (B "*") then Some (FPres (lt_attr st))
      else if existsb (aeqb "*"%char) (lt_cond st) then
        match sub_parts true (split "*"%char (lt_cond st)) with
        | Some ps => Some (FSub (lt_attr st) ps)
        | None => None
        end
      else match unescape (lt_cond st) with Some v => Some (FEq (lt_attr st) v) | None => None end
  end.
(** go-ldap compileFilter and compileFilterSet on the text after the opening
    parenthesis; the rest of the text.  The character closing a set, a negation
    or a doubled parenthesis is skipped without looking at it; a position beyond
    the end always ends in an error and is None at once.  Simplification: the
    result is given as a filter, [filter_packet] is the packet built from it. *)
Fixpoint compile_at (fuel : nat) (s : str) : option (flt * str) :=
  match fuel with
  | O => None
  | S f =>
      match rune s with
      | None => None
      | Some (r, s1) =>
          if seqb r (B "(") then
            match compile_at f s1 with Some (x, _ :: s2) => Some (x, s2) | _ => None end
          else if seqb r (B "&") then
            match compile_set f s1 with Some (l, s2) => Some (FAnd l, s2) | None => None end
          else if seqb r (B "|") then
            match compile_set f s1 with Some (l, s2) => Some (FOr l, s2) | None => None end
          else if seqb r (B "!") then
            match compile_at f s1 with Some (x, s2) => Some (FNot x, s2) | None => None end
          else match leaf_loop (S (length s)) leaf_start s with
               | Some (st, s2) => match leaf_end st with Some x => Some (x, s2) | None => None end
               | None => None
               end
      end
  end
with compile_set (fuel : nat) (s : str) : option (list flt * str) :=
  match fuel with
  | O => None
  | S f =>
      match s with
      | [] => None
      | c :: s1 =>
          if aeqb c "("%char then
            match compile_at f s1 with
            | Some (x, s2) => match compile_set f s2 with Some (l, s3) => Some (x :: l, s3) | None => None end
            | None => None
            end
          else Some ([], s1)
      end
  end.
(** go-ldap CompileFilter. *)
Definition compile (s : str) : option flt :=
  match s with
  | c :: s1 =>
      if aeqb c "("%char then
        match compile_at (S (length s1)) s1 with Some (x, []) => Some x | _ => None end
      else None
  | [] => None
  end.

(** The decoders of the server with these functions and the reader of packets of
    Ber.v; only ldap.DecodeControl stays open. *)
Definition go_wire (dc : packet -> res control) : Wire :=
  {| decompile_filter := decompile;
     compile_filter := fun s => match compile s with Some f => Some (filter_packet f) | None => None end;
     decode_inner := fun s => match read_packet s with Some (p, _) => Some p | None => None end;
     decode_control := dc |}.

(** * Specification vocabulary *)

(** The packet a client sends for a filter (RFC 4511, 4.5.1.7; 4.1.8 for the
    fields): tags and content octets, whatever else the packet says. *)
Definition says_field (k : packet) (td : N * str) : Prop := p_tag k = td.1 /\ p_data k = td.2.
Fixpoint says_flt (f : flt) (p : packet) {struct f} : Prop :=
  let each :=
    (fix each (l : list flt) (ks : list packet) : Prop :=
       match l, ks with
       | [], [] => True
       | g :: l', k :: ks' => says_flt g k /\ each l' ks'
       | _, _ => False
       end) in
  match f with
  | FAnd l => p_tag p = 0%N /\ each l (p_kids p)
  | FOr l => p_tag p = 1%N /\ each l (p_kids p)
  | FNot g => p_tag p = 2%N /\ exists k, p_kids p = [k] /\ says_flt g k
  | FEq a v => p_tag p = 3%N /\ exists x y, p_kids p = [x; y] /\ p_data x = a /\ p_data y = v
  | FSub a ps => p_tag p = 4%N /\ exists x s, p_kids p = [x; s] /\ p_data x = a /\ Forall2 says_field (p_kids s) ps
  | FPres a => p_tag p = 7%N /\ p_data p = a
  | FOther (OCmp c a v) =>
      p_tag p = match c with CGreater => 5 | CLess => 6 | CApprox => 8 end%N /\
      exists x y, p_kids p = [x; y] /\ p_data x = a /\ p_data y = v
  | FOther (OExt rule ty v dn) =>
      p_tag p = 9%N /\
      Forall2 says_field (p_kids p)
        ((if is_empty rule then [] else [(1%N, rule)]) ++ (if is_empty ty then [] else [(2%N, ty)]) ++
         [(3%N, v)] ++ (if dn then [(4%N, [ascii_of_N 255])] else []))
  end.
(** Attribute descriptions and object identifiers (RFC 4512, 1.4 and 2.5): letters,
    digits, hyphen, semicolon, dot; an underscore is tolerated. *)
Definition name_char (c : ascii) : bool :=
  is_upper c || is_lower c || is_digit c || existsb (aeqb c) ["-"%char; ";"%char; "."%char; "_"%char].
Definition named (a : str) : Prop := Forall (fun c => name_char c = true) a.
(** Substring components as RFC 4511 allows them: at least one, none empty, an
    initial one only at the start, a final one only at the end. *)
Inductive tail_ok : list (N * str) -> Prop :=
| tail_nil : tail_ok []
| tail_any v ps : v <> [] -> tail_ok ps -> tail_ok ((1%N, v) :: ps)
| tail_final v : v <> [] -> tail_ok [(2%N, v)].
Definition parts_ok (ps : list (N * str)) : Prop :=
  ps <> [] /\ (tail_ok ps \/ exists v ps', ps = (0%N, v) :: ps' /\ v <> [] /\ tail_ok ps').
(** Filters as RFC 4511 allows them.  A matching rule called "dn" and the
    dnAttributes flag are left out. *)
Fixpoint regular (f : flt) : Prop :=
  match f with
  | FAnd l | FOr l => foldr (fun g P => regular g /\ P) True l
  | FNot g => regular g
  | FEq a _ | FPres a | FOther (OCmp _ a _) => named a
  | FSub a ps => named a /\ parts_ok ps
  | FOther (OExt rule ty _ dn) => named rule /\ named ty /\ rule <> B "dn" /\ dn = false
  end.
