(** Distinguished names: the go-ldap parser and comparison the code calls, and
    pkg/ldapdn.  Definitions only; lemmas are in DnProofs.v. *)
From Verif Require Import Bytes Text.

(** ldap.AttributeTypeAndValue, ldap.RelativeDN, ldap.DN. *)
Notation ava := (str * str)%type.
Notation rdn := (list ava).
Notation dn := (list rdn).

Section dn.
Context {T : Text}.

(** go-ldap v3 dn.go decodeString, the loop over the runes.  External library
    (not in /repo).  Simplification: works on the bytes of the rune string;
    a two-rune hex pair with non-ASCII runes is an error in both versions. *)
Definition dn_special (c : ascii) : bool :=
  existsb (aeqb c) (B " ""#+,;<=>\").
Fixpoint decode_loop (s : str) : option str :=
  match s with
  | [] => Some []
  | c :: s' =>
      if aeqb c "\"%char then
        match s' with
        | [] => None
        | d :: s'' =>
            if dn_special d then cons d <$> decode_loop s''
            else match s'' with
                 | [] => None
                 | e :: s''' =>
                     match hex_dec d e with
                     | Some x => cons x <$> decode_loop s'''
                     | None => None
                     end
                 end
        end
      else cons c <$> decode_loop s'
  end.

(** go-ldap v3 dn.go stripLeadingAndTrailingSpaces: trim, then put the final
    space back if it was escaped. *)
Definition ends_with (c : ascii) (s : str) : bool :=
  match rev s with d :: _ => aeqb d c | [] => false end.
Definition strip (s : str) : str :=
  let t := trim_val s in
  if ends_with "\"%char t && ends_with space s then t ++ [space] else t.

(** go-ldap v3 dn.go decodeString. *)
Definition decode_string (s : str) : option str :=
  decode_loop (runes (strip s)).

(** go-ldap v3 dn.go setValue: [#...] is BER in hex, everything else is an
    escaped string. *)
Definition decode_value (s : str) : option str :=
  match s with
  | c :: s' => if aeqb c "#"%char then hexber s' else decode_string s
  | [] => decode_string s
  end.

(** go-ldap v3 dn.go ParseDN, the loop over the bytes.  [cur] is the reversed
    slice str[startPos:i], [ty] is attr.Type, [avas] and [rdns] are the
    (reversed) finished parts. *)
Fixpoint dn_loop (s : str) (esc : bool) (cur ty : str) (avas : list ava)
    (rdns : list rdn) : option dn :=
  match s with
  | [] =>
      if is_empty ty then None
      else match decode_value (rev cur) with
           | Some v => Some (rev (rev ((ty, v) :: avas) :: rdns))
           | None => None
           end
  | c :: s' =>
      if esc then dn_loop s' false (c :: cur) ty avas rdns
      else if aeqb c "\"%char then dn_loop s' true (c :: cur) ty avas rdns
      else if aeqb c "="%char && is_empty ty then
        match decode_string (rev cur) with
        | Some t => dn_loop s' false [] t avas rdns
        | None => None
        end
      else if aeqb c ","%char || aeqb c "+"%char || aeqb c ";"%char then
        if is_empty ty then None
        else match decode_value (rev cur) with
             | Some v =>
                 if aeqb c "+"%char
                 then dn_loop s' false [] [] ((ty, v) :: avas) rdns
                 else dn_loop s' false [] [] [] (rev ((ty, v) :: avas) :: rdns)
             | None => None
             end
      else dn_loop s' false (c :: cur) ty avas rdns
  end.

(** go-ldap v3 dn.go ParseDN. *)
Definition parse_dn (s : str) : option dn :=
  let s := trim_dn s in
  if is_empty s then Some [] else dn_loop s false [] [] [] [].

(** go-ldap v3 AttributeTypeAndValue.EqualFold, RelativeDN.EqualFold,
    DN.EqualFold: pairs of one RDN are compared as sets. *)
Definition ava_eqfold (a b : ava) : bool :=
  eqfold a.1 b.1 && eqfold a.2 b.2.
Definition rdn_has_all (r : rdn) (attrs : list ava) : bool :=
  forallb (fun a => existsb (fun m => ava_eqfold m a) r) attrs.
Definition rdn_eqfold (a b : rdn) : bool :=
  (length a =? length b) && rdn_has_all a b && rdn_has_all b a.
Fixpoint dn_eqfold (a b : dn) : bool :=
  match a, b with
  | [], [] => true
  | x :: a', y :: b' => rdn_eqfold x y && dn_eqfold a' b'
  | _, _ => false
  end.

(** pkg/ldapdn/ldapdn.go:37-83 encodeRDNValue.  [first] is [i == 0]; the last
    byte is recognised by the empty rest. *)
Definition enc_special (c : ascii) : bool :=
  existsb (aeqb c) (B """+,;<>\").
Fixpoint enc_loop (first : bool) (s : str) : str :=
  match s with
  | [] => []
  | c :: s' =>
      (if (first && aeqb c space) || aeqb c "#"%char then ["\"%char; c]
       else if is_empty s' && aeqb c space then ["\"%char; c]
       else if enc_special c then ["\"%char; c]
       else if (code c <? 32)%N || (126 <? code c)%N then "\"%char :: hex_enc c
       else [c]) ++ enc_loop false s'
  end.
Definition encode_rdn_value (s : str) : str := enc_loop true s.

(** pkg/ldapdn/ldapdn.go:15-32 Normalize, inner loop over the pairs of one RDN:
    [a > 0] puts "+", else [r > 0] puts ",". *)
Fixpoint norm_avas (r0 a0 : bool) (l : list ava) : str :=
  match l with
  | [] => []
  | (t, v) :: l' =>
      (if negb a0 then B "+" else if negb r0 then B "," else [])
      ++ fold t ++ B "=" ++ encode_rdn_value (fold v)
      ++ norm_avas r0 false l'
  end.
(** pkg/ldapdn/ldapdn.go:15-32 Normalize, outer loop. *)
Fixpoint norm_rdns (r0 : bool) (d : dn) : str :=
  match d with
  | [] => []
  | r :: d' => norm_avas r0 true r ++ norm_rdns false d'
  end.
Definition normalize (d : dn) : str := norm_rdns true d.

(** pkg/ldapdn/ldapdn.go:88-94 ParseNormalize. *)
Definition parse_normalize (s : str) : option str := normalize <$> parse_dn s.

(** * Specification vocabulary used in property statements *)

(** The case-folded name: same shape, types and values folded. *)
Definition fold_dn (d : dn) : dn :=
  map (map (fun p => (fold p.1, fold p.2))) d.

(** An LDAP attribute descriptor (RFC 4512): letters, digits, '-' and '.'. *)
Definition descr_char (c : ascii) : bool :=
  is_upper c || is_lower c || is_digit c || aeqb c "-"%char || aeqb c "."%char.
Definition descr (t : str) : bool := negb (is_empty t) && forallb descr_char t.

(** A name as RFC 4514 has it: every RDN has at least one pair and every type
    is a descriptor. *)
Definition wf_rdn (r : rdn) : bool :=
  negb (is_empty r) && forallb (fun p => descr p.1) r.
Definition wf_dn (d : dn) : bool := forallb wf_rdn d.

(** The text of the DN does not end in an (escaped) space. *)
Definition last_ok (d : dn) : bool :=
  match last d with
  | Some r => match last r with
              | Some (_, v) => negb (ends_with space v)
              | None => true
              end
  | None => true
  end.

End dn.
