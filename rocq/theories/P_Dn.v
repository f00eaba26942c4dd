(** Properties C01-C04: distinguished names. *)
From Verif Require Import Bytes Text Dn DnProofs.

(** C01.  Normalising is stable: the normal form parses to the folded name and
    is its own normal form. *)
Theorem C01_normalise_stable (T : Text) (HT : TextOK T) (s : str) (d : dn) (n : str) :
  parse_dn s = Some d -> wf_dn d = true -> last_ok (fold_dn d) = true ->
  parse_normalize s = Some n ->
  parse_dn n = Some (fold_dn d) /\ parse_normalize n = Some n.
Proof. apply (normalise_stable HT). Qed.
Print Assumptions C01_normalise_stable.

Example C01_case :
  let s := B " CN = Doe\, John +uid=Jo\20,OU=R\26D ; o=Example" in
  let d := [[(B "CN", B "Doe, John"); (B "uid", B "Jo ")]; [(B "OU", B "R&D")];
            [(B "o", B "Example")]] in
  parse_dn (T:=ascii_text) s = Some d /\ wf_dn d = true /\
  last_ok (fold_dn (T:=ascii_text) d) = true /\
  parse_normalize (T:=ascii_text) s = Some (B "cn=doe\, john+uid=jo\ ,ou=r&d,o=example").
Proof. vm_compute. repeat split. Qed.

(** The side condition on the last value is needed: "o=a\20" (value "a ")
    normalises to text that does not parse at all. *)
Theorem C01_last_space_refuted :
  exists s n : str, parse_normalize (T:=ascii_text) s = Some n /\
    parse_dn (T:=ascii_text) n = None.
Proof. exists (B "o=a\20"), (B "o=a\ "). vm_compute. repeat split. Qed.
Print Assumptions C01_last_space_refuted.

(** C02.  Equal normal forms mean equal names, RDN by RDN and pair by pair. *)
Theorem C02_normal_forms_collide_only_when_equal (T : Text) (HT : TextOK T) (d1 d2 : dn) :
  wf_dn d1 = true -> wf_dn d2 = true ->
  normalize d1 = normalize d2 <->
  Forall2 (Forall2 (fun p q => fold p.1 = fold q.1 /\ fold p.2 = fold q.2)) d1 d2.
Proof. apply (normalise_collide HT). Qed.
Print Assumptions C02_normal_forms_collide_only_when_equal.

Example C02_case :
  let d1 := [[(B "cn", B "a,o=b")]; [(B "o", B "X ")]] in
  let d2 := [[(B "CN", B "A,O=B")]; [(B "O", B "x ")]] in
  let d3 := [[(B "cn", B "a")]; [(B "o", B "b")]; [(B "o", B "X ")]] in
  wf_dn d1 = true /\ wf_dn d2 = true /\ wf_dn d3 = true /\
  normalize (T:=ascii_text) d1 = normalize (T:=ascii_text) d2 /\
  normalize (T:=ascii_text) d1 <> normalize (T:=ascii_text) d3.
Proof. vm_compute. repeat split; discriminate. Qed.

(** C03.  Any value written into a DN is read back unchanged, alone and in
    context, and its text contains no unescaped separator. *)
Theorem C03_values_escape_losslessly (T : Text) (HT : TextOK T) (t v : str) :
  descr t = true ->
  decode_value (encode_rdn_value v) = Some v /\
  bare_seps (encode_rdn_value v) = [] /\
  parse_dn (t ++ B "=" ++ encode_rdn_value v ++ B ",o=x") =
    Some [[(t, v)]; [(B "o", B "x")]].
Proof.
  intros Ht. split; [apply (decode_value_enc HT)|]. split; [apply enc_no_seps|].
  by apply (parse_ctx HT).
Qed.
Print Assumptions C03_values_escape_losslessly.

Example C03_case :
  let v := space :: B "a,b+c;d=""\#" ++ [zero; ascii_of_N 200; space] in
  descr (B "userid") = true /\
  encode_rdn_value v = B "\ a\,b\+c\;d=\""\\\#\00\c8\ " /\
  bare_seps (B "a\,b,c\\+d") = B ",+".
Proof. vm_compute. repeat split. Qed.

(** C04.  Outside of descriptors the normal form is not faithful: an escaped
    separator in a type gives two names of different depth one database key. *)
Theorem C04_escaped_types_collide_refuted :
  exists s1 s2 d1 d2,
    parse_dn (T:=ascii_text) s1 = Some d1 /\ parse_dn (T:=ascii_text) s2 = Some d2 /\
    length d1 <> length d2 /\
    parse_normalize (T:=ascii_text) s1 = parse_normalize (T:=ascii_text) s2.
Proof.
  exists (B "a\=x\,b=c,o=base"), (B "a=x,b=c,o=base"),
    [[(B "a=x,b", B "c")]; [(B "o", B "base")]],
    [[(B "a", B "x")]; [(B "b", B "c")]; [(B "o", B "base")]].
  vm_compute. repeat split; lia.
Qed.
Print Assumptions C04_escaped_types_collide_refuted.

(** Two spellings of one multi-valued RDN are equal for the DN library but get
    different keys, so both can be stored. *)
Theorem C04_multivalued_order_refuted :
  exists s1 s2 d1 d2,
    parse_dn (T:=ascii_text) s1 = Some d1 /\ parse_dn (T:=ascii_text) s2 = Some d2 /\
    dn_eqfold (T:=ascii_text) d1 d2 = true /\
    parse_normalize (T:=ascii_text) s1 <> parse_normalize (T:=ascii_text) s2.
Proof.
  exists (B "cn=a+uid=b,o=base"), (B "uid=b+cn=a,o=base"),
    [[(B "cn", B "a"); (B "uid", B "b")]; [(B "o", B "base")]],
    [[(B "uid", B "b"); (B "cn", B "a")]; [(B "o", B "base")]].
  vm_compute. repeat split; discriminate.
Qed.
Print Assumptions C04_multivalued_order_refuted.

(** Conversely the two notions of case-insensitivity disagree: with full
    folding "stra&szlig;e" and "strasse" share a key although the DN library
    calls the names different. *)
Theorem C04_two_foldings_refuted :
  exists (T : Text) (s1 s2 : str) (d1 d2 : dn), TextOK T /\
    parse_dn s1 = Some d1 /\ parse_dn s2 = Some d2 /\
    dn_eqfold d1 d2 = false /\ parse_normalize s1 = parse_normalize s2.
Proof.
  exists sharp_text, (B "cn=stra" ++ [ascii_of_N 195; ascii_of_N 159] ++ B "e,o=base"),
    (B "cn=strasse,o=base"),
    [[(B "cn", B "stra" ++ [ascii_of_N 195; ascii_of_N 159] ++ B "e")]; [(B "o", B "base")]],
    [[(B "cn", B "strasse")]; [(B "o", B "base")]].
  split; [apply sharp_text_ok|]. vm_compute. repeat split.
Qed.
Print Assumptions C04_two_foldings_refuted.
