(** The unit tests of /repo, run on the model: every test function of the Go
    packages, with its inputs and the outcome it expects.  These are tests of
    the model, not proofs; they tie it to behaviour the authors wrote down. *)
From Verif Require Import Bytes Text Dn Res Entry Password Db Packet Filter Ber.
From stdpp Require Import gmap.

Local Existing Instance ascii_text.

(** * pkg/ldapdn/ldapdn_test.go *)

(** ldapdn_test.go:7-24 TestParseNormalize: the table. *)
Example TestParseNormalize :
  map parse_normalize
    [B "uid=Test,ou=test"; B "uid=rDN1+cn=rDN2,ou=test"; B "uid=Test\+withplus,ou=test";
     B "uid=Test\2bTest,ou=test"; B "uid=Test\00test,ou=teSt"] =
  map Some
    [B "uid=test,ou=test"; B "uid=rdn1+cn=rdn2,ou=test"; B "uid=test\+withplus,ou=test";
     B "uid=test\+test,ou=test"; B "uid=test\00test,ou=test"].
Proof. vm_compute. reflexivity. Qed.

(** * pkg/ldapentry/ldapentry_test.go *)

(** ldapentry_test.go:9-16; NewEntry sorts the attributes by name. *)
Definition user_dn : str := B "uid=user,ou=sub,o=base".
Definition user_entry : entry := mkEntry user_dn
  [mkAttr (B "displayname") [B "DisplayName"]; mkAttr (B "entryuuid") [B "abcd-defg"];
   mkAttr (B "mail") [B "user@example"]; mkAttr (B "multivalue") [B "value1"; B "value2"];
   mkAttr (B "uid") [B "user"]].
(** go-ldap GetAttributeValues (external): the values of the first attribute of
    exactly this name. *)
Fixpoint values (n : str) (l : list attr) : list str :=
  match l with [] => [] | a :: l' => if seqb (a_name a) n then a_vals a else values n l' end.
(** One change applied to an entry of this name: the values the tests look at. *)
Definition modified (e : entry) (o : mod_op) (t : str) (vs : list str) (look : str) : res (list str) :=
  e' <-- apply_modify e (mkModify user_dn [mkChange o t vs]) ;; Ok (values look (e_attrs e')).

(** ldapentry_test.go:18-27 *)
Example TestApplyModifyWrongDN :
  exists i, apply_modify user_entry (mkModify (B "uid=wrongdn") []) = Err (ELdap UnwillingToPerform i).
Proof. eexists. vm_compute. reflexivity. Qed.
(** ldapentry_test.go:29-63 *)
Example TestApplyModifyDelRDN :
  (exists i, modified user_entry MDelete (B "uid") [] [] = Err (ELdap NotAllowedOnRDN i)) /\
  (exists i, modified user_entry MDelete (B "uid") [B "user"] [] = Err (ELdap NotAllowedOnRDN i)) /\
  modified (mkEntry user_dn
    [mkAttr (B "displayname") [B "DisplayName"]; mkAttr (B "entryuuid") [B "abcd-defg"];
     mkAttr (B "mail") [B "user@example"]; mkAttr (B "uid") [B "user"; B "user1"]])
    MDelete (B "uid") [B "user1"] (B "uid") = Ok [B "user"].
Proof. split_and!; [eexists|eexists|]; vm_compute; reflexivity. Qed.
(** ldapentry_test.go:65-89 *)
Example TestApplyModifyDelete :
  modified user_entry MDelete (B "displayName") [] (B "displayName") = Ok [] /\
  modified user_entry MDelete (B "multivalue") [B "value1"] (B "multivalue") = Ok [B "value2"].
Proof. vm_compute. auto. Qed.
(** ldapentry_test.go:91-115 *)
Example TestApplyModifyAddValue :
  modified user_entry MAdd (B "mail") [B "other@example"] (B "mail") = Ok [B "user@example"; B "other@example"] /\
  modified user_entry MAdd (B "newAttribute") [B "value"] (B "newAttribute") = Ok [B "value"].
Proof. vm_compute. auto. Qed.
(** ldapentry_test.go:117-130 *)
Example TestApplyModifyReplace :
  modified user_entry MReplace (B "mail") [B "other@example"] (B "mail") = Ok [B "other@example"].
Proof. vm_compute. auto. Qed.
(** ldapentry_test.go:132-163 *)
Example TestApplyModifyReplaceRDN :
  (exists i, modified user_entry MReplace (B "uid") [B "otheruser"] [] = Err (ELdap NotAllowedOnRDN i)) /\
  modified user_entry MReplace (B "uid") [B "user"; B "otheruser"] (B "uid") = Ok [B "user"; B "otheruser"].
Proof. split; [eexists|]; vm_compute; reflexivity. Qed.

(** * pkg/ldbbolt/ldbbolt_test.go *)

Section db.
Context {C : Crypto}.
(** ldbbolt_test.go:24-48 *)
Definition base_entry : entry := mkEntry (B "o=base")
  [mkAttr (B "o") [B "base"]; mkAttr (B "objectclass") [B "organization"]].
Definition sub_entry : entry := mkEntry (B "ou=sub,o=base")
  [mkAttr (B "objectclass") [B "organizationalUnit"]; mkAttr (B "ou") [B "sub"]].
Definition db_user (n : str) : entry := mkEntry (B "uid=" ++ n ++ B ",ou=sub,o=base")
  [mkAttr (B "displayname") [B "DisplayName"]; mkAttr (B "entryuuid") [B "abcd-defg"];
   mkAttr (B "mail") [B "user@example"]; mkAttr (B "uid") [n]].
(** The calls of a test one after the other, with what each returned. *)
Fixpoint calls (l : list op) (d : db) : list outcome * db :=
  match l with
  | [] => ([], d)
  | o :: l' => let '(r, d') := run_op (B "o=base") no_faults o d in
               let '(rs, d'') := calls l' d' in (r :: rs, d'')
  end.
(** ldbbolt_test.go:66-73 addTestData *)
Definition test_data : list op :=
  map OpPut [base_entry; sub_entry; db_user (B "user"); db_user (B "user1")].

(** ldbbolt_test.go:75-101 *)
Example TestEntryPutSingle :
  (calls (map OpPut [sub_entry; base_entry; base_entry; db_user (B "user")]) empty_db).1 =
  [Done (Err ENoParent); Done (Ok tt); Done (Err EExists); Done (Err ENoParent)].
Proof. vm_compute. reflexivity. Qed.
(** ldbbolt_test.go:103-156: three entries in two of the buckets, two child
    lists of eight bytes, none for the leaf. *)
Example TestEntryPutMulti :
  let '(rs, d) := calls (map OpPut [base_entry; sub_entry; db_user (B "user")]) empty_db in
  rs = [Done (Ok tt); Done (Ok tt); Done (Ok tt)] /\
  size (id2ent d) = 3 /\ size (dn2id d) = 3 /\ size (id2ch d) = 2 /\
  map (fun kv => length kv.2) (map_to_list (id2ch d)) = [8; 8] /\
  (match dn2id d !! B "uid=user,ou=sub,o=base" with Some id => id2ch d !! id | None => Some [] end) = None.
Proof. vm_compute. auto 10. Qed.
(** ldbbolt_test.go:158-175 *)
Example TestEntryDeleteFails :
  (calls (test_data ++ [OpDelete (B "cn=doesnotexist,ou=sub,o=base"); OpDelete (B "ou=sub,o=base")]) empty_db).1 =
  [Done (Ok tt); Done (Ok tt); Done (Ok tt); Done (Ok tt); Done (Err ENotFound); Done (Err ENonLeaf)].
Proof. vm_compute. reflexivity. Qed.
(** ldbbolt_test.go:177-235: the identifier was 3; afterwards it is in none of
    the three buckets. *)
Example TestEntryDeleteSucceeds :
  let d := (calls test_data empty_db).2 in
  let '(r, d') := run_op (B "o=base") no_faults (OpDelete user_dn) d in
  get_id user_dn d = Ok 3%N /\ r = Done (Ok tt) /\ get_id user_dn d' = Ok 0%N /\
  id2ent d' !! id_bytes 3 = None /\
  forallb (fun kv => forallb (fun b => negb (le_val b =? 3)%N) (chunks8 kv.2)) (map_to_list (id2ch d')) = true /\
  map (fun kv => length kv.2) (map_to_list (id2ch d')) = [8; 8].
Proof. vm_compute. auto 10. Qed.
End db.

(** * pkg/ldapserver, request parsers *)

(** ber.Encode with children, and the other constructors the tests use. *)
Definition seq_of (l : list packet) : packet := fold_left append_child l (ber_encode ClassUniversal true TagSequence).
Definition text (s : str) : packet := new_string ClassUniversal TagOctetString s.
Definition request (tag : N) (l : list packet) : packet := fold_left append_child l (ber_encode ClassApplication true tag).
Definition code_of {A} (r : res A) : option N :=
  match r with Err (ELdap c _) => Some c | Ok _ => Some Success | _ => None end.

(** add_test.go:10-34 *)
Example TestParseAddRequestIncomplete :
  code_of (parse_add (request AddRequest [text (B "cn=test")])) = Some ProtocolError /\
  code_of (parse_add (request AddRequest [text (B "cn=test"); seq_of []])) = Some Success /\
  code_of (parse_add (request AddRequest [text (B "cn=test"); seq_of []; seq_of []])) = Some ProtocolError.
Proof. vm_compute. auto. Qed.
(** add_test.go:36-47 *)
Example TestParseAddRequestInvalidDN :
  code_of (parse_add (request AddRequest [text (B "invalidDN"); seq_of []])) = Some ProtocolError.
Proof. vm_compute. auto. Qed.
(** add_test.go:49-80 *)
Example TestParseAttributeList :
  code_of (parse_attr_list (ber_encode ClassUniversal false TagOctetString)) = Some ProtocolError /\
  code_of (parse_attr_list (seq_of [seq_of [text (B "cn")]])) = Some ProtocolError /\
  parse_attr_list (seq_of [seq_of [text (B "cn");
    fold_left append_child [text (B "value1"); text (B "value2")] (ber_encode ClassUniversal true TagSet)]]) =
  Ok [(B "cn", [B "value1"; B "value2"])].
Proof. vm_compute. auto. Qed.
(** delete_test.go:10-33 *)
Example TestParseDeleteRequestIncomplete :
  code_of (parse_delete (request DelRequest [text (B "cn=test")])) = Some ProtocolError /\
  code_of (parse_delete (text (B "value1"))) = Some ProtocolError /\
  parse_delete (text (B "cn=value1,dc=example,dc=org")) = Ok (B "cn=value1,dc=example,dc=org").
Proof. vm_compute. auto. Qed.
(** modify_test.go:10-24 *)
Definition test_change (n : Z) : packet := seq_of [new_integer ClassUniversal 10 n; seq_of [text (B "cn")]].
(** modify_test.go:26-50 *)
Example TestParseModifyRequest :
  code_of (parse_modify (request ModifyRequest [text (B "cn=test")])) = Some ProtocolError /\
  code_of (parse_modify (request ModifyRequest [text (B "cn=test"); seq_of []])) = Some Success /\
  code_of (parse_modify (request ModifyRequest [text (B "cn=test"); seq_of []; seq_of []])) = Some ProtocolError.
Proof. vm_compute. auto. Qed.
(** modify_test.go:52-63 *)
Example TestParseModifyRequestInvalidOp :
  code_of (parse_modify (request ModifyRequest [text (B "cn=test"); seq_of [test_change 42]])) = Some DecodingError.
Proof. vm_compute. auto. Qed.
(** modify_test.go:65-74 *)
Example TestParseModifyRequestDelete :
  parse_modify (request ModifyRequest [text (B "cn=test"); seq_of [test_change 1]]) =
  Ok (mkModify (B "cn=test") [mkChange MDelete (B "cn") []]).
Proof. vm_compute. auto. Qed.
(** extended_test.go:15-55 *)
Example TestParseExtendedRequest :
  let oid := new_string ClassContext 0 (B "0.1") in
  let code l := code_of (parse_extended (request ExtendedRequest l)) in
  code [] = Some DecodingError /\ code [text (B "0.1")] = Some DecodingError /\
  code [oid] = Some Success /\
  code [oid; new_string ClassContext 1 (B "0.1")] = Some Success /\
  code [oid; new_string ClassContext 1 (B "0.1"); new_string ClassUniversal 6 (B "0.1")] = Some DecodingError /\
  code [oid; new_string ClassContext 42 (B "0.1")] = Some DecodingError.
Proof. vm_compute. auto 10. Qed.

(** ber.DecodePacket on the bytes of the body; the other decoders are not used
    here. *)
Definition test_wire : Wire :=
  {| decompile_filter := fun _ => None; compile_filter := fun _ => None;
     decode_inner := fun s => match read_packet s with Some (p, _) => Some p | None => None end;
     decode_control := fun _ => Ok KOther |}.
(** pwmodifyexop_test.go:12-98 *)
Example TestParsePasswordModifyExop :
  let body l := Some (fold_left append_child l (ber_encode ClassContext false 1)) in
  let field := new_string ClassContext in
  let parse := parse_pwmod (W:=test_wire) in
  parse None = Ok (mkPw [] [] []) /\
  parse (body []) = Ok (mkPw [] [] []) /\
  parse (body [seq_of []]) = Ok (mkPw [] [] []) /\
  parse (body [seq_of [field 0%N (B "identity")]]) = Ok (mkPw (B "identity") [] []) /\
  parse (body [seq_of [field 1%N (B "oldpw")]]) = Ok (mkPw [] (B "oldpw") []) /\
  parse (body [seq_of [field 2%N (B "newpw")]]) = Ok (mkPw [] [] (B "newpw")) /\
  parse (body [seq_of [field 0%N (B "identity"); field 1%N (B "oldpw"); field 2%N (B "newpw")]]) =
    Ok (mkPw (B "identity") (B "oldpw") (B "newpw")).
Proof. vm_compute. auto 10. Qed.

(** filter_test.go:9-103: base DN, scope, expected answer, for the entry of
    mariya. *)
Example TestServerFilterScope :
  let mariya := mkEntry (B "uid=mariya,ou=users,o=libregraph-idm") [] in
  map (fun '(b, s) => filter_scope b s mariya)
    [(B "uid=mariya,ou=users,o=libregraph-idm", 0%Z); (B "uid=Mariya,ou=users,o=libregraph-idm", 0%Z);
     (B "uid=Mariya,ou=Users,o=Libregraph-idm", 0%Z); (B "uid=Bob,ou=Users,o=Libregraph-idm", 0%Z);
     (B "ou=users,o=libregraph-idm", 1%Z); (B "ou=Users,o=Libregraph-idm", 1%Z);
     (B "ou=User,o=Libregraph-idm", 1%Z)] =
  [Ok true; Ok true; Ok true; Ok false; Ok true; Ok true; Ok false].
Proof. vm_compute. reflexivity. Qed.
