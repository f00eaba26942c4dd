(** Property C70: requests are read as they were sent. *)
From Verif Require Import Bytes Text Dn Res Entry Password Db Packet Filter Encode EncodeProofs.

(** C70.  A parser accepts exactly the packets that state a request, and returns
    that request ... *)
Theorem C70_add (T : Text) (p : packet) (r : add_req) : parse_add p = Ok r <-> says_add p r.
Proof. apply add_iff. Qed.
Print Assumptions C70_add.
Theorem C70_delete (T : Text) (p : packet) (dn : str) : parse_delete p = Ok dn <-> says_delete p dn.
Proof. apply delete_iff. Qed.
Print Assumptions C70_delete.
Theorem C70_modify (T : Text) (p : packet) (r : modify_req) : parse_modify p = Ok r <-> says_modify p r.
Proof. apply modify_iff. Qed.
Print Assumptions C70_modify.
Theorem C70_moddn (T : Text) (p : packet) (r : moddn_req) : parse_moddn p = Ok r <-> says_moddn p r.
Proof. apply moddn_iff. Qed.
Print Assumptions C70_moddn.
Theorem C70_search (T : Text) (W : Wire) (p : packet) (r : search_req) :
  parse_search p = Ok r <-> says_search p r.
Proof. apply search_iff. Qed.
Print Assumptions C70_search.
Theorem C70_password (W : Wire) (body inner : packet) (r : pw_req) :
  decode_inner (p_data body) = Some inner ->
  (parse_pwmod (Some body) = Ok r <-> says_pw inner r).
Proof.
  intros Hi. unfold parse_pwmod, says_pw. rewrite Hi.
  destruct (Nat.ltb_spec 3 (length (p_kids inner))) as [Hl|Hl].
  - split; [done|]. intros [? _]. lia.
  - rewrite pw_fields_iff. cbn [pw_user pw_old pw_new]. split.
    + intros [Hf ->]. done.
    + intros (_ & Hf & ->). done.
Qed.
Print Assumptions C70_password.
(** The numbers on the wire are those of RFC 4511: the classes and types of BER ... *)
Theorem C70_numbers :
  (ClassUniversal, ClassApplication, ClassContext) = (0, 64, 128)%N /\
  (TagOctetString, TagSequence, TagSet) = (4, 16, 17)%N /\
  (** ... the protocol operations (sections 4.2 to 4.12) ... *)
  (BindRequest, BindResponse, UnbindRequest) = (0, 1, 2)%N /\
  (SearchRequest, SearchResultEntry, SearchResultDone) = (3, 4, 5)%N /\
  (ModifyRequest, ModifyResponse, AddRequest, AddResponse) = (6, 7, 8, 9)%N /\
  (DelRequest, DelResponse, ModifyDNRequest, ModifyDNResponse) = (10, 11, 12, 13)%N /\
  (CompareRequest, ExtendedRequest, ExtendedResponse) = (14, 23, 24)%N /\
  (** ... scopes and filters (section 4.5.1) ... *)
  (ScopeBase, ScopeOne, ScopeSub) = (0, 1, 2)%Z /\
  (FAndTag, FOrTag, FNotTag, FEqualityTag, FSubstringsTag, FPresentTag) = (0, 1, 2, 3, 4, 7)%N /\
  (SubInitial, SubAny, SubFinal) = (0, 1, 2)%N /\
  (** ... and the result codes (section 4.1.9; 84 is LDAPv2's decodingError). *)
  (Success, OperationsError, ProtocolError, SizeLimitExceeded) = (0, 1, 2, 4)%N /\
  (InvalidDNSyntax, InappropriateAuthentication, InvalidCredentials, InsufficientAccessRights) = (34, 48, 49, 50)%N /\
  (UnwillingToPerform, NotAllowedOnRDN, EntryAlreadyExists, ResultOther, DecodingError) = (53, 67, 68, 80, 84)%N.
Proof. repeat split. Qed.
Print Assumptions C70_numbers.
(** ... the packets clients build are accepted, provided the names parse ... *)
Theorem C70_sent (T : Text) (W : Wire) :
  (forall r, is_Some (parse_dn (ad_dn r)) -> parse_add (enc_add r) = Ok r) /\
  (forall dn, is_Some (parse_dn dn) -> parse_delete (enc_delete dn) = Ok dn) /\
  (forall r, is_Some (parse_dn (m_dn r)) -> parse_modify (enc_modify r) = Ok r) /\
  (forall r, is_Some (parse_dn (md_dn r)) -> is_Some (parse_dn (md_newrdn r)) ->
     parse_moddn (enc_moddn r None) = Ok r) /\
  (forall r deref limit f, decompile_filter f = Some (sr_filter r) ->
     parse_search (enc_search r deref limit f) = Ok r) /\
  (forall user old new bs, decode_inner bs = Some (enc_pwfields user old new) ->
     exists body, parse_extended (enc_extended (B "1.3.6.1.4.1.4203.1.11.1") (Some bs)) =
       Ok (B "1.3.6.1.4.1.4203.1.11.1", Some body) /\
     parse_pwmod (Some body) = Ok (mkPw (default [] user) (default [] old) (default [] new))) /\
  (exists oid, parse_extended (enc_extended (B "1.3.6.1.4.1.4203.1.11.1") None) = Ok (oid, None) /\
     oid = B "1.3.6.1.4.1.4203.1.11.1" /\ parse_pwmod None = Ok (mkPw [] [] [])).
Proof.
  split; [|split; [|split; [|split; [|split; [|split]]]]].
  - intros r H. apply add_iff. exists (p_octets (ad_dn r)), (p_seq (map enc_attr (ad_attrs r))).
    repeat (split; [done|]). apply enc_attrs_say.
  - intros dn H. apply delete_iff. done.
  - intros r H. apply modify_iff. exists (p_octets (m_dn r)), (p_seq (map enc_change (m_changes r))).
    repeat (split; [done|]). apply enc_changes_say.
  - intros r H1 H2. apply moddn_iff. exists (p_octets (md_dn r)), (p_octets (md_newrdn r)), (p_bool (md_delold r)).
    done.
  - intros r da li f H. apply search_iff.
    exists (p_octets (sr_base r)), (p_int (sr_scope r)), (p_int da), (p_int (sr_size r)), (p_int li),
      (p_bool (sr_types r)), f, (p_seq (map p_octets (sr_attrs r))), da, li.
    repeat (split; [done|]). split; [by left|]. split; [done|]. apply enc_texts_say.
  - intros user old new bs H. exists (p_ctx 1 bs). split; [done|].
    apply (C70_password W (p_ctx 1 bs) (enc_pwfields user old new)); [done|].
    unfold says_pw. destruct user, old, new; cbn [enc_pwfields opt_ctx app p_kids p_seq length];
      (split; [lia|]); (split; [repeat constructor; cbn; lia|done]).
  - exists (B "1.3.6.1.4.1.4203.1.11.1"). done.
Qed.
Print Assumptions C70_sent.
(** ... and everything else is refused: names that do not parse and malformed
    requests as protocol errors, a new superior with its own code.  Only a list of
    changes can also end in a crash (C37) or a decoding error. *)
Theorem C70_refused (T : Text) (p : packet) :
  ((forall r, ~ says_add p r) -> parse_add p = Err (ELdap 2 true)) /\
  ((forall dn, ~ says_delete p dn) -> parse_delete p = Err (ELdap 2 true)) /\
  ((forall r, ~ says_modify p r) ->
     parse_modify p = Err (ELdap 2 true) \/ parse_modify p = Err (ELdap 84 true) \/ parse_modify p = Panic) /\
  ((forall r, ~ says_moddn p r) ->
     parse_moddn p = Err (ELdap 2 true) \/ parse_moddn p = Err (ELdap 53 true)).
Proof.
  split; [|split; [|split]]; intros H.
  - destruct (add_else p) as [?|[r Hr]]; [done|]. apply add_iff in Hr. by destruct (H r).
  - destruct (delete_else p) as [?|[r Hr]]; [done|]. apply delete_iff in Hr. by destruct (H r).
  - destruct (modify_else p) as [?|[?|[?|[r Hr]]]]; [by right; right|by left|by right; left|].
    apply modify_iff in Hr. by destruct (H r).
  - destruct (moddn_else p) as [?|[?|[r Hr]]]; [by left|by right|].
    apply moddn_iff in Hr. by destruct (H r).
Qed.
Print Assumptions C70_refused.
Theorem C70_new_superior (T : Text) (r : moddn_req) (sup : str) :
  is_Some (parse_dn (md_dn r)) -> is_Some (parse_dn (md_newrdn r)) ->
  parse_moddn (enc_moddn r (Some sup)) = Err (ELdap 53 true).
Proof.
  intros [d Hd] [n Hn]. unfold parse_moddn, parse_dn_field, check_dn. cbn. by rewrite Hd, Hn.
Qed.
Print Assumptions C70_new_superior.

Example C70_case :
  parse_modify (T:=ascii_text) (enc_modify (mkModify (B "uid=ada,o=base")
    [mkChange MAdd (B "mail") [B "a@x"; B "b@x"]; mkChange MDelete (B "sn") []; mkChange MReplace (B "cn") [B "A"]])) =
  Ok (mkModify (B "uid=ada,o=base")
    [mkChange MAdd (B "mail") [B "a@x"; B "b@x"]; mkChange MDelete (B "sn") []; mkChange MReplace (B "cn") [B "A"]]) /\
  parse_add (T:=ascii_text) (enc_add (mkAdd (B "uid=ada,o=base") [(B "uid", [B "ada"]); (B "cn", [])])) =
  Ok (mkAdd (B "uid=ada,o=base") [(B "uid", [B "ada"]); (B "cn", [])]) /\
  parse_add (T:=ascii_text) (enc_add (mkAdd (B "ada") [])) = Err (ELdap 2 true) /\
  parse_moddn (T:=ascii_text) (enc_moddn (mkModDn (B "uid=ada,o=base") (B "uid=ida") true) None) =
  Ok (mkModDn (B "uid=ada,o=base") (B "uid=ida") true) /\
  parse_moddn (T:=ascii_text) (enc_moddn (mkModDn (B "uid=ada,o=base") (B "uid=ida") true) (Some (B "o=base"))) =
  Err (ELdap 53 true) /\
  parse_pw_fields (p_kids (enc_pwfields (Some (B "uid=ada,o=base")) None (Some (B "new")))) (mkPw [] [] []) =
  Ok (mkPw (B "uid=ada,o=base") [] (B "new")).
Proof. vm_compute. repeat split. Qed.
