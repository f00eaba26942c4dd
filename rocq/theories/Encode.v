(** The requests a client sends, as packets: the specification the request
    parsers are compared with.  Written from RFC 4511 (sections 4.5-4.9, 4.12)
    and RFC 3062, not from the code.  Definitions only. *)
From Verif Require Import Bytes Text Dn Res Entry Password Db Packet.

(** * Building packets *)

(** The universal types as asn1-ber decodes them (external library): the value
    of an octet string is its text, the content octets are kept in Data.
    Simplification: the content octets of integers and booleans, which nothing
    in /repo reads, are left empty. *)
Definition p_octets (s : str) : packet := Pkt ClassUniversal false TagOctetString (VStr s) s [].
Definition p_seq (l : list packet) : packet := Pkt ClassUniversal true TagSequence VNil [] l.
Definition p_set (l : list packet) : packet := Pkt ClassUniversal true TagSet VNil [] l.
Definition p_bool (b : bool) : packet := Pkt ClassUniversal false 1 (VBool b) [] [].
Definition p_int (n : Z) : packet := Pkt ClassUniversal false 2 (VInt n) [] [].
Definition p_enum (n : N) : packet :=
  Pkt ClassUniversal false 10 (VInt (Z.of_N n)) [ascii_of_N n] [].
(** A context-specific primitive element. *)
Definition p_ctx (tag : N) (s : str) : packet := Pkt ClassContext false tag VNil s [].
(** The operation inside the message: constructed, or primitive with content. *)
Definition p_op (tag : N) (l : list packet) : packet := Pkt ClassApplication true tag VNil [] l.
Definition p_op_prim (tag : N) (s : str) : packet := Pkt ClassApplication false tag VNil s [].
(** LDAPMessage without controls (RFC 4511, 4.1.1). *)
Definition p_msg (id : Z) (o : packet) : packet := p_seq [p_int id; o].

(** PartialAttribute (RFC 4511, 4.1.7). *)
Definition enc_attr (a : str * list str) : packet :=
  p_seq [p_octets a.1; p_set (map p_octets a.2)].
(** AddRequest (RFC 4511, 4.7). *)
Definition enc_add (r : add_req) : packet :=
  p_op AddRequest [p_octets (ad_dn r); p_seq (map enc_attr (ad_attrs r))].
(** DelRequest (RFC 4511, 4.8). *)
Definition enc_delete (dn : str) : packet := p_op_prim DelRequest dn.
(** ModifyRequest (RFC 4511, 4.6): add (0), delete (1), replace (2). *)
Definition op_number (o : mod_op) : N :=
  match o with MAdd => 0 | MDelete => 1 | MReplace => 2 end.
Definition enc_change (c : change) : packet :=
  p_seq [p_enum (op_number (c_op c)); enc_attr (c_type c, c_vals c)].
Definition enc_modify (r : modify_req) : packet :=
  p_op ModifyRequest [p_octets (m_dn r); p_seq (map enc_change (m_changes r))].
(** ModifyDNRequest (RFC 4511, 4.9), optionally with newSuperior. *)
Definition enc_moddn (r : moddn_req) (sup : option str) : packet :=
  p_op ModifyDNRequest
    ([p_octets (md_dn r); p_octets (md_newrdn r); p_bool (md_delold r)] ++
     match sup with Some s => [p_ctx 0 s] | None => [] end).
(** SearchRequest (RFC 4511, 4.5.1) with derefAliases, timeLimit and the packet of
    the filter. *)
Definition enc_search (r : search_req) (deref limit : Z) (flt : packet) : packet :=
  p_op SearchRequest
    [p_octets (sr_base r); p_int (sr_scope r); p_int deref; p_int (sr_size r); p_int limit;
     p_bool (sr_types r); flt; p_seq (map p_octets (sr_attrs r))].
(** BindRequest with simple authentication (RFC 4511, 4.2). *)
Definition enc_bind (dn pw : str) : packet :=
  p_op BindRequest [p_int 3; p_octets dn; p_ctx 0 pw].
(** ExtendedRequest (RFC 4511, 4.12) and PasswdModifyRequestValue (RFC 3062):
    each field may be absent. *)
Definition enc_extended (oid : str) (body : option str) : packet :=
  p_op ExtendedRequest
    (p_ctx 0 oid :: match body with Some b => [p_ctx 1 b] | None => [] end).
Definition opt_ctx (tag : N) (o : option str) : list packet :=
  match o with Some s => [p_ctx tag s] | None => [] end.
Definition enc_pwfields (user old new : option str) : packet :=
  p_seq (opt_ctx 0 user ++ opt_ctx 1 old ++ opt_ctx 2 new).

(** * What a packet says *)

(** Reading a packet, as relations.  They ask for what a receiver needs and
    ignore everything else, so that packets with other content octets or spare
    elements are covered too. *)
Definition says_text (p : packet) (s : str) : Prop := p_val p = VStr s.
Definition is_octets (p : packet) : Prop :=
  p_cls p = ClassUniversal /\ p_con p = false /\ p_tag p = TagOctetString.
Definition is_seq (p : packet) : Prop :=
  p_cls p = ClassUniversal /\ p_con p = true /\ p_tag p = TagSequence.
Definition is_set (p : packet) : Prop :=
  p_cls p = ClassUniversal /\ p_con p = true /\ p_tag p = TagSet.
(** A type and its set of values. *)
Definition says_attr (p : packet) (a : str * list str) : Prop :=
  exists t v, p_kids p = [t; v] /\ is_octets t /\ says_text t a.1 /\
    is_set v /\ Forall2 says_text (p_kids v) a.2.
(** The same with the set left out when there are no values. *)
Definition says_partial (p : packet) (a : str * list str) : Prop :=
  says_attr p a \/ exists t, p_kids p = [t] /\ is_octets t /\ says_text t a.1 /\ a.2 = [].

Section says.
Context {T : Text}.
(** A name that can be parsed. *)
Definition says_dn (p : packet) (s : str) : Prop := says_text p s /\ is_Some (parse_dn s).

Definition says_add (p : packet) (r : add_req) : Prop :=
  exists d l, p_kids p = [d; l] /\ says_dn d (ad_dn r) /\ is_seq l /\
    Forall2 says_attr (p_kids l) (ad_attrs r).
Definition says_delete (p : packet) (dn : str) : Prop :=
  p_kids p = [] /\ p_data p = dn /\ is_Some (parse_dn dn).
Definition says_change (p : packet) (c : change) : Prop :=
  exists o a rest x data, p_kids p = o :: a :: rest /\ p_data o = x :: data /\
    code x = op_number (c_op c) /\ says_partial a (c_type c, c_vals c).
Definition says_modify (p : packet) (r : modify_req) : Prop :=
  exists d l, p_kids p = [d; l] /\ says_dn d (m_dn r) /\ is_seq l /\
    Forall2 says_change (p_kids l) (m_changes r).
Definition says_moddn (p : packet) (r : moddn_req) : Prop :=
  exists d n o, p_kids p = [d; n; o] /\ says_dn d (md_dn r) /\ says_dn n (md_newrdn r) /\
    p_val o = VBool (md_delold r).
(** The filter as text is what ldap.DecompileFilter makes of its packet. *)
Definition says_search {W : Wire} (p : packet) (r : search_req) : Prop :=
  exists b s a z t o f l da ti, p_kids p = [b; s; a; z; t; o; f; l] /\
    says_text b (sr_base r) /\ p_val s = VInt (sr_scope r) /\ p_val a = VInt da /\
    p_val z = VInt (sr_size r) /\ p_val t = VInt ti /\
    (p_val o = VBool (sr_types r) \/ p_val o = VNil /\ sr_types r = false) /\
    decompile_filter f = Some (sr_filter r) /\ Forall2 says_text (p_kids l) (sr_attrs r).
End says.

(** The content of the last element with the given tag. *)
Definition last_field (tag : N) (l : list packet) : option str :=
  last (map p_data (List.filter (fun p => (p_tag p =? tag)%N) l)).
(** The fields of a password modification: at most three, context-specific, with
    tags 0 to 2; an absent field is the empty text. *)
Definition says_pw (p : packet) (r : pw_req) : Prop :=
  length (p_kids p) <= 3 /\
  Forall (fun q => p_cls q = ClassContext /\ (p_tag q <= 2)%N) (p_kids p) /\
  r = mkPw (default [] (last_field 0 (p_kids p))) (default [] (last_field 1 (p_kids p)))
           (default [] (last_field 2 (p_kids p))).
