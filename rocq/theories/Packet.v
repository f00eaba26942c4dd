(** asn1-ber packet trees and the request parsers of pkg/ldapserver.
    Definitions only. *)
From Verif Require Import Bytes Text Dn Res Entry Db.

(** * asn1-ber *)

(** The dynamic type of ber.Packet.Value, as far as the code looks at it. *)
Inductive value := VNil | VStr (s : str) | VInt (n : Z) | VBool (b : bool) | VOther.
(** ber.Packet: ClassType, TagType (true: constructed), Tag, Value,
    Data.Bytes(), Children.  External library (not in /repo). *)
Inductive packet :=
  Pkt (cls : N) (con : bool) (tag : N) (val : value) (data : str) (kids : list packet).
Definition p_cls (p : packet) : N := let 'Pkt c _ _ _ _ _ := p in c.
Definition p_con (p : packet) : bool := let 'Pkt _ c _ _ _ _ := p in c.
Definition p_tag (p : packet) : N := let 'Pkt _ _ t _ _ _ := p in t.
Definition p_val (p : packet) : value := let 'Pkt _ _ _ v _ _ := p in v.
Definition p_data (p : packet) : str := let 'Pkt _ _ _ _ d _ := p in d.
Definition p_kids (p : packet) : list packet := let 'Pkt _ _ _ _ _ k := p in k.

(** asn1-ber class and tag numbers. *)
Definition ClassUniversal : N := 0.
Definition ClassApplication : N := 64.
Definition ClassContext : N := 128.
Definition TagOctetString : N := 4.
Definition TagSequence : N := 16.
Definition TagSet : N := 17.

(** Type assertions with a check: [x, ok := v.(T)]. *)
Definition as_str (v : value) : option str := match v with VStr s => Some s | _ => None end.
Definition as_int (v : value) : option Z := match v with VInt n => Some n | _ => None end.
Definition as_bool (v : value) : option bool := match v with VBool b => Some b | _ => None end.

(** go-ldap application tags. *)
Definition BindRequest : N := 0.
Definition BindResponse : N := 1.
Definition UnbindRequest : N := 2.
Definition SearchRequest : N := 3.
Definition SearchResultEntry : N := 4.
Definition SearchResultDone : N := 5.
Definition ModifyRequest : N := 6.
Definition ModifyResponse : N := 7.
Definition AddRequest : N := 8.
Definition AddResponse : N := 9.
Definition DelRequest : N := 10.
Definition DelResponse : N := 11.
Definition ModifyDNRequest : N := 12.
Definition ModifyDNResponse : N := 13.
Definition CompareRequest : N := 14.
Definition ExtendedRequest : N := 23.
Definition ExtendedResponse : N := 24.

(** The paged results control of a request: PagingSize (a uint32) and Cookie of
    ldap.ControlPaging. *)
Record paging := mkPaging { pg_size : Z; pg_cookie : str }.
(** ldap.Control.  Simplification: the LDIF backend looks for the paging control
    (server/handler/ldif/handler.go:263) and nothing else looks at any. *)
Inductive control := KPaging (p : paging) | KOther.
(** The external decoders the server calls: ldap.DecompileFilter and
    ldap.CompileFilter (both recover from panics themselves; None is an error),
    ber.DecodePacket (None is nil), ldap.DecodeControl. *)
Class Wire := {
  decompile_filter : packet -> option str;
  compile_filter : str -> option packet;
  decode_inner : str -> option packet;
  decode_control : packet -> res control
}.

(** * Request parsers *)

(** A protocol error made by ldap.NewError with a message. *)
Definition perr {A} (code : N) : res A := Err (ELdap code true).
Definition opt {A} (code : N) (o : option A) : res A :=
  match o with Some a => Ok a | None => perr code end.

Section parse.
Context {T : Text}.

(** pkg/ldapserver/add.go:114-127 parseAttributeValues. *)
Fixpoint parse_vals (l : list packet) : res (list str) :=
  match l with
  | [] => Ok []
  | p :: l' =>
      s <-- opt ProtocolError (as_str (p_val p)) ;;
      r <-- parse_vals l' ;; Ok (s :: r)
  end.
Definition parse_attr_values (p : packet) : res (list str) :=
  if (p_cls p =? ClassUniversal)%N && p_con p && (p_tag p =? TagSet)%N
  then parse_vals (p_kids p) else perr ProtocolError.
(** pkg/ldapserver/add.go:95-102, the attribute description. *)
Definition parse_attr_type (p : packet) : res str :=
  if (p_cls p =? ClassUniversal)%N && negb (p_con p) && (p_tag p =? TagOctetString)%N
  then opt ProtocolError (as_str (p_val p)) else perr ProtocolError.
(** pkg/ldapserver/add.go:83-112 parseAttribute. *)
Definition parse_attribute (partial : bool) (p : packet) : res (str * list str) :=
  match p_kids p with
  | [t] => if partial then n <-- parse_attr_type t ;; Ok (n, []) else perr ProtocolError
  | [t; v] => n <-- parse_attr_type t ;; vs <-- parse_attr_values v ;; Ok (n, vs)
  | _ => perr ProtocolError
  end.
(** pkg/ldapserver/add.go:65-81 parseAttributeList. *)
Fixpoint parse_attrs (l : list packet) : res (list (str * list str)) :=
  match l with
  | [] => Ok []
  | p :: l' => a <-- parse_attribute false p ;; r <-- parse_attrs l' ;; Ok (a :: r)
  end.
Definition is_sequence (p : packet) : bool :=
  (p_cls p =? ClassUniversal)%N && p_con p && (p_tag p =? TagSequence)%N.
Definition parse_attr_list (p : packet) : res (list (str * list str)) :=
  if is_sequence p then parse_attrs (p_kids p) else perr ProtocolError.

(** A DN field that must parse: add.go:45-54, modify.go:56-65, modifydn.go:48-68. *)
Definition check_dn (s : str) : res str :=
  match parse_dn s with Some _ => Ok s | None => perr ProtocolError end.
Definition parse_dn_field (p : packet) : res str :=
  s <-- opt ProtocolError (as_str (p_val p)) ;; check_dn s.

(** pkg/ldapserver/add.go:38-63 parseAddRequest. *)
Definition parse_add (req : packet) : res add_req :=
  match p_kids req with
  | [d; a] => s <-- parse_dn_field d ;; l <-- parse_attr_list a ;; Ok (mkAdd s l)
  | _ => perr ProtocolError
  end.

(** pkg/ldapserver/delete.go:38-54 parseDeleteRequest. *)
Definition parse_delete (req : packet) : res str :=
  match p_kids req with
  | [] => check_dn (p_data req)
  | _ => perr ProtocolError
  end.

(** pkg/ldapserver/modify.go:83-105, one iteration of the loop of parseModList:
    [c.Children[0]], [Bytes()[0]] and [c.Children[1]] panic when absent.
    AddAttribute 0, DeleteAttribute 1, ReplaceAttribute 2. *)
Definition parse_change_op (p : packet) : res mod_op :=
  match p_data p with
  | [] => Panic
  | c :: _ =>
      if (code c =? 0)%N then Ok MAdd
      else if (code c =? 1)%N then Ok MDelete
      else if (code c =? 2)%N then Ok MReplace
      else perr DecodingError
  end.
Definition parse_change (p : packet) : res change :=
  match p_kids p with
  | [] => Panic
  | o :: rest =>
      op <-- parse_change_op o ;;
      match rest with
      | [] => Panic
      | a :: _ => x <-- parse_attribute true a ;; Ok (mkChange op x.1 x.2)
      end
  end.
(** pkg/ldapserver/modify.go:76-107 parseModList. *)
Fixpoint parse_changes (l : list packet) : res (list change) :=
  match l with
  | [] => Ok []
  | p :: l' => c <-- parse_change p ;; r <-- parse_changes l' ;; Ok (c :: r)
  end.
Definition parse_mod_list (p : packet) : res (list change) :=
  if is_sequence p then parse_changes (p_kids p) else perr ProtocolError.
(** pkg/ldapserver/modify.go:49-74 parseModifyRequest. *)
Definition parse_modify (req : packet) : res modify_req :=
  match p_kids req with
  | [d; l] => s <-- parse_dn_field d ;; cs <-- parse_mod_list l ;; Ok (mkModify s cs)
  | _ => perr ProtocolError
  end.

(** pkg/ldapserver/modifydn.go:41-83 parseModifyDNRequest; a fourth element
    (newSuperior) is refused after the other checks. *)
Definition parse_moddn (req : packet) : res moddn_req :=
  match p_kids req with
  | d :: n :: o :: rest =>
      if 1 <? length rest then perr ProtocolError
      else
        s <-- parse_dn_field d ;;
        nr <-- parse_dn_field n ;;
        b <-- opt ProtocolError (as_bool (p_val o)) ;;
        match rest with
        | [] => Ok (mkModDn s nr b)
        | _ => perr UnwillingToPerform
        end
  | _ => perr ProtocolError
  end.

(** The part of ldap.SearchRequest the code uses.  Simplification: DerefAliases
    and TimeLimit are type-checked and dropped (search.go:42-47 ignores them). *)
Record search_req := mkSearch {
  sr_base : str; sr_scope : Z; sr_size : Z; sr_types : bool;
  sr_filter : str; sr_attrs : list str
}.
(** pkg/ldapserver/search.go:136-143. *)
Fixpoint parse_sel (l : list packet) : res (list str) :=
  match l with
  | [] => Ok []
  | p :: l' => s <-- opt ProtocolError (as_str (p_val p)) ;; r <-- parse_sel l' ;; Ok (s :: r)
  end.
(** pkg/ldapserver/search.go:95-157 parseSearchRequest.  Whatever the error,
    HandleSearchRequest (lines 18-21) reports OperationsError. *)
Definition parse_search {W : Wire} (req : packet) : res search_req :=
  match p_kids req with
  | [b; s; a; z; t; o; f; l] =>
      base <-- opt ProtocolError (as_str (p_val b)) ;;
      scope <-- opt ProtocolError (as_int (p_val s)) ;;
      _ <-- opt ProtocolError (as_int (p_val a)) ;;
      size <-- opt ProtocolError (as_int (p_val z)) ;;
      _ <-- opt ProtocolError (as_int (p_val t)) ;;
      types <-- match p_val o with
                | VNil => Ok false
                | v => opt ProtocolError (as_bool v)
                end ;;
      flt <-- opt OperationsError (decompile_filter f) ;;
      attrs <-- parse_sel (p_kids l) ;;
      Ok (mkSearch base scope size types flt attrs)
  | _ => perr OperationsError
  end.

(** pkg/ldapserver/extended.go:50-74 parseExtendedRequest: OID and optional
    body. *)
Definition parse_extended (req : packet) : res (str * option packet) :=
  match p_kids req with
  | o :: rest =>
      if 1 <? length rest then perr DecodingError
      else if (p_cls o =? ClassContext)%N && (p_tag o =? 0)%N then
        match rest with
        | [] => Ok (p_data o, None)
        | b :: _ =>
            if (p_cls b =? ClassContext)%N && (p_tag b =? 1)%N
            then Ok (p_data o, Some b) else perr DecodingError
        end
      else perr DecodingError
  | [] => perr DecodingError
  end.

(** pkg/ldapserver/pwmodifyexop.go:103-117, the loop over the fields; a field
    given twice overwrites. *)
Fixpoint parse_pw_fields (l : list packet) (r : pw_req) : res pw_req :=
  match l with
  | [] => Ok r
  | p :: l' =>
      if negb (p_cls p =? ClassContext)%N then perr DecodingError
      else if (p_tag p =? 0)%N then parse_pw_fields l' (mkPw (p_data p) (pw_old r) (pw_new r))
      else if (p_tag p =? 1)%N then parse_pw_fields l' (mkPw (pw_user r) (p_data p) (pw_new r))
      else if (p_tag p =? 2)%N then parse_pw_fields l' (mkPw (pw_user r) (pw_old r) (p_data p))
      else perr DecodingError
  end.
(** pkg/ldapserver/pwmodifyexop.go:85-119 parsePasswordModifyExop. *)
Definition parse_pwmod {W : Wire} (body : option packet) : res pw_req :=
  match body with
  | None => Ok (mkPw [] [] [])
  | Some p =>
      match decode_inner (p_data p) with
      | None => Ok (mkPw [] [] [])
      | Some inner =>
          if 3 <? length (p_kids inner) then perr DecodingError
          else parse_pw_fields (p_kids inner) (mkPw [] [] [])
      end
  end.
End parse.
