(** The messages the server writes, as packets.  Definitions only. *)
From Verif Require Import Bytes Text Dn Res Entry Password Db Packet Filter Handler Server Ber.

(** ber.TagInteger, ber.TagEnumerated. *)
Definition TagInteger : N := 2.
Definition TagEnumerated : N := 10.
Definition children (p : packet) (l : list packet) : packet := fold_left append_child l p.
(** The first lines of every encoder (server.go:467-468, bind.go:67-68,
    search.go:176-177, 208-209). *)
Definition with_id (id : Z) (op : packet) : packet :=
  children (ber_encode ClassUniversal true TagSequence) [new_integer ClassUniversal TagInteger id; op].
(** Result code (LDAPResultCode is a uint8, ldap.go:8), matchedDN, errorMessage. *)
Definition result_fields (code : N) (msg : str) : list packet :=
  [new_integer ClassUniversal TagEnumerated (Z.of_N (code mod 256));
   new_string ClassUniversal TagOctetString []; new_string ClassUniversal TagOctetString msg].
(** pkg/ldapserver/server.go:466-475 *)
Definition encode_ldap_response (id : Z) (tag code : N) (msg : str) : packet :=
  with_id id (children (ber_encode ClassApplication true tag) (result_fields code msg)).
(** pkg/ldapserver/bind.go:66-79 *)
Definition encode_bind_response (id : Z) (code : N) : packet :=
  with_id id (children (ber_encode ClassApplication true BindResponse) (result_fields code [])).
(** pkg/ldapserver/search.go:193-205 *)
Definition encode_search_attribute (a : attr) : packet :=
  children (ber_encode ClassUniversal true TagSequence)
    [new_string ClassUniversal TagOctetString (a_name a);
     children (ber_encode ClassUniversal true TagSet) (map (new_string ClassUniversal TagOctetString) (a_vals a))].
(** pkg/ldapserver/search.go:175-191 *)
Definition encode_search_response (id : Z) (e : entry) : packet :=
  with_id id (children (ber_encode ClassApplication true SearchResultEntry)
    [new_string ClassUniversal TagOctetString (e_dn e);
     children (ber_encode ClassUniversal true TagSequence) (map encode_search_attribute (e_attrs e))]).
(** pkg/ldapserver/search.go:207-225; the controls are encoded by the library, none
    is nil (ber.TagEOC is zero). *)
Definition encode_search_done (id : Z) (code : N) (controls : option (list packet)) : packet :=
  children (with_id id (children (ber_encode ClassApplication true SearchResultDone) (result_fields code [])))
    (match controls with Some l => [children (ber_encode ClassContext true 0) l] | None => [] end).
(** pkg/ldapserver/extended.go:76-90: the value is appended to a primitive packet. *)
Definition encode_extended_response (code : N) (msg oid : str) (value : option packet) : packet :=
  children (ber_encode ClassApplication true ExtendedResponse)
    (result_fields code msg ++ [new_string ClassContext 10 oid] ++
     match value with Some v => [append_child (ber_encode ClassContext false 11) v] | None => [] end).
(** pkg/ldapserver/pwmodifyexop.go:79-80 *)
Definition generated_value (pw : str) : packet :=
  append_child (ber_encode ClassUniversal true TagSequence) (new_string ClassContext 0 pw).

(** What Server.v leaves out of a response: the diagnostic text, the controls, and
    for an extended response whether the operation was known. *)
Record extras := mkExtras { x_text : str; x_controls : option (list packet); x_known : bool }.
(** server.go:288, 309, 316, 340, 353-358, 381, 403, 415, 421 and search.go:87: the
    packet sent for a response. *)
Definition reply_packet (x : extras) (r : response) : packet :=
  match r with
  | REntry id e => encode_search_response id e
  | RFinal id tag code v =>
      if (tag =? BindResponse)%N then encode_bind_response id code
      else if (tag =? SearchResultDone)%N then encode_search_done id code (x_controls x)
      else if (tag =? ExtendedResponse)%N && x_known x then
        with_id id (encode_extended_response code (x_text x) pwmod_oid (generated_value <$> v))
      else encode_ldap_response id tag code (x_text x)
  end.

(** pkg/ldapserver/server.go:216-225, 433-438: the loop over what arrives on a
    connection, one environment per request: the responses, and how it is left.
    [None] after the state: the connection is closed.  Simplification: a request
    is answered before the next one is read. *)
Section talk.
Context {T : Text} {C : Crypto} {W : Wire} {S E : Type}.
Context (cfg : server_cfg) (h : handler S E).
Fixpoint talk (evs : list (renv E)) (bound : str) (input : str) (s : S) : list response * S * option (str * str) :=
  match evs with
  | [] => ([], s, Some (bound, input))
  | ev :: evs' =>
      match read_packet input with
      | None => ([], s, None)
      | Some (p, rest) =>
          let r := handle cfg h ev bound p s in
          match r_next r with
          | Go b => let '(out, s', o) := talk evs' b rest (r_state r) in (r_out r ++ out, s', o)
          | _ => (r_out r, r_state r, None)
          end
      end
  end.
End talk.
