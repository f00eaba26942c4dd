(** Vocabulary for statements about whole messages: what a message asks the
    database for and which result code the answer carries.  Specification only. *)
From Verif Require Import Bytes Text Dn Res Entry Password Db DbSpec Packet Filter Handler Server Encode.

Section e2e.
Context {T : Text} {C : Crypto} {W : Wire}.

(** [req] is an add, delete, modify or rename request for the operation [o].
    [entry_from_add] is described by C11. *)
Definition says_write (req : packet) (o : op) : Prop :=
  p_cls req = ClassApplication /\
  ((p_tag req = AddRequest /\ exists r, says_add req r /\ o = OpPut (entry_from_add r)) \/
   (p_tag req = DelRequest /\ exists dn, says_delete req dn /\ o = OpDelete dn) \/
   (p_tag req = ModifyRequest /\ exists r, says_modify req r /\ o = OpModify r) \/
   (p_tag req = ModifyDNRequest /\ exists r, says_moddn req r /\ o = OpModDn r)).
(** The response to it. *)
Definition write_response (o : op) : N :=
  match o with
  | OpPut _ => AddResponse | OpDelete _ => DelResponse | OpModify _ => ModifyResponse
  | OpModDn _ => ModifyDNResponse | OpPassword _ => ExtendedResponse
  end.
(** The result codes: entryAlreadyExists (68); for modify and rename the code of
    an LDAP error; unwillingToPerform (53) for everything else; other (80) when a
    password change fails. *)
Definition result_code (o : op) (e : err) : N :=
  match o, e with
  | OpPassword _, _ => 80
  | _, EExists => 68
  | (OpModify _ | OpModDn _), ELdap code _ => code
  | _, _ => 53
  end%N.

(** [req] is a password modification for [r] (RFC 3062), every field of which may
    be absent. *)
Definition says_password (req : packet) (r : pw_req) : Prop :=
  p_cls req = ClassApplication /\ p_tag req = ExtendedRequest /\
  exists o rest, p_kids req = o :: rest /\ p_cls o = ClassContext /\ p_tag o = 0%N /\
    p_data o = B "1.3.6.1.4.1.4203.1.11.1" /\
    (rest = [] /\ r = mkPw [] [] [] \/
     exists b, rest = [b] /\ p_cls b = ClassContext /\ p_tag b = 1%N /\
       (decode_inner (p_data b) = None /\ r = mkPw [] [] [] \/
        exists inner, decode_inner (p_data b) = Some inner /\ says_pw inner r)).

(** The operation [o] a message asks for, on a connection bound to [bound]: one
    of the four writes, or a password change with the user filled in and the new
    password replaced by some hash. *)
Definition asks (bound : str) (p : packet) (o : op) : Prop :=
  exists i req rest id, p_kids p = i :: req :: rest /\ p_val i = VInt id /\
  (says_write req o \/
   exists r hash, says_password req r /\
     o = OpPassword (mkPw (match pw_user r with [] => bound | u => u end) (pw_old r) hash)).
End e2e.
