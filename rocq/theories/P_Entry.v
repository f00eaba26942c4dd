(** Properties C05-C11: modifying and creating entries. *)
From Verif Require Import Bytes Text Dn Res Entry EntryProofs.

(** The entry used in the examples. *)
Definition ada : entry := mkEntry (B "uid=ada,o=base")
  [mkAttr (B "objectClass") [B "person"]; mkAttr (B "Mail") [B "a@x"; B "b@x"];
   mkAttr (B "uid") [B "Ada"; B "al"]; mkAttr (B "sn") [B "L"]].
Lemma ada_names : names_ok (T:=ascii_text) (e_attrs ada).
Proof.
  split.
  - repeat constructor.
  - apply (bool_decide_unpack _). vm_compute. exact I.
Qed.
Lemma ascii_types cs :
  forallb (fun c => forallb is_ascii (c_type c)) cs = true ->
  Forall (fun c => asciis (c_type c)) cs.
Proof.
  intros H. apply forallb_Forall in H. eapply Forall_impl; [exact H|].
  intros c Hc. by apply forallb_Forall.
Qed.

(** C05.  Attributes not named by a change keep values, spelling and order. *)
Theorem C05_modify_touches_only_named (T : Text) (old new : entry) (m : modify_req) :
  apply_modify old m = Ok new ->
  e_dn new = e_dn old /\
  bfilter (fun a => negb (named_by (m_changes m) a)) (e_attrs new) =
  bfilter (fun a => negb (named_by (m_changes m) a)) (e_attrs old).
Proof. apply modify_untouched. Qed.
Print Assumptions C05_modify_touches_only_named.

(** A modify is applied only to the entry it names. *)
Theorem C05_modify_addresses_entry (T : Text) (old : entry) (m : modify_req) (r : rdn) (rest md : dn) :
  parse_dn (e_dn old) = Some (r :: rest) -> parse_dn (m_dn m) = Some md ->
  (dn_eqfold (r :: rest) md = false -> apply_modify old m = Err (ELdap UnwillingToPerform true)) /\
  (forall new, apply_modify old m = Ok new -> dn_eqfold (r :: rest) md = true).
Proof.
  intros Hr Hm. unfold apply_modify. rewrite Hr, Hm. by destruct (dn_eqfold (r :: rest) md).
Qed.
Print Assumptions C05_modify_addresses_entry.

Example C05_other_entry_case :
  parse_dn (T:=ascii_text) (B "uid=al,o=base") = Some [[(B "uid", B "al")]; [(B "o", B "base")]] /\
  apply_modify (T:=ascii_text) ada (mkModify (B "uid=al,o=base") []) = Err (ELdap UnwillingToPerform true).
Proof. vm_compute. split; reflexivity. Qed.
Example C05_case :
  apply_modify (T:=ascii_text) ada (mkModify (B "UID=Ada, O=base")
    [mkChange MAdd (B "cn") [B "x"]; mkChange MDelete (B "mail") []]) =
  Ok (mkEntry (B "uid=ada,o=base")
    [mkAttr (B "objectClass") [B "person"]; mkAttr (B "uid") [B "Ada"; B "al"];
     mkAttr (B "sn") [B "L"]; mkAttr (B "cn") [B "x"]]).
Proof. vm_compute. reflexivity. Qed.

(** C06.  A naming value present before a modify is present after it ... *)
Theorem C06_modify_keeps_naming_values (T : Text) (HT : TextOK T)
    (old new : entry) (m : modify_req) (r : rdn) (rest : dn) (t v : str) :
  names_ok (e_attrs old) -> Forall (fun c => asciis (c_type c)) (m_changes m) ->
  parse_dn (e_dn old) = Some (r :: rest) -> In (t, v) r ->
  has_value t v (e_attrs old) ->
  apply_modify old m = Ok new ->
  has_value t v (e_attrs new).
Proof. intros Hn Hc Hp Hr Hv H. exact (modify_keeps_rdn HT old m new r rest t v Hn Hc Hp Hr Hv H). Qed.
Print Assumptions C06_modify_keeps_naming_values.

(** ... and the change that would remove it is refused. *)
Theorem C06_removal_of_naming_value_refused (T : Text)
    (old : entry) (m : modify_req) (r : rdn) (rest md : dn) (t v : str) (c : change) :
  parse_dn (e_dn old) = Some (r :: rest) -> parse_dn (m_dn m) = Some md ->
  dn_eqfold (r :: rest) md = true -> In (t, v) r -> m_changes m = [c] ->
  fold (c_type c) = fold t ->
  (c_op c = MReplace /\ ~ (exists x, In x (c_vals c) /\ fold x = fold v)) \/
  (c_op c = MDelete /\ (c_vals c = [] \/ exists x, In x (c_vals c) /\ fold x = fold v)) ->
  apply_modify old m = Err (ELdap NotAllowedOnRDN true).
Proof. apply modify_refuses. Qed.
Print Assumptions C06_removal_of_naming_value_refused.

Example C06_case :
  let m := mkModify (B "uid=ada,o=base")
    [mkChange MReplace (B "UID") [B "x"; B "ADA"]; mkChange MDelete (B "uid") [B "al"]] in
  names_ok (T:=ascii_text) (e_attrs ada) /\
  Forall (fun c => asciis (c_type c)) (m_changes m) /\
  parse_dn (T:=ascii_text) (e_dn ada) = Some [[(B "uid", B "ada")]; [(B "o", B "base")]] /\
  has_value (T:=ascii_text) (B "uid") (B "ada") (e_attrs ada) /\
  exists new, apply_modify (T:=ascii_text) ada m = Ok new.
Proof.
  simpl. split; [apply ada_names|]. split; [by apply ascii_types|].
  split; [vm_compute; reflexivity|]. split.
  - exists (mkAttr (B "uid") [B "Ada"; B "al"]), (B "Ada").
    split; [by apply elem_of_list_In; right; right; left|].
    split; [reflexivity|]. split; [by apply elem_of_list_In; left|reflexivity].
  - eexists. vm_compute. reflexivity.
Qed.
Example C06_case_refused :
  apply_modify (T:=ascii_text) ada
    (mkModify (B "uid=ada,o=base") [mkChange MDelete (B "uid") [B "ADA"]]) =
  Err (ELdap NotAllowedOnRDN true).
Proof. vm_compute. reflexivity. Qed.

(** Without distinct attribute names the naming value can be lost: an add to
    the first of two same-named attributes overwrites the second. *)
Theorem C06_duplicate_names_refuted :
  exists (old new : entry) (m : modify_req) (r : rdn) (rest : dn) (t v : str),
    parse_dn (T:=ascii_text) (e_dn old) = Some (r :: rest) /\ In (t, v) r /\
    has_value (T:=ascii_text) t v (e_attrs old) /\
    apply_modify (T:=ascii_text) old m = Ok new /\
    ~ has_value (T:=ascii_text) t v (e_attrs new).
Proof.
  exists (mkEntry (B "uid=ada,o=b") [mkAttr (B "UID") [B "x"]; mkAttr (B "uid") [B "ada"]]),
    (mkEntry (B "uid=ada,o=b") [mkAttr (B "UID") [B "x"; B "y"]; mkAttr (B "uid") [B "x"; B "y"]]),
    (mkModify (B "uid=ada,o=b") [mkChange MAdd (B "uid") [B "y"]]),
    [(B "uid", B "ada")], [[(B "o", B "b")]], (B "uid"), (B "ada").
  split; [vm_compute; reflexivity|]. split; [by left|]. split.
  { exists (mkAttr (B "uid") [B "ada"]), (B "ada").
    split; [by apply elem_of_list_In; right; left|].
    split; [reflexivity|]. split; [by apply elem_of_list_In; left|reflexivity]. }
  split; [vm_compute; reflexivity|].
  intros Hx. apply has_value_vals in Hx as (vs & x & Hvs & Hx & He).
  vm_compute in Hvs. destruct Hvs as [<-|[<-|[]]];
  destruct Hx as [<-|[<-|[]]]; vm_compute in He; discriminate.
Qed.
Print Assumptions C06_duplicate_names_refuted.

(** C07.  Replace: exactly the requested values. *)
Theorem C07_replace_sets_exactly (T : Text) (old new : entry) (m : modify_req)
    (t : str) (vs : list str) :
  names_ok (e_attrs old) -> m_changes m = [mkChange MReplace t vs] ->
  apply_modify old m = Ok new ->
  vals_of t (e_attrs new) = match vs with [] => [] | _ => [vs] end.
Proof.
  intros Hn Hm H. rewrite (single_replace old m new t vs Hn Hm H). by destruct vs.
Qed.
Print Assumptions C07_replace_sets_exactly.

(** The replace is accepted whenever the RDN rule admits it. *)
Theorem C07_replace_accepted (T : Text) (old : entry) (m : modify_req)
    (r : rdn) (rest md : dn) (t : str) (vs : list str) :
  parse_dn (e_dn old) = Some (r :: rest) -> parse_dn (m_dn m) = Some md ->
  dn_eqfold (r :: rest) md = true -> m_changes m = [mkChange MReplace t vs] ->
  Forall (fun p => fold t = fold p.1 -> exists x, In x vs /\ fold x = fold p.2) r ->
  exists new, apply_modify old m = Ok new.
Proof.
  intros Hp Hm He Hc Hr. exact (single_accepted old m r rest md _ Hp Hm He Hc Hr).
Qed.
Print Assumptions C07_replace_accepted.

Example C07_case :
  (exists new, apply_modify (T:=ascii_text) ada
     (mkModify (B "uid=ada,o=base") [mkChange MReplace (B "MAIL") [B "q"; B "q"]]) = Ok new /\
     vals_of (T:=ascii_text) (B "mail") (e_attrs new) = [[B "q"; B "q"]]) /\
  (exists new, apply_modify (T:=ascii_text) ada
     (mkModify (B "uid=ada,o=base") [mkChange MReplace (B "cn") [B "q"]]) = Ok new /\
     vals_of (T:=ascii_text) (B "CN") (e_attrs new) = [[B "q"]]).
Proof. split; eexists; (split; [vm_compute; reflexivity|vm_compute; reflexivity]). Qed.

(** C08.  Add: existing values first, then the requested ones not present. *)
Theorem C08_add_keeps_and_appends (T : Text) (HT : TextOK T) (old new : entry)
    (m : modify_req) (t : str) (vs : list str) :
  asciis t -> names_ok (e_attrs old) -> m_changes m = [mkChange MAdd t vs] ->
  apply_modify old m = Ok new ->
  let cur := concat (vals_of t (e_attrs old)) in
  let now := cur ++ bfilter (fun n => negb (existsb (fun c => seqb (fold n) (fold c)) cur)) vs in
  vals_of t (e_attrs new) = match now with [] => [] | _ => [now] end.
Proof.
  intros Ht Hn Hm H cur now.
  etransitivity; [exact (single_add HT old m new t vs Ht Hn Hm H)|].
  fold cur. change (cur ++ bfilter (fun n => negb (existsb (same n) cur)) vs) with now.
  by destruct now.
Qed.
Print Assumptions C08_add_keeps_and_appends.

Example C08_case :
  exists new, apply_modify (T:=ascii_text) ada
     (mkModify (B "uid=ada,o=base") [mkChange MAdd (B "mail") [B "A@X"; B "c"]]) = Ok new /\
     vals_of (T:=ascii_text) (B "mail") (e_attrs new) = [[B "a@x"; B "b@x"; B "c"]].
Proof. eexists. split; vm_compute; reflexivity. Qed.

(** An add can leave an attribute with the same value twice: new values are
    compared with the old ones only, not with each other. *)
Theorem C08_no_duplicates_refuted :
  exists (old new : entry) (m : modify_req),
    names_ok (T:=ascii_text) (e_attrs old) /\
    Forall (fun a => NoDup (a_vals a)) (e_attrs old) /\
    apply_modify (T:=ascii_text) old m = Ok new /\
    ~ Forall (fun a => NoDup (a_vals a)) (e_attrs new).
Proof.
  exists ada, (mkEntry (B "uid=ada,o=base")
    [mkAttr (B "objectClass") [B "person"]; mkAttr (B "Mail") [B "a@x"; B "b@x"];
     mkAttr (B "uid") [B "Ada"; B "al"]; mkAttr (B "sn") [B "L"]; mkAttr (B "cn") [B "x"; B "x"]]),
    (mkModify (B "uid=ada,o=base") [mkChange MAdd (B "cn") [B "x"; B "x"]]).
  split; [apply ada_names|]. split.
  { apply (bool_decide_unpack _). vm_compute. exact I. }
  split; [vm_compute; reflexivity|].
  apply (bool_decide_unpack _). vm_compute. exact I.
Qed.
Print Assumptions C08_no_duplicates_refuted.

(** C09.  Delete: exactly the values equal to none of the requested ones. *)
Theorem C09_delete_removes_exactly (T : Text) (HT : TextOK T) (old new : entry)
    (m : modify_req) (t : str) (vs : list str) :
  asciis t -> names_ok (e_attrs old) -> m_changes m = [mkChange MDelete t vs] ->
  apply_modify old m = Ok new ->
  let cur := concat (vals_of t (e_attrs old)) in
  let now := match vs with
             | [] => []
             | _ => bfilter (fun c => negb (existsb (fun x => seqb (fold c) (fold x)) vs)) cur
             end in
  vals_of t (e_attrs new) = match now with [] => [] | _ => [now] end.
Proof.
  intros Ht Hn Hm H cur now.
  etransitivity; [exact (single_delete HT old m new t vs Ht Hn Hm H)|].
  fold cur. subst now. destruct vs as [|v vs]; [done|]. cbn [is_empty].
  change (fun c => negb (existsb (same c) (v :: vs))) with
    (fun c => negb (existsb (fun x => seqb (fold c) (fold x)) (v :: vs))).
  by destruct (bfilter _ cur).
Qed.
Print Assumptions C09_delete_removes_exactly.

Example C09_case :
  (exists new, apply_modify (T:=ascii_text) ada
     (mkModify (B "uid=ada,o=base") [mkChange MDelete (B "mail") [B "A@X"; B "c"]]) = Ok new /\
     vals_of (T:=ascii_text) (B "mail") (e_attrs new) = [[B "b@x"]]) /\
  (exists new, apply_modify (T:=ascii_text) ada
     (mkModify (B "uid=ada,o=base") [mkChange MDelete (B "sn") [B "l"]]) = Ok new /\
     vals_of (T:=ascii_text) (B "sn") (e_attrs new) = []).
Proof. split; eexists; (split; [vm_compute; reflexivity|vm_compute; reflexivity]). Qed.

(** C10.  Several changes in one request act one after the other, provided no
    delete names an attribute an earlier change has touched. *)
Theorem C10_changes_apply_in_order (T : Text) (HT : TextOK T) (e : entry)
    (target : str) (r : rdn) (rest md : dn) (cs : list change) :
  parse_dn (e_dn e) = Some (r :: rest) -> parse_dn target = Some md ->
  dn_eqfold (r :: rest) md = true ->
  Forall (fun c => asciis (c_type c)) cs -> names_ok (e_attrs e) ->
  fresh_deletes [] cs = true ->
  apply_modify e (mkModify target cs) = one_by_one e target cs.
Proof. apply (modify_sequential HT). Qed.
Print Assumptions C10_changes_apply_in_order.

Example C10_case :
  let cs := [mkChange MDelete (B "mail") [B "a@x"]; mkChange MAdd (B "MAIL") [B "c"];
             mkChange MReplace (B "sn") [B "M"]; mkChange MAdd (B "sn") [B "N"];
             mkChange MDelete (B "objectclass") []] in
  fresh_deletes (T:=ascii_text) [] cs = true /\ Forall (fun c => asciis (c_type c)) cs /\
  apply_modify (T:=ascii_text) ada (mkModify (B "uid=ada,o=base") cs) =
  Ok (mkEntry (B "uid=ada,o=base")
    [mkAttr (B "Mail") [B "b@x"; B "c"]; mkAttr (B "uid") [B "Ada"; B "al"];
     mkAttr (B "sn") [B "M"; B "N"]]).
Proof. split; [vm_compute; reflexivity|]. split; [by apply ascii_types|]. vm_compute. reflexivity. Qed.

(** Without the side condition a deleted value comes back: deleting "a@x" and
    "b@x" in two changes of one request leaves "a@x" in place. *)
Theorem C10_repeated_delete_refuted :
  exists (e e1 e2 : entry) (target : str) (cs : list change),
    names_ok (T:=ascii_text) (e_attrs e) /\
    one_by_one (T:=ascii_text) e target cs = Ok e1 /\
    apply_modify (T:=ascii_text) e (mkModify target cs) = Ok e2 /\
    vals_of (T:=ascii_text) (B "mail") (e_attrs e1) = [] /\
    vals_of (T:=ascii_text) (B "mail") (e_attrs e2) = [[B "a@x"]].
Proof.
  eexists ada, _, _, (B "uid=ada,o=base"),
    [mkChange MDelete (B "mail") [B "a@x"]; mkChange MDelete (B "mail") [B "b@x"]].
  split; [apply ada_names|].
  split; [vm_compute; reflexivity|]. split; [vm_compute; reflexivity|].
  split; vm_compute; reflexivity.
Qed.
Print Assumptions C10_repeated_delete_refuted.

(** ... and an added value is lost by a later delete of another one. *)
Theorem C10_add_then_delete_refuted :
  exists (e e1 e2 : entry) (target : str) (cs : list change),
    names_ok (T:=ascii_text) (e_attrs e) /\
    one_by_one (T:=ascii_text) e target cs = Ok e1 /\
    apply_modify (T:=ascii_text) e (mkModify target cs) = Ok e2 /\
    vals_of (T:=ascii_text) (B "mail") (e_attrs e1) = [[B "b@x"; B "new@x"]] /\
    vals_of (T:=ascii_text) (B "mail") (e_attrs e2) = [[B "b@x"]].
Proof.
  eexists ada, _, _, (B "uid=ada,o=base"),
    [mkChange MAdd (B "mail") [B "new@x"]; mkChange MDelete (B "mail") [B "a@x"]].
  split; [apply ada_names|].
  split; [vm_compute; reflexivity|]. split; [vm_compute; reflexivity|].
  split; vm_compute; reflexivity.
Qed.
Print Assumptions C10_add_then_delete_refuted.

(** C11.  The entry of an add request has the requested DN and, per requested
    type, the values of the last list given for it; nothing else. *)
Theorem C11_add_request_becomes_entry (r : add_req) :
  e_dn (entry_from_add r) = ad_dn r /\
  NoDup (map a_name (e_attrs (entry_from_add r))) /\
  forall n vs, In (mkAttr n vs) (e_attrs (entry_from_add r)) <-> last_given n vs (ad_attrs r).
Proof. apply entry_from_add_spec. Qed.
Print Assumptions C11_add_request_becomes_entry.

Example C11_case :
  entry_from_add (mkAdd (B "o=b") [(B "sn", [B "x"]); (B "cn", [B "1"; B "2"]); (B "SN", [B "y"])]) =
  mkEntry (B "o=b") [mkAttr (B "SN") [B "y"]; mkAttr (B "cn") [B "1"; B "2"]; mkAttr (B "sn") [B "x"]].
Proof. vm_compute. reflexivity. Qed.

(** Earlier lists of a repeated type are lost, silently. *)
Theorem C11_repeated_type_refuted :
  exists (r : add_req) (t v : str) (vs : list str),
    In (t, vs) (ad_attrs r) /\ In v vs /\
    forall a, In a (e_attrs (entry_from_add r)) -> ~ In v (a_vals a).
Proof.
  exists (mkAdd (B "o=b") [(B "mail", [B "a"]); (B "mail", [B "b"])]), (B "mail"), (B "a"), [B "a"].
  split; [by left|]. split; [by left|]. vm_compute. intros a [<-|[]] [H|[]]. discriminate.
Qed.
Print Assumptions C11_repeated_type_refuted.
