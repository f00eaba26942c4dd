(** Whole messages on the database backend. *)
From Verif Require Import Bytes Text Dn DnProofs Res Entry EntryProofs Password PasswordProofs
  Db DbSpec IdProofs DbProofs DbOps DbSearch DbFacts DbMore Packet Filter Handler Server ServerProofs
  Encode EncodeProofs E2e.

Section e2e.
Context {T : Text} {C : Crypto} {W : Wire}.

Lemma extended_iff req oid body : parse_extended req = Ok (oid, body) <->
  exists o rest, p_kids req = o :: rest /\ p_cls o = ClassContext /\ p_tag o = 0%N /\ p_data o = oid /\
    (rest = [] /\ body = None \/ exists b, rest = [b] /\ p_cls b = ClassContext /\ p_tag b = 1%N /\ body = Some b).
Proof using Type.
  unfold parse_extended. destruct (p_kids req) as [|o rest].
  { split; [done|]. by intros (? & ? & ? & _). }
  destruct (Nat.ltb_spec 1 (length rest)) as [Hl|Hl].
  { split; [done|]. intros (o' & rest' & [= <- <-] & _ & _ & _ & [[-> _]|(b & -> & _)]); cbn in Hl; lia. }
  destruct (p_cls o =? ClassContext)%N eqn:E1; cbn [andb].
  2:{ apply N.eqb_neq in E1. split; [done|]. by intros (o' & rest' & [= <- <-] & ? & _). }
  destruct (p_tag o =? 0)%N eqn:E2.
  2:{ apply N.eqb_neq in E2. split; [done|]. by intros (o' & rest' & [= <- <-] & _ & ? & _). }
  apply N.eqb_eq in E1, E2. destruct rest as [|b rest].
  { split.
    - intros [= <- <-]. exists o, []. repeat (split; [done|]). by left.
    - intros (o' & rest' & [= <- <-] & _ & _ & <- & [[_ ->]|(b & ? & _)]); done. }
  destruct rest; [|cbn in Hl; lia].
  destruct (p_cls b =? ClassContext)%N eqn:E3; cbn [andb].
  2:{ apply N.eqb_neq in E3. split; [done|].
      by intros (o' & rest' & [= <- <-] & _ & _ & _ & [[? _]|(b' & [= <-] & ? & _)]). }
  destruct (p_tag b =? 1)%N eqn:E4.
  2:{ apply N.eqb_neq in E4. split; [done|].
      by intros (o' & rest' & [= <- <-] & _ & _ & _ & [[? _]|(b' & [= <-] & _ & ? & _)]). }
  apply N.eqb_eq in E3, E4. split.
  - intros [= <- <-]. exists o, [b]. repeat (split; [done|]). right. by exists b.
  - intros (o' & rest' & [= <- <-] & _ & _ & <- & [[? _]|(b' & [= <-] & _ & _ & ->)]); done.
Qed.
Lemma password_iff req r : p_cls req = ClassApplication -> p_tag req = ExtendedRequest ->
  (says_password req r <-> exists body, parse_extended req = Ok (pwmod_oid, body) /\ parse_pwmod body = Ok r).
Proof using Type.
  intros Hc Ht. split.
  - intros (_ & _ & o & rest & Hk & Ho & Ho2 & Hd & Hr).
    destruct Hr as [[-> ->]|(b & -> & Hb & Hb2 & Hr)].
    + exists None. split; [|done]. apply extended_iff. exists o, []. repeat (split; [done|]). by left.
    + exists (Some b). split.
      { apply extended_iff. exists o, [b]. repeat (split; [done|]). right. by exists b. }
      unfold parse_pwmod. destruct Hr as [[-> ->]|(inner & -> & Hl & Hf & ->)]; [done|].
      destruct (Nat.ltb_spec 3 (length (p_kids inner))); [lia|]. by apply pw_fields_iff.
  - intros (body & He & Hp). apply extended_iff in He as (o & rest & Hk & Ho & Ho2 & Hd & Hr).
    split; [done|]. split; [done|]. exists o, rest. repeat (split; [done|]).
    destruct Hr as [[-> ->]|(b & -> & Hb & Hb2 & ->)].
    + left. split; [done|]. by injection Hp as <-.
    + right. exists b. repeat (split; [done|]). unfold parse_pwmod in Hp.
      destruct (decode_inner (p_data b)) as [inner|]; [right|left; by injection Hp as <-].
      exists inner. split; [done|]. destruct (Nat.ltb_spec 3 (length (p_kids inner))); [done|].
      apply pw_fields_iff in Hp as [Hf ->]. done.
Qed.

(** One operation with the translation of its errors. *)
Lemma write_handled cfg c (ev : renv env) bound id req o d :
  says_write req o -> bound <> [] ->
  handle cfg (bolt_handler c) ev bound (p_msg id req) d =
  finish ev id (write_response o) bound
    (if write_allowed c bound then
       bolt_write c (re_h ev) o (match o with OpModify _ | OpModDn _ => ldap_error | _ => plain_error end) d
     else (HRet (InsufficientAccessRights, false), d)).
Proof using Type.
  intros [Hc Ho] Hb. unfold handle, p_msg. cbn [p_kids p_seq as_int p_int p_val].
  rewrite Hc. change (negb (ClassApplication =? ClassApplication)%N) with false. cbn match.
  unfold dispatch. assert (is_empty bound = false) as Hb' by by destruct bound.
  destruct Ho as [[-> (r & Hr & ->)]|[[-> (r & Hr & ->)]|[[-> (r & Hr & ->)]|[-> (r & Hr & ->)]]]].
  - apply add_iff in Hr. change (AddRequest =? AddRequest)%N with true. cbn match.
    unfold handle_add. rewrite Hb', Hr. cbn [lift_res h_add bolt_handler write_response].
    unfold bolt_add. by destruct (write_allowed c bound).
  - apply delete_iff in Hr. change (DelRequest =? AddRequest)%N with false.
    change (DelRequest =? BindRequest)%N with false. change (DelRequest =? CompareRequest)%N with false.
    change (DelRequest =? DelRequest)%N with true. cbn match.
    unfold handle_delete. rewrite Hb', Hr. cbn [lift_res h_delete bolt_handler write_response].
    unfold bolt_delete. by destruct (write_allowed c bound).
  - apply modify_iff in Hr. change (ModifyRequest =? AddRequest)%N with false.
    change (ModifyRequest =? BindRequest)%N with false. change (ModifyRequest =? CompareRequest)%N with false.
    change (ModifyRequest =? DelRequest)%N with false. change (ModifyRequest =? ExtendedRequest)%N with false.
    change (ModifyRequest =? ModifyDNRequest)%N with false.
    change (ModifyRequest =? ModifyRequest)%N with true. cbn match.
    unfold handle_modify. rewrite Hb', Hr. cbn [lift_res h_modify bolt_handler write_response].
    unfold bolt_modify. by destruct (write_allowed c bound).
  - apply moddn_iff in Hr. change (ModifyDNRequest =? AddRequest)%N with false.
    change (ModifyDNRequest =? BindRequest)%N with false. change (ModifyDNRequest =? CompareRequest)%N with false.
    change (ModifyDNRequest =? DelRequest)%N with false. change (ModifyDNRequest =? ExtendedRequest)%N with false.
    change (ModifyDNRequest =? ModifyDNRequest)%N with true. cbn match.
    unfold handle_moddn. rewrite Hb', Hr. cbn [lift_res h_moddn bolt_handler write_response].
    unfold bolt_moddn. by destruct (write_allowed c bound).
Qed.

(** The codes a modification can be refused with. *)
Lemma changes_codes r old cur cs c i :
  apply_changes r old cur cs = Err (ELdap c i) -> c = NotAllowedOnRDN.
Proof using Type.
  revert cur. induction cs as [|x cs IH]; intros cur; cbn [apply_changes]; [done|].
  unfold apply_change. destruct (c_op x).
  - apply IH.
  - destruct (delete_allowed _ _ _); [apply IH|]. by intros [= <- _].
  - destruct (replace_allowed _ _ _); [apply IH|]. by intros [= <- _].
Qed.
Lemma modify_codes e r c i : apply_modify e r = Err (ELdap c i) -> c = UnwillingToPerform \/ c = NotAllowedOnRDN.
Proof using Type.
  unfold apply_modify. destruct (parse_dn (e_dn e)) as [[|r0 d]|]; [done| |done].
  destruct (parse_dn (m_dn r)) as [md|]; [|done].
  destruct (negb _); [intros [= <- _]; by left|].
  destruct (apply_changes _ _ _ _) as [a|x| |] eqn:E; try done. cbn [rbind]. intros [= ->].
  right. by eapply changes_codes.
Qed.
Lemma spec_codes b o m c i : spec_op b o m = Err (ELdap c i) ->
  match o with OpModify _ | OpModDn _ => (c < 256)%N | _ => True end.
Proof using Type.
  destruct o as [e|s|r|r|r]; cbn [spec_op]; try done.
  - destruct (parse_dn (m_dn r)) as [d|]; [|done]. unfold spec_modify.
    destruct (m !! fold_dn d) as [e|]; [|done].
    destruct (apply_modify e r) as [e'|x| |] eqn:E; try done. cbn [rbind]. intros [= ->].
    apply modify_codes in E as [->| ->]; done.
  - destruct (parse_dn (md_dn r)) as [[|o d]|]; [by destruct (parse_dn (md_newrdn r))| |done].
    destruct (parse_dn (md_newrdn r)) as [[|n nd]|]; [done| |done]. unfold spec_rename.
    destruct (bool_decide _); [done|]. destruct (m !! _) as [e|]; [|done].
    destruct (negb (is_leaf _ _)); [done|].
    destruct (apply_modify _ _) as [e'|x| |] eqn:E; try done; cbn [rbind].
    + by destruct (negb _).
    + intros [= ->]. apply modify_codes in E as [->| ->]; done.
Qed.
Lemma code_of b o m e : spec_op b o m = Err e ->
  match o with OpPassword _ => True | _ =>
    (match o with OpModify _ | OpModDn _ => ldap_error | _ => plain_error end e).1 = result_code o e
  end.
Proof using Type.
  intros H. destruct o as [x|s|r|r|r]; destruct e; try done; apply spec_codes in H; cbn.
  all: apply N.mod_small; exact H.
Qed.

(** A message changes the database only by running the operation it asks for. *)
Lemma handle_asks cfg c ev bound p d :
  let d' := r_state (handle cfg (bolt_handler c) ev bound p d) in
  d' = d \/ exists o, asks bound p o /\ d' = (run_op (bc_base c) (re_h ev) o d).2.
Proof using Type.
  cbv zeta. destruct (handle_inv cfg (bolt_handler c) ev bound p d) as [->|[[-> _]|(id & req & Henv & Hh & _)]];
    [by left..|].
  destruct (handle_state cfg c ev bound p d) as [Hd|(Hb & _)]; [by left|].
  rewrite Hh in *. clear Hh. destruct Henv as (i & rest & Hk & Hi & Hc). unfold dispatch.
  assert (Hask : forall o, says_write req o -> asks bound p o).
  { intros o Ho. exists i, req, rest, id. auto. }
  assert (Hw : forall A (r : res A) (mk : A -> op) tag tr,
    (forall a, r = Ok a -> says_write req (mk a)) ->
    r_state (finish ev id tag bound (lift_res r (fun a => if write_allowed c bound
      then bolt_write c (re_h ev) (mk a) tr d else (HRet (InsufficientAccessRights, false), d)) d)) = d \/
    exists o, asks bound p o /\
      r_state (finish ev id tag bound (lift_res r (fun a => if write_allowed c bound
      then bolt_write c (re_h ev) (mk a) tr d else (HRet (InsufficientAccessRights, false), d)) d)) =
      (run_op (bc_base c) (re_h ev) o d).2).
  { intros A r mk tag tr Hr. rewrite finish_state. destruct r as [a|e| |]; cbn [lift_res];
      [|destruct e; by left|by left|by left].
    destruct (write_allowed c bound); [|by left]. right. exists (mk a). rewrite bolt_write_state.
    split; [|done]. apply Hask. by apply Hr. }
  assert (is_empty bound = false) as Hbe by by destruct bound.
  destruct (N.eqb_spec (p_tag req) AddRequest) as [Et|_].
  { unfold handle_add. rewrite Hbe. apply (Hw add_req (parse_add req) (fun r => OpPut (entry_from_add r))).
    intros a Ha. split; [done|]. left. split; [done|]. exists a. split; [by apply add_iff|done]. }
  destruct (N.eqb_spec (p_tag req) BindRequest) as [Et|_].
  { left. assert (Hs : (handle_bind (bolt_handler c) ev req d).2 = d).
    { unfold handle_bind. destruct (p_kids req) as [|v rs]; [done|].
      destruct (as_int (p_val v)); [|done]. destruct (negb _); [done|].
      destruct rs as [|x rs]; [done|]. destruct (as_str (p_val x)) as [dn|]; [|done].
      destruct rs as [|a rs]; [done|]. destruct (negb _); [done|]. destruct (negb _); [done|].
      cbn [h_bind bolt_handler].
      assert (Hbd : (bolt_bind c (re_h ev) dn (p_data a) d).2 = d) by done.
      destruct (bolt_bind c (re_h ev) dn (p_data a) d) as [[[code [|]]| |] s1]; cbn in Hbd; by subst. }
    destruct (handle_bind (bolt_handler c) ev req d) as [[code| |] s']; cbn in Hs; subst s'; [|done..].
    destruct (code =? Success)%N; [|apply send_final_state].
    destruct (p_kids req) as [|v [|x rs]]; [done..|]. destruct (as_str (p_val x)) as [dn|]; [|done].
    destruct (parse_normalize dn); [apply send_final_state|done]. }
  destruct (p_tag req =? CompareRequest)%N; [left; apply send_final_state|].
  destruct (N.eqb_spec (p_tag req) DelRequest) as [Et|_].
  { unfold handle_delete. rewrite Hbe. apply (Hw str (parse_delete req) OpDelete).
    intros a Ha. split; [done|]. right; left. split; [done|]. exists a. split; [by apply delete_iff|done]. }
  destruct (N.eqb_spec (p_tag req) ExtendedRequest) as [Et|_].
  { assert (Hx : (handle_extended cfg (bolt_handler c) ev bound req d).2 = d \/
      exists o, asks bound p o /\ (handle_extended cfg (bolt_handler c) ev bound req d).2 = (run_op (bc_base c) (re_h ev) o d).2).
    { unfold handle_extended. destruct (parse_extended req) as [[oid body]|e| |] eqn:Ep; try by left.
      destruct (seqb oid pwmod_oid) eqn:Eo; [|by left]. apply seqb_eq in Eo as ->.
      assert (Hpw : (handle_pwmod cfg (bolt_handler c) ev bound body d).2 = d \/
        exists o, asks bound p o /\ (handle_pwmod cfg (bolt_handler c) ev bound body d).2 = (run_op (bc_base c) (re_h ev) o d).2).
      { unfold handle_pwmod. rewrite Hbe.
        destruct (parse_pwmod body) as [r|e| |] eqn:Er; [|destruct e; by left|by left|by left].
        set (user := if is_empty (pw_user r) then bound else pw_user r).
        assert (Hu : is_empty user = false).
        { unfold user. destruct (is_empty (pw_user r)) eqn:Eu; [by apply is_empty_false|done]. }
        destruct (if is_empty (pw_new r) then _ else _) as [pw|e| |]; try by left.
        destruct (hash_password pw _ _) as [hash|e| |]; try by left.
        cbn [h_password bolt_handler]. unfold bolt_password. cbn [pw_user]. rewrite Hbe, Hu.
        destruct (parse_normalize user) as [u|] eqn:Epu; [|by left].
        destruct (negb (seqb bound u) && negb (seqb bound (bc_admin c))) eqn:Ed; [by left|].
        assert (Ha : asks bound p (OpPassword (mkPw user (pw_old r) hash))).
        { exists i, req, rest, id. split; [done|]. split; [done|]. right. exists r, hash.
          split; [apply password_iff; [done..|]; by exists body|].
          unfold user. by destruct (pw_user r). }
        right. exists (OpPassword (mkPw user (pw_old r) hash)). split; [done|].
        match goal with |- context [bolt_write c ?e ?o ?t d] =>
          pose proof (bolt_write_state c e o t d) as Hst; destruct (bolt_write c e o t d) as [[[code e']| |] s'] end;
          cbn in Hst; subst s'; try done. by destruct (code =? Success)%N. }
      destruct (handle_pwmod cfg (bolt_handler c) ev bound body d) as [[[[code e] v]| |] s']; cbn [snd] in *; [|done..].
      by destruct (negb (code =? Success)%N && negb e). }
    destruct (handle_extended cfg (bolt_handler c) ev bound req d) as [[[code v]| |] s']; cbn [snd] in *; [|done..].
    by rewrite send_final_state. }
  destruct (N.eqb_spec (p_tag req) ModifyDNRequest) as [Et|_].
  { unfold handle_moddn. rewrite Hbe. apply (Hw moddn_req (parse_moddn req) OpModDn).
    intros a Ha. split; [done|]. right; right; right. split; [done|]. exists a. split; [by apply moddn_iff|done]. }
  destruct (N.eqb_spec (p_tag req) ModifyRequest) as [Et|_].
  { unfold handle_modify. rewrite Hbe. apply (Hw modify_req (parse_modify req) OpModify).
    intros a Ha. split; [done|]. right; right; left. split; [done|]. exists a. split; [by apply modify_iff|done]. }
  destruct (p_tag req =? SearchRequest)%N; [|by left]. left.
  destruct (handle_search cfg (bolt_handler c) ev bound req d) as [[es o] s'] eqn:Es.
  assert (s' = d) as ->.
  { revert Es. unfold handle_search. destruct (parse_search req) as [r|e| |]; try by intros [= _ _ ->].
    cbn [h_search bolt_handler]. unfold bolt_search.
    assert (Hrun : forall flt, match (match search d (sr_base r) (sr_scope r) with
        | Ok (es0, _) => (HRet (mkFound es0 Success false))
        | Err _ => HRet (mkFound [] Success false) | Panic => HPanic | Diverge => HKill end, d) with
        | (HRet f, s'0) =>
            if f_err f then ([], HRet (Some (f_code f)), s'0)
            else match search_loop (sv_enforce cfg) flt r (re_send ev) (f_entries f) 0 with
                 | (es, Ok _) => (es, HRet None, s'0)
                 | (es, Err (ELdap code _)) => (es, HRet (Some code), s'0)
                 | (es, Err _) => (es, HRet (Some OperationsError), s'0)
                 | (es, Panic) => (es, HPanic, s'0)
                 | (es, Diverge) => (es, HKill, s'0)
                 end
        | (HPanic, s'0) => ([], HPanic, s'0)
        | (HKill, s'0) => ([], HKill, s'0)
        end = (es, o, s') -> s' = d).
    { intros flt. destruct (search d (sr_base r) (sr_scope r)) as [[es0 x]|e| |];
        try by intros [= _ _ ->].
      - cbn [f_err f_entries]. destruct (search_loop _ _ _ _ _ _) as [es1 [u|[]| |]]; by intros [= _ _ ->]. }
    destruct (sv_enforce cfg); [|apply Hrun]. destruct (compile_filter _); [apply Hrun|by intros [= _ _ ->]]. }
  destruct o; [apply send_final_state|done..].
Qed.

(** Every LDAP error of the database has a proper code. *)
Definition err_ok (e : err) : Prop :=
  match e with ELdap c _ => (0 < c < 256)%N | _ => True end.
Definition tx_errs {A} (m : tx A) : Prop := forall f d n e, m f d n = Err e -> err_ok e.
Lemma errs_ret {A} (a : A) : tx_errs (t_ret a).
Proof using Type. done. Qed.
Lemma errs_err {A} e : err_ok e -> tx_errs (@t_err A e).
Proof using Type. intros He f d n e' [= <-]. done. Qed.
Lemma errs_bind {A B} (m : tx A) (k : A -> tx B) :
  tx_errs m -> (forall a, tx_errs (k a)) -> tx_errs (t_bind m k).
Proof using Type.
  intros Hm Hk f d n e. unfold t_bind. destruct (m f d n) as [[a [d1 n1]]|x| |] eqn:E; try done.
  - apply Hk.
  - intros [= <-]. by eapply Hm.
Qed.
Lemma errs_read {A} (g : db -> res A) : (forall d e, g d = Err e -> err_ok e) -> tx_errs (t_read g).
Proof using Type.
  intros Hg f d n e. unfold t_read. destruct (g d) as [a|x| |] eqn:E; try done. intros [= <-]. by eapply Hg.
Qed.
Lemma errs_write {A} (g : db -> res (A * db)) : (forall d e, g d = Err e -> err_ok e) -> tx_errs (t_write g).
Proof using Type.
  intros Hg f d n e. unfold t_write. destruct (f n); [by intros [= <-]|].
  destruct (g d) as [[a d1]|x| |] eqn:E; try done. intros [= <-]. by eapply Hg.
Qed.
Lemma errs_maperr {A} e (m : tx A) : err_ok e -> tx_errs (t_maperr e m).
Proof using Type.
  intros He f d n e'. unfold t_maperr. destruct (m f d n); try done. by intros [= <-].
Qed.
Lemma modify_err_ok e r x : apply_modify e r = Err x -> err_ok x.
Proof using Type.
  destruct x; try done. intros H. apply modify_codes in H as [->| ->]; done.
Qed.
Lemma get_id_err k d e : get_id k d = Err e -> err_ok e.
Proof using Type. unfold get_id. destruct (dn2id d !! k) as [b|]; [|done]. by destruct (length b <? 8). Qed.
Lemma get_entry_err k d e : get_entry_by_dn k d = Err e -> err_ok e.
Proof using Type.
  unfold get_entry_by_dn. destruct (get_id k d) as [i|x| |] eqn:E; cbn [rbind]; try done.
  - destruct (i =? 0)%N; [by intros [= <-]|]. unfold get_entry.
    destruct (id2ent d !! id_bytes i); cbn [rbind]; [done|]. by intros [= <-].
  - intros [= <-]. by eapply get_id_err.
Qed.
Ltac terrs := repeat first
  [ match goal with H : context [entry_modify_with] |- tx_errs (entry_modify_with _ _ _) => apply H end
  | apply errs_maperr; done | apply errs_ret | apply errs_err; done | apply errs_bind; [|intros ?]
  | apply errs_read; first [apply get_id_err | apply get_entry_err | intros ? ? [=]]
  | apply errs_write; intros ? ?; try destruct (key_ok _); (done || by intros [= <-])
  | match goal with |- tx_errs (if ?c then _ else _) => destruct c end ].
Lemma op_errs base o : match op_body base o with Ok m => tx_errs m | Err e => err_ok e | _ => True end.
Proof using Type.
  assert (Hmw : forall i e r, tx_errs (entry_modify_with i e r)).
  { intros i e r. unfold entry_modify_with. apply errs_bind.
    - unfold t_lift. apply errs_read. intros _ x. apply modify_err_ok.
    - intros e'. unfold put_id2ent. terrs. }
  destruct o as [e|s|r|r|r]; cbn [op_body].
  - unfold entry_put. destruct (parse_dn (e_dn e)) as [[|x dd]|]; try done.
    destruct (negb _); [done|]. unfold entry_put_tx, next_seq, put_id2ent, put_dn2id, add_child, put_id2ch. terrs.
  - unfold entry_delete. destruct (parse_dn s) as [[|x dd]|]; try done.
    unfold entry_delete_tx, put_id2ch, del_dn2id, del_id2ent. terrs.
  - unfold entry_modify. destruct (parse_normalize (m_dn r)); [|done]. terrs.
  - unfold entry_moddn. destruct (parse_dn (md_dn r)) as [[|o dd]|]; destruct (parse_dn (md_newrdn r)) as [[|nr nd]|]; try done.
    unfold entry_moddn_tx, put_dn2id, del_dn2id. terrs.
  - unfold update_password. destruct (parse_normalize (pw_user r)); [|done].
    apply errs_bind; [terrs|intros a]. apply errs_bind; [|intros ?; terrs].
    unfold t_lift. apply errs_read. intros _ x. unfold check_old.
    destruct (is_empty (pw_old r)); [done|]. destruct (validate _ _) as [[|]|y| |]; try done; by intros [= <-].
Qed.
Lemma run_op_errs base ev o d e d' : run_op base ev o d = (Done (Err e), d') -> err_ok e.
Proof using Type.
  unfold run_op. pose proof (op_errs base o) as He. destruct (op_body base o) as [m|x| |]; try done.
  - unfold update. destruct (m (e_fault ev) d 0) as [[u [d1 n1]]|x| |] eqn:E; try done.
    + destruct (e_commit ev); try done. by intros [= <- _].
    + intros [= <- _]. by eapply He.
  - by intros [= <- _].
Qed.
End e2e.
