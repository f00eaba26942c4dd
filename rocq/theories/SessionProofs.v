(** Lemmas about password changes, binds and searches as whole messages. *)
From Verif Require Import Bytes Text Dn DnProofs Res Entry EntryProofs Password PasswordProofs
  Db DbSpec IdProofs DbProofs DbOps DbSearch DbFacts DbMore P_Password P_Db
  Packet Filter FilterProofs P_Filter Handler Server ServerProofs CrashProofs P_Server
  Encode EncodeProofs E2e E2eProofs.

Section session.
Context {T : Text} {C : Crypto} {W : Wire}.

(** A password message in terms of the handler. *)
Lemma password_handled cfg c (ev : renv env) bound id req r d :
  says_password req r ->
  handle cfg (bolt_handler c) ev bound (p_msg id req) d =
  match handle_extended cfg (bolt_handler c) ev bound req d with
  | (HRet (code, v), s') => send_final ev 0 [] (RFinal id ExtendedResponse code v) (Go bound) s'
  | (_, s') => mkResult [] Dead s'
  end.
Proof using Type.
  intros (Hc & Ht & _). unfold handle, p_msg. cbn [p_kids p_seq as_int p_int p_val].
  rewrite Hc. change (negb (ClassApplication =? ClassApplication)%N) with false. cbn match.
  unfold dispatch. rewrite Ht.
  change (ExtendedRequest =? AddRequest)%N with false. change (ExtendedRequest =? BindRequest)%N with false.
  change (ExtendedRequest =? CompareRequest)%N with false. change (ExtendedRequest =? DelRequest)%N with false.
  change (ExtendedRequest =? ExtendedRequest)%N with true. cbn match. done.
Qed.
(** A successful hash in the name of a bound user reaches the handler. *)
Lemma extended_password cfg c (ev : renv env) bound req r pw h d :
  says_password req r -> bound <> [] ->
  (pw_new r <> [] -> pw = pw_new r) ->
  (pw_new r = [] -> generate_password (sv_genlen cfg) (re_draws ev) = Ok pw) ->
  hash_password pw (B "{ARGON2}") (re_salt ev) = Ok h ->
  handle_extended cfg (bolt_handler c) ev bound req d =
  match bolt_password c (re_h ev) bound (mkPw (match pw_user r with [] => bound | u => u end) (pw_old r) h) d with
  | (HRet (code, err), s') =>
      if (code =? Success)%N then (HRet (Success, if is_empty (pw_new r) then Some h else None), s')
      else if negb err then (HPanic, s') else (HRet (code, None), s')
  | (HPanic, s') => (HPanic, s')
  | (HKill, s') => (HKill, s')
  end.
Proof using Type.
  intros Hs Hb H1 H2 Hh. pose proof Hs as (Hc & Ht & _).
  apply password_iff in Hs as (body & He & Hp); [|done|done].
  unfold handle_extended. rewrite He, seqb_refl. unfold handle_pwmod.
  assert (is_empty bound = false) as -> by by destruct bound. rewrite Hp.
  assert ((if is_empty (pw_new r) then generate_password (sv_genlen cfg) (re_draws ev) else Ok (pw_new r)) = Ok pw) as ->.
  { destruct (pw_new r); cbn [is_empty]; [by apply H2|]. by rewrite H1. }
  rewrite Hh. cbn [h_password bolt_handler].
  assert ((if is_empty (pw_user r) then bound else pw_user r) = match pw_user r with [] => bound | u => u end) as ->
    by by destruct (pw_user r).
  destruct (bolt_password c (re_h ev) bound _ d) as [[[code err]| |] s'] eqn:Eb; try done.
  destruct (code =? Success)%N eqn:Ec.
  - cbn. done.
  - cbn match. rewrite Ec. cbn [negb andb]. by destruct err.
Qed.

(** A bind message in terms of the handler. *)
Lemma bind_handled cfg c (ev : renv env) bound id dn pw d :
  re_send ev 0 = true ->
  (r_out (handle cfg (bolt_handler c) ev bound (p_msg id (enc_bind dn pw)) d) = [RFinal id BindResponse 0 None] <->
   bolt_bind c (re_h ev) dn pw d = (HRet (Success, false), d) /\ is_Some (parse_normalize dn)).
Proof using Type.
  intros Hs. unfold handle, p_msg. cbn [p_kids p_seq as_int p_int p_val].
  change (negb (p_cls (enc_bind dn pw) =? ClassApplication)%N) with false. cbn match.
  unfold dispatch. change (p_tag (enc_bind dn pw)) with BindRequest.
  change (BindRequest =? AddRequest)%N with false. change (BindRequest =? BindRequest)%N with true. cbn match.
  assert (handle_bind (bolt_handler c) ev (enc_bind dn pw) d =
    match bolt_bind c (re_h ev) dn pw d with
    | (HRet (code, false), s') => (HRet code, s')
    | (HRet (_, true), s') => (HRet OperationsError, s')
    | (HPanic, s') => (HRet OperationsError, s')
    | (HKill, s') => (HKill, s')
    end) as -> by done.
  assert (Hd : (bolt_bind c (re_h ev) dn pw d).2 = d) by done.
  change (p_kids (enc_bind dn pw)) with [p_int 3; p_octets dn; p_ctx 0 pw].
  destruct (bolt_bind c (re_h ev) dn pw d) as [o d'] eqn:Eb. cbn [snd] in Hd. subst d'.
  destruct o as [[code err]| |].
  - destruct err.
    + cbn [p_val p_octets as_str]. change (OperationsError =? Success)%N with false. cbn match.
      unfold send_final. rewrite Hs. cbn [app r_out]. split; [done|]. by intros [? _].
    + destruct (code =? Success)%N eqn:Ec.
      * apply N.eqb_eq in Ec as ->. cbn [p_val p_octets as_str].
        destruct (parse_normalize dn) as [n|]; unfold send_final; rewrite ?Hs; cbn [app r_out]; split; [|done|done|].
        -- by intros _; split; [|eexists].
        -- intros [_ [? [=]]].
      * apply N.eqb_neq in Ec. unfold send_final. rewrite Hs. cbn [app r_out]. split.
        -- intros [= ?]. done.
        -- intros [[= ?] _]. done.
  - change (OperationsError =? Success)%N with false. cbn match.
    unfold send_final. rewrite Hs. cbn [app r_out]. split; [done|]. by intros [? _].
  - cbn [r_out]. split; [done|]. by intros [? _].
Qed.

(** The first value of an attribute that has one list of values. *)
Lemma stored_single (HT : TextOK T) l t v : asciis t -> Forall (fun a => asciis (a_name a)) l ->
  vals_of t l = [[v]] -> get_eqfold_val t l = v.
Proof using Type.
  intros Ht Hl. unfold get_eqfold_val, vals_of. induction Hl as [|a l Ha Hl IH]; [done|].
  cbn [List.filter get_eqfold_vals].
  rewrite (eqfold_fold_ascii HT), seqb_sym by done. fold (same (a_name a) t).
  destruct (same (a_name a) t); [|done]. cbn [map]. intros [= -> _]. done.
Qed.
End session.
