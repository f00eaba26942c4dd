(** Property C80: the answers to bind requests on the database backend. *)
From Verif Require Import Bytes Text Dn DnProofs Res Entry EntryProofs Password PasswordProofs
  Db DbSpec IdProofs DbProofs DbOps DbSearch DbFacts DbMore P_Password P_Db
  Packet Filter FilterProofs Handler Server ServerProofs CrashProofs P_Server Encode EncodeProofs SessionProofs P_E2e P_Session.

(** What the backend's answer becomes. *)
Lemma bind_message {T : Text} {C : Crypto} {W : Wire} cfg c (ev : renv env) bound id dn pw d :
  re_send ev 0 = true ->
  handle cfg (bolt_handler c) ev bound (p_msg id (enc_bind dn pw)) d =
  match (bolt_bind c (re_h ev) dn pw d).1 with
  | HRet (0, false)%N => match parse_normalize dn with
                         | Some n => mkResult [RFinal id 1 0 None] (Go n) d
                         | None => mkResult [] Drop d
                         end
  | HRet (code, false) => mkResult [RFinal id 1 code None] (Go bound) d
  | HRet (_, true) | HPanic => mkResult [RFinal id 1 1 None] (Go bound) d
  | HKill => mkResult [] Dead d
  end.
Proof.
  intros Hs. unfold handle, p_msg. cbn [p_kids p_seq as_int p_int p_val].
  change (negb (p_cls (enc_bind dn pw) =? ClassApplication)%N) with false. cbn match.
  unfold dispatch. change (p_tag (enc_bind dn pw)) with BindRequest.
  change (BindRequest =? AddRequest)%N with false. change (BindRequest =? BindRequest)%N with true. cbn match.
  assert (handle_bind (bolt_handler c) ev (enc_bind dn pw) d =
    match bolt_bind c (re_h ev) dn pw d with
    | (HRet (code, false), s') => (HRet code, s')
    | (HRet (_, true), s') => (HRet OperationsError, s')
    | (HPanic, s') => (HRet OperationsError, s')
    | (HKill, s') => (HKill, s')
    end) as -> by done.
  assert (Hd : (bolt_bind c (re_h ev) dn pw d).2 = d) by done.
  change (p_kids (enc_bind dn pw)) with [p_int 3; p_octets dn; p_ctx 0 pw].
  destruct (bolt_bind c (re_h ev) dn pw d) as [o d'] eqn:Eb. cbn [snd fst] in *. subst d'.
  unfold send_final. rewrite !Hs.
  destruct o as [[[|code] [|]]| |]; try reflexivity.
Qed.
(** The backend's answer to a name that can be parsed. *)
Lemma bolt_bind_table {T : Text} {C : Crypto} (HT : TextOK T) (b : dn) (d : db) (m : dir)
    (c : bolt_cfg) (ev : env) (dn pw : str) (dd : list rdn) :
  base_ok b -> reachable b d -> represents d m -> bc_base c = normalize b ->
  parse_dn dn = Some dd -> wf_dn dd = true ->
  (bolt_bind c ev dn pw d).1 =
  match dn, pw with
  | [], [] => HRet (if bc_anon c then 0 else 49, false)%N
  | _, _ =>
      match (if has_suffix (normalize dd) (normalize b) && negb (is_empty pw) then m !! fold_dn dd else None) with
      | Some e => match validate pw (stored_password e) with
                  | Ok true => HRet (0, false)%N
                  | Panic => HPanic
                  | _ => HRet (49, false)%N
                  end
      | None => HRet (49, false)%N
      end
  end.
Proof.
  intros Hb Hr Hm Hc Hp Hwf. destruct (reach_sim HT b d m Hb Hr Hm) as [_ (g & Hg & ->)].
  assert (Hn : parse_normalize dn = Some (normalize dd)). { unfold parse_normalize. by rewrite Hp. }
  unfold bolt_bind. cbn [fst]. rewrite Hn, Hc. clear Hn.
  destruct (has_suffix (normalize dd) (normalize b)) eqn:Es; cbn [negb andb].
  - destruct dn as [|x dn].
    { assert (dd = []) as ->.
      { unfold parse_dn in Hp. rewrite (trim_dn_print _ HT) in Hp by constructor. by injection Hp. }
      apply has_suffix_spec in Es as [a Ha]. pose proof (normalize_ne HT b Hb).
      destruct (normalize b) eqn:En; [done|]. by destruct a. }
    cbn [is_empty]. destruct pw as [|y pw]; [done|]. cbn [is_empty negb]. unfold bolt_validate.
    destruct (last_ok (fold_dn dd)) eqn:El.
    + change ScopeBase with 0%Z. rewrite (search_base HT b d g (normalize dd) (fold_dn dd) Hg); [|by apply (parse_normalized HT)|by apply (fold_dn_wf HT)].
      rewrite (fold_dn_idem HT). destruct ((snd <$> g) !! fold_dn dd) as [e|]; [|done].
      fold (stored_password e). destruct (C30_outcomes T C HT (y :: pw) (stored_password e)) as [->|[->| ->]]; done.
    + unfold search, parse_normalize. rewrite (normalize_flat _ Hwf), (parse_flat_dangling HT); [|by apply (fold_dn_wf HT)|done].
      cbn. rewrite lookup_fmap. destruct (g !! fold_dn dd) as [[i e']|] eqn:Eg; [|done].
      pose proof (gk_last _ _ (s_key _ _ _ Hg _ _ _ Eg)) as Hl. by rewrite El in Hl.
  - destruct dn as [|x dn], pw as [|y pw], (bc_anon c); done.
Qed.

(** C80.  Every answer, by the directory. *)
Theorem C80_answer (T : Text) (C : Crypto) (W : Wire) (HT : TextOK T) (cfg : server_cfg) (c : bolt_cfg) (ev : renv env)
    (b : dn) (d : db) (m : dir) (bound : str) (id : Z) (dn pw : str) (dd : list rdn) :
  base_ok b -> reachable b d -> represents d m -> bc_base c = normalize b -> re_send ev 0 = true ->
  parse_dn dn = Some dd -> wf_dn dd = true ->
  let known e := pw <> [] /\ has_suffix (normalize dd) (normalize b) = true /\ m !! fold_dn dd = Some e in
  exists code, handle cfg (bolt_handler c) ev bound (p_msg id (enc_bind dn pw)) d =
    mkResult [RFinal id 1 code None] (Go (if (code =? 0)%N then normalize dd else bound)) d /\
  (code = 0%N <-> (dn = [] /\ pw = [] /\ bc_anon c = true) \/ exists e, known e /\ accepts pw (stored_password e)) /\
  (code = 1%N <-> exists e, known e /\ chokes pw (stored_password e)) /\
  (code <> 0%N -> code <> 1%N -> code = 49%N).
Proof.
  intros Hb Hr Hm Hc Hs Hp Hwf known. rewrite bind_message by done.
  rewrite (bolt_bind_table HT b d m c (re_h ev) dn pw dd) by done.
  assert (Hn : parse_normalize dn = Some (normalize dd)). { unfold parse_normalize. by rewrite Hp. }
  rewrite Hn.
  destruct (decide (dn = [] /\ pw = [])) as [[-> ->]|Hne].
  { assert (Hk : forall e, ~ known e) by (intros e (? & _); done).
    destruct (bc_anon c).
    - exists 0%N. split; [done|]. split; [by split; auto|]. split; [|done]. split; [done|]. intros (e & He & _). by destruct (Hk e).
    - exists 49%N. split; [done|]. split; [|split; [|done]].
      + split; [done|]. intros [(_ & _ & ?)|(e & He & _)]; [done|]. by destruct (Hk e).
      + split; [done|]. intros (e & He & _). by destruct (Hk e). }
  rename Hne into Hanon.
  set (found := if has_suffix (normalize dd) (normalize b) && negb (is_empty pw) then m !! fold_dn dd else None).
  assert (Hk : forall e, known e <-> found = Some e).
  { intros e. unfold known, found. destruct (has_suffix _ _); cbn [andb]; [|by split; [intros (_ & ? & _)|]].
    destruct pw; cbn [is_empty negb]; [by split; [intros (? & _)|]|]. split; [by intros (_ & _ & ?)|done]. }
  assert (E : forall A (x y : A), match dn, pw with [], [] => x | _, _ => y end = y).
  { intros A x y. destruct dn, pw; try done. by destruct Hanon. }
  rewrite E. clear E.
  destruct found as [e|].
  - assert (Hiff : forall P : entry -> Prop, (exists e, known e /\ P e) <-> P e).
    { intros P. split; [intros (e' & He & ?); apply Hk in He as [= ->]; done|]. intros ?. exists e. split; [by apply Hk|done]. }
    pose proof (Hiff (fun e => accepts pw (stored_password e))) as H1. pose proof (Hiff (fun e => chokes pw (stored_password e))) as H2.
    cbv beta in H1, H2. setoid_rewrite H1. setoid_rewrite H2. clear H1 H2 Hiff.
    setoid_rewrite <- (C30_validation_not_fail_open T C HT). setoid_rewrite <- (C31_validation_panics_exactly T C HT).
    destruct (C30_outcomes T C HT pw (stored_password e)) as [->|[->| ->]].
    + exists 0%N. naive_solver.
    + exists 49%N. split; [done|]. split; [|split; [|done]]; split; try done. intros [(? & ? & _)|?]; [|done]. naive_solver.
    + exists 1%N. split; [done|]. split; [|split; [|done]]; split; try done. intros [(? & ? & _)|?]; [|done]. naive_solver.
  - exists 49%N. split; [done|]. split; [|split; [|done]]; split; try done.
    + intros [(? & ? & _)|(e & He & _)]; [naive_solver|]. by apply Hk in He.
    + intros (e & He & _). by apply Hk in He.
Qed.
Print Assumptions C80_answer.

(** A name that cannot be parsed, and requests that are no simple bind. *)
Theorem C80_syntax (T : Text) (C : Crypto) (W : Wire) (cfg : server_cfg) (c : bolt_cfg) (ev : renv env)
    (d : db) (bound : str) (id : Z) (dn pw : str) :
  re_send ev 0 = true -> dn <> [] -> parse_dn dn = None ->
  handle cfg (bolt_handler c) ev bound (p_msg id (enc_bind dn pw)) d = mkResult [RFinal id 1 34 None] (Go bound) d.
Proof.
  intros Hs Hne Hp. rewrite bind_message by done. unfold bolt_bind, parse_normalize. rewrite Hp. by destruct dn.
Qed.
Print Assumptions C80_syntax.
Theorem C80_malformed (T : Text) (C : Crypto) (W : Wire) (S E : Type) (cfg : server_cfg) (h : handler S E) (ev : renv E)
    (bound : str) (id : Z) (req : packet) (s : S) :
  re_send ev 0 = true -> p_cls req = 64%N -> p_tag req = 0%N ->
  (forall dn pw, ~ simple_bind (p_msg id req) dn pw) ->
  exists code, In code [1; 2; 48]%N /\
    handle cfg h ev bound (p_msg id req) s = mkResult [RFinal id 1 code None] (Go bound) s.
Proof.
  intros Hs Hc Ht Hno. unfold handle, p_msg. cbn [p_kids p_seq as_int p_int p_val]. rewrite Hc.
  change (negb (64 =? ClassApplication)%N) with false. cbn match. unfold dispatch. rewrite Ht.
  change (0 =? AddRequest)%N with false. change (0 =? BindRequest)%N with true. cbn match.
  assert (Hb : exists code, In code [1; 2; 48]%N /\ handle_bind h ev req s = (HRet code, s)).
  { unfold handle_bind. destruct (p_kids req) as [|v rest] eqn:Ek; [exists 1%N; cbn; auto|].
    destruct (as_int (p_val v)) as [n|] eqn:Ev; [|exists 2%N; cbn; auto].
    destruct (Z.eqb_spec n 3) as [->|]; [|exists 48%N; cbn; auto]. cbn [negb].
    destruct rest as [|dp rest]; [exists 1%N; cbn; auto|].
    destruct (as_str (p_val dp)) as [dn|] eqn:Ed; [|exists 2%N; cbn; auto].
    destruct rest as [|a rest]; [exists 1%N; cbn; auto|].
    destruct (N.eqb_spec (p_tag a) 0) as [Ha|]; [|exists 48%N; cbn; auto]. cbn [negb].
    destruct rest as [|x rest]; [|exists 48%N; cbn; auto]. exfalso. apply (Hno dn (p_data a)).
    exists id, req, v, dp, a. split; [eexists _, _; split; [reflexivity|done]|]. split; [done|]. split; [done|].
    split; [by apply as_int_inv|]. split; [by apply as_str_inv|done]. }
  destruct Hb as (code & Hin & ->). exists code. split; [done|].
  replace (code =? Success)%N with false by (destruct Hin as [<-|[<-|[<-|[]]]]; done).
  unfold send_final. by rewrite Hs.
Qed.
Print Assumptions C80_malformed.
(** An entry without password answers operationsError, where a wrong password and
    a missing entry answer invalidCredentials: anybody can find out. *)
Theorem C80_no_password_refuted (T : Text) (C : Crypto) (W : Wire) (HT : TextOK T) (cfg : server_cfg) (c : bolt_cfg) (ev : renv env)
    (b : dn) (d : db) (m : dir) (bound : str) (id : Z) (dn pw : str) (dd : list rdn) (e : entry) :
  base_ok b -> reachable b d -> represents d m -> bc_base c = normalize b -> re_send ev 0 = true ->
  parse_dn dn = Some dd -> wf_dn dd = true -> has_suffix (normalize dd) (normalize b) = true -> pw <> [] ->
  m !! fold_dn dd = Some e -> stored_password e = [] ->
  handle cfg (bolt_handler c) ev bound (p_msg id (enc_bind dn pw)) d = mkResult [RFinal id 1 1 None] (Go bound) d.
Proof.
  intros Hb Hr Hm Hc Hs Hp Hwf Hsuf Hpw He Hst.
  destruct (C80_answer T C W HT cfg c ev b d m bound id dn pw dd Hb Hr Hm Hc Hs Hp Hwf) as (code & -> & _ & [_ H1] & _).
  rewrite H1; [done|]. exists e. split; [done|]. rewrite Hst. apply (C31_validation_panics_exactly T C HT). done.
Qed.
Print Assumptions C80_no_password_refuted.

Example C80_case :
  let out bound dn pw := handle1 bound (p_msg 5 (enc_bind (B dn) (B pw))) d1 in
  out [] "UID=Carl, ou=people,o=base"%string "pw"%string = mkResult [RFinal 5 1 0 None] (Go carl1) d1 /\
  out admin1 "uid=carl,ou=people,o=base"%string "px"%string = mkResult [RFinal 5 1 49 None] (Go admin1) d1 /\
  out [] "uid=nobody,o=base"%string "pw"%string = mkResult [RFinal 5 1 49 None] (Go []) d1 /\
  out [] "ou=people,o=base"%string "pw"%string = mkResult [RFinal 5 1 1 None] (Go []) d1 /\
  out [] ""%string ""%string = mkResult [RFinal 5 1 49 None] (Go []) d1 /\
  out [] "carl"%string "pw"%string = mkResult [RFinal 5 1 34 None] (Go []) d1 /\
  handle1 admin1 (p_msg 5 (p_op 0 [p_int 2])) d1 = mkResult [RFinal 5 1 48 None] (Go admin1) d1.
Proof. vm_compute. repeat split. Qed.
