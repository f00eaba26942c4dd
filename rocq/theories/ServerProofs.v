(** Facts about the connection loop. *)
From Verif Require Import Bytes Text Dn DnProofs Res Entry EntryProofs Password PasswordProofs
  Db DbSpec DbProofs DbSearch DbFacts Packet Filter Handler Server.

(** A well-formed envelope: message ID and request. *)
Definition envelope (p : packet) (id : Z) (req : packet) : Prop :=
  exists i rest, p_kids p = i :: req :: rest /\ p_val i = VInt id /\ p_cls req = ClassApplication.
(** A simple bind with the given name and password. *)
Definition simple_bind (p : packet) (dn pw : str) : Prop :=
  exists id req v d a, envelope p id req /\ p_tag req = BindRequest /\
    p_kids req = [v; d; a] /\ p_val v = VInt 3 /\ p_val d = VStr dn /\ p_tag a = 0%N /\ p_data a = pw.
(** A password modification request. *)
Definition password_exop (p : packet) : Prop :=
  exists id req o rest, envelope p id req /\ p_tag req = ExtendedRequest /\
    p_kids req = o :: rest /\ p_data o = pwmod_oid.

(** The response type that belongs to a request type. *)
Definition response_tag (t : N) : N :=
  if (t =? BindRequest)%N then BindResponse
  else if (t =? SearchRequest)%N then SearchResultDone
  else if (t =? ModifyRequest)%N then ModifyResponse
  else if (t =? AddRequest)%N then AddResponse
  else if (t =? DelRequest)%N then DelResponse
  else if (t =? ModifyDNRequest)%N then ModifyDNResponse
  else ExtendedResponse.

Lemma as_int_inv v n : as_int v = Some n -> v = VInt n.
Proof. destruct v; try done. by intros [= ->]. Qed.
Lemma as_str_inv v s : as_str v = Some s -> v = VStr s.
Proof. destruct v; try done. by intros [= ->]. Qed.

Section generic.
Context {T : Text} {C : Crypto} {W : Wire} {S E : Type}.
Variable (cfg : server_cfg) (h : handler S E).

Lemma handle_inv ev bound p s :
  (handle cfg h ev bound p s = mkResult [] Drop s) \/
  (handle cfg h ev bound p s = mkResult [] Dead s /\
   exists id req i c rest, envelope p id req /\ p_kids p = i :: req :: c :: rest /\
     decode_controls (p_kids c) = false) \/
  (exists id req, envelope p id req /\ handle cfg h ev bound p s = dispatch cfg h ev bound id req s /\
   forall i c rest, p_kids p = i :: req :: c :: rest -> decode_controls (p_kids c) = true).
Proof using Type.
  unfold handle. destruct (p_kids p) as [|i [|req rest]] eqn:Ek; [by left..|].
  destruct (as_int (p_val i)) as [id|] eqn:Ei; [|by left]. apply as_int_inv in Ei.
  destruct (p_cls req =? ClassApplication)%N eqn:Ec; [|by left]. apply N.eqb_eq in Ec.
  assert (Henv : envelope p id req) by (exists i, rest; done). cbn [negb].
  destruct rest as [|c rest].
  - right; right. exists id, req. split; [done|]. split; [done|]. done.
  - destruct (decode_controls (p_kids c)) eqn:Ed.
    + right; right. exists id, req. split; [done|]. split; [done|]. intros i' c' rest' [= -> -> ->]. done.
    + right; left. split; [done|]. exists id, req, i, c, rest. done.
Qed.

Lemma handle_bind_success ev req s s' :
  handle_bind h ev req s = (HRet Success, s') ->
  exists v d a dn, p_kids req = [v; d; a] /\ p_val v = VInt 3 /\ p_val d = VStr dn /\ p_tag a = 0%N /\
    h_bind h (re_h ev) dn (p_data a) s = (HRet (Success, false), s').
Proof using Type.
  unfold handle_bind. destruct (p_kids req) as [|v rest]; [done|].
  destruct (as_int (p_val v)) as [n|] eqn:Ev; [|done]. apply as_int_inv in Ev.
  destruct (n =? 3)%Z eqn:En; [|done]. apply Z.eqb_eq in En as ->. cbn [negb].
  destruct rest as [|d rest]; [done|].
  destruct (as_str (p_val d)) as [dn|] eqn:Ed; [|done]. apply as_str_inv in Ed.
  destruct rest as [|a rest]; [done|].
  destruct (p_tag a =? 0)%N eqn:Ea; [|done]. apply N.eqb_eq in Ea. cbn [negb].
  destruct rest as [|x rest]; [|done]. cbn [is_empty negb].
  destruct (h_bind h (re_h ev) dn (p_data a) s) as [[[code [|]]| |] s1] eqn:Eh; try done.
  intros [= -> ->]. exists v, d, a, dn. done.
Qed.

Lemma send_final_next (ev : renv E) k pre r n (s : S) : r_next (send_final ev k pre r n s) = n \/
  r_next (send_final ev k pre r n s) = Drop.
Proof using Type. unfold send_final. destruct (re_send ev k); auto. Qed.
Lemma send_final_state (ev : renv E) k pre r n (s : S) : r_state (send_final ev k pre r n s) = s.
Proof using Type. unfold send_final. by destruct (re_send ev k). Qed.
Lemma send_final_go (ev : renv E) k pre r n (s : S) b : r_next (send_final ev k pre r n s) = Go b ->
  n = Go b /\ r_out (send_final ev k pre r n s) = pre ++ [r].
Proof using Type. unfold send_final. destruct (re_send ev k); done. Qed.
Lemma finish_go (ev : renv E) id tag bound (r : hout answer * S) b : r_next (finish ev id tag bound r) = Go b ->
  b = bound /\ exists code, r_out (finish ev id tag bound r) = [RFinal id tag code None].
Proof using Type.
  unfold finish. destruct r as [[[code e]| |] s']; try done.
  intros H. apply send_final_go in H as [[= <-] ->]. eauto.
Qed.
Lemma finish_state (ev : renv E) id tag bound (r : hout answer * S) : r_state (finish ev id tag bound r) = r.2.
Proof using Type. destruct r as [[[code e]| |] s']; try done. apply send_final_state. Qed.
Lemma finish_dead (ev : renv E) id tag bound (r : hout answer * S) : r_next (finish ev id tag bound r) = Dead <->
  r.1 = HPanic \/ r.1 = HKill.
Proof using Type.
  destruct r as [[[code e]| |] s']; cbn [finish fst].
  - unfold send_final. destruct (re_send ev 0); cbn; split; try done; by intros [?|?].
  - split; auto.
  - split; auto.
Qed.

(** A new identity comes from a successful bind only. *)
Lemma handle_identity ev bound p s b :
  r_next (handle cfg h ev bound p s) = Go b -> b <> bound ->
  exists dn pw, simple_bind p dn pw /\ parse_normalize dn = Some b /\
    exists s', h_bind h (re_h ev) dn pw s = (HRet (Success, false), s').
Proof using Type.
  intros H Hne. destruct (handle_inv ev bound p s) as [Hd|[[Hd _]|(id & req & Henv & Hd & _)]];
    rewrite Hd in H; [done..|]. clear Hd. unfold dispatch in H.
  destruct (p_tag req =? AddRequest)%N; [by apply finish_go in H as [? _]|].
  destruct (p_tag req =? BindRequest)%N eqn:Et.
  { apply N.eqb_eq in Et. destruct (handle_bind h ev req s) as [[code| |] s'] eqn:Eb; [|done..].
    destruct (code =? Success)%N eqn:Ec; [|by apply send_final_go in H as [[= ?] _]].
    apply N.eqb_eq in Ec as ->. apply handle_bind_success in Eb as (v & d & a & dn & Hk & Hv & Hdn & Ha & Hb).
    rewrite Hk, Hdn in H. cbn [as_str] in H. destruct (parse_normalize dn) as [n|] eqn:En; [|done].
    apply send_final_go in H as [[= ->] _]. exists dn, (p_data a).
    split; [|by eauto]. exists id, req, v, d, a. done. }
  destruct (p_tag req =? CompareRequest)%N; [by apply send_final_go in H as [? _]|].
  destruct (p_tag req =? DelRequest)%N; [by apply finish_go in H as [? _]|].
  destruct (p_tag req =? ExtendedRequest)%N.
  { destruct (handle_extended cfg h ev bound req s) as [[[code v]| |] s']; [|done..].
    by apply send_final_go in H as [[= ?] _]. }
  destruct (p_tag req =? ModifyDNRequest)%N; [by apply finish_go in H as [? _]|].
  destruct (p_tag req =? ModifyRequest)%N; [by apply finish_go in H as [? _]|].
  destruct (p_tag req =? SearchRequest)%N; [|done].
  destruct (handle_search cfg h ev bound req s) as [[es [o| |]] s']; [|done..].
  apply send_final_go in H as [H _]. destruct o; [done|]. by injection H.
Qed.

(** What is sent. *)
Lemma handle_go_out ev bound p s b :
  r_next (handle cfg h ev bound p s) = Go b ->
  exists id req es code v, envelope p id req /\
    r_out (handle cfg h ev bound p s) =
      map (REntry id) es ++ [RFinal id (response_tag (p_tag req)) code v] /\
    (es <> [] -> p_tag req = SearchRequest).
Proof using Type.
  intros H. destruct (handle_inv ev bound p s) as [Hh|[[Hh _]|(id & req & Henv & Hh & _)]];
    rewrite Hh in *; [done..|]. exists id, req. clear Hh. unfold dispatch in *.
  assert (Hfin : forall (t : N) (r : hout answer * S), response_tag (p_tag req) = t ->
    r_next (finish ev id t bound r) = Go b ->
    exists es code v, envelope p id req /\ r_out (finish ev id t bound r) =
      map (REntry id) es ++ [RFinal id (response_tag (p_tag req)) code v] /\
      (es <> [] -> p_tag req = SearchRequest)).
  { intros t r <- Hr. apply finish_go in Hr as [_ [code Hr]]. exists [], code, None. by rewrite Hr. }
  destruct (p_tag req =? AddRequest)%N eqn:E1.
  { apply N.eqb_eq in E1. apply Hfin; [by rewrite E1|done]. }
  destruct (p_tag req =? BindRequest)%N eqn:E2.
  { apply N.eqb_eq in E2.
    destruct (handle_bind h ev req s) as [[code| |] s'] eqn:Eb; [|done..].
    rewrite E2. change (response_tag BindRequest) with BindResponse.
    destruct (code =? Success)%N.
    - destruct (p_kids req) as [|v [|d rest]]; [done..|].
      destruct (as_str (p_val d)) as [dn|]; [|done]. destruct (parse_normalize dn) as [n|]; [|done].
      apply send_final_go in H as [_ ->]. exists [], code, None. done.
    - apply send_final_go in H as [_ ->]. exists [], code, None. done. }
  destruct (p_tag req =? CompareRequest)%N eqn:E3; [by apply send_final_go in H as [? _]|].
  destruct (p_tag req =? DelRequest)%N eqn:E4.
  { apply N.eqb_eq in E4. apply Hfin; [by rewrite E4|done]. }
  destruct (p_tag req =? ExtendedRequest)%N eqn:E5.
  { apply N.eqb_eq in E5. rewrite E5.
    destruct (handle_extended cfg h ev bound req s) as [[[code v]| |] s']; [|done..].
    apply send_final_go in H as [_ ->]. exists [], code, v. done. }
  destruct (p_tag req =? ModifyDNRequest)%N eqn:E6.
  { apply N.eqb_eq in E6. apply Hfin; [by rewrite E6|done]. }
  destruct (p_tag req =? ModifyRequest)%N eqn:E7.
  { apply N.eqb_eq in E7. apply Hfin; [by rewrite E7|done]. }
  destruct (p_tag req =? SearchRequest)%N eqn:E8; [|done]. apply N.eqb_eq in E8. rewrite E8.
  destruct (handle_search cfg h ev bound req s) as [[es [o| |]] s']; [|done..].
  apply send_final_go in H as [_ ->]. exists es, (match o with Some c => c | None => Success end), None.
  done.
Qed.
(** Whatever is sent carries the ID of the request. *)
Definition r_id (r : response) : Z := match r with REntry i _ => i | RFinal i _ _ _ => i end.
Definition is_final (r : response) : bool := match r with REntry _ _ => false | RFinal _ _ _ _ => true end.
Lemma send_final_ids (ev : renv E) k pre r n (s : S) id : Forall (fun r => r_id r = id) pre -> r_id r = id ->
  Forall (fun r => r_id r = id) (r_out (send_final ev k pre r n s)).
Proof using Type.
  intros Hp Hr. unfold send_final. destruct (re_send ev k); [|done]. cbn.
  apply Forall_app. split; [done|]. by constructor.
Qed.
End generic.

(** * The database backend *)
Section bolt.
Context {T : Text} {C : Crypto} {W : Wire}.
Variable (cfg : server_cfg) (c : bolt_cfg).
Notation H := (bolt_handler c).

Lemma bolt_write_state ev o tr d : (bolt_write c ev o tr d).2 = (run_op (bc_base c) ev o d).2.
Proof using Type.
  unfold bolt_write. destruct (run_op (bc_base c) ev o d) as [[[]|] d']; done.
Qed.

(** The operations a request may run. *)
Definition allowed (ev : renv env) (bound : str) (p : packet) (o : op) : Prop :=
  write_allowed c bound = true \/
  exists user old hash, o = OpPassword (mkPw user old hash) /\ password_exop p /\
    (parse_normalize user = Some bound \/ bound = bc_admin c).

Lemma handle_state ev bound p d :
  let d' := r_state (handle cfg H ev bound p d) in
  d' = d \/
  (bound <> [] /\ exists o, d' = (run_op (bc_base c) (re_h ev) o d).2 /\ allowed ev bound p o).
Proof using Type.
  cbv zeta. destruct (handle_inv cfg H ev bound p d) as [->|[[-> _]|(id & req & Henv & -> & _)]]; [by left..|].
  unfold dispatch.
  assert (Hw : forall tag (r : hout answer * db),
    (r.2 = d \/ (bound <> [] /\ exists o, r.2 = (run_op (bc_base c) (re_h ev) o d).2 /\ allowed ev bound p o)) ->
    r_state (finish ev id tag bound r) = d \/
    (bound <> [] /\ exists o, r_state (finish ev id tag bound r) = (run_op (bc_base c) (re_h ev) o d).2 /\
      allowed ev bound p o)).
  { intros tag r Hr. by rewrite finish_state. }
  assert (Hl : forall A (r : res A) (k : A -> hout answer * db), bound <> [] ->
    (forall a, (k a).2 = d \/ (bound <> [] /\ exists o, (k a).2 = (run_op (bc_base c) (re_h ev) o d).2 /\ allowed ev bound p o)) ->
    (lift_res r k d).2 = d \/ (bound <> [] /\ exists o, (lift_res r k d).2 = (run_op (bc_base c) (re_h ev) o d).2 /\ allowed ev bound p o)).
  { intros A r k Hb Hk. destruct r as [a|e| |]; cbn [lift_res]; [apply Hk|destruct e; by left|by left|by left]. }
  assert (Hbw : forall o tr, write_allowed c bound = true -> bound <> [] ->
    (bolt_write c (re_h ev) o tr d).2 = d \/ (bound <> [] /\ exists o', (bolt_write c (re_h ev) o tr d).2 =
      (run_op (bc_base c) (re_h ev) o' d).2 /\ allowed ev bound p o')).
  { intros o tr Hwa Hb. right. split; [done|]. exists o. rewrite bolt_write_state. split; [done|by left]. }
  destruct (p_tag req =? AddRequest)%N.
  { apply Hw. unfold handle_add. destruct bound as [|x bd] eqn:Eb; [by left|]. rewrite <- Eb in *. cbn [is_empty].
    replace (is_empty bound) with false by (by subst). apply Hl; [by subst|]. intros a. cbn [h_add bolt_handler].
    unfold bolt_add. destruct (write_allowed c bound) eqn:Ew; [|by left]. apply Hbw; [done|by subst]. }
  destruct (p_tag req =? BindRequest)%N.
  { left. assert (Hs : (handle_bind H ev req d).2 = d).
    { unfold handle_bind. destruct (p_kids req) as [|v rest]; [done|].
      destruct (as_int (p_val v)); [|done]. destruct (negb _); [done|].
      destruct rest as [|x rest]; [done|]. destruct (as_str (p_val x)) as [dn|]; [|done].
      destruct rest as [|a rest]; [done|]. destruct (negb _); [done|]. destruct (negb _); [done|].
      cbn [h_bind bolt_handler].
      assert (Hb : (bolt_bind c (re_h ev) dn (p_data a) d).2 = d) by done.
      destruct (bolt_bind c (re_h ev) dn (p_data a) d) as [[[code [|]]| |] s1]; cbn in Hb; by subst. }
    destruct (handle_bind H ev req d) as [[code| |] s']; cbn in Hs; subst s'; [|done..].
    destruct (code =? Success)%N; [|apply send_final_state].
    destruct (p_kids req) as [|v [|x rest]]; [done..|]. destruct (as_str (p_val x)) as [dn|]; [|done].
    destruct (parse_normalize dn); [apply send_final_state|done]. }
  destruct (p_tag req =? CompareRequest)%N; [left; apply send_final_state|].
  destruct (p_tag req =? DelRequest)%N.
  { apply Hw. unfold handle_delete. destruct (is_empty bound) eqn:Eb; [by left|]. apply is_empty_false in Eb.
    apply Hl; [done|]. intros a. cbn [h_delete bolt_handler].
    unfold bolt_delete. destruct (write_allowed c bound) eqn:Ew; [|by left]. by apply Hbw. }
  destruct (p_tag req =? ExtendedRequest)%N eqn:Et.
  { apply N.eqb_eq in Et.
    assert (Hx : (handle_extended cfg H ev bound req d).2 = d \/
      (bound <> [] /\ exists o, (handle_extended cfg H ev bound req d).2 = (run_op (bc_base c) (re_h ev) o d).2 /\
        allowed ev bound p o)).
    { unfold handle_extended. destruct (parse_extended req) as [[oid body]|e| |] eqn:Ep; try by left.
      destruct (seqb oid pwmod_oid) eqn:Eo; [|by left]. apply seqb_eq in Eo as ->.
      assert (Hexop : password_exop p).
      { unfold parse_extended in Ep. destruct (p_kids req) as [|o rest] eqn:Ek; [done|].
        exists id, req, o, rest. split; [done|]. split; [done|]. split; [done|].
        destruct (1 <? length rest); [done|]. destruct (_ && _); [|done].
        destruct rest as [|b0 rest]; [by injection Ep|]. destruct (_ && _); [|done]. by injection Ep. }
      assert (Hpw : (handle_pwmod cfg H ev bound body d).2 = d \/
        (bound <> [] /\ exists o, (handle_pwmod cfg H ev bound body d).2 = (run_op (bc_base c) (re_h ev) o d).2 /\
          allowed ev bound p o)).
      { unfold handle_pwmod. destruct (is_empty bound) eqn:Eb; [by left|]. apply is_empty_false in Eb.
        destruct (parse_pwmod body) as [r|e| |]; [|destruct e; by left|by left|by left].
        set (user := if is_empty (pw_user r) then bound else pw_user r).
        assert (Hu : is_empty user = false).
        { unfold user. destruct (is_empty (pw_user r)) eqn:Eu; [by apply is_empty_false|done]. }
        destruct (if is_empty (pw_new r) then _ else _) as [pw|e| |]; try by left.
        destruct (hash_password pw _ _) as [hash|e| |]; try by left.
        cbn [h_password bolt_handler]. unfold bolt_password. cbn [pw_user].
        replace (is_empty bound) with false by (symmetry; by apply is_empty_false). rewrite Hu.
        destruct (parse_normalize user) as [u|] eqn:Epu; [|by left].
        destruct (negb (seqb bound u) && negb (seqb bound (bc_admin c))) eqn:Ed; [by left|].
        match goal with |- context [bolt_write c ?e ?o ?t d] =>
          pose proof (bolt_write_state e o t d) as Hst; destruct (bolt_write c e o t d) as [[[code e']| |] s'] end;
          cbn in Hst; subst s'; cbn [snd]; (right; split; [done|]; eexists; split;
            [try (destruct (code =? Success)%N); reflexivity|]); right; do 3 eexists;
            (split; [reflexivity|]; split; [done|]);
          (apply andb_false_iff in Ed as [Ed|Ed]; apply negb_false_iff in Ed; apply seqb_eq in Ed;
            [left; by rewrite Ed|by right]). }
      destruct (handle_pwmod cfg H ev bound body d) as [[[[code e] v]| |] s']; cbn [snd] in *; [|done..].
      by destruct (negb (code =? Success)%N && negb e). }
    destruct (handle_extended cfg H ev bound req d) as [[[code v]| |] s']; cbn [snd] in *; [|done..].
    by rewrite send_final_state. }
  destruct (p_tag req =? ModifyDNRequest)%N.
  { apply Hw. unfold handle_moddn. destruct (is_empty bound) eqn:Eb; [by left|]. apply is_empty_false in Eb.
    apply Hl; [done|]. intros a. cbn [h_moddn bolt_handler].
    unfold bolt_moddn. destruct (write_allowed c bound) eqn:Ew; [|by left]. by apply Hbw. }
  destruct (p_tag req =? ModifyRequest)%N.
  { apply Hw. unfold handle_modify. destruct (is_empty bound) eqn:Eb; [by left|]. apply is_empty_false in Eb.
    apply Hl; [done|]. intros a. cbn [h_modify bolt_handler].
    unfold bolt_modify. destruct (write_allowed c bound) eqn:Ew; [|by left]. by apply Hbw. }
  destruct (p_tag req =? SearchRequest)%N; [|by left]. left.
  assert (Hs : (handle_search cfg H ev bound req d).2 = d).
  { unfold handle_search. destruct (parse_search req) as [r|e| |]; try done.
    assert (Hrun : forall flt, (match h_search H (re_h ev) bound r d with
        | (HRet f, s') =>
            if f_err f then ([], HRet (Some (f_code f)), s')
            else match search_loop (sv_enforce cfg) flt r (re_send ev) (f_entries f) 0 with
                 | (es, Ok _) => (es, HRet None, s')
                 | (es, Err (ELdap code _)) => (es, HRet (Some code), s')
                 | (es, Err _) => (es, HRet (Some OperationsError), s')
                 | (es, Panic) => (es, HPanic, s')
                 | (es, Diverge) => (es, HKill, s')
                 end
        | (HPanic, s') => ([], HPanic, s')
        | (HKill, s') => ([], HKill, s')
        end).2 = d).
    { intros flt. cbn [h_search bolt_handler]. unfold bolt_search.
      destruct (search d (sr_base r) (sr_scope r)) as [[es x]|e| |]; try done; cbn [f_err f_entries];
        match goal with |- context [search_loop ?a ?b ?c ?d ?e ?f] =>
          destruct (search_loop a b c d e f) as [l [u|[]| |]] end; done. }
    destruct (sv_enforce cfg); [|apply Hrun]. destruct (compile_filter (sr_filter r)); [apply Hrun|done]. }
  destruct (handle_search cfg H ev bound req d) as [[es [o| |]] s']; cbn in Hs; subst; [|done..].
  apply send_final_state.
Qed.

(** A changed password: nothing but the userPassword attributes of the entry
    stored under the name changes. *)
Definition own_password_change (d d' : db) (name : str) : Prop :=
  dn2id d' = dn2id d /\ id2ch d' = id2ch d /\ idseq d' = idseq d /\
  exists v k e e', dn2id d !! name = Some v /\ k = id_bytes (le_val (take 8 v)) /\
    id2ent d !! k = Some e /\ id2ent d' = <[k := e']> (id2ent d) /\ e_dn e' = e_dn e /\
    bfilter (fun a => negb (same (a_name a) (B "userPassword"))) (e_attrs e') =
    bfilter (fun a => negb (same (a_name a) (B "userPassword"))) (e_attrs e).
Lemma password_op_change base ev user old hash name d :
  parse_normalize user = Some name ->
  let d' := (run_op base ev (OpPassword (mkPw user old hash)) d).2 in
  d' = d \/ own_password_change d d' name.
Proof using Type.
  intros Hp. unfold run_op. cbn [op_body]. unfold update_password. cbn [pw_user pw_old pw_new]. rewrite Hp.
  cbv zeta. unfold update.
  match goal with |- context [?m (e_fault ev) d 0] => destruct (m (e_fault ev) d 0) as [[[] [d1 n]]|e| |] eqn:Em end;
    [|by left..].
  assert (Hown : own_password_change d d1 name).
  { unfold t_bind, t_read in Em. unfold get_entry_by_dn, get_id in Em.
    destruct (dn2id d !! name) as [v|] eqn:Ev; [|done].
    destruct (length v <? 8); [done|]. cbn [rbind] in Em.
    destruct (le_val (take 8 v) =? 0)%N; [done|]. unfold get_entry in Em.
    destruct (id2ent d !! id_bytes (le_val (take 8 v))) as [e|] eqn:Ee; [|done]. cbn [rbind fst snd] in Em.
    unfold t_lift, t_read in Em. destruct (check_old e old) as [[]|x| |]; try done.
    unfold t_maperr, entry_modify_with, t_bind, t_lift, t_read in Em. cbn [fst snd] in Em.
    destruct (apply_modify e _) as [e'|x| |] eqn:Ea; try done.
    unfold put_id2ent, t_write in Em. destruct (e_fault ev 0); [done|].
    destruct (key_ok _); [|done]. injection Em as <- <-.
    split; [done|]. split; [done|]. split; [done|]. exists v, (id_bytes (le_val (take 8 v))), e, e'.
    split; [done|]. split; [done|]. split; [done|]. split; [done|].
    apply modify_untouched in Ea as [Hdn Hun]. split; [done|]. cbn [m_changes] in Hun.
    assert (Hext : forall l, bfilter (fun a => negb (named_by [mkChange MReplace (B "userPassword") [hash]] a)) l =
      bfilter (fun a => negb (same (a_name a) (B "userPassword"))) l).
    { intros l. apply filter_ext. intros a. unfold named_by. cbn [existsb c_type]. by rewrite orb_false_r. }
    by rewrite !Hext in Hun. }
  destruct (e_commit ev); [by right|by left|by left|by right].
Qed.
End bolt.
