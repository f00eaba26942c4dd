(** Property C101: whatever fails, whatever clients send, and however often the
    process dies and is started again, the directory only goes through operations
    somebody asked for and was entitled to, and the answers tell which. *)
From Verif Require Import Bytes Text Dn DnProofs Res Entry EntryProofs Password PasswordProofs
  Db DbSpec IdProofs DbProofs DbOps DbSearch DbFacts DbMore P_Password P_Db
  Packet Filter FilterProofs P_Filter Handler Server ServerProofs CrashProofs P_Server
  Encode EncodeProofs E2e E2eProofs P_E2e SessionProofs P_Session P_Bind
  AccountProofs P_Account TwinProofs P_Twin Conns ConnsProofs P_Conns P_Refine.

Section faults.
Context {T : Text} {C : Crypto} {W : Wire}.
Variables (cfg : server_cfg) (c : bolt_cfg).

(** The message [p] asks for the operation [o] (RFC 4511, 4.6-4.9, and RFC 3062),
    on a connection bound to [bound]; in a password change the stored value
    accepts the password asked for, or the one generated, and no other. *)
Definition wishes (ev : renv env) (bound : str) (p : packet) (o : op) : Prop :=
  exists i req rest id, p_kids p = i :: req :: rest /\ p_val i = VInt id /\
  (says_write req o \/
   exists r pw hash, says_password req r /\ pw_chosen cfg ev r pw /\ (forall q, validate q hash = Ok true <-> q = pw) /\
     o = OpPassword (mkPw (pw_for bound r) (pw_old r) hash)).
(** Who may do what: the administrator everything, anyone else who is not
    anonymous their own password. *)
Definition entitled (bound : str) (o : op) : Prop :=
  bound <> [] /\ (bound = bc_admin c \/ exists r, o = OpPassword r /\ parse_normalize (pw_user r) = Some bound).

Lemma wants_asks ev bound p o : wishes ev bound p o -> asks bound p o.
Proof using Type.
  intros (i & req & rest & id & Hk & Hi & [Hw|(r & pw & hash & Hs & _ & _ & ->)]); exists i, req, rest, id;
    (split; [done|]; split; [done|]); [by left|right]. exists r, hash. split; [done|]. by unfold pw_for; destruct (pw_user r).
Qed.
Lemma tr_code o e base ev d d' : run_op base ev o d = (Done (Err e), d') ->
  ((match o with OpModify _ | OpModDn _ => ldap_error | _ => plain_error end) e).1 <> 0%N.
Proof using Type.
  intros Erun. pose proof (run_op_errs _ _ _ _ _ _ Erun) as He.
  destruct o; destruct e; try done; cbn [fst ldap_error]; cbn in He; rewrite N.mod_small; lia.
Qed.
(** What one message does to the database, and what is answered. *)
Lemma handle_reports (HT : TextOK T) (HC : CryptoOK C) ev bound p d :
  let r := handle cfg (bolt_handler c) ev bound p d in
  (exists o x, wishes ev bound p o /\ entitled bound o /\ run_op (bc_base c) (re_h ev) o d = (x, r_state r) /\
     forall id tag code v, In (RFinal id tag code v) (r_out r) -> x <> Crashed /\ (code = 0%N <-> x = Done (Ok tt))) \/
  (r_state r = d /\ forall o id tag v, asks bound p o -> ~ In (RFinal id tag 0 v) (r_out r)).
Proof using Type.
  cbv zeta. destruct (handle_inv cfg (bolt_handler c) ev bound p d) as [->|[[-> _]|(id & req & Henv & Hh & _)]];
    [right; split; [done|]; intros ? ? ? ? _ []..|].
  destruct Henv as (i & rest & Hk & Hi & Hc).
  assert (Hinv : forall o, asks bound p o -> says_write req o \/
    exists r hash, says_password req r /\ o = OpPassword (mkPw (match pw_user r with [] => bound | u => u end) (pw_old r) hash)).
  { intros o (i' & req' & rest' & id' & Hk' & _ & Ho). rewrite Hk in Hk'. by injection Hk' as <- <- <-. }
  assert (Hwant : forall o, says_write req o -> wishes ev bound p o).
  { intros o Ho. exists i, req, rest, id. auto. }
  destruct (in_dec N.eq_dec (p_tag req) [AddRequest; DelRequest; ModifyRequest; ModifyDNRequest; ExtendedRequest]) as [Hin|Hout].
  2:{ assert (Hno : forall o, ~ asks bound p o).
      { intros o Ha. apply Hout. destruct (Hinv o Ha) as [[_ [[-> _]|[[-> _]|[[-> _]|[-> _]]]]]|(r & h & (_ & -> & _) & _)]; cbn; tauto. }
      right. split; [|intros o ? ? ? Ha; by destruct (Hno o)].
      destruct (handle_asks cfg c ev bound p d) as [Hd|(o & Ha & _)]; [done|by destruct (Hno o)]. }
  rewrite Hh. clear Hh.
  assert (Hsent : forall (r : hout answer * db) tag id0 tag0 v0 code0,
    In (RFinal id0 tag0 code0 v0) (r_out (finish ev id tag bound r)) -> exists e, r.1 = HRet (code0, e)).
  { intros [[[code e]| |] s] tag id0 tag0 v0 code0; cbn [finish]; [|by intros []..].
    unfold send_final. destruct (re_send ev 0); cbn [r_out Datatypes.app]; [|by intros []].
    intros [[= _ _ <- _]|[]]. by exists e. }
  (* the four writes *)
  assert (Hw : forall A (r : res A) (mk : A -> op) tag tr,
    (forall a, r = Ok a -> says_write req (mk a)) -> (forall o, says_write req o -> exists a, r = Ok a) ->
    (forall a, tr = match mk a with OpModify _ | OpModDn _ => ldap_error | _ => plain_error end) ->
    p_tag req <> ExtendedRequest ->
    let f := finish ev id tag bound (if is_empty bound then (HRet (InsufficientAccessRights, true), d)
      else lift_res r (fun a => if write_allowed c bound
      then bolt_write c (re_h ev) (mk a) tr d else (HRet (InsufficientAccessRights, false), d)) d) in
    (exists o x, wishes ev bound p o /\ entitled bound o /\ run_op (bc_base c) (re_h ev) o d = (x, r_state f) /\
      forall id tag code v, In (RFinal id tag code v) (r_out f) -> x <> Crashed /\ (code = 0%N <-> x = Done (Ok tt))) \/
    (r_state f = d /\ forall o id tag v, asks bound p o -> ~ In (RFinal id tag 0 v) (r_out f))).
  { intros A r mk tag tr Hr Hr' Htr Hne. cbv zeta. rewrite finish_state.
    destruct (is_empty bound) eqn:Ebe.
    { right. split; [done|]. intros o id0 tag0 v0 _ Hx. by apply Hsent in Hx as [e [=]]. }
    destruct r as [a|e| |]; cbn [lift_res].
    - destruct (write_allowed c bound) eqn:Ewa.
      + left. exists (mk a), (run_op (bc_base c) (re_h ev) (mk a) d).1. rewrite bolt_write_state.
        split; [apply Hwant; by apply Hr|]. split.
        { unfold write_allowed in Ewa. apply andb_true_iff in Ewa as [_ Ewa]. apply seqb_eq in Ewa.
          split; [by destruct bound|by left]. }
        split; [by destruct (run_op _ _ _ _)|]. intros id0 tag0 code0 v0 Hx. apply Hsent in Hx as [e He].
        revert He. unfold bolt_write. destruct (run_op (bc_base c) (re_h ev) (mk a) d) as [[[[]|x| |]|] d'] eqn:Erun; cbn [fst]; try done.
        { intros [= <- _]. by split. }
        intros He. assert ((tr x).1 = code0) as <- by by injection He as ->.
        rewrite (Htr a). split; [done|]. split; [|done]. intros H0. by destruct (tr_code _ _ _ _ _ _ Erun).
      + right. split; [done|]. intros o id0 tag0 v0 _ Hx. by apply Hsent in Hx as [e [=]].
    - assert (Hnone : forall o, ~ asks bound p o).
      { intros o Ha. destruct (Hinv o Ha) as [Hs|(q & h & (_ & Ht & _) & _)]; [|done]. by destruct (Hr' o Hs). }
      right. split; [by destruct e|]. intros o ? ? ? Ha. by destruct (Hnone o).
    - right. split; [done|]. intros o id0 tag0 v0 _ Hx. by apply Hsent in Hx as [e He].
    - right. split; [done|]. intros o id0 tag0 v0 _ Hx. by apply Hsent in Hx as [e He]. }
  assert (Hself : forall t, p_tag req = t -> forall o, says_write req o ->
    (t = AddRequest /\ exists r, says_add req r /\ o = OpPut (entry_from_add r)) \/
    (t = DelRequest /\ exists dn, says_delete req dn /\ o = OpDelete dn) \/
    (t = ModifyRequest /\ exists r, says_modify req r /\ o = OpModify r) \/
    (t = ModifyDNRequest /\ exists r, says_moddn req r /\ o = OpModDn r)).
  { intros t <- o [_ Ho]. exact Ho. }
  unfold dispatch. destruct Hin as [Et|[Et|[Et|[Et|[Et|[]]]]]]; symmetry in Et; rewrite Et.
  - change (AddRequest =? AddRequest)%N with true. cbn match.
    apply (Hw add_req (parse_add req) (fun r => OpPut (entry_from_add r)) AddResponse plain_error); [| |done|by rewrite Et].
    { intros a Ha. split; [done|]. left. split; [done|]. exists a. split; [by apply add_iff|done]. }
    intros o Ho. destruct (Hself _ Et o Ho) as [[_ (r & Hr & _)]|[[? _]|[[? _]|[? _]]]]; try done. exists r. by apply add_iff.
  - change (DelRequest =? AddRequest)%N with false. change (DelRequest =? BindRequest)%N with false.
    change (DelRequest =? CompareRequest)%N with false. change (DelRequest =? DelRequest)%N with true. cbn match.
    apply (Hw str (parse_delete req) OpDelete DelResponse plain_error); [| |done|by rewrite Et].
    { intros a Ha. split; [done|]. right; left. split; [done|]. exists a. split; [by apply delete_iff|done]. }
    intros o Ho. destruct (Hself _ Et o Ho) as [[? _]|[[_ (r & Hr & _)]|[[? _]|[? _]]]]; try done. exists r. by apply delete_iff.
  - change (ModifyRequest =? AddRequest)%N with false. change (ModifyRequest =? BindRequest)%N with false.
    change (ModifyRequest =? CompareRequest)%N with false. change (ModifyRequest =? DelRequest)%N with false.
    change (ModifyRequest =? ExtendedRequest)%N with false. change (ModifyRequest =? ModifyDNRequest)%N with false.
    change (ModifyRequest =? ModifyRequest)%N with true. cbn match.
    apply (Hw modify_req (parse_modify req) OpModify ModifyResponse ldap_error); [| |done|by rewrite Et].
    { intros a Ha. split; [done|]. right; right; left. split; [done|]. exists a. split; [by apply modify_iff|done]. }
    intros o Ho. destruct (Hself _ Et o Ho) as [[? _]|[[? _]|[[_ (r & Hr & _)]|[? _]]]]; try done. exists r. by apply modify_iff.
  - change (ModifyDNRequest =? AddRequest)%N with false. change (ModifyDNRequest =? BindRequest)%N with false.
    change (ModifyDNRequest =? CompareRequest)%N with false. change (ModifyDNRequest =? DelRequest)%N with false.
    change (ModifyDNRequest =? ExtendedRequest)%N with false. change (ModifyDNRequest =? ModifyDNRequest)%N with true. cbn match.
    apply (Hw moddn_req (parse_moddn req) OpModDn ModifyDNResponse ldap_error); [| |done|by rewrite Et].
    { intros a Ha. split; [done|]. right; right; right. split; [done|]. exists a. split; [by apply moddn_iff|done]. }
    intros o Ho. destruct (Hself _ Et o Ho) as [[? _]|[[? _]|[[? _]|[_ (r & Hr & _)]]]]; try done. exists r. by apply moddn_iff.
  - change (ExtendedRequest =? AddRequest)%N with false. change (ExtendedRequest =? BindRequest)%N with false.
    change (ExtendedRequest =? CompareRequest)%N with false. change (ExtendedRequest =? DelRequest)%N with false.
    change (ExtendedRequest =? ExtendedRequest)%N with true. cbn match.
    assert (Hask : forall o, asks bound p o -> exists r, says_password req r).
    { intros o Ha. destruct (Hinv o Ha) as [Hs|(r & h & Hr & _)]; [|by exists r].
      by destruct (Hself _ Et o Hs) as [[? _]|[[? _]|[[? _]|[? _]]]]. }
    assert (Hx : (exists o x, wishes ev bound p o /\ entitled bound o /\
        run_op (bc_base c) (re_h ev) o d = (x, (handle_extended cfg (bolt_handler c) ev bound req d).2) /\
        forall code v, (handle_extended cfg (bolt_handler c) ev bound req d).1 = HRet (code, v) -> x <> Crashed /\ (code = 0%N <-> x = Done (Ok tt))) \/
      ((handle_extended cfg (bolt_handler c) ev bound req d).2 = d /\
        forall o v, asks bound p o -> (handle_extended cfg (bolt_handler c) ev bound req d).1 <> HRet (0%N, v))).
    { assert (Hq : forall o, asks bound p o -> exists r body, parse_extended req = Ok (pwmod_oid, body) /\ parse_pwmod body = Ok r).
      { intros o Ha. destruct (Hask o Ha) as [r Hr]. apply (password_iff req r Hc Et) in Hr as (body & ? & ?). by exists r, body. }
      unfold handle_extended. destruct (parse_extended req) as [[oid body]|e| |] eqn:Ep.
      2-4: right; split; [done|]; intros o v Ha; by destruct (Hq o Ha) as (? & ? & ? & _).
      destruct (seqb oid pwmod_oid) eqn:Eo; [|by right].
      apply seqb_eq in Eo as ->. unfold handle_pwmod.
      destruct (is_empty bound) eqn:Hbe; [by right|].
      destruct (parse_pwmod body) as [r|e| |] eqn:Er.
      2-4: right; split; [|intros o v Ha; destruct (Hq o Ha) as (? & ? & Hp1 & Hp2); assert (body = x0) as -> by congruence; congruence].
      2: destruct e; cbv beta iota zeta; by destruct (negb _ && negb _).
      2-3: done.
      set (user := if is_empty (pw_user r) then bound else pw_user r).
      assert (Hu : is_empty user = false).
      { unfold user. destruct (is_empty (pw_user r)) eqn:Eu; done. }
      destruct (if is_empty (pw_new r) then _ else _) as [pw|e| |] eqn:Epw; [|by right..].
      destruct (hash_password pw _ _) as [hash|e| |] eqn:Eh; [|by right..].
      cbn [h_password bolt_handler]. unfold bolt_password. cbn [pw_user]. rewrite Hbe, Hu.
      destruct (parse_normalize user) as [u|] eqn:Epu; [|by right].
      destruct (negb (seqb bound u) && negb (seqb bound (bc_admin c))) eqn:Ed; [by right|].
      left. exists (OpPassword (mkPw user (pw_old r) hash)), (run_op (bc_base c) (re_h ev) (OpPassword (mkPw user (pw_old r) hash)) d).1.
      split.
      { exists i, req, rest, id. split; [done|]. split; [done|]. right. exists r, pw, hash.
        split; [apply password_iff; [done..|]; by exists body|].
        split. { unfold pw_chosen. destruct (pw_new r) as [|x y]; cbn [is_empty] in Epw; [by right|left]. split; [done|]. by injection Epw as <-. }
        split. { intros q. destruct (C29_hash_then_validate T C HT HC pw _ _ _ q Eh) as [[_ H]|[? _]]; [exact H|done]. }
        unfold user, pw_for. by destruct (pw_user r). }
      split.
      { split; [by apply is_empty_false|]. apply andb_false_iff in Ed as [Ed|Ed]; apply negb_false_iff, seqb_eq in Ed; [|by left].
        right. eexists. split; [done|]. cbn [pw_user]. by rewrite Epu, Ed. }
      unfold bolt_write. destruct (run_op _ _ _ d) as [[[[]|e| |]|] d']; cbn [fst snd];
        [change (Success =? Success)%N with true; cbn [negb andb fst snd]; (split; [done|]); by intros code v [= <- _]
        |change (ResultOther =? Success)%N with false; cbn [negb andb fst snd]; (split; [done|]); by intros code v [= <- _]
        |by split..]. }
    destruct (handle_extended cfg (bolt_handler c) ev bound req d) as [[[code v]| |] s']; cbn [fst snd] in Hx.
    2-3: destruct Hx as [(o & x & H1 & H2 & H3 & _)|[-> _]];
      [left; exists o, x; (split; [done|]); (split; [done|]); (split; [done|]); by intros ? ? ? ? []
      |right; split; [done|]; by intros ? ? ? ? _ []].
    rewrite send_final_state.
    assert (Hfin : forall id0 tag0 code0 v0, In (RFinal id0 tag0 code0 v0)
      (r_out (send_final ev 0 [] (RFinal id ExtendedResponse code v) (Go bound) s')) -> code0 = code).
    { intros id0 tag0 code0 v0. unfold send_final. destruct (re_send ev 0); cbn [r_out Datatypes.app]; [|by intros []].
      by intros [[= _ _ <- _]|[]]. }
    destruct Hx as [(o & x & H1 & H2 & H3 & H4)|[-> Hx]].
    + left. exists o, x. split; [done|]. split; [done|]. split; [done|]. intros id0 tag0 code0 v0 Hi0.
      apply Hfin in Hi0 as ->. by destruct (H4 code v) as [? ?].
    + right. split; [done|]. intros o id0 tag0 v0 Ha Hi0. apply Hfin in Hi0 as <-. by apply (Hx o v Ha).
Qed.

(** What happens to a server: an event of a connection, or the process is started
    again on the database there is (after it died, or was stopped at any time). *)
Inductive moment := Event (e : event (E:=env)) | Restart.
Definition advance (w : world (S:=db)) (x : moment) : world (S:=db) * list response :=
  match x with
  | Event e => step cfg (bolt_handler c) w e
  | Restart => (start (w_state w), [])
  end.
Definition course (w : world (S:=db)) (ms : list moment) : world (S:=db) := fold_left (fun w x => (advance w x).1) ms w.
Lemma course_snoc w ms x : course w (ms ++ [x]) = (advance (course w ms) x).1.
Proof using Type. unfold course. by rewrite fold_left_app. Qed.

(** The moment [x], with the output [out], when the connections are bound to
    [conns] and the directory is [m], leaving [m'].  Either one operation of the
    abstract directory took place that the message asks for and its sender is
    entitled to, and the client was not told that it failed; or nothing took place,
    and the client was not told that an operation succeeded. *)
Definition tells (b : dn) (conns : gmap nat str) (x : moment) (out : list response) (m m' : dir) : Prop :=
  (exists k ev p bound o, x = Event (EPacket k ev p) /\ conns !! k = Some bound /\ wishes ev bound p o /\ entitled bound o /\
     spec_op b o m = Ok m' /\ forall id tag code v, In (RFinal id tag code v) out -> code = 0%N) \/
  (m' = m /\ forall k ev p bound o id tag v, x = Event (EPacket k ev p) -> conns !! k = Some bound -> asks bound p o ->
     ~ In (RFinal id tag 0 v) out).

(** A start: a base, a database made by operations with well-formed names, and
    messages with well-formed names, fewer than the identifiers there are. *)
Definition safe (b : dn) (h0 : list (env * op)) (ms : list moment) : Prop :=
  base_ok b /\ bc_base c = normalize b /\ Forall (fun p => op_ok p.2) h0 /\
  (forall conn ev p, In (Event (EPacket conn ev p)) ms -> clean p) /\
  (N.of_nat (length h0 + length ms) + 1 < 2 ^ 64)%N.
Definition begin (b : dn) (h0 : list (env * op)) : world (S:=db) := start (run_ops (normalize b) h0 empty_db).

Lemma safe_app b h0 ms ms' : safe b h0 (ms ++ ms') -> safe b h0 ms.
Proof using Type.
  intros (Hb & Hc & Hh & Hcl & Hl). split; [done|]. split; [done|]. split; [done|]. split.
  - intros conn ev p Hin. apply (Hcl conn ev p). apply in_or_app. by left.
  - rewrite app_length in Hl. lia.
Qed.
Lemma text_nil (HT : TextOK T) : dn_text_ok [].
Proof using Type. intros dd. unfold parse_dn. rewrite (trim_dn_print _ HT) by constructor. by intros [= <-]. Qed.
Lemma advance_packet w k ev p bound : w_alive w = true -> w_conns w !! k = Some bound ->
  let r := handle cfg (bolt_handler c) ev bound p (w_state w) in
  w_state (advance w (Event (EPacket k ev p))).1 = r_state r /\ (advance w (Event (EPacket k ev p))).2 = r_out r.
Proof using Type.
  intros Ha Hw. cbv zeta. unfold advance, step. rewrite Ha, Hw. cbn [negb fst snd]. by destruct (r_next _).
Qed.
(** A moment other than a message of a connection there is changes nothing and sends nothing. *)
Lemma advance_quiet w x :
  (w_state (advance w x).1 = w_state w /\ (advance w x).2 = []) \/
  exists k ev p bound, x = Event (EPacket k ev p) /\ w_conns w !! k = Some bound /\ w_alive w = true.
Proof using Type.
  destruct x as [e|]; [|by left]. cbn [advance]. unfold step. destruct (w_alive w) eqn:Ea; cbn [negb]; [|by left].
  destruct e as [k|k ev p|k].
  - left. by destruct (w_conns w !! k).
  - destruct (w_conns w !! k) as [bound|] eqn:Ek; [|by left]. right. by exists k, ev, p, bound.
  - by left.
Qed.
Lemma advance_bound w x k bound : w_conns (advance w x).1 !! k = Some bound ->
  bound = [] \/ w_conns w !! k = Some bound \/
  exists ev p dn pw, x = Event (EPacket k ev p) /\ simple_bind p dn pw /\ parse_normalize dn = Some bound.
Proof using Type.
  destruct x as [e|]; [|by cbn; rewrite lookup_empty]. cbn [advance]. unfold step. destruct (negb (w_alive w)); [by right; left|].
  destruct e as [j|j ev p|j]; cbn [fst].
  - destruct (w_conns w !! j); cbn [fst w_conns]; [by right; left|].
    intros [[_ <-]|[_ ?]]%lookup_insert_Some; [by left|by right; left].
  - destruct (w_conns w !! j) as [b0|] eqn:Ej; cbn [fst]; [|by right; left].
    destruct (r_next _) as [b1| |] eqn:En; cbn [w_conns].
    + intros [[-> ->]|[_ ?]]%lookup_insert_Some; [|by right; left].
      destruct (decide (bound = b0)) as [->|Hne]; [by right; left|].
      right; right. apply handle_identity in En as (dn & pw & Hs & Hn & _); [|done]. by exists ev, p, dn, pw.
    + intros [_ ?]%lookup_delete_Some. by right; left.
    + by rewrite lookup_empty.
  - cbn [w_conns]. intros [_ ?]%lookup_delete_Some. by right; left.
Qed.
Lemma safe_bound (HT : TextOK T) b h0 ms k bound :
  safe b h0 ms -> w_conns (course (begin b h0) ms) !! k = Some bound -> dn_text_ok bound.
Proof using Type.
  revert k bound. induction ms as [|x ms IH] using rev_ind; intros k bound Hs Hk; [by cbn in Hk; rewrite lookup_empty in Hk|].
  rewrite course_snoc in Hk. apply advance_bound in Hk as [->|[Hk|(ev & p & dn & pw & -> & Hsb & Hn)]].
  - by apply text_nil.
  - by apply (IH k bound (safe_app _ _ _ _ Hs)).
  - destruct Hs as (_ & _ & _ & Hcl & _). destruct (Hcl k ev p) as [_ Hbind]; [apply in_or_app; right; by left|].
    by eapply Hbind.
Qed.
Lemma safe_history (HT : TextOK T) b h0 ms : safe b h0 ms ->
  exists h, Forall (fun p => op_ok p.2) h /\ length h <= length h0 + length ms /\
    w_state (course (begin b h0) ms) = run_ops (normalize b) h empty_db.
Proof using Type.
  induction ms as [|x ms IH] using rev_ind; intros Hs; [exists h0; repeat split; [apply Hs|cbn; lia]|].
  destruct (IH (safe_app _ _ _ _ Hs)) as (h & Hok & Hl & Hst). rewrite course_snoc. set (w := course (begin b h0) ms) in *.
  rewrite app_length. cbn [length].
  assert (Hsame : w_state (advance w x).1 = w_state w -> exists h', Forall (fun p => op_ok p.2) h' /\
    length h' <= length h0 + (length ms + 1) /\ w_state (advance w x).1 = run_ops (normalize b) h' empty_db).
  { intros ->. exists h. split; [done|]. split; [lia|done]. }
  destruct (advance_quiet w x) as [[Hq _]|(k & ev & p & bound & -> & Hk & Ha)]; [by apply Hsame|].
  destruct (advance_packet w k ev p bound Ha Hk) as [Hw _].
  destruct (handle_asks cfg c ev bound p (w_state w)) as [Hd|(o & Hask & Hd)].
  { apply Hsame. by rewrite Hw. }
  rewrite Hw, Hd. exists (h ++ [(re_h ev, o)]). destruct Hs as (Hb & Hc & Hh & Hcl & Hn).
  split; [|split; [rewrite app_length; cbn [length]; lia|]].
  - apply Forall_app. split; [done|]. constructor; [|done]. cbn [snd].
    destruct (Hcl k ev p) as [Hops _]; [apply in_or_app; right; by left|]. apply (Hops bound o); [|done].
    eapply (safe_bound HT b h0 ms k); [|exact Hk]. eapply safe_app. exact (conj Hb (conj Hc (conj Hh (conj Hcl Hn)))).
  - rewrite run_ops_app. cbn [run_ops fold_left]. rewrite <- Hst, Hc. done.
Qed.
Lemma safe_reachable (HT : TextOK T) b h0 ms : safe b h0 ms -> reachable b (w_state (course (begin b h0) ms)).
Proof using Type.
  intros Hs. destruct (safe_history HT b h0 ms Hs) as (h & Hok & Hl & ->). exists h. split; [done|]. split; [|done].
  destruct Hs as (_ & _ & _ & _ & Hn). lia.
Qed.
End faults.

(** C101.  At every moment of the life of a server, and of the servers started
    after it on the same database, the database holds one directory, before and
    after; and whatever the database, the disk and the network do and whatever
    the client sent, it is changed, if at all, by one operation the client asked
    for and was entitled to - and the client has not been told otherwise. *)
Theorem C101_moment (T : Text) (C : Crypto) (W : Wire) (HT : TextOK T) (HC : CryptoOK C) (cfg : server_cfg) (c : bolt_cfg)
    (b : dn) (h0 : list (env * op)) (ms : list moment) (x : moment) :
  safe c b h0 (ms ++ [x]) ->
  let w := course cfg c (begin b h0) ms in
  exists m m', represents (w_state w) m /\ (forall m1, represents (w_state w) m1 -> m1 = m) /\
    represents (w_state (advance cfg c w x).1) m' /\ (forall m1, represents (w_state (advance cfg c w x).1) m1 -> m1 = m') /\
    tells cfg c b (w_conns w) x (advance cfg c w x).2 m m'.
Proof.
  intros Hs w. pose proof (safe_app c _ _ _ _ Hs) as Hs0.
  pose proof (safe_reachable cfg c HT b h0 ms Hs0) as Hr. pose proof (safe_reachable cfg c HT b h0 _ Hs) as Hr'.
  rewrite course_snoc in Hr'. fold w in Hr, Hr'. pose proof Hs as (Hb & Hc & Hh & Hcl & Hn).
  destruct (C13_every_state_is_a_directory T C HT b _ Hb Hr) as (m & Hm & Hu).
  destruct (C13_every_state_is_a_directory T C HT b _ Hb Hr') as (m' & Hm' & Hu').
  exists m, m'. split; [done|]. split; [done|]. split; [done|]. split; [done|].
  destruct (advance_quiet cfg c w x) as [[Hq Ho]|(k & ev & p & bound & -> & Hk & Ha)].
  { right. rewrite Hq in Hm'. split; [by apply Hu|]. rewrite Ho. by intros ? ? ? ? ? ? ? ? _ _ _ []. }
  destruct (advance_packet cfg c w k ev p bound Ha Hk) as [Hw Ho]. rewrite Ho. rewrite Hw in Hm', Hu', Hr'.
  destruct (handle_reports cfg c HT HC ev bound p (w_state w)) as [(o & y & Hwant & Hent & Hrun & Hans)|[Hd Hno]].
  2:{ right. rewrite Hd in Hm'. split; [by apply Hu|]. intros k1 ev1 p1 bound1 o id tag v He Hk1 Hask.
      injection He as <- <- <-. rewrite Hk in Hk1. injection Hk1 as <-. by apply (Hno o). }
  assert (Hok : op_ok o).
  { destruct (Hcl k ev p) as [Hops _]; [apply in_or_app; right; by left|].
    apply (Hops bound o); [by apply (safe_bound cfg c HT b h0 ms k)|]. by eapply wants_asks. }
  assert (Hdone : run_op (normalize b) no_faults o (w_state w) = (Done (Ok tt), r_state (handle cfg (bolt_handler c) ev bound p (w_state w))) ->
    spec_op b o m = Ok m').
  { intros Hr0. pose proof (C13_database_refines_directory T C HT b (w_state w) m o Hb Hr Hm Hok) as H13. rewrite Hr0 in H13.
    destruct (spec_op b o m) as [m1|e| |]; try done. destruct H13 as (d1 & Hd1 & Hm1).
    assert (d1 = r_state (handle cfg (bolt_handler c) ev bound p (w_state w))) as -> by congruence. by rewrite (Hu' m1). }
  rewrite Hc in Hrun. pose proof (C14_all_or_nothing T C _ _ _ _ _ _ Hrun) as H14.
  assert (Hsame : r_state (handle cfg (bolt_handler c) ev bound p (w_state w)) = w_state w -> y <> Done (Ok tt) ->
    tells cfg c b (w_conns w) (Event (EPacket k ev p)) (r_out (handle cfg (bolt_handler c) ev bound p (w_state w))) m m').
  { intros Heq Hy. right. rewrite Heq in Hm'. split; [by apply Hu|]. intros k1 ev1 p1 bound1 o1 id tag v _ _ _ Hin.
    apply Hy. destruct (Hans _ _ _ _ Hin) as [_ Hz]. by apply Hz. }
  assert (Hchg : run_op (normalize b) no_faults o (w_state w) = (Done (Ok tt), r_state (handle cfg (bolt_handler c) ev bound p (w_state w))) ->
    (forall id tag code v, In (RFinal id tag code v) (r_out (handle cfg (bolt_handler c) ev bound p (w_state w))) -> code = 0%N) ->
    tells cfg c b (w_conns w) (Event (EPacket k ev p)) (r_out (handle cfg (bolt_handler c) ev bound p (w_state w))) m m').
  { intros Hr0 Hz. left. exists k, ev, p, bound, o. repeat (split; [done|]). split; [by apply Hdone|done]. }
  destruct y as [[[]|e| |]|].
  - apply Hchg; [done|]. intros id tag code v Hin. destruct (Hans _ _ _ _ Hin) as [_ Hz]. by apply Hz.
  - by apply Hsame.
  - by apply Hsame.
  - by apply Hsame.
  - destruct H14 as [Heq|[_ Hr0]]; [by apply Hsame|]. apply Hchg; [done|]. intros id tag code v Hin. by destruct (Hans _ _ _ _ Hin).
Qed.
Print Assumptions C101_moment.

(** Operations of the abstract directory one after the other. *)
Fixpoint spec_ops {T : Text} {C : Crypto} (b : dn) (os : list op) (m : dir) : res dir :=
  match os with [] => Ok m | o :: os' => rbind (spec_op b o m) (spec_ops b os') end.
Lemma spec_ops_app {T : Text} {C : Crypto} b os o m m1 : spec_ops b os m = Ok m1 -> spec_ops b (os ++ [o]) m = spec_op b o m1.
Proof.
  revert m. induction os as [|a os IH]; intros m; cbn [spec_ops Datatypes.app].
  - intros [= <-]. by destruct (spec_op b o m).
  - destruct (spec_op b a m) as [m2|e| |]; cbn [rbind]; try done. apply IH.
Qed.
(** [h] tells for each moment which operation took place, if one did; [m] is what
    the abstract directory [m0] becomes by them.  Each was asked for by a message
    of somebody entitled to it, who was not told that it failed; and who was told
    that an operation is done sent a message with an operation in [h]. *)
Definition chronicle {T : Text} {C : Crypto} {W : Wire} (cfg : server_cfg) (c : bolt_cfg) (b : dn) (h0 : list (env * op))
    (m0 : dir) (ms : list moment) (h : list (option op)) (m : dir) : Prop :=
  let at_ i := course cfg c (begin b h0) (take i ms) in
  length h = length ms /\ spec_ops b (omap id h) m0 = Ok m /\
  (forall i k ev p bound out, ms !! i = Some (Event (EPacket k ev p)) -> w_conns (at_ i) !! k = Some bound ->
    out = (advance cfg c (at_ i) (Event (EPacket k ev p))).2 ->
    match h !! i with
    | Some (Some o) => wishes cfg ev bound p o /\ entitled c bound o /\
        forall id tag code v, In (RFinal id tag code v) out -> code = 0%N
    | _ => forall o id tag v, asks bound p o -> ~ In (RFinal id tag 0 v) out
    end) /\
  forall i o, h !! i = Some (Some o) -> exists k ev p bound,
    ms !! i = Some (Event (EPacket k ev p)) /\ w_conns (at_ i) !! k = Some bound.
(** Over all the time: the directory is what the abstract directory becomes by a
    sequence of operations, at most one for each message and in the order of the
    messages, each asked for by somebody entitled to it.  All the operations
    reported as done are among them, also after crashes and restarts, and none
    that was reported as failed. *)
Theorem C101_history (T : Text) (C : Crypto) (W : Wire) (HT : TextOK T) (HC : CryptoOK C) (cfg : server_cfg) (c : bolt_cfg)
    (b : dn) (h0 : list (env * op)) (ms : list moment) (m0 : dir) :
  safe c b h0 ms -> represents (run_ops (normalize b) h0 empty_db) m0 ->
  exists (h : list (option op)) (m : dir), chronicle cfg c b h0 m0 ms h m /\ represents (w_state (course cfg c (begin b h0) ms)) m.
Proof.
  intros Hs Hm0. revert Hs. induction ms as [|x ms IH] using rev_ind; intros Hs.
  { exists [], m0. split; [|done]. split; [done|]. split; [done|]. split; [intros i k ev p bound out Hx|intros i o Hx]; by rewrite lookup_nil in Hx. }
  destruct (IH (safe_app c _ _ _ _ Hs)) as (h & m & (Hl & Hsp & Hi & Hj) & Hm). clear IH. cbv zeta in Hi, Hj.
  destruct (C101_moment T C W HT HC cfg c b h0 ms x Hs) as (m1 & m' & _ & Hu & Hm' & _ & Ht).
  rewrite <- (Hu m Hm) in Ht. clear m1 Hu. rewrite course_snoc.
  assert (Hold : forall z i k ev p bound out, (ms ++ [x]) !! i = Some (Event (EPacket k ev p)) ->
    w_conns (course cfg c (begin b h0) (take i (ms ++ [x]))) !! k = Some bound ->
    out = (advance cfg c (course cfg c (begin b h0) (take i (ms ++ [x]))) (Event (EPacket k ev p))).2 ->
    (i = length h -> x = Event (EPacket k ev p) -> w_conns (course cfg c (begin b h0) ms) !! k = Some bound ->
     out = (advance cfg c (course cfg c (begin b h0) ms) x).2 ->
      match z with
      | Some o => wishes cfg ev bound p o /\ entitled c bound o /\
          forall id tag code v, In (RFinal id tag code v) out -> code = 0%N
      | None => forall o id tag v, asks bound p o -> ~ In (RFinal id tag 0 v) out
      end) ->
      match (h ++ [z]) !! i with
      | Some (Some o) => wishes cfg ev bound p o /\ entitled c bound o /\
          forall id tag code v, In (RFinal id tag code v) out -> code = 0%N
      | _ => forall o id tag v, asks bound p o -> ~ In (RFinal id tag 0 v) out
      end).
  { intros z i k ev p bound out Hx Hk Hout Hz. apply lookup_app_Some in Hx as [Hx|[Hle Hx]].
    - pose proof (lookup_lt_Some _ _ _ Hx) as Hlt. rewrite take_app_le in Hk, Hout by lia.
      rewrite lookup_app_l by lia. by apply (Hi i k ev p bound out).
    - apply list_lookup_singleton_Some in Hx as [Hx ->]. assert (i = length ms) as -> by lia. clear Hx Hle.
      rewrite take_app in Hk, Hout. rewrite <- Hl in *. rewrite lookup_app_r, Nat.sub_diag by lia. cbn [lookup list_lookup].
      specialize (Hz eq_refl eq_refl Hk Hout). by destruct z. }
  assert (Hold2 : forall z i o, (h ++ [z]) !! i = Some (Some o) ->
    (z = Some o -> exists k ev p bound, x = Event (EPacket k ev p) /\ w_conns (course cfg c (begin b h0) ms) !! k = Some bound) ->
    exists k ev p bound, (ms ++ [x]) !! i = Some (Event (EPacket k ev p)) /\
      w_conns (course cfg c (begin b h0) (take i (ms ++ [x]))) !! k = Some bound).
  { intros z i o Hi' Hz. apply lookup_app_Some in Hi' as [Hi'|[Hle Hi']].
    - pose proof (lookup_lt_Some _ _ _ Hi') as Hlt. rewrite lookup_app_l, take_app_le by lia. by apply (Hj i o).
    - apply list_lookup_singleton_Some in Hi' as [Hx Hzo]. assert (i = length ms) as -> by lia.
      destruct (Hz Hzo) as (k & ev & p & bound & -> & Hk). exists k, ev, p, bound.
      rewrite lookup_app_r, Nat.sub_diag, take_app by lia. done. }
  destruct Ht as [(k & ev & p & bound & o & -> & Hk & Hw & He & Hsp' & Hz)|[-> Hno]].
  - exists (h ++ [Some o]), m'. split; [|done]. split; [rewrite !app_length; cbn [length]; lia|]. split.
    { rewrite omap_app. cbn [omap list_omap id]. rewrite (spec_ops_app _ _ _ _ _ Hsp). exact Hsp'. }
    split; [|intros i o' Hio; apply (Hold2 (Some o) i o' Hio); intros _; by exists k, ev, p, bound].
    intros i k1 ev1 p1 bound1 out Hx1 Hk1 Hout. apply (Hold (Some o) i k1 ev1 p1 bound1 out Hx1 Hk1 Hout).
    intros _ Heq Hk2 Hout2. injection Heq as <- <- <-. rewrite Hk in Hk2. injection Hk2 as <-. by rewrite Hout2.
  - exists (h ++ [None]), m. split; [|done]. split; [rewrite !app_length; cbn [length]; lia|]. split.
    { rewrite omap_app. cbn [omap list_omap id]. by rewrite app_nil_r. }
    split; [|intros i o' Hio; by apply (Hold2 None i o' Hio)].
    intros i k1 ev1 p1 bound1 out Hx1 Hk1 Hout. apply (Hold None i k1 ev1 p1 bound1 out Hx1 Hk1 Hout).
    intros _ Heq Hk2 Hout2 o id tag v Ha. rewrite Hout2. by apply (Hno k1 ev1 p1 bound1 o).
Qed.
Print Assumptions C101_history.
Lemma course_events {T : Text} {C : Crypto} {W : Wire} cfg c es : forall w, course cfg c w (map Event es) = run cfg (bolt_handler c) w es.
Proof. induction es as [|e es IH]; intros w; [done|]. apply IH. Qed.
(** The same when the connections are served at the same time, with any faults: for
    some order of the requests that keeps the order of each client. *)
Theorem C101_concurrent (T : Text) (C : Crypto) (W : Wire) (HT : TextOK T) (HC : CryptoOK C) (cfg : server_cfg) (c : bolt_cfg)
    (b : dn) (h0 : list (env * op)) (m0 : dir) (w : cworld) (reads : list (nat * (renv env * packet))) :
  base_ok b -> bc_base c = normalize b -> Forall (fun p => op_ok p.2) h0 ->
  (N.of_nat (length h0 + length (cw_log w)) + 1 < 2 ^ 64)%N ->
  represents (run_ops (normalize b) h0 empty_db) m0 ->
  served cfg c (run_ops (normalize b) h0 empty_db) w reads ->
  (forall k ev p, In (k, (ev, p)) reads -> clean p) ->
  exists (es : list (event (E:=env))) (h : list (option op)) (m : dir),
    chronicle cfg c b h0 m0 (map Event es) h m /\ represents (cw_db w) m /\
    (forall k, exists last, read_on k reads = asked_on k es ++ last /\ length last <= 1 /\
       (cw_alive w = true -> match cw_conns w !! k with Some x => quiet_conn x | None => True end -> last = [])) /\
    (cw_alive w = true -> forall k x, cw_conns w !! k = Some x -> quiet_conn x ->
       cn_sent x = sent_to k es (outputs cfg c (begin b h0) es)).
Proof.
  intros Hb Hc Hh0 Hlen Hm0 Hsv Hp. set (d0 := run_ops (normalize b) h0 empty_db) in *.
  destruct (C85_serial T C W cfg c d0 w (served_steps _ _ _ _ _ Hsv)) as (Hst & Hal & Hq). cbv zeta in Hst, Hal, Hq.
  assert (Hin : forall k ev p, In (EPacket k ev p) (cw_log w) -> In (k, (ev, p)) reads).
  { intros k ev p Hin. destruct (C85_requests T C W cfg c d0 w reads k Hsv) as [_ (last & Hr & _)].
    assert (Ha : In (ev, p) (asked_on k (cw_log w))).
    { clear -Hin. unfold asked_on. apply elem_of_list_In, elem_of_list_omap. exists (EPacket k ev p).
      split; [by apply elem_of_list_In|]. by rewrite Nat.eqb_refl. }
    assert (Hin' : (ev, p) ∈ read_on k reads). { rewrite Hr. apply elem_of_list_In, in_or_app. by left. }
    apply elem_of_list_omap in Hin' as ((j & q) & Hj & Hq'). cbn [fst snd] in Hq'.
    destruct (j =? k) eqn:E; [|done]. apply Nat.eqb_eq in E as ->. injection Hq' as ->. by apply elem_of_list_In. }
  destruct (C101_history T C W HT HC cfg c b h0 (map Event (cw_log w)) m0) as (h & m & Hch & Hm); [|done|].
  { split; [done|]. split; [done|]. split; [done|]. split; [|by rewrite map_length].
    intros k ev p Hx. apply in_map_iff in Hx as (e & [= ->] & He). by eapply Hp, Hin. }
  exists (cw_log w), h, m. split; [done|]. split. { rewrite course_events in Hm. unfold begin in Hm. fold d0 in Hm. by rewrite <- Hst. }
  split. { intros k. destruct (C85_requests T C W cfg c d0 w reads k Hsv) as [_ H]. exact H. }
  intros Hw k x Hk Hx. destruct (Hq Hw k x Hk Hx) as [H1 _]. unfold begin. fold d0. by rewrite <- written_outputs.
Qed.
Print Assumptions C101_concurrent.
(** The name a connection is bound to was earned in the same life of the process:
    by a bind, on this connection and with the password of the entry of this name
    as the directory was then. *)
Theorem C101_identity (T : Text) (C : Crypto) (W : Wire) (HT : TextOK T) (cfg : server_cfg) (c : bolt_cfg)
    (b : dn) (h0 : list (env * op)) (ms : list moment) (k : nat) (bound : str) :
  safe c b h0 ms -> w_conns (course cfg c (begin b h0) ms) !! k = Some bound -> bound <> [] ->
  exists ms1 ev p ms2 name pw dd m, ms = ms1 ++ Event (EPacket k ev p) :: ms2 /\ ~ In Restart ms2 /\
    simple_bind p name pw /\ parse_dn name = Some dd /\ normalize dd = bound /\
    represents (w_state (course cfg c (begin b h0) ms1)) m /\
    (wf_dn dd = true -> pw <> [] /\ exists e, m !! fold_dn dd = Some e /\ accepts pw (stored_password e)).
Proof.
  revert k bound. induction ms as [|x ms IH] using rev_ind; intros k bound Hs Hk Hne; [by cbn in Hk; rewrite lookup_empty in Hk|].
  pose proof (safe_app c _ _ _ _ Hs) as Hs0. rewrite course_snoc in Hk. set (w := course cfg c (begin b h0) ms) in *.
  assert (Hext : x <> Restart -> w_conns w !! k = Some bound ->
    exists ms1 ev p ms2 name pw dd m, ms ++ [x] = ms1 ++ Event (EPacket k ev p) :: ms2 /\ ~ In Restart ms2 /\
    simple_bind p name pw /\ parse_dn name = Some dd /\ normalize dd = bound /\
    represents (w_state (course cfg c (begin b h0) ms1)) m /\
    (wf_dn dd = true -> pw <> [] /\ exists e, m !! fold_dn dd = Some e /\ accepts pw (stored_password e))).
  { intros Hx Hw. destruct (IH k bound Hs0 Hw Hne) as (ms1 & ev & p & ms2 & name & pw & dd & m & -> & Hr & Hrest).
    exists ms1, ev, p, (ms2 ++ [x]), name, pw, dd, m. split; [by rewrite <- app_assoc|]. split; [|done].
    intros [Hin|[->|[]]]%in_app_or; done. }
  destruct x as [e|]; [|by cbn in Hk; rewrite lookup_empty in Hk]. specialize (Hext ltac:(done)).
  cbn [advance] in Hk. unfold step in Hk. destruct (negb (w_alive w)); [by apply Hext|].
  destruct e as [j|j ev p|j]; cbn [fst] in Hk.
  - destruct (w_conns w !! j); cbn [fst w_conns] in Hk; [by apply Hext|].
    apply lookup_insert_Some in Hk as [[_ <-]|[_ Hk]]; [done|by apply Hext].
  - destruct (w_conns w !! j) as [b1|] eqn:Ej; cbn [fst] in Hk; [|by apply Hext].
    destruct (r_next _) as [b2| |] eqn:En; cbn [w_conns] in Hk.
    + apply lookup_insert_Some in Hk as [[-> ->]|[_ Hk]]; [|by apply Hext].
      destruct (decide (bound = b1)) as [->|Hb1]; [by apply Hext|].
      apply handle_identity in En as (name & pw & Hsb & Hn & s' & Hbind); [|done].
      unfold parse_normalize in Hn. destruct (parse_dn name) as [dd|] eqn:Ep; [|done]. cbn in Hn.
      assert (normalize dd = bound) as Hnb by congruence. clear Hn.
      pose proof (safe_reachable cfg c HT b h0 ms Hs0) as Hr. fold w in Hr. pose proof Hs as (Hb & Hc & _).
      destruct (C13_every_state_is_a_directory T C HT b _ Hb Hr) as (m & Hm & _).
      exists ms, ev, p, [], name, pw, dd, m. split; [done|]. split; [by intros []|]. split; [done|]. split; [done|]. split; [done|].
      split; [done|]. intros Hwf. cbn [h_bind bolt_handler] in Hbind.
      pose proof (bolt_bind_table HT b (w_state w) m c (re_h ev) name pw dd Hb Hr Hm Hc Ep Hwf) as Htab.
      rewrite Hbind in Htab. cbn [fst] in Htab.
      assert (Hdn : name <> []).
      { intros ->. unfold parse_dn in Ep. rewrite (trim_dn_print _ HT) in Ep by constructor. injection Ep as <-. by subst bound. }
      assert (Hpw : pw <> []).
      { intros ->. cbn [is_empty negb] in Htab. rewrite andb_false_r in Htab. by destruct name. }
      split; [done|].
      destruct (if has_suffix (normalize dd) (normalize b) && negb (is_empty pw) then m !! fold_dn dd else None) as [e|] eqn:Ef.
      2:{ by destruct name, pw. }
      exists e. split. { by destruct (has_suffix _ _ && negb _). }
      apply (validate_accepts HT). destruct (validate pw (stored_password e)) as [[|]|?| |]; by destruct name, pw.
    + apply lookup_delete_Some in Hk as [_ Hk]. by apply Hext.
    + by rewrite lookup_empty in Hk.
  - cbn [w_conns] in Hk. apply lookup_delete_Some in Hk as [_ Hk]. by apply Hext.
Qed.
Print Assumptions C101_identity.

(** The answers at each moment. *)
Fixpoint heard {T : Text} {C : Crypto} {W : Wire} (cfg : server_cfg) (c : bolt_cfg) (w : world (S:=db)) (ms : list moment)
    : list (list response) :=
  match ms with [] => [] | x :: ms' => (advance cfg c w x).2 :: heard cfg c (advance cfg c w x).1 ms' end.

Section case.
#[local] Existing Instances ascii_text toy wire1.
(** The administrator deletes Carl, which fails in the transaction; tries again,
    and the process dies after the commit but before the answer; then it is
    started again, where everybody has to bind anew, Carl is gone and can be
    deleted no more, and the answer to the deletion of the administrator gets lost. *)
Definition fails : renv env := mkREnv (mkEnv (fun _ => false) CommitFail) (B "salt") [] (fun _ => true).
Definition dies : renv env := mkREnv (mkEnv (fun _ => false) CrashAfter) (B "salt") [] (fun _ => true).
Definition mute : renv env := mkREnv no_faults (B "salt") [] (fun _ => false).
Definition ms101 : list moment :=
  [Event (EOpen 0); Event (EPacket 0 ev1 (p_msg 1 (enc_bind admin1 (B "secret"))));
   Event (EPacket 0 fails (p_msg 2 (enc_delete carl))); Event (EPacket 0 dies (p_msg 3 (enc_delete carl)));
   Event (EOpen 1); Restart; Event (EPacket 0 ev1 (p_msg 4 (enc_delete admin1))); Event (EOpen 0);
   Event (EPacket 0 ev1 (p_msg 1 (enc_delete admin1)));
   Event (EPacket 0 ev1 (p_msg 2 (enc_bind admin1 (B "secret"))));
   Event (EPacket 0 ev1 (p_msg 3 (enc_delete carl))); Event (EPacket 0 mute (p_msg 4 (enc_delete admin1)));
   Restart; Event (EOpen 7); Event (EPacket 7 ev1 (p_msg 1 (enc_bind admin1 (B "secret"))))].
Example C101_case :
  safe c1 b0 h1 ms101 /\ represents (run_ops (normalize b0) h1 empty_db) m1 /\
  heard cfg1 c1 (begin b0 h1) ms101 =
    [[]; [RFinal 1 BindResponse 0 None]; [RFinal 2 DelResponse 53 None]; []; []; []; []; []; [RFinal 1 DelResponse 50 None];
     [RFinal 2 BindResponse 0 None]; [RFinal 3 DelResponse 53 None]; []; []; []; [RFinal 1 BindResponse 49 None]] /\
  map (fun i => (bool_decide (is_Some (dn2id (w_state (course cfg1 c1 (begin b0 h1) (take i ms101))) !! carl)),
                 bool_decide (is_Some (dn2id (w_state (course cfg1 c1 (begin b0 h1) (take i ms101))) !! admin1)))) [3; 4; 6; 11; 12; 13] =
    [(true, true); (false, true); (false, true); (false, true); (false, false); (false, false)] /\
  map (fun i => w_conns (course cfg1 c1 (begin b0 h1) (take i ms101)) !! 0) [1; 2; 3; 4; 6; 8; 10] =
    [Some []; Some admin1; Some admin1; None; None; Some []; Some admin1].
Proof.
  split.
  { split; [exact b0_ok|]. split; [reflexivity|]. split; [apply ops_okb_ok; vm_compute; reflexivity|]. split; [|vm_compute; reflexivity].
    assert (Hdel : forall id x, dn_text_ok x -> clean (p_msg id (enc_delete x))) by (intros; by apply clean_delete).
    assert (Hadm : dn_text_ok admin1) by (intros dd; vm_compute; by intros [= <-]).
    assert (Hbind : forall id, clean (p_msg id (enc_bind admin1 (B "secret")))).
    { intros id. eapply bind_clean; [vm_compute; reflexivity|]. intros dd. vm_compute. by intros [= <-]. }
    intros conn ev p Hin. unfold ms101 in Hin. cbn [In] in Hin.
    repeat (destruct Hin as [Hin|Hin]; [first [discriminate Hin|injection Hin as _ _ <-; first [apply Hbind|apply Hdel; first [exact Hadm|apply carl_ok]]]|]).
    destruct Hin. }
  split; [exact d1_m1|]. split; [vm_compute; reflexivity|]. split; vm_compute; reflexivity.
Qed.
(** The schedule of C85_case, with the first of the two deletions failing in its
    transaction: the second one is done. *)
Definition turns101 : list turn := take 13 turns85 ++ TPacket 0 fails del85 :: drop 14 turns85.
Example C101_concurrent_case :
  exists w, run85 turns101 = Some w /\ served cfg1 c1 (run_ops (normalize b0) h1 empty_db) w (concat (map turn_reads turns101)) /\
  (forall k ev p, In (k, (ev, p)) (concat (map turn_reads turns101)) -> clean p) /\
  (N.of_nat (length h1 + length (cw_log w)) + 1 < 2 ^ 64)%N /\
  dn2id (cw_db w) !! carl = None /\ cw_alive w = true /\
  sent85 0 w = Some [RFinal 1 BindResponse 0 None; RFinal 2 DelResponse 53 None] /\
  sent85 2 w = Some [RFinal 1 BindResponse 0 None; RFinal 2 DelResponse 0 None].
Proof.
  destruct (run85 turns101) as [w|] eqn:E.
  2:{ exfalso. apply (f_equal (fun o => match o with Some _ => true | None => false end)) in E. revert E. vm_compute. done. }
  exists w. split; [done|].
  split. { apply (take_turns_served cfg1 c1 d1 turns101 (cstart d1) [] w); [apply sv_start|exact E]. }
  split.
  { intros k ev p Hin. unfold turns101, turns85 in Hin. cbn [take drop map concat turn_reads Datatypes.app In] in Hin.
    assert (Hb : clean bind85).
    { eapply bind_clean; [vm_compute; reflexivity|]. intros dd. vm_compute. by intros [= <-]. }
    assert (Hd : clean del85) by apply clean_delete, carl_ok.
    assert (Hf : clean find85).
    { apply clean_op. vm_compute. intros Hi. repeat destruct Hi as [Hi|Hi]; done. }
    repeat (destruct Hin as [Hin|Hin]; [apply (f_equal (fun x => snd (snd x))) in Hin; cbn [snd] in Hin; subst p; assumption|]).
    destruct Hin. }
  assert (H : forall A (f : cworld -> A), f w = f (match run85 turns101 with Some w => w | None => cstart d1 end)) by by rewrite E.
  split. { rewrite (H _ (fun w => length (cw_log w))). vm_compute. reflexivity. }
  rewrite (H _ (fun w => dn2id (cw_db w) !! carl)), (H _ cw_alive), (H _ (sent85 0)), (H _ (sent85 2)).
  clear E H. vm_compute. done.
Qed.
End case.
