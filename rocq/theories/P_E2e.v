(** Properties C71-C74: whole messages on the database backend. *)
From Verif Require Import Bytes Text Dn DnProofs Res Entry EntryProofs Password PasswordProofs
  Db DbSpec IdProofs DbProofs DbOps DbSearch DbFacts DbMore P_Password P_Db
  Packet Filter FilterProofs P_Filter Handler Server ServerProofs CrashProofs P_Server
  Encode EncodeProofs E2e E2eProofs.

(** C71.  The administrator's write requests do to the directory what the
    operation says; the answer carries the matching code. *)
Theorem C71_write (T : Text) (C : Crypto) (W : Wire) (HT : TextOK T) (cfg : server_cfg) (c : bolt_cfg)
    (ev : renv env) (b : dn) (d : db) (m : dir) (id : Z) (req : packet) (o : op) :
  base_ok b -> reachable b d -> represents d m -> bc_base c = normalize b -> bc_admin c <> [] ->
  re_h ev = no_faults -> re_send ev 0 = true -> says_write req o -> op_ok o ->
  let r := handle cfg (bolt_handler c) ev (bc_admin c) (p_msg id req) d in
  match spec_op b o m with
  | Ok m' => r_out r = [RFinal id (write_response o) 0 None] /\ r_next r = Go (bc_admin c) /\
      represents (r_state r) m'
  | Err e => r = mkResult [RFinal id (write_response o) (result_code o e) None] (Go (bc_admin c)) d
  | Panic => r = mkResult [] Dead d
  | Diverge => False
  end.
Proof.
  intros Hb Hr Hm Hc Ha Hev Hs Hw Ho r. unfold r. clear r.
  rewrite (write_handled cfg c ev (bc_admin c) id req o d Hw Ha).
  unfold write_allowed. rewrite seqb_refl.
  assert (is_empty (bc_admin c) = false) as -> by by destruct (bc_admin c). cbn [negb andb].
  pose proof (C13_database_refines_directory T C HT b d m o Hb Hr Hm Ho) as H13.
  unfold bolt_write. rewrite Hev, Hc.
  assert (Hnp : match o with OpPassword _ => False | _ => True end).
  { destruct Hw as [_ [[_ (x & _ & ->)]|[[_ (x & _ & ->)]|[[_ (x & _ & ->)]|[_ (x & _ & ->)]]]]]; done. }
  destruct (spec_op b o m) as [m'|e| |] eqn:Es.
  - destruct H13 as (d' & -> & Hm'). cbn [finish]. unfold send_final. rewrite Hs. done.
  - rewrite H13. apply code_of in Es.
    destruct (match o with OpModify _ | OpModDn _ => ldap_error | _ => plain_error end e) as [code x] eqn:Et.
    cbn [finish]. unfold send_final. rewrite Hs. cbn [app].
    destruct o; try done; cbn [fst] in Es; by rewrite Es.
  - rewrite H13. done.
  - done.
Qed.
Print Assumptions C71_write.
(** ... anyone else's are refused without effect ... *)
Theorem C71_others_refused (T : Text) (C : Crypto) (W : Wire) (cfg : server_cfg) (c : bolt_cfg)
    (ev : renv env) (bound : str) (d : db) (id : Z) (req : packet) (o : op) :
  re_send ev 0 = true -> says_write req o -> bound = [] \/ bound <> bc_admin c ->
  handle cfg (bolt_handler c) ev bound (p_msg id req) d =
  mkResult [RFinal id (write_response o) 50 None] (Go bound) d.
Proof.
  intros Hs Hw Hb. destruct (decide (bound = [])) as [->|Hne].
  - destruct Hw as [Hcl Ho]. unfold handle, p_msg. cbn [p_kids p_seq as_int p_int p_val].
    rewrite Hcl. change (negb (ClassApplication =? ClassApplication)%N) with false. cbn match.
    unfold dispatch.
    destruct Ho as [[-> (r & _ & ->)]|[[-> (r & _ & ->)]|[[-> (r & _ & ->)]|[-> (r & _ & ->)]]]];
      cbn -[InsufficientAccessRights]; unfold send_final; by rewrite Hs.
  - rewrite (write_handled cfg c ev bound id req o d Hw Hne).
    destruct Hb as [?|Hb]; [done|]. unfold write_allowed.
    rewrite (proj2 (seqb_neq (bc_admin c) bound)) by congruence. rewrite andb_false_r.
    cbn [finish]. unfold send_final. by rewrite Hs.
Qed.
Print Assumptions C71_others_refused.
(** ... a malformed one as well, or it crashes the server (C37) ... *)
Theorem C71_malformed (T : Text) (C : Crypto) (W : Wire) (cfg : server_cfg) (c : bolt_cfg)
    (ev : renv env) (bound : str) (d : db) (id : Z) (req : packet) (t : N) :
  re_send ev 0 = true -> bound <> [] -> p_cls req = ClassApplication -> p_tag req = t ->
  In t [AddRequest; DelRequest; ModifyRequest; ModifyDNRequest] -> (forall o, ~ says_write req o) ->
  let r := handle cfg (bolt_handler c) ev bound (p_msg id req) d in
  (exists code, In code [2; 53; 84]%N /\ r = mkResult [RFinal id (response_tag t) code None] (Go bound) d) \/
  (t = ModifyRequest /\ r = mkResult [] Dead d).
Proof.
  intros Hs Hb Hcl Ht Hin Hno r. unfold r. clear r. unfold handle, p_msg. cbn [p_kids p_seq as_int p_int p_val].
  rewrite Hcl. change (negb (ClassApplication =? ClassApplication)%N) with false. cbn match.
  unfold dispatch. rewrite Ht. assert (is_empty bound = false) as Hbe by by destruct bound.
  destruct Hin as [<-|[<-|[<-|[<-|[]]]]].
  - left. exists 2%N. split; [by left|]. change (AddRequest =? AddRequest)%N with true. cbn match. unfold handle_add.
    rewrite Hbe. destruct (add_else req) as [->|[r Hr]].
    + cbn [lift_res perr finish]. unfold send_final. by rewrite Hs.
    + destruct (Hno (OpPut (entry_from_add r))). apply add_iff in Hr. split; [done|]. left. eauto.
  - left. exists 2%N. split; [by left|]. change (DelRequest =? AddRequest)%N with false.
    change (DelRequest =? BindRequest)%N with false. change (DelRequest =? CompareRequest)%N with false.
    change (DelRequest =? DelRequest)%N with true. cbn match. unfold handle_delete.
    rewrite Hbe. destruct (delete_else req) as [->|[r Hr]].
    + cbn [lift_res perr finish]. unfold send_final. by rewrite Hs.
    + destruct (Hno (OpDelete r)). apply delete_iff in Hr. split; [done|]. right; left. eauto.
  - change (ModifyRequest =? AddRequest)%N with false.
    change (ModifyRequest =? BindRequest)%N with false. change (ModifyRequest =? CompareRequest)%N with false.
    change (ModifyRequest =? DelRequest)%N with false. change (ModifyRequest =? ExtendedRequest)%N with false.
    change (ModifyRequest =? ModifyDNRequest)%N with false.
    change (ModifyRequest =? ModifyRequest)%N with true. cbn match. unfold handle_modify. rewrite Hbe.
    destruct (modify_else req) as [->|[->|[->|[r Hr]]]].
    + right. done.
    + left. exists 2%N. split; [by left|]. cbn [lift_res perr finish]. unfold send_final. by rewrite Hs.
    + left. exists 84%N. split; [by right; right; left|]. cbn [lift_res perr finish]. unfold send_final. by rewrite Hs.
    + destruct (Hno (OpModify r)). apply modify_iff in Hr. split; [done|]. right; right; left. eauto.
  - left. change (ModifyDNRequest =? AddRequest)%N with false.
    change (ModifyDNRequest =? BindRequest)%N with false. change (ModifyDNRequest =? CompareRequest)%N with false.
    change (ModifyDNRequest =? DelRequest)%N with false. change (ModifyDNRequest =? ExtendedRequest)%N with false.
    change (ModifyDNRequest =? ModifyDNRequest)%N with true. cbn match. unfold handle_moddn. rewrite Hbe.
    destruct (moddn_else req) as [->|[->|[r Hr]]].
    + exists 2%N. split; [by left|]. cbn [lift_res perr finish]. unfold send_final. by rewrite Hs.
    + exists 53%N. split; [by right; left|]. cbn [lift_res perr finish]. unfold send_final. by rewrite Hs.
    + destruct (Hno (OpModDn r)). apply moddn_iff in Hr. split; [done|]. right; right; right. eauto.
Qed.
Print Assumptions C71_malformed.
(** ... and under I/O errors and crashes an answer still tells the truth: success
    means done, anything else that nothing happened. *)
Theorem C71_answer_truthful (T : Text) (C : Crypto) (W : Wire) (HT : TextOK T) (cfg : server_cfg) (c : bolt_cfg)
    (ev : renv env) (bound : str) (b : dn) (d : db) (m : dir) (id : Z) (req : packet) (o : op)
    (tag code : N) (v : option str) :
  base_ok b -> reachable b d -> represents d m -> bc_base c = normalize b ->
  says_write req o -> op_ok o ->
  let r := handle cfg (bolt_handler c) ev bound (p_msg id req) d in
  In (RFinal id tag code v) (r_out r) ->
  (code = 0%N -> bound = bc_admin c /\ exists m', spec_op b o m = Ok m' /\ represents (r_state r) m') /\
  (code <> 0%N -> r_state r = d).
Proof.
  intros Hb Hr Hm Hc Hw Ho r. unfold r. clear r.
  destruct (decide (bound = [])) as [->|Hne].
  { intros Hin. rewrite (C34_anonymous_request T C W cfg c ev (p_msg id req) d). split; [|done].
    intros ->. exfalso. revert Hin. destruct Hw as [Hcl Hw].
    unfold handle, p_msg. cbn [p_kids p_seq as_int p_int p_val].
    rewrite Hcl. change (negb (ClassApplication =? ClassApplication)%N) with false. cbn match. unfold dispatch.
    destruct Hw as [[-> _]|[[-> _]|[[-> _]|[-> _]]]];
      cbn; unfold send_final; destruct (re_send ev 0); cbn; (intros [[=]|[]] || intros []). }
  rewrite (write_handled cfg c ev bound id req o d Hw Hne).
  destruct (write_allowed c bound) eqn:Ewa.
  2:{ cbn [finish]. unfold send_final. destruct (re_send ev 0); cbn; [|by intros []].
      intros [[= <- <- _]|[]]. done. }
  assert (Hadm : bound = bc_admin c).
  { unfold write_allowed in Ewa. apply andb_true_iff in Ewa as [_ Ewa]. by apply seqb_eq in Ewa. }
  set (tr := match o with OpModify _ | OpModDn _ => ldap_error | _ => plain_error end).
  unfold bolt_write. rewrite Hc.
  destruct (run_op (normalize b) (re_h ev) o d) as [out d'] eqn:Erun.
  pose proof (C14_all_or_nothing T C _ _ _ _ _ _ Erun) as H14.
  pose proof (C13_database_refines_directory T C HT b d m o Hb Hr Hm Ho) as H13.
  destruct out as [[u|e| |]|]; cbn [finish]; try by intros [].
  - unfold send_final. destruct (re_send ev 0); cbn; [|by intros []]. intros [[= <- <- _]|[]].
    split; [|done]. intros _. split; [done|]. rewrite H14 in H13.
    destruct (spec_op b o m) as [m'|e| |]; try done. destruct H13 as (d2 & [= <-] & Hm'). eauto.
  - subst d'. assert (Herr : (tr e).1 <> 0%N).
    { pose proof (run_op_errs _ _ _ _ _ _ Erun) as He.
      unfold tr. destruct o; destruct e; try done; cbn [fst ldap_error]; cbn in He; rewrite N.mod_small; lia. }
    destruct (tr e) as [cd x]. cbn [finish fst] in *. unfold send_final.
    destruct (re_send ev 0); cbn; [|by intros []]. intros [[= <- <- _]|[]]. split; [|done]. intros ->. done.
Qed.
Print Assumptions C71_answer_truthful.

(** The administrator of the examples deletes Carl, tries to add an existing and
    an orphaned entry, and to take away the naming value of Carl. *)
Definition admin1 : str := B "uid=ada,ou=people,o=base".
Definition send1 (req : packet) : result (S:=db) := handle1 admin1 (p_msg 5 req) d1.
Example C71_case :
  says_write (T:=ascii_text) (enc_delete (B "UID=Carl, ou=people,o=base")) (OpDelete (B "UID=Carl, ou=people,o=base")) /\
  op_ok (T:=ascii_text) (OpDelete (B "UID=Carl, ou=people,o=base")) /\
  (exists m', spec_op (T:=ascii_text) (C:=toy) b0 (OpDelete (B "UID=Carl, ou=people,o=base")) m1 = Ok m' /\
     m' = delete ([(B "uid", B "carl")] :: [(B "ou", B "people")] :: b0) m1) /\
  r_out (send1 (enc_delete (B "UID=Carl, ou=people,o=base"))) = [RFinal 5 DelResponse 0 None] /\
  r_out (send1 (enc_add (mkAdd (B "uid=carl,ou=people,o=base") []))) = [RFinal 5 AddResponse 68 None] /\
  r_out (send1 (enc_add (mkAdd (B "uid=x,ou=nowhere,o=base") []))) = [RFinal 5 AddResponse 53 None] /\
  r_out (send1 (enc_modify (mkModify (B "uid=carl,ou=people,o=base") [mkChange MDelete (B "uid") []]))) =
    [RFinal 5 ModifyResponse 67 None] /\
  r_out (send1 (enc_moddn (mkModDn (B "uid=carl,ou=people,o=base") (B "uid=ada") true) None)) =
    [RFinal 5 ModifyDNResponse 68 None] /\
  r_out (send1 (enc_delete (B "carl"))) = [RFinal 5 DelResponse 2 None].
Proof.
  split. { split; [done|]. right; left. split; [done|]. exists (B "UID=Carl, ou=people,o=base").
    split; [|done]. split; [done|]. split; [done|]. eexists. vm_compute. reflexivity. }
  split. { intros d. vm_compute. by intros [= <-]. }
  split. { exists (delete ([(B "uid", B "carl")] :: [(B "ou", B "people")] :: b0) m1). split; [|done].
    vm_compute. reflexivity. }
  vm_compute. repeat split.
Qed.

(** C72.  Whatever clients send on however many connections, the database goes
    through a history of the operations asked for, in the order of the messages
    and at most one per message ... *)
Definition clean {T : Text} {W : Wire} (p : packet) : Prop :=
  (forall bound o, dn_text_ok bound -> asks bound p o -> op_ok o) /\
  (forall dn pw n, simple_bind p dn pw -> parse_normalize dn = Some n -> dn_text_ok n).
Lemma run_ops_app {T : Text} {C : Crypto} base h1 h2 d :
  run_ops base (h1 ++ h2) d = run_ops base h2 (run_ops base h1 d).
Proof. revert d. induction h1 as [|[ev o] h1 IH]; intros d; [done|]. apply IH. Qed.
Theorem C72_history (T : Text) (C : Crypto) (W : Wire) (cfg : server_cfg) (c : bolt_cfg)
    (d : db) (es : list (event (E:=env))) :
  exists h : list (option (env * op)), length h = length es /\
    w_state (run cfg (bolt_handler c) (start d) es) = run_ops (bc_base c) (omap id h) d /\
    forall i v o, h !! i = Some (Some (v, o)) ->
      exists conn ev p bound, es !! i = Some (EPacket conn ev p) /\ v = re_h ev /\
        w_conns (run cfg (bolt_handler c) (start d) (take i es)) !! conn = Some bound /\ asks bound p o.
Proof.
  induction es as [|e es (h & Hl & IH & Hh)] using rev_ind; [by exists []|].
  rewrite run_snoc. set (w := run cfg (bolt_handler c) (start d) es) in *.
  assert (Hold : forall x i v o, (h ++ [x]) !! i = Some (Some (v, o)) ->
    (i = length h /\ x = Some (v, o)) \/
    exists conn ev p bound, (es ++ [e]) !! i = Some (EPacket conn ev p) /\ v = re_h ev /\
      w_conns (run cfg (bolt_handler c) (start d) (take i (es ++ [e]))) !! conn = Some bound /\ asks bound p o).
  { intros x i v o Hi. apply lookup_app_Some in Hi as [Hi|[Hle Hi]].
    - right. destruct (Hh i v o Hi) as (conn & ev & p & bound & He & Hv & Hw & Ha).
      exists conn, ev, p, bound. pose proof (lookup_lt_Some _ _ _ He) as Hlt.
      rewrite lookup_app_l by done. rewrite take_app_le by lia. done.
    - left. destruct (i - length h) as [|n] eqn:E; [|by destruct n]. cbn in Hi. injection Hi as ->. split; [lia|done]. }
  assert (Hskip : w_state (step cfg (bolt_handler c) w e).1 = w_state w ->
    exists h', length h' = length (es ++ [e]) /\
      w_state (step cfg (bolt_handler c) w e).1 = run_ops (bc_base c) (omap id h') d /\
      forall i v o, h' !! i = Some (Some (v, o)) ->
      exists conn ev p bound, (es ++ [e]) !! i = Some (EPacket conn ev p) /\ v = re_h ev /\
        w_conns (run cfg (bolt_handler c) (start d) (take i (es ++ [e]))) !! conn = Some bound /\ asks bound p o).
  { intros Hs. exists (h ++ [None]). split; [rewrite !app_length; cbn; lia|]. split.
    - rewrite omap_app. cbn. by rewrite app_nil_r, Hs.
    - intros i v o Hi. by destruct (Hold _ _ _ _ Hi) as [[_ ?]|?]. }
  unfold step in *. destruct (negb (w_alive w)); [by apply Hskip|]. destruct e as [k|k ev p|k].
  - destruct (w_conns w !! k); by apply Hskip.
  - destruct (w_conns w !! k) as [bound|] eqn:Ek; [|by apply Hskip].
    assert (Hst : forall x : next, w_state (match x with
      | Go b1 => mkWorld (<[k := b1]> (w_conns w)) (r_state (handle cfg (bolt_handler c) ev bound p (w_state w))) true
      | Drop => mkWorld (delete k (w_conns w)) (r_state (handle cfg (bolt_handler c) ev bound p (w_state w))) true
      | Dead => mkWorld ∅ (r_state (handle cfg (bolt_handler c) ev bound p (w_state w))) false
      end) = r_state (handle cfg (bolt_handler c) ev bound p (w_state w))) by by intros [].
    cbn [fst] in *. rewrite Hst in *.
    destruct (handle_asks cfg c ev bound p (w_state w)) as [Hd|(o & Ha & Hd)]; [by apply Hskip|].
    exists (h ++ [Some (re_h ev, o)]). split; [rewrite !app_length; cbn; lia|]. split.
    + rewrite omap_app. cbn [omap list_omap id]. rewrite run_ops_app, <- IH. exact Hd.
    + intros i v o' Hi. destruct (Hold _ _ _ _ Hi) as [[-> [= <- <-]]|?]; [|done].
      exists k, ev, p, bound. rewrite Hl, lookup_app_r, Nat.sub_diag by done. rewrite take_app. done.
  - by apply Hskip.
Qed.
Print Assumptions C72_history.
Lemma clean_history {T : Text} {C : Crypto} {W : Wire} (HT : TextOK T) (cfg : server_cfg) (c : bolt_cfg) (d0 : db)
    (es : list (event (E:=env))) :
  (forall conn ev p, In (EPacket conn ev p) es -> clean p) ->
  exists h : list (env * op), Forall (fun p => op_ok p.2) h /\ length h <= length es /\
    w_state (run cfg (bolt_handler c) (start d0) es) = run_ops (bc_base c) h d0.
Proof.
  intros Hcl. destruct (C72_history T C W cfg c d0 es) as (h & Hl & Hs & Hh).
  exists (omap id h). split; [|split; [|done]].
  - apply Forall_forall. intros [v o] Hin.
    apply elem_of_list_omap in Hin as (x & Hx & Hid).
    cbn in Hid. subst x. apply elem_of_list_lookup in Hx as [i Hi].
    destruct (Hh i v o Hi) as (conn & ev & p & bound & He & _ & Hw & Ha). cbn [snd].
    apply elem_of_list_lookup_2, elem_of_list_In in He.
    destruct (Hcl conn ev p He) as [Hops _]. apply (Hops bound o); [|done].
    destruct (decide (bound = [])) as [->|Hne].
    { intros dd. unfold parse_dn. rewrite (trim_dn_print _ HT) by constructor. by intros [= <-]. }
    apply (earned_inv HT) in Hw as (es1 & ev1 & p1 & es2 & dn & pw & e1 & Hes & Hsb & _ & Hn & _); [|done].
    assert (Hin1 : In (EPacket conn ev1 p1) es).
    { rewrite <- (take_drop i es), Hes. apply in_or_app. left. apply in_or_app. right. by left. }
    destruct (Hcl _ _ _ Hin1) as [_ Hbind]. by eapply Hbind.
  - assert (length (omap id h) <= length h).
    { clear. induction h as [|[x|] h IH]; cbn in *; lia. }
    lia.
Qed.
(** ... so every state of a server started on a database made by a history [h0]
    (for example loaded from a file) is one the database layer can reach, and
    C12-C28 hold of it ... *)
Theorem C72_reachable (T : Text) (C : Crypto) (W : Wire) (HT : TextOK T) (cfg : server_cfg) (c : bolt_cfg)
    (b : dn) (h0 : list (env * op)) (es : list (event (E:=env))) :
  base_ok b -> bc_base c = normalize b -> Forall (fun p => op_ok p.2) h0 ->
  (forall conn ev p, In (EPacket conn ev p) es -> clean p) ->
  (N.of_nat (length h0 + length es) + 1 < 2 ^ 64)%N ->
  let d := w_state (run cfg (bolt_handler c) (start (run_ops (normalize b) h0 empty_db)) es) in
  reachable b d /\ consistent d /\ exists m, represents d m.
Proof.
  intros Hb Hc Hh0 Hcl Hlen d. set (d0 := run_ops (normalize b) h0 empty_db) in d.
  assert (Hr : reachable b d).
  { destruct (clean_history HT cfg c d0 es Hcl) as (h & Hok & Hl & Hs).
    exists (h0 ++ h). split; [by apply Forall_app|]. split; [rewrite app_length; lia|].
    unfold d. rewrite Hs, Hc, run_ops_app. done. }
  split; [done|]. split.
  - destruct Hr as (h & Hok & Hlh & ->). by apply (C12_indexes_consistent T C HT).
  - destruct (C13_every_state_is_a_directory T C HT b d Hb Hr) as (m & Hm & _). by exists m.
Qed.
Print Assumptions C72_reachable.

(** ... whereas on an empty database nobody can bind, so that nothing is ever
    stored: the first entries have to come from the load command. *)
Theorem C72_empty_locked (T : Text) (C : Crypto) (W : Wire) (HT : TextOK T) (cfg : server_cfg) (c : bolt_cfg)
    (es : list (event (E:=env))) :
  w_state (run cfg (bolt_handler c) (start empty_db) es) = empty_db.
Proof.
  induction es as [es IH] using (induction_ltof1 _ (@length _)). unfold ltof in IH.
  destruct es as [|e es _] using rev_ind; [done|].
  assert (IHs : forall es', length es' <= length es -> w_state (run cfg (bolt_handler c) (start empty_db) es') = empty_db).
  { intros es' Hl. apply IH. rewrite app_length. cbn. lia. }
  rewrite run_snoc. set (w := run cfg (bolt_handler c) (start empty_db) es).
  assert (Hw : w_state w = empty_db) by by apply IHs.
  unfold step. destruct (negb (w_alive w)); [done|]. destruct e as [k|k ev p|k]; [by destruct (w_conns w !! k)| |done].
  destruct (w_conns w !! k) as [bd|] eqn:Ek; [|done].
  assert (Hst : w_state (match r_next (handle cfg (bolt_handler c) ev bd p (w_state w)) with
      | Go b1 => mkWorld (<[k := b1]> (w_conns w)) (r_state (handle cfg (bolt_handler c) ev bd p (w_state w))) true
      | Drop => mkWorld (delete k (w_conns w)) (r_state (handle cfg (bolt_handler c) ev bd p (w_state w))) true
      | Dead => mkWorld ∅ (r_state (handle cfg (bolt_handler c) ev bd p (w_state w))) false
      end) = r_state (handle cfg (bolt_handler c) ev bd p (w_state w))) by by destruct (r_next _).
  cbn [fst]. rewrite Hst.
  destruct (handle_state cfg c ev bd p (w_state w)) as [->|[Hne _]]; [done|]. exfalso.
  destruct (earned_inv HT cfg c empty_db es k bd Ek Hne)
    as (es1 & ev1 & p1 & es2 & dn & pw & e1 & -> & _ & _ & _ & _ & Hs & _).
  rewrite (IHs es1) in Hs by (rewrite app_length; lia).
  unfold search in Hs. destruct (parse_normalize bd); [|done]. done.
Qed.
Print Assumptions C72_empty_locked.

(** Packets of the example. *)
Lemma clean_bind id dn pw : (forall n, parse_normalize (T:=ascii_text) dn = Some n -> dn_text_ok (T:=ascii_text) n) ->
  clean (T:=ascii_text) (W:=wire1) (p_msg id (enc_bind dn pw)).
Proof.
  intros Hn. split.
  - intros bound o _ (i & req & rest & id' & [= <- <- <-] & _ & [Hw|(r & hash & Hw & _)]).
    + destruct Hw as [_ [[? _]|[[? _]|[[? _]|[? _]]]]]; done.
    + by destruct Hw as (_ & ? & _).
  - intros dn' pw' n (id' & req & v & x & a & (i & rest & [= <- <- <-] & _ & _) & _ & [= <- <- <-] & _ & [= <-] & _) Hp.
    by apply Hn.
Qed.
Lemma clean_delete id dn : dn_text_ok (T:=ascii_text) dn ->
  clean (T:=ascii_text) (W:=wire1) (p_msg id (enc_delete dn)).
Proof.
  intros Hn. split.
  - intros bound o _ (i & req & rest & id' & [= <- <- <-] & _ & [Hw|(r & hash & Hw & _)]).
    + destruct Hw as [_ [[? _]|[[_ (x & (_ & <- & _) & ->)]|[[? _]|[? _]]]]]; done.
    + by destruct Hw as (_ & ? & _).
  - intros dn' pw' n (id' & req & v & x & a & (i & rest & [= <- <- <-] & _ & _) & ? & _) Hp. done.
Qed.
Definition es72 : list (event (E:=env)) :=
  [EOpen 0; EOpen 1; EPacket 0 ev1 (p_msg 1 (enc_bind admin1 (B "secret")));
   EPacket 1 ev1 (p_msg 1 (enc_delete (B "uid=carl,ou=people,o=base")));
   EPacket 0 ev1 (p_msg 2 (enc_delete (B "uid=carl,ou=people,o=base"))); EClose 1].
Example C72_case :
  (forall conn ev p, In (EPacket conn ev p) es72 -> clean (T:=ascii_text) (W:=wire1) p) /\
  asks (T:=ascii_text) (W:=wire1) admin1 (p_msg 2 (enc_delete carl)) (OpDelete carl) /\
  dn2id (w_state (run1 (take 4 es72))) !! carl <> None /\
  dn2id (w_state (run1 es72)) !! carl = None.
Proof.
  split; [|split; [|split]].
  - assert (Hok : forall dd, parse_dn (T:=ascii_text) carl = Some dd -> wf_dn dd = true).
    { intros dd. vm_compute. by intros [= <-]. }
    intros conn ev p [H|[H|[H|[H|[H|[H|[]]]]]]]; try done; injection H as <- <- <-.
    + apply clean_bind. intros n. vm_compute parse_normalize. intros [= <-] dd. vm_compute. by intros [= <-].
    + by apply clean_delete.
    + by apply clean_delete.
  - exists (p_int 2), (enc_delete carl), [], 2%Z. split; [done|]. split; [done|]. left. split; [done|]. right; left.
    split; [done|]. exists carl. split; [|done]. split; [done|]. split; [done|]. eexists. vm_compute. reflexivity.
  - vm_compute. done.
  - vm_compute. reflexivity.
Qed.
