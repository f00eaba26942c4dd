(** Property C105: which answer a malformed request gets.

    It is fixed by the request alone, whatever the backend: there is one verdict
    for each of them, decided by the first fault found. *)
From Verif Require Import Bytes Text Dn DnProofs Res Entry EntryProofs Password PasswordProofs P_Password P_Db
  Db DbSpec Packet Filter Handler Server ServerProofs Encode EncodeProofs E2e E2eProofs CrashProofs
  P_Filter P_Server P_E2e P_Bind.

(** [req] is a simple bind (RFC 4511, 4.2) with this name and password. *)
Definition says_bind (req : packet) (dn pw : str) : Prop :=
  p_cls req = ClassApplication /\ p_tag req = BindRequest /\
  exists v d a, p_kids req = [v; d; a] /\ p_val v = VInt 3 /\ p_val d = VStr dn /\ p_tag a = 0%N /\ p_data a = pw.

(** A refusal after which the connection goes on, one after which it is closed,
    or the end of the process. *)
Inductive verdict := Refuse (code : N) | Expel (code : N) | Crash.

Section faults.
Context {T : Text} {W : Wire}.

(** The elements of a bind request, one after the other. *)
Inductive bind_fault : list packet -> N -> Prop :=
| bf_empty : bind_fault [] 1
| bf_version v l : (forall z, p_val v <> VInt z) -> bind_fault (v :: l) 2
| bf_number v z l : p_val v = VInt z -> z <> 3%Z -> bind_fault (v :: l) 48
| bf_no_name v : p_val v = VInt 3 -> bind_fault [v] 1
| bf_name v d l : p_val v = VInt 3 -> (forall s, p_val d <> VStr s) -> bind_fault (v :: d :: l) 2
| bf_no_auth v d s : p_val v = VInt 3 -> p_val d = VStr s -> bind_fault [v; d] 1
| bf_auth v d s a l : p_val v = VInt 3 -> p_val d = VStr s -> p_tag a <> 0%N \/ l <> [] -> bind_fault (v :: d :: a :: l) 48.

(** One change of a modify request: the kind of the change is looked at first, by
    the first octet of its content only. *)
Inductive change_fault (p : packet) : verdict -> Prop :=
| cf_empty : p_kids p = [] -> change_fault p Crash
| cf_no_kind o l : p_kids p = o :: l -> p_data o = [] -> change_fault p Crash
| cf_kind o l x data : p_kids p = o :: l -> p_data o = x :: data -> (2 < code x)%N -> change_fault p (Refuse 84)
| cf_alone o x data : p_kids p = [o] -> p_data o = x :: data -> (code x <= 2)%N -> change_fault p Crash
| cf_attr o a l x data : p_kids p = o :: a :: l -> p_data o = x :: data -> (code x <= 2)%N ->
    (forall t, ~ says_partial a t) -> change_fault p (Refuse 2).
(** The frame of a modify request: a name and a sequence of changes. *)
Definition modify_frame (req : packet) (changes : list packet) : Prop :=
  exists d l s, p_kids req = [d; l] /\ says_dn d s /\ is_seq l /\ p_kids l = changes.
(** A rename with the fourth element newSuperior. *)
Definition moves_away (req : packet) : Prop :=
  exists d n o x s r b, p_kids req = [d; n; o; x] /\ says_dn d s /\ says_dn n r /\ p_val o = VBool b.
(** An extended request with this operation and these fields of its value (RFC
    4511, 4.12). *)
Definition extended_frame (req : packet) (oid : str) (body : option packet) : Prop :=
  exists o, p_cls o = ClassContext /\ p_tag o = 0%N /\ p_data o = oid /\
    match body with
    | None => p_kids req = [o]
    | Some b => p_kids req = [o; b] /\ p_cls b = ClassContext /\ p_tag b = 1%N
    end.

(** The verdicts over requests of clients that are bound. *)
Inductive fault (req : packet) : verdict -> Prop :=
| fault_bind code : p_tag req = BindRequest -> bind_fault (p_kids req) code -> fault req (Refuse code)
| fault_add : p_tag req = AddRequest -> (forall r, ~ says_add req r) -> fault req (Refuse 2)
| fault_delete : p_tag req = DelRequest -> (forall r, ~ says_delete req r) -> fault req (Refuse 2)
| fault_modify : p_tag req = ModifyRequest -> (forall cs, ~ modify_frame req cs) -> fault req (Refuse 2)
| fault_change good p rest v : p_tag req = ModifyRequest -> modify_frame req (good ++ p :: rest) ->
    Forall (fun q => exists c, says_change q c) good -> change_fault p v -> fault req v
| fault_move : p_tag req = ModifyDNRequest -> moves_away req -> fault req (Refuse 53)
| fault_rename : p_tag req = ModifyDNRequest -> ~ moves_away req -> (forall r, ~ says_moddn req r) -> fault req (Refuse 2)
| fault_extended : p_tag req = ExtendedRequest -> (forall oid body, ~ extended_frame req oid body) -> fault req (Refuse 1)
| fault_unknown oid body : p_tag req = ExtendedRequest -> extended_frame req oid body ->
    oid <> B "1.3.6.1.4.1.4203.1.11.1" -> fault req (Refuse 1)
| fault_password b inner : p_tag req = ExtendedRequest -> extended_frame req (B "1.3.6.1.4.1.4203.1.11.1") (Some b) ->
    decode_inner (p_data b) = Some inner -> (forall r, ~ says_pw inner r) -> fault req (Refuse 84)
| fault_search : p_tag req = SearchRequest -> (forall r, ~ says_search req r) -> fault req (Expel 1)
| fault_compare : p_tag req = CompareRequest -> fault req (Expel 1).
(** The requests that make sense. *)
Definition sensible (req : packet) : Prop :=
  (exists dn pw, says_bind req dn pw) \/ (exists o, says_write req o) \/ (exists r, says_password req r) \/
  (p_tag req = SearchRequest /\ exists r, says_search req r).
(** A message with this identifier and request, whose controls can be decoded or
    are no controls: the server decodes them first, and a decoder may panic. *)
Definition carries (p : packet) (id : Z) (req : packet) : Prop :=
  exists i rest, p_kids p = i :: req :: rest /\ p_val i = VInt id /\
    match rest with
    | [] => True
    | k :: _ => Forall (fun q => exists x, decode_control q = x /\ x <> Panic /\ x <> Diverge) (p_kids k)
    end.
(** The operations the server knows. *)
Definition known_tag (t : N) : Prop :=
  In t [AddRequest; BindRequest; CompareRequest; DelRequest; ExtendedRequest; ModifyDNRequest; ModifyRequest; SearchRequest].

(** What the verdict says is sent, and what becomes of the connection. *)
Definition sentence (id : Z) (tag : N) (bound : str) (v : verdict) : list response * next :=
  match v with
  | Refuse code => ([RFinal id tag code None], Go bound)
  | Expel code => ([RFinal id tag code None], Drop)
  | Crash => ([], Dead)
  end.
(** The verdict as the outcome of a parser. *)
Definition as_res {A} (v : verdict) : res A :=
  match v with Refuse code | Expel code => perr code | Crash => Panic end.

Lemma no_int v : (forall z, v <> VInt z) <-> as_int v = None.
Proof. destruct v; cbn; split; try done. intros H. by destruct (H n). Qed.
Lemma no_str v : (forall s, v <> VStr s) <-> as_str v = None.
Proof. destruct v; cbn; split; try done. intros H. by destruct (H s). Qed.

Lemma op_refused o x data : p_data o = x :: data -> (2 < code x)%N -> parse_change_op o = perr DecodingError.
Proof.
  intros Hd H. unfold parse_change_op. rewrite Hd. destruct (N.eqb_spec (code x) 0), (N.eqb_spec (code x) 1), (N.eqb_spec (code x) 2); try lia. done.
Qed.
Lemma op_accepted o x data : p_data o = x :: data -> (code x <= 2)%N -> exists op, parse_change_op o = Ok op.
Proof.
  intros Hd H. unfold parse_change_op. rewrite Hd.
  destruct (N.eqb_spec (code x) 0), (N.eqb_spec (code x) 1), (N.eqb_spec (code x) 2); try lia; eauto.
Qed.
Lemma change_faulty p v : change_fault p v -> parse_change p = as_res v.
Proof.
  unfold parse_change. intros [Hk|o l Hk Hd|o l x data Hk Hd Hx|o x data Hk Hd Hx|o a l x data Hk Hd Hx Ha]; rewrite Hk; cbn [as_res]; [done| | | |].
  - unfold parse_change_op. by rewrite Hd.
  - by rewrite (op_refused o x data).
  - by destruct (op_accepted o x data Hd Hx) as [op ->].
  - destruct (op_accepted o x data Hd Hx) as [op ->]. cbn [rbind].
    destruct (attr_else true a) as [->|[t Ht]]; [done|]. apply partial_iff in Ht. by destruct (Ha t).
Qed.
Lemma change_judged p : (exists c, says_change p c) \/ exists v, change_fault p v.
Proof.
  destruct (p_kids p) as [|o l] eqn:Hk; [right; exists Crash; by constructor|].
  destruct (p_data o) as [|x data] eqn:Hd; [right; exists Crash; by eapply cf_no_kind|].
  destruct (N.leb_spec (code x) 2) as [Hx|Hx]; [|right; exists (Refuse 84); by eapply cf_kind].
  destruct l as [|a l]; [right; exists Crash; by eapply cf_alone|].
  destruct (attr_else true a) as [Ha|[t Ht]].
  - right. exists (Refuse 2). eapply cf_attr; [done..|]. intros t Ht. apply partial_iff in Ht. by rewrite Ht in Ha.
  - left. destruct (op_accepted o x data Hd Hx) as [op Hop]. exists (mkChange op t.1 t.2). apply change_iff.
    unfold parse_change. rewrite Hk, Hop. cbn [rbind]. by rewrite Ht.
Qed.
Lemma changes_faulty good p rest v : Forall (fun q => exists c, says_change q c) good -> change_fault p v ->
  parse_changes (good ++ p :: rest) = as_res v.
Proof.
  intros Hg Hp. induction Hg as [|q good [c Hq] _ IH]; cbn [Datatypes.app parse_changes].
  - rewrite (change_faulty p v Hp). by destruct v.
  - apply change_iff in Hq. rewrite Hq. cbn [rbind]. rewrite IH. by destruct v.
Qed.
Lemma changes_judged l : (exists cs, Forall2 says_change l cs) \/
  exists good p rest v, l = good ++ p :: rest /\ Forall (fun q => exists c, says_change q c) good /\ change_fault p v.
Proof.
  induction l as [|q l IH]; [left; by exists []|].
  destruct (change_judged q) as [[c Hc]|[v Hv]].
  - destruct IH as [[cs Hcs]|(good & p & rest & v & -> & Hg & Hv)].
    + left. exists (c :: cs). by constructor.
    + right. exists (q :: good), p, rest, v. split; [done|]. split; [|done]. constructor; [by exists c|done].
  - right. exists [], q, l, v. done.
Qed.
Lemma frame_iff req oid body : parse_extended req = Ok (oid, body) <-> extended_frame req oid body.
Proof.
  rewrite extended_iff. unfold extended_frame. split.
  - intros (o & rest & Hk & H1 & H2 & H3 & [[-> ->]|(b & -> & Hb & Hb2 & ->)]); exists o; by rewrite ?Hk.
  - intros (o & H1 & H2 & H3 & H). destruct body as [b|].
    + destruct H as (Hk & Hb & Hb2). exists o, [b]. repeat (split; [done|]). right. by exists b.
    + exists o, []. repeat (split; [done|]). by left.
Qed.
Lemma extended_else req : parse_extended req = perr DecodingError \/ exists oid body, extended_frame req oid body.
Proof.
  destruct (parse_extended req) as [[oid body]| | |] eqn:E.
  { right. exists oid, body. by apply frame_iff. }
  all: left; revert E; unfold parse_extended; destruct (p_kids req) as [|o rest]; try done;
    destruct (1 <? length rest); try done; destruct (_ && _); try done; destruct rest; try done; destruct (_ && _); done.
Qed.
Lemma pw_else inner : parse_pw_fields (p_kids inner) (mkPw [] [] []) = perr DecodingError \/ 3 < length (p_kids inner) \/ exists r, says_pw inner r.
Proof.
  destruct (pw_fields_else (p_kids inner) (mkPw [] [] [])) as [?|[r Hr]]; [by left|]. right.
  destruct (decide (3 < length (p_kids inner))); [by left|]. right. exists r.
  apply pw_fields_iff in Hr as [Hf ->]. split; [lia|]. done.
Qed.
End faults.

Section answer.
Context {T : Text} {C : Crypto} {W : Wire} {S E : Type} (cfg : server_cfg) (h : handler S E) (ev : renv E).
Lemma carried p id req bound (s : S) : p_cls req = ClassApplication -> carries p id req ->
  handle cfg h ev bound p s = dispatch cfg h ev bound id req s.
Proof.
  intros Hc (i & rest & Hk & Hi & Hr). unfold handle. rewrite Hk, Hi. cbn [as_int]. rewrite Hc.
  change (negb (ClassApplication =? ClassApplication)%N) with false. cbn match.
  destruct rest as [|k rest]; [done|].
  assert (decode_controls (p_kids k) = true) as ->; [|done].
  induction Hr as [|q l (x & Hx & H1 & H2) _ IH]; [done|]. cbn [decode_controls]. rewrite Hx, IH. by destruct x.
Qed.
Lemma bind_refused req code (s : S) : bind_fault (p_kids req) code -> handle_bind h ev req s = (HRet code, s) /\ code <> 0%N.
Proof.
  unfold handle_bind. intros H.
  destruct H as [|v l Hv|v z l Hv Hz|v Hv|v d l Hv Hd|v d t Hv Hd|v d t a l Hv Hd Ha]; (split; [|done]); [done|..].
  - apply no_int in Hv. by rewrite Hv.
  - rewrite Hv. cbn [as_int]. by destruct (Z.eqb_spec z 3).
  - by rewrite Hv.
  - rewrite Hv. apply no_str in Hd. cbn [as_int]. rewrite Hd. done.
  - rewrite Hv, Hd. done.
  - rewrite Hv, Hd. cbn [as_int as_str]. change (negb (3 =? 3)%Z) with false. cbn match.
    destruct (N.eqb_spec (p_tag a) 0); [|done]. cbn [negb]. destruct Ha as [?|Ha]; [done|]. by destruct l.
Qed.
Lemma lifted {A} v (k : A -> hout answer * S) (s : S) : (exists code, v = Refuse code) \/ v = Crash ->
  lift_res (as_res v) k s = match v with Crash => (HPanic, s) | Refuse code | Expel code => (HRet (code, true), s) end.
Proof. by intros [[code ->]| ->]. Qed.
End answer.

(** A request with a verdict is answered as it says, whatever the backend and the
    configuration, and its state does not change. *)
Theorem C105_answer (T : Text) (C : Crypto) (W : Wire) (S E : Type) (cfg : server_cfg) (h : handler S E) (ev : renv E)
    (bound : str) (p : packet) (id : Z) (req : packet) (v : verdict) (s : S) :
  (forall k, re_send ev k = true) -> bound <> [] -> carries p id req -> p_cls req = ClassApplication -> fault req v ->
  let tag := if (p_tag req =? CompareRequest)%N then CompareRequest else response_tag (p_tag req) in
  handle cfg h ev bound p s = mkResult (sentence id tag bound v).1 (sentence id tag bound v).2 s.
Proof.
  intros Hs Hb Hp Hc Hf. rewrite (carried cfg h ev p id req bound s Hc Hp). clear Hp Hc. cbn zeta.
  assert (is_empty bound = false) as Hbe by by destruct bound.
  assert (Hsend : forall k pre r n, send_final ev k pre r n s = mkResult (pre ++ [r]) n s) by (intros; unfold send_final; by rewrite Hs).
  destruct Hf as [code Ht Hbf|Ht Hno|Ht Hno|Ht Hno|good q rest v Ht (d & l & t & Hk & Hd & Hl & Hq) Hg Hv|Ht Hmv|Ht Hmv Hno|Ht Hno|oid body Ht Hfr Ho|b inner Ht Hfr Hi Hno|Ht Hno|Ht];
    unfold dispatch; rewrite Ht; cbv [AddRequest BindRequest CompareRequest DelRequest ExtendedRequest ModifyDNRequest ModifyRequest SearchRequest N.eqb Pos.eqb]; cbn match.
  - destruct (bind_refused h ev req code s Hbf) as [-> Hn]. destruct code as [|code]; [done|].
    cbv beta iota delta [Success]. by rewrite Hsend.
  - unfold handle_add. rewrite Hbe. destruct (add_else req) as [->|[r Hr]]; [cbn [lift_res perr finish]; by rewrite Hsend|].
    apply add_iff in Hr. by destruct (Hno r).
  - unfold handle_delete. rewrite Hbe. destruct (delete_else req) as [->|[r Hr]]; [cbn [lift_res perr finish]; by rewrite Hsend|].
    apply delete_iff in Hr. by destruct (Hno r).
  - unfold handle_modify. rewrite Hbe. assert (parse_modify req = perr ProtocolError) as ->; [|cbn [lift_res perr finish]; by rewrite Hsend].
    unfold parse_modify, parse_mod_list. destruct (p_kids req) as [|d [|l [|x k]]] eqn:Hk; try done.
    destruct (dn_else d) as [->|[t Ht']]; [done|]. rewrite Ht'. cbn [rbind].
    destruct (is_sequence l) eqn:El; [|done]. destruct (Hno (p_kids l)). exists d, l, t. apply dn_iff in Ht'. apply seq_test in El. done.
  - unfold handle_modify. rewrite Hbe. assert (parse_modify req = as_res v) as ->.
    { unfold parse_modify, parse_mod_list. rewrite Hk. apply dn_iff in Hd. rewrite Hd. cbn [rbind]. apply seq_test in Hl. rewrite Hl, Hq.
      rewrite (changes_faulty good q rest v Hg Hv). by destruct v. }
    rewrite lifted by (destruct Hv; eauto). destruct Hv; cbn [finish]; by rewrite ?Hsend.
  - unfold handle_moddn. rewrite Hbe. destruct Hmv as (d & n & o & x & t & r & b & Hk & Hd & Hn & Ho).
    assert (parse_moddn req = perr UnwillingToPerform) as ->; [|cbn [lift_res perr finish]; by rewrite Hsend].
    unfold parse_moddn. rewrite Hk. change (1 <? length [x]) with false. cbn match. apply dn_iff in Hd, Hn. rewrite Hd, Hn, Ho. done.
  - unfold handle_moddn. rewrite Hbe. assert (parse_moddn req = perr ProtocolError) as ->; [|cbn [lift_res perr finish]; by rewrite Hsend].
    destruct (moddn_else req) as [?|[Hu|[r Hr]]]; [done| |apply moddn_iff in Hr; by destruct (Hno r)].
    destruct Hmv. revert Hu. unfold parse_moddn, moves_away. destruct (p_kids req) as [|d [|n [|o rest]]]; try done.
    destruct (Nat.ltb_spec 1 (length rest)) as [|Hlen]; [done|].
    destruct (dn_else d) as [->|[t Hd]]; [done|]. rewrite Hd. cbn [rbind].
    destruct (dn_else n) as [->|[r Hn]]; [done|]. rewrite Hn. cbn [rbind].
    destruct (as_bool (p_val o)) as [b|] eqn:Eb; [|done]. cbn [opt rbind]. destruct rest as [|x [|y rest]]; [done| |cbn in Hlen; lia].
    intros _. apply dn_iff in Hd, Hn. apply as_bool_iff in Eb. by exists d, n, o, x, t, r, b.
  - unfold handle_extended. destruct (extended_else req) as [->|(oid & body & H)]; [|by destruct (Hno oid body)].
    cbn [perr]. by rewrite Hsend.
  - unfold handle_extended. apply frame_iff in Hfr. rewrite Hfr. rewrite (proj2 (seqb_neq oid pwmod_oid)) by exact Ho. by rewrite Hsend.
  - unfold handle_extended. apply frame_iff in Hfr. rewrite Hfr. change (seqb _ pwmod_oid) with true. cbn match.
    unfold handle_pwmod. rewrite Hbe. unfold parse_pwmod. rewrite Hi.
    assert ((if 3 <? length (p_kids inner) then perr DecodingError else parse_pw_fields (p_kids inner) (mkPw [] [] [])) = perr DecodingError) as ->.
    { destruct (pw_else inner) as [->|[H|[r Hr]]]; [by destruct (3 <? _)|apply Nat.ltb_lt in H; by rewrite H|by destruct (Hno r)]. }
    cbn [perr]. change (negb (DecodingError =? Success)%N && negb true) with false. cbn match. by rewrite Hsend.
  - unfold handle_search. destruct (parse_search_calm req) as [H1 H2].
    destruct (parse_search req) as [r|x| |] eqn:Ep; cbn [map Datatypes.app length]; [|by rewrite Hsend|done|done].
    apply search_iff in Ep. by destruct (Hno r).
  - by rewrite Hsend.
Qed.
Print Assumptions C105_answer.

(** Every request the server knows makes sense or has a verdict ... *)
Theorem C105_complete (T : Text) (C : Crypto) (W : Wire) (req : packet) :
  p_cls req = ClassApplication -> known_tag (p_tag req) -> sensible req \/ exists v, fault req v.
Proof.
  intros Hc Ht. unfold known_tag in Ht. cbn [In] in Ht.
  destruct Ht as [Ht|[Ht|[Ht|[Ht|[Ht|[Ht|[Ht|[Ht|[]]]]]]]]]; symmetry in Ht.
  - destruct (add_else req) as [He|[r Hr]].
    + right. exists (Refuse 2). apply fault_add; [done|]. intros r Hr. apply add_iff in Hr. by rewrite Hr in He.
    + left. right; left. exists (OpPut (entry_from_add r)). apply add_iff in Hr. split; [done|]. left. eauto.
  - destruct (p_kids req) as [|v l] eqn:Hk; [right; exists (Refuse 1); apply fault_bind; [done|]; rewrite Hk; constructor|].
    destruct (as_int (p_val v)) as [z|] eqn:Ev.
    2:{ right. exists (Refuse 2). apply fault_bind; [done|]. rewrite Hk. apply bf_version. by apply no_int. }
    apply as_int_iff in Ev. destruct (decide (z = 3%Z)) as [->|Hz].
    2:{ right. exists (Refuse 48). apply fault_bind; [done|]. rewrite Hk. by eapply bf_number. }
    destruct l as [|d l]; [right; exists (Refuse 1); apply fault_bind; [done|]; rewrite Hk; by constructor|].
    destruct (as_str (p_val d)) as [s|] eqn:Ed.
    2:{ right. exists (Refuse 2). apply fault_bind; [done|]. rewrite Hk. apply bf_name; [done|]. by apply no_str. }
    apply as_str_iff in Ed.
    destruct l as [|a l]; [right; exists (Refuse 1); apply fault_bind; [done|]; rewrite Hk; by eapply bf_no_auth|].
    destruct (decide (p_tag a = 0%N)) as [Ha|Ha].
    2:{ right. exists (Refuse 48). apply fault_bind; [done|]. rewrite Hk. eapply bf_auth; [done..|by left]. }
    destruct l as [|x l].
    2:{ right. exists (Refuse 48). apply fault_bind; [done|]. rewrite Hk. eapply bf_auth; [done..|by right]. }
    left. left. exists s, (p_data a). split; [done|]. split; [done|]. by exists v, d, a.
  - right. exists (Expel 1). by apply fault_compare.
  - destruct (delete_else req) as [He|[r Hr]].
    + right. exists (Refuse 2). apply fault_delete; [done|]. intros r Hr. apply delete_iff in Hr. by rewrite Hr in He.
    + left. right; left. exists (OpDelete r). apply delete_iff in Hr. split; [done|]. right; left. eauto.
  - destruct (extended_else req) as [He|(oid & body & Hf)].
    { right. exists (Refuse 1). apply fault_extended; [done|]. intros oid body Hf. apply frame_iff in Hf. by rewrite Hf in He. }
    destruct (decide (oid = B "1.3.6.1.4.1.4203.1.11.1")) as [->|Ho]; [|right; exists (Refuse 1); by eapply fault_unknown].
    assert (Hgood : forall r, parse_pwmod body = Ok r -> sensible req).
    { intros r Hr. right; right; left. exists r. apply password_iff; [done..|]. exists body. split; [by apply frame_iff|done]. }
    unfold parse_pwmod in Hgood. destruct body as [b|]; [|left; by eapply Hgood].
    destruct (decode_inner (p_data b)) as [inner|] eqn:Ei; [|left; by eapply Hgood].
    assert (Hbad : (forall r, ~ says_pw inner r) -> exists v, fault req v) by (intros; exists (Refuse 84); by eapply fault_password).
    destruct (Nat.ltb_spec 3 (length (p_kids inner))) as [Hl|Hl]; [right; apply Hbad; intros r [Hr _]; lia|].
    destruct (pw_fields_else (p_kids inner) (mkPw [] [] [])) as [He|[r Hr]]; [|left; by eapply Hgood].
    right. apply Hbad. intros r (_ & Hf2 & Hr). rewrite (proj2 (pw_fields_iff (p_kids inner) (mkPw [] [] []) r)) in He; [done|]. done.
  - destruct (moddn_else req) as [He|[He|[r Hr]]].
    + right. exists (Refuse 2). apply fault_rename; [done| |].
      * intros (d & n & o & x & s & r & b & Hk & Hd & Hn & Ho). revert He. unfold parse_moddn. rewrite Hk.
        apply dn_iff in Hd, Hn. change (1 <? length [x]) with false. cbn match. by rewrite Hd, Hn, Ho.
      * intros r Hr. apply moddn_iff in Hr. by rewrite Hr in He.
    + right. exists (Refuse 53). apply fault_move; [done|]. revert He. unfold parse_moddn, moves_away.
      destruct (p_kids req) as [|d [|n [|o rest]]]; try done.
      destruct (Nat.ltb_spec 1 (length rest)) as [|Hlen]; [done|].
      destruct (dn_else d) as [->|[t Hd]]; [done|]. rewrite Hd. cbn [rbind].
      destruct (dn_else n) as [->|[r Hn]]; [done|]. rewrite Hn. cbn [rbind].
      destruct (as_bool (p_val o)) as [b|] eqn:Eb; [|done]. cbn [opt rbind]. destruct rest as [|x [|y rest]]; [done| |cbn in Hlen; lia].
      intros _. apply dn_iff in Hd, Hn. apply as_bool_iff in Eb. by exists d, n, o, x, t, r, b.
    + left. right; left. exists (OpModDn r). apply moddn_iff in Hr. split; [done|]. right; right; right. eauto.
  - destruct (modify_else req) as [He|He].
    all: cycle 1.
    destruct He as [He|[He|[r Hr]]]; cycle 2.
    { left. right; left. exists (OpModify r). apply modify_iff in Hr. split; [done|]. right; right; left. eauto. }
    all: right; revert He; unfold parse_modify, parse_mod_list;
      destruct (p_kids req) as [|d [|l [|x k]]] eqn:Hk; intros He; try done;
      try (exists (Refuse 2); apply fault_modify; [done|]; intros cs (d' & l' & s & Hk' & _); rewrite Hk in Hk'; done).
    all: destruct (dn_else d) as [Hd|[t Hd]]; rewrite Hd in He; try done;
      try (exists (Refuse 2); apply fault_modify; [done|]; intros cs (d' & l' & s & Hk' & Hs & _); rewrite Hk in Hk';
           injection Hk' as <- <-; apply dn_iff in Hs; by rewrite Hs in Hd).
    all: cbn [rbind] in He; destruct (is_sequence l) eqn:El; try done;
      try (exists (Refuse 2); apply fault_modify; [done|]; intros cs (d' & l' & s & Hk' & _ & Hs & _); rewrite Hk in Hk';
           injection Hk' as <- <-; apply seq_test in Hs; by rewrite Hs in El).
    all: destruct (changes_judged (p_kids l)) as [[cs Hcs]|(good & p & rest & v & Hp & Hg & Hv)];
      [apply changes_iff in Hcs; rewrite Hcs in He; done|].
    all: exists v; apply (fault_change req good p rest v); [done| |done|done]; exists d, l, t; apply dn_iff in Hd; apply seq_test in El; done.
  - destruct (parse_search req) as [r| | |] eqn:Ep.
    { left. right; right; right. split; [done|]. exists r. by apply search_iff. }
    all: right; exists (Expel 1); apply fault_search; [done|]; intros r Hr; apply search_iff in Hr; by rewrite Hr in Ep.
Qed.
Print Assumptions C105_complete.
(** ... never both, and one verdict at most. *)
Theorem C105_one_verdict (T : Text) (C : Crypto) (W : Wire) (req : packet) (v : verdict) :
  p_cls req = ClassApplication -> fault req v ->
  ~ sensible req /\ forall v', fault req v' -> v' = v.
Proof.
  intros Hc Hf. split.
  - intros Hs. destruct Hf as [code Ht Hbf|Ht Hno|Ht Hno|Ht Hno|good q rest v Ht (d & l & t & Hk & Hd & Hl & Hq) Hg Hv|Ht Hmv|Ht Hmv Hno|Ht Hno|oid body Ht Hfr Ho|b inner Ht Hfr Hi Hno|Ht Hno|Ht];
      destruct Hs as [(dn & pw & _ & Ht' & Hb)|[(o & _ & Ho')|[(r & Hr)|(Ht' & r & Hr)]]];
      try (rewrite Ht in Ht'; done);
      try (pose proof (proj1 (proj2 Hr)) as Ht'; rewrite Ht in Ht'; done);
      try (destruct Ho' as [[Ht' H]|[[Ht' H]|[[Ht' H]|[Ht' H]]]]; rewrite Ht in Ht'; try done; destruct H as (r & Hr & _)).
    all: try by destruct (Hno r).
    + destruct Hb as (v & d & a & Hk & Hv & Hd & Ha & _). rewrite Hk in Hbf.
      inversion Hbf; subst; try congruence;
        try (match goal with Hx : forall z, p_val v <> VInt z |- _ => by destruct (Hx 3%Z) end);
        try (match goal with Hx : forall s, p_val d <> VStr s |- _ => by destruct (Hx dn) end);
        match goal with Hx : _ \/ _ |- _ => by destruct Hx end.
    + destruct Hr as (d & l & Hk & Hd & Hl & Hcs). destruct (Hno (p_kids l)). by exists d, l, (m_dn r).
    + destruct Hr as (d' & l' & Hk' & Hd' & Hl' & Hcs). rewrite Hk in Hk'. injection Hk' as <- <-. rewrite Hq in Hcs.
      apply changes_iff in Hcs. rewrite (changes_faulty good q rest v Hg Hv) in Hcs. by destruct v.
    + destruct Hmv as (d & n & o' & x & s & r' & b & Hk & _). destruct Hr as (d' & n' & o2 & Hk' & _). by rewrite Hk in Hk'.
    + apply password_iff in Hr as (body & Hr & _); [|done..]. by apply frame_iff, Hno in Hr.
    + apply password_iff in Hr as (body' & Hr & _); [|done..]. apply frame_iff in Hfr. rewrite Hr in Hfr. injection Hfr as Hx _. by apply Ho.
    + apply password_iff in Hr as (body' & Hr & Hr2); [|done..]. apply frame_iff in Hfr. rewrite Hr in Hfr. injection Hfr as ->.
      cbn [parse_pwmod] in Hr2. rewrite Hi in Hr2. destruct (Nat.ltb_spec 3 (length (p_kids inner))); [done|].
      apply pw_fields_iff in Hr2 as [Hf2 ->]. by eapply Hno.
  - intros v' Hf'.
    set (h := mkHandler (S:=unit) (E:=unit) (fun _ _ _ s => (HPanic, s)) (fun _ _ _ s => (HPanic, s)) (fun _ _ _ s => (HPanic, s))
      (fun _ _ _ s => (HPanic, s)) (fun _ _ _ s => (HPanic, s)) (fun _ _ _ s => (HPanic, s)) (fun _ _ _ s => (HPanic, s))).
    set (ev := mkREnv tt [] [] (fun _ => true)).
    assert (Hp : carries (p_msg 0 req) 0 req) by (exists (p_int 0), []; done).
    pose proof (C105_answer T C W unit unit (mkServer false 0) h ev (B "x") _ _ _ v tt (fun _ => eq_refl) ltac:(done) Hp Hc Hf) as H1.
    pose proof (C105_answer T C W unit unit (mkServer false 0) h ev (B "x") _ _ _ v' tt (fun _ => eq_refl) ltac:(done) Hp Hc Hf') as H2.
    cbn zeta in H1, H2. rewrite H1 in H2. destruct v, v'; cbn [sentence fst snd] in H2; try done; by injection H2 as ->.
Qed.
Print Assumptions C105_one_verdict.

(** Clients that are not bound: writes are refused before they are read, and so is
    the value of a password change. *)
Theorem C105_anonymous (T : Text) (C : Crypto) (W : Wire) (S E : Type) (cfg : server_cfg) (h : handler S E) (ev : renv E)
    (p : packet) (id : Z) (req : packet) (s : S) :
  (forall k, re_send ev k = true) -> carries p id req -> p_cls req = ClassApplication ->
  let r := handle cfg h ev [] p s in
  (In (p_tag req) [AddRequest; DelRequest; ModifyRequest; ModifyDNRequest] ->
     r = mkResult [RFinal id (response_tag (p_tag req)) 50 None] (Go []) s) /\
  (forall body, p_tag req = ExtendedRequest -> extended_frame req (B "1.3.6.1.4.1.4203.1.11.1") body ->
     r = mkResult [RFinal id ExtendedResponse 53 None] (Go []) s) /\
  (forall v bound, bound <> [] -> fault req v -> ~ In (p_tag req) [AddRequest; DelRequest; ModifyRequest; ModifyDNRequest] ->
     (p_tag req = ExtendedRequest -> forall body, ~ extended_frame req (B "1.3.6.1.4.1.4203.1.11.1") body) ->
     r_out r = r_out (handle cfg h ev bound p s) /\ r_state r = s /\
     r_next r = match r_next (handle cfg h ev bound p s) with Go _ => Go [] | n => n end).
Proof.
  intros Hs Hp Hc. cbn zeta.
  assert (Hsend : forall k pre r n, send_final ev k pre r n s = mkResult (pre ++ [r]) n s) by (intros; unfold send_final; by rewrite Hs).
  rewrite (carried cfg h ev p id req [] s Hc Hp). split; [|split].
  - intros [Ht|[Ht|[Ht|[Ht|[]]]]]; unfold dispatch; rewrite <- Ht;
      cbv [AddRequest BindRequest CompareRequest DelRequest ExtendedRequest ModifyDNRequest ModifyRequest SearchRequest N.eqb Pos.eqb]; cbn match.
    + unfold handle_add. cbn [is_empty finish]. by rewrite Hsend.
    + unfold handle_delete. cbn [is_empty finish]. by rewrite Hsend.
    + unfold handle_modify. cbn [is_empty finish]. by rewrite Hsend.
    + unfold handle_moddn. cbn [is_empty finish]. by rewrite Hsend.
  - intros body Ht Hf. unfold dispatch. rewrite Ht.
    cbv [AddRequest BindRequest CompareRequest DelRequest ExtendedRequest ModifyDNRequest ModifyRequest SearchRequest N.eqb Pos.eqb]; cbn match.
    unfold handle_extended. apply frame_iff in Hf. rewrite Hf. change (seqb _ pwmod_oid) with true. cbn match.
    unfold handle_pwmod. cbn [is_empty]. change (negb (UnwillingToPerform =? Success)%N && negb true) with false. cbn match. by rewrite Hsend.
  - intros v bound Hb Hf Hw Hpw. rewrite (carried cfg h ev p id req bound s Hc Hp).
    destruct Hf as [code Ht Hbf|Ht Hno|Ht Hno|Ht Hno|good q rest v Ht Hfr Hg Hv|Ht Hmv|Ht Hmv Hno|Ht Hno|oid body Ht Hfr Ho|b inner Ht Hfr Hi Hno|Ht Hno|Ht];
      try (destruct Hw; rewrite Ht; cbn [In]; tauto);
      unfold dispatch; rewrite Ht; cbv [AddRequest BindRequest CompareRequest DelRequest ExtendedRequest ModifyDNRequest ModifyRequest SearchRequest N.eqb Pos.eqb]; cbn match.
    + destruct (bind_refused h ev req code s Hbf) as [-> Hn]. destruct code as [|code]; [done|].
      cbv beta iota delta [Success]. by rewrite !Hsend.
    + unfold handle_extended. destruct (extended_else req) as [->|(oid & body & H)]; [|by destruct (Hno oid body)].
      cbn [perr]. by rewrite !Hsend.
    + unfold handle_extended. apply frame_iff in Hfr. rewrite Hfr. rewrite (proj2 (seqb_neq oid pwmod_oid)) by exact Ho. by rewrite !Hsend.
    + by destruct (Hpw Ht (Some b)).
    + unfold handle_search. destruct (parse_search_calm req) as [H1 H2].
      destruct (parse_search req) as [r|x| |] eqn:Ep; cbn [map Datatypes.app length]; [|by rewrite !Hsend|done|done].
      apply search_iff in Ep. by destruct (Hno r).
    + by rewrite !Hsend.
Qed.
Print Assumptions C105_anonymous.

(** Both theorems as one clause of an abstract server: [out] is sent and [n] becomes
    of the connection. *)
Definition sentenced {T : Text} {W : Wire} (id : Z) (bound : str) (req : packet) (out : list response) (n : next) : Prop :=
  forall v, p_cls req = ClassApplication -> fault req v ->
    let tag := if (p_tag req =? CompareRequest)%N then CompareRequest else response_tag (p_tag req) in
    let writes := In (p_tag req) [AddRequest; DelRequest; ModifyRequest; ModifyDNRequest] in
    let password := p_tag req = ExtendedRequest /\ exists body, extended_frame req (B "1.3.6.1.4.1.4203.1.11.1") body in
    (bound <> [] \/ (~ writes /\ ~ password) -> (out, n) = sentence id tag bound v) /\
    (bound = [] -> writes -> (out, n) = sentence id tag bound (Refuse 50)) /\
    (bound = [] -> password -> (out, n) = sentence id tag bound (Refuse 53)).
Lemma sentence_handled {T : Text} {C : Crypto} {W : Wire} {S E : Type} cfg (h : handler S E) (ev : renv E) id bound req (s : S) :
  (forall k, re_send ev k = true) ->
  let r := handle cfg h ev bound (p_msg id req) s in
  sentenced id bound req (r_out r) (r_next r) /\
  forall v, p_cls req = ClassApplication -> fault req v -> r_state r = s.
Proof.
  intros Hs r. assert (Hca : carries (p_msg id req) id req) by by exists (p_int id), [].
  assert (Hx : B "x" <> []) by done.
  assert (Hbox : forall v, p_cls req = ClassApplication -> fault req v ->
    let tag := if (p_tag req =? CompareRequest)%N then CompareRequest else response_tag (p_tag req) in
    let writes := In (p_tag req) [AddRequest; DelRequest; ModifyRequest; ModifyDNRequest] in
    let password := p_tag req = ExtendedRequest /\ exists body, extended_frame req (B "1.3.6.1.4.1.4203.1.11.1") body in
    let is v := r = mkResult (sentence id tag bound v).1 (sentence id tag bound v).2 s in
    (bound <> [] \/ (~ writes /\ ~ password) -> is v) /\ (bound = [] -> writes -> is (Refuse 50)) /\
    (bound = [] -> password -> is (Refuse 53))).
  { intros v Hc Hf tag writes password is.
    destruct (C105_anonymous T C W _ _ cfg h ev (p_msg id req) id req s Hs Hca Hc) as (A1 & A2 & A3).
    split; [|split].
    - intros Hbd. destruct (decide (bound = [])) as [Hbe|Hne]; [|by apply C105_answer].
      destruct Hbd as [?|[Hnw Hnp]]; [done|].
      pose proof (A3 v (B "x") Hx Hf Hnw (fun Ht body Hfr => Hnp (conj Ht (ex_intro _ body Hfr)))) as (O1 & O2 & O3).
      rewrite (C105_answer T C W _ _ cfg h ev (B "x") (p_msg id req) id req v s Hs Hx Hca Hc Hf) in O1, O3.
      cbn [r_out r_next] in O1, O3. fold tag in O1, O3. unfold is, r. rewrite Hbe.
      destruct (handle cfg h ev [] (p_msg id req) s) as [o1 n1 s1]. cbn [r_out r_next r_state] in O1, O2, O3.
      rewrite O1, O2, O3. by destruct v.
    - intros Hbe Hw. unfold is, r. rewrite Hbe, (A1 Hw). cbn [sentence fst snd]. f_equal. unfold tag.
      destruct (N.eqb_spec (p_tag req) CompareRequest) as [E0|_]; [|done]. exfalso. unfold writes in Hw. rewrite E0 in Hw.
      destruct Hw as [?|[?|[?|[?|[]]]]]; done.
    - intros Hbe [Ht [body Hb1]]. unfold is, r, tag. rewrite Hbe, Ht. by apply (A2 body). }
  split.
  - intros v Hc Hf. destruct (Hbox v Hc Hf) as (X & Y & Z). cbv zeta in X, Y, Z.
    split; [|split]; [intros H; rewrite (X H)|intros H H'; rewrite (Y H H')|intros H H'; rewrite (Z H H')]; try done.
    cbn [r_out r_next]. by destruct (sentence id _ bound v).
  - intros v Hc Hf. destruct (Hbox v Hc Hf) as (X & Y & Z). cbv zeta in X, Y, Z.
    destruct (decide (bound = [])) as [Hbe|Hne]; [|by rewrite X by by left].
    destruct (decide (p_tag req ∈ [AddRequest; DelRequest; ModifyRequest; ModifyDNRequest])) as [Hw|Hw].
    { apply elem_of_list_In in Hw. by rewrite (Y Hbe Hw). }
    rewrite elem_of_list_In in Hw. destruct (decide (p_tag req = ExtendedRequest)) as [Ht|Ht].
    2:{ rewrite X; [done|]. right. split; [done|]. by intros [? _]. }
    destruct (parse_extended req) as [[oid body]|e| |] eqn:E0;
      [destruct (decide (oid = B "1.3.6.1.4.1.4203.1.11.1")) as [->|Hn]|..].
    { rewrite Z; [done|done|]. split; [done|]. exists body. by apply frame_iff. }
    all: rewrite X; [done|]; right; split; [done|]; intros [_ [body' Hfr]]; apply frame_iff in Hfr; congruence.
Qed.
Lemma sentenced_once {T : Text} {W : Wire} id bound req out1 out2 n1 n2 v :
  sentenced id bound req out1 n1 -> sentenced id bound req out2 n2 -> p_cls req = ClassApplication -> fault req v ->
  out1 = out2 /\ n1 = n2.
Proof.
  intros F1 F2 Hc Hv. destruct (F1 v Hc Hv) as (X1 & Y1 & Z1), (F2 v Hc Hv) as (X2 & Y2 & Z2).
  cbv zeta in X1, Y1, Z1, X2, Y2, Z2.
  assert (Hpair : forall p, (out1, n1) = p -> (out2, n2) = p -> out1 = out2 /\ n1 = n2) by (intros p <- [= -> ->]; done).
  destruct (decide (bound = [])) as [Hbe|Hne]; [|by eapply Hpair; [apply X1|apply X2]; left].
  destruct (decide (p_tag req ∈ [AddRequest; DelRequest; ModifyRequest; ModifyDNRequest])) as [Hw|Hw].
  { apply elem_of_list_In in Hw. by eapply Hpair; [apply Y1|apply Y2]. }
  rewrite elem_of_list_In in Hw. destruct (decide (p_tag req = ExtendedRequest)) as [Ht|Ht].
  2:{ eapply Hpair; [apply X1|apply X2]; right; (split; [done|]); by intros [? _]. }
  destruct (parse_extended req) as [[oid body]|e| |] eqn:E0;
    [destruct (decide (oid = B "1.3.6.1.4.1.4203.1.11.1")) as [->|Hn]|..].
  { eapply Hpair; [apply Z1|apply Z2]; try done; (split; [done|]); exists body; by apply frame_iff. }
  all: eapply Hpair; [apply X1|apply X2]; right; (split; [done|]); intros [_ [body' Hfr]]; apply frame_iff in Hfr; congruence.
Qed.

(** The second of three changes has no kind known: the answer is decodingError,
    although the third one would end the process; the other way round it does.  A
    bind of version 2 with a number for its name, and a rename to another parent. *)
Section case.
#[local] Existing Instances ascii_text toy wire1.
Definition change105 (k : ascii) : packet := p_seq [Pkt 0 false 10 (VInt 0) [k] []; p_seq [p_octets (B "cn")]].
Definition modify105 (l : list packet) : packet := p_op ModifyRequest [p_octets (B "uid=carl,o=base"); p_seq l].
Definition bad105 : list packet := [change105 "000"; change105 "007"; p_seq []].
Definition bind105 : packet := p_op BindRequest [p_int 2; p_int 5].
Definition move105 : packet :=
  p_op ModifyDNRequest [p_octets (B "uid=carl,o=base"); p_octets (B "uid=karl"); Pkt 0 false 1 (VBool true) [] []; p_octets (B "o=base")].
Example C105_case :
  fault (modify105 bad105) (Refuse 84) /\ fault (modify105 [change105 "000"; p_seq []; change105 "007"]) Crash /\
  fault bind105 (Refuse 48) /\ fault move105 (Refuse 53) /\ carries (p_msg 5 move105) 5 move105 /\
  known_tag (p_tag bind105) /\
  r_out (handle1 admin1 (p_msg 5 (modify105 bad105)) d1) = [RFinal 5 ModifyResponse 84 None] /\
  r_next (handle1 admin1 (p_msg 5 (modify105 [change105 "000"; p_seq []; change105 "007"])) d1) = Dead /\
  r_out (handle1 admin1 (p_msg 5 bind105) d1) = [RFinal 5 BindResponse 48 None] /\
  r_out (handle1 admin1 (p_msg 5 move105) d1) = [RFinal 5 ModifyDNResponse 53 None] /\
  r_out (handle1 [] (p_msg 5 move105) d1) = [RFinal 5 ModifyDNResponse 50 None].
Proof.
  assert (Hg : Forall (fun q => exists c, says_change q c) [change105 "000"]).
  { constructor; [|done]. exists (mkChange MAdd (B "cn") []). exists (Pkt 0 false 10 (VInt 0) [ "000"%char ] []), (p_seq [p_octets (B "cn")]), [], "000"%char, [].
    repeat (split; [done|]). right. by exists (p_octets (B "cn")). }
  assert (Hfr : forall l, modify_frame (modify105 l) l).
  { intros l. exists (p_octets (B "uid=carl,o=base")), (p_seq l), (B "uid=carl,o=base"). split; [done|].
    split; [split; [done|vm_compute; eauto]|done]. }
  split. { apply (fault_change _ [change105 "000"] (change105 "007") [p_seq []]); [done|apply Hfr|done|].
           eapply cf_kind; [done|reflexivity|vm_compute; done]. }
  split. { apply (fault_change _ [change105 "000"] (p_seq []) [change105 "007"]); [done|apply Hfr|done|]. by constructor. }
  split. { apply fault_bind; [done|]. by apply (bf_number _ 2). }
  split. { apply fault_move; [done|]. eexists _, _, _, _, _, _, _. split; [reflexivity|].
           split; [split; [reflexivity|vm_compute; eauto]|]. split; [split; [reflexivity|vm_compute; eauto]|done]. }
  split; [by exists (p_int 5), []|]. split; [cbn; auto|]. vm_compute. repeat split.
Qed.
End case.
