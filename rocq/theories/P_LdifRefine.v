(** Property C102: the server on the LDIF backend is an abstract read-only LDAP
    server on the list of the records of the file. *)
From Verif Require Import Bytes Text Dn DnProofs Res Entry EntryProofs Password PasswordProofs P_Password Db DbSpec Packet
  Filter FilterProofs ScopeProofs P_Filter Handler Server ServerProofs P_Db P_Server Ldif LdifProofs LdifMore P_Ldif
  Encode EncodeProofs E2e E2eProofs SessionProofs P_E2e P_Session P_Bind P_LdifMsg P_Malformed P_Unmade P_Refine P_Judge P_LdifJudge.

Section spec.
Context {T : Text} {C : Crypto} {W : Wire}.
(** Besides the settings there are the records of the file and, if there is an
    overlay (server/server.go:72-78), its base and its records. *)
Variables (cfg : server_cfg) (c : ldif_cfg) (records : list (option entry)) (extra : option (str * list (option entry))).

(** The abstract server: what may be sent ([out]) in reply to the request [req]
    with the message identifier [id], on a connection bound to [bound], and what
    becomes of the connection ([n]).  The only data are the records. *)
Section reads.
Variables (ev : renv bool) (id : Z) (bound : str) (req : packet) (out : list response) (n : next).

Definition only (tag code : N) : Prop := out = [RFinal id tag code None] /\ n = Go bound.
Definition last_words (tag code : N) : Prop := out = [RFinal id tag code None] /\ n = Drop.

Definition named (l : list (option entry)) (dn : str) (e : entry) : Prop :=
  In (Some e) l /\ to_lower (e_dn e) = to_lower dn.
(** A bind that is accepted; for a name that is no DN the connection is closed. *)
Definition accepted (dn : str) : Prop :=
  match parse_dn dn with
  | Some dd => out = [RFinal id BindResponse 0 None] /\ n = Go (normalize dd)
  | None => out = [] /\ n = Drop
  end.
(** A bind decided by the file. *)
Definition by_main (dn pw : str) : Prop :=
  let ok := ldif_allowed c (re_h ev) dn in
  let good := pw = [] /\ to_lower dn = [] \/ pw <> [] /\ exists e h, named records dn e /\ ldif_password e h /\ accepts pw h in
  let bad := pw <> [] /\ exists e, named records dn e /\ chokes_on e pw in
  (~ ok /\ only BindResponse 50) \/
  (ok /\ pw = [] /\ to_lower dn <> [] /\ only BindResponse 53) \/
  (ok /\ good /\ accepted dn) \/
  (ok /\ bad /\ only BindResponse 1) \/
  (ok /\ pw <> [] /\ ~ good /\ ~ bad /\ only BindResponse 49).
(** A bind decided by the record [e] of the overlay. *)
Definition by_overlay (base : str) (e : entry) (dn pw : str) : Prop :=
  let ok := exists t, to_lower dn = t ++ base in
  let good := exists h, ldif_password e h /\ accepts pw h in
  (ok /\ good /\ accepted dn) \/
  (ok /\ chokes_on e pw /\ only BindResponse 1) \/
  ((~ ok \/ ~ good /\ ~ chokes_on e pw) /\ only BindResponse 49).
Definition reads_bind : Prop :=
  (forall dn pw, says_bind req dn pw ->
     match extra with
     | None => by_main dn pw
     | Some (base, l) =>
         ((pw = [] \/ forall e, ~ named l dn e) /\ by_main dn pw) \/
         (pw <> [] /\ exists e, named l dn e /\ by_overlay base e dn pw)
     end) /\
  (p_cls req = ClassApplication -> p_tag req = BindRequest -> (forall dn pw, ~ says_bind req dn pw) ->
     exists code, In code [1; 2; 48]%N /\ only BindResponse code).

Definition reads_write : Prop :=
  (forall o, says_write req o -> only (write_response o) (if is_empty bound then 50 else 53)) /\
  (p_cls req = ClassApplication -> In (p_tag req) [AddRequest; DelRequest; ModifyRequest; ModifyDNRequest] ->
     (forall o, ~ says_write req o) ->
     (bound = [] -> only (response_tag (p_tag req)) 50) /\
     (bound <> [] -> (exists code, In code [2; 53; 84]%N /\ only (response_tag (p_tag req)) code) \/
        (p_tag req = ModifyRequest /\ out = [] /\ n = Dead))).

Definition reads_password : Prop :=
  (forall r, says_password req r ->
     (bound = [] -> only ExtendedResponse 53) /\
     (forall pw h0, bound <> [] ->
        (pw_new r <> [] /\ pw = pw_new r \/ pw_new r = [] /\ generate_password (sv_genlen cfg) (re_draws ev) = Ok pw) ->
        hash_password pw (B "{ARGON2}") (re_salt ev) = Ok h0 -> only ExtendedResponse 53) /\
     (forall v, bound <> [] -> fair (re_draws ev) -> unmade (sv_genlen cfg) (re_draws ev) (re_salt ev) (pw_new r) v ->
        (out, n) = sentence id ExtendedResponse bound v)) /\
  (p_cls req = ClassApplication -> p_tag req = ExtendedRequest -> (forall r, ~ says_password req r) ->
     exists code, In code [1; 53; 84]%N /\ only ExtendedResponse code).

Definition reads_search : Prop :=
  (forall r, p_cls req = ClassApplication -> p_tag req = SearchRequest -> says_search req r ->
     let below := exists t, to_lower (sr_base r) = t ++ lc_base c in
     let ok := ldif_allowed c (re_h ev) bound in
     (~ ok -> last_words SearchResultDone 50) /\
     (ok -> ~ below -> compile_filter (sr_filter r) = None \/ (exists f, compile_filter (sr_filter r) = Some (filter_packet f)) ->
        last_words SearchResultDone 50) /\
     (ok -> below -> compile_filter (sr_filter r) = None -> last_words SearchResultDone 1) /\
     (forall f b, ok -> below -> compile_filter (sr_filter r) = Some (filter_packet f) -> supported f = true -> index_safe f ->
        parse_dn (sr_base r) = Some b -> Forall ascii_entry (records_of records) ->
        (forall e, In (Some e) records -> served_plain (sr_scope r) b (to_lower (e_dn e))) ->
        exists (keep : entry -> bool) (l : list entry),
          (forall e, In (Some e) records -> (keep e = true <-> answers r b f e)) /\
          Permutation l (map (fun e => select_attributes (sr_attrs r) (served e)) (bfilter keep (records_of records))) /\
          out = map (REntry id) (if (0 <? sr_size r)%Z then take (Nat.max 1 (Z.to_nat (sr_size r mod 2 ^ 32))) l else l) ++
                [RFinal id SearchResultDone 0 None] /\
          n = Go bound)) /\
  (p_cls req = ClassApplication -> p_tag req = SearchRequest -> (forall r, ~ says_search req r) ->
     last_words SearchResultDone 1).

Definition reads_rest : Prop :=
  (p_cls req = ClassApplication -> p_tag req = CompareRequest -> last_words CompareRequest 1) /\
  (p_cls req <> ClassApplication \/
   ~ In (p_tag req) [AddRequest; BindRequest; CompareRequest; DelRequest; ExtendedRequest; ModifyDNRequest; ModifyRequest; SearchRequest] ->
     out = [] /\ n = Drop).

(** A search with any filter and any names: the records below the base are weighed
    (C109) one after the other, those that the index leaves out excepted. *)
Definition reads_any_search : Prop :=
  forall r f, p_cls req = ClassApplication -> p_tag req = SearchRequest -> says_search req r ->
    ldif_allowed c (re_h ev) bound -> (exists t, to_lower (sr_base r) = t ++ lc_base c) ->
    compile_filter (sr_filter r) = Some (filter_packet f) ->
    let below := bfilter (fun e => has_suffix (to_lower (e_dn e)) (to_lower (sr_base r))) (records_of records) in
    let J e := weighed (sr_base r) (sr_scope r) (served e) f in
    exists (es seen rest : list entry) (keep : entry -> bool),
      es ⊆+ below /\ (unhinted f -> es ≡ₚ below) /\ es = seen ++ rest /\
      (forall e, In e seen -> J e (if keep e then Yes else No)) /\
      let sent := bfilter keep seen in
      let good := out = map (fun e => REntry id (select_attributes (sr_attrs r) (served e))) sent ++
                          [RFinal id SearchResultDone 0 None] /\ n = Go bound in
      ((0 < sr_size r)%Z -> length sent <= Nat.max 1 (Z.to_nat (sr_size r mod 2 ^ 32))) /\
      match rest with
      | [] => good
      | e :: _ =>
          ((0 < sr_size r)%Z /\ length sent = Nat.max 1 (Z.to_nat (sr_size r mod 2 ^ 32)) /\ good) \/
          (J e Stuck /\ last_words SearchResultDone 1) \/ (J e Fatal /\ out = [] /\ n = Dead)
      end.

(** The last but one: a malformed request gets the answer of its verdict (C105). *)
Definition reads : Prop :=
  reads_bind /\ reads_write /\ reads_password /\ reads_search /\ reads_rest /\ sentenced id bound req out n /\ reads_any_search.
End reads.

(** Its state is the name each connection is bound to. *)
Record desk := mkDesk { k_conns : gmap nat str; k_alive : bool }.
Inductive desk_step : desk -> event (E:=bool) -> list response -> desk -> Prop :=
| dk_dead cs e : desk_step (mkDesk cs false) e [] (mkDesk cs false)
| dk_open cs k : cs !! k = None -> desk_step (mkDesk cs true) (EOpen k) [] (mkDesk (<[k := []]> cs) true)
| dk_again cs k bound : cs !! k = Some bound -> desk_step (mkDesk cs true) (EOpen k) [] (mkDesk cs true)
| dk_close cs k : desk_step (mkDesk cs true) (EClose k) [] (mkDesk (delete k cs) true)
| dk_nobody cs k ev p : cs !! k = None -> desk_step (mkDesk cs true) (EPacket k ev p) [] (mkDesk cs true)
| dk_serve cs k ev id req bound out n :
    cs !! k = Some bound -> reads ev id bound req out n ->
    desk_step (mkDesk cs true) (EPacket k ev (p_msg id req)) out
      match n with
      | Go bound' => mkDesk (<[k := bound']> cs) true
      | Drop => mkDesk (delete k cs) true
      | Dead => mkDesk ∅ false
      end.
Inductive desk_run : desk -> list (event (E:=bool)) -> list (list response) -> desk -> Prop :=
| dr_nil s : desk_run s [] [] s
| dr_cons s e out s1 es outs s2 : desk_step s e out s1 -> desk_run s1 es outs s2 -> desk_run s (e :: es) (out :: outs) s2.
End spec.

(** The responses to each of the events. *)
Fixpoint said {T : Text} {C : Crypto} {W : Wire} {S E} (cfg : server_cfg) (h : handler S E) (w : world (S:=S))
    (es : list (event (E:=E))) : list (list response) :=
  match es with
  | [] => []
  | e :: es => let '(w', out) := step cfg h w e in out :: said cfg h w' es
  end.

Section proofs.
Context {T : Text} {C : Crypto} {W : Wire}.

Lemma any_bind {S E} cfg (h : handler S E) (ev : renv E) bound id req dn pw s :
  says_bind req dn pw ->
  handle cfg h ev bound (p_msg id req) s = handle cfg h ev bound (p_msg id (enc_bind dn pw)) s.
Proof using Type.
  intros (Hc & Ht & v & x & a & Hk & Hv & Hx & Ha & Hd).
  unfold handle, p_msg. cbn [p_kids p_seq as_int p_int p_val]. rewrite Hc.
  change (negb (p_cls (enc_bind dn pw) =? ClassApplication)%N) with false.
  change (negb (ClassApplication =? ClassApplication)%N) with false. cbn match.
  unfold dispatch. rewrite Ht. change (p_tag (enc_bind dn pw)) with BindRequest.
  change (BindRequest =? AddRequest)%N with false. change (BindRequest =? BindRequest)%N with true. cbn match.
  assert (handle_bind h ev req s = handle_bind h ev (enc_bind dn pw) s) as ->.
  { unfold handle_bind. rewrite Hk, Hv. change (p_kids (enc_bind dn pw)) with [p_int 3; p_octets dn; p_ctx 0 pw].
    cbn match. change (as_int (p_val (p_int 3))) with (Some 3%Z). change (as_int (VInt 3)) with (Some 3%Z). cbn match.
    rewrite Hx, Ha, Hd. reflexivity. }
  rewrite Hk. change (p_kids (enc_bind dn pw)) with [p_int 3; p_octets dn; p_ctx 0 pw]. rewrite Hx. reflexivity.
Qed.

(** Writes that cannot be read are answered before any handler sees them. *)
Lemma any_malformed {S E} cfg (h : handler S E) (ev : renv E) bound id req (s : S) :
  re_send ev 0 = true -> p_cls req = ClassApplication ->
  In (p_tag req) [AddRequest; DelRequest; ModifyRequest; ModifyDNRequest] -> (forall o, ~ says_write req o) ->
  let r := handle cfg h ev bound (p_msg id req) s in
  let t := response_tag (p_tag req) in
  (bound = [] -> r = mkResult [RFinal id t 50 None] (Go bound) s) /\
  (bound <> [] ->
    (exists code, In code [2; 53; 84]%N /\ r = mkResult [RFinal id t code None] (Go bound) s) \/
    (p_tag req = ModifyRequest /\ r = mkResult [] Dead s)).
Proof using Type.
  intros Hs Hcl Hin Hno r t. unfold r, t. clear r t.
  unfold handle, p_msg. cbn [p_kids p_seq as_int p_int p_val].
  rewrite Hcl. change (negb (ClassApplication =? ClassApplication)%N) with false. cbn match.
  unfold dispatch. remember (p_tag req) as t eqn:Ht.
  assert (bound <> [] -> is_empty bound = false) as Hbe by by destruct bound.
  destruct Hin as [<-|[<-|[<-|[<-|[]]]]].
  - change (AddRequest =? AddRequest)%N with true. cbn match. unfold handle_add. split.
    { intros ->. cbn [is_empty finish perr]. unfold send_final. by rewrite Hs. }
    intros Hb. rewrite (Hbe Hb). left. exists 2%N. split; [by left|].
    destruct (add_else req) as [->|[r Hr]].
    + cbn [lift_res perr finish]. unfold send_final. by rewrite Hs.
    + destruct (Hno (OpPut (entry_from_add r))). apply add_iff in Hr. split; [done|]. left. eauto.
  - change (DelRequest =? AddRequest)%N with false.
    change (DelRequest =? BindRequest)%N with false. change (DelRequest =? CompareRequest)%N with false.
    change (DelRequest =? DelRequest)%N with true. cbn match. unfold handle_delete. split.
    { intros ->. cbn [is_empty finish perr]. unfold send_final. by rewrite Hs. }
    intros Hb. rewrite (Hbe Hb). left. exists 2%N. split; [by left|]. destruct (delete_else req) as [->|[r Hr]].
    + cbn [lift_res perr finish]. unfold send_final. by rewrite Hs.
    + destruct (Hno (OpDelete r)). apply delete_iff in Hr. split; [done|]. right; left. eauto.
  - change (ModifyRequest =? AddRequest)%N with false.
    change (ModifyRequest =? BindRequest)%N with false. change (ModifyRequest =? CompareRequest)%N with false.
    change (ModifyRequest =? DelRequest)%N with false. change (ModifyRequest =? ExtendedRequest)%N with false.
    change (ModifyRequest =? ModifyDNRequest)%N with false.
    change (ModifyRequest =? ModifyRequest)%N with true. cbn match. unfold handle_modify. split.
    { intros ->. cbn [is_empty finish perr]. unfold send_final. by rewrite Hs. }
    intros Hb. rewrite (Hbe Hb). destruct (modify_else req) as [->|[->|[->|[r Hr]]]].
    + right. done.
    + left. exists 2%N. split; [by left|]. cbn [lift_res perr finish]. unfold send_final. by rewrite Hs.
    + left. exists 84%N. split; [by right; right; left|]. cbn [lift_res perr finish]. unfold send_final. by rewrite Hs.
    + destruct (Hno (OpModify r)). apply modify_iff in Hr. split; [done|]. right; right; left. eauto.
  - change (ModifyDNRequest =? AddRequest)%N with false.
    change (ModifyDNRequest =? BindRequest)%N with false. change (ModifyDNRequest =? CompareRequest)%N with false.
    change (ModifyDNRequest =? DelRequest)%N with false. change (ModifyDNRequest =? ExtendedRequest)%N with false.
    change (ModifyDNRequest =? ModifyDNRequest)%N with true. cbn match. unfold handle_moddn. split.
    { intros ->. cbn [is_empty finish perr]. unfold send_final. by rewrite Hs. }
    intros Hb. rewrite (Hbe Hb). left. destruct (moddn_else req) as [->|[->|[r Hr]]].
    + exists 2%N. split; [by left|]. cbn [lift_res perr finish]. unfold send_final. by rewrite Hs.
    + exists 53%N. split; [by right; left|]. cbn [lift_res perr finish]. unfold send_final. by rewrite Hs.
    + destruct (Hno (OpModDn r)). apply moddn_iff in Hr. split; [done|]. right; right; right. eauto.
Qed.

(** A handler that refuses every write. *)
Lemma any_write {S E} cfg (h : handler S E) (ev : renv E) bound id req o (s : S) :
  re_send ev 0 = true -> says_write req o ->
  (forall x b r, h_add h x b r s = (HRet (53, true)%N, s)) -> (forall x b r, h_delete h x b r s = (HRet (53, true)%N, s)) ->
  (forall x b r, h_modify h x b r s = (HRet (53, true)%N, s)) -> (forall x b r, h_moddn h x b r s = (HRet (53, true)%N, s)) ->
  handle cfg h ev bound (p_msg id req) s =
    mkResult [RFinal id (write_response o) (if is_empty bound then 50 else 53) None] (Go bound) s.
Proof using Type.
  intros Hs [Hcl Hsay] H1 H2 H3 H4.
  unfold handle, p_msg. cbn [p_kids p_seq as_int p_int p_val].
  rewrite Hcl. change (negb (ClassApplication =? ClassApplication)%N) with false. cbn match.
  unfold dispatch.
  destruct Hsay as [(Ht & r & Hr & ->)|[(Ht & r & Hr & ->)|[(Ht & r & Hr & ->)|(Ht & r & Hr & ->)]]]; rewrite Ht.
  - apply add_iff in Hr. change (AddRequest =? AddRequest)%N with true. cbn match.
    unfold handle_add. destruct (is_empty bound); [|rewrite Hr]; cbn [lift_res]; rewrite ?H1;
      cbn [finish perr write_response]; unfold send_final; by rewrite Hs.
  - apply delete_iff in Hr. change (DelRequest =? AddRequest)%N with false.
    change (DelRequest =? BindRequest)%N with false. change (DelRequest =? CompareRequest)%N with false.
    change (DelRequest =? DelRequest)%N with true. cbn match.
    unfold handle_delete. destruct (is_empty bound); [|rewrite Hr]; cbn [lift_res]; rewrite ?H2;
      cbn [finish perr write_response]; unfold send_final; by rewrite Hs.
  - apply modify_iff in Hr. change (ModifyRequest =? AddRequest)%N with false.
    change (ModifyRequest =? BindRequest)%N with false. change (ModifyRequest =? CompareRequest)%N with false.
    change (ModifyRequest =? DelRequest)%N with false. change (ModifyRequest =? ExtendedRequest)%N with false.
    change (ModifyRequest =? ModifyDNRequest)%N with false.
    change (ModifyRequest =? ModifyRequest)%N with true. cbn match.
    unfold handle_modify. destruct (is_empty bound); [|rewrite Hr]; cbn [lift_res]; rewrite ?H3;
      cbn [finish perr write_response]; unfold send_final; by rewrite Hs.
  - apply moddn_iff in Hr. change (ModifyDNRequest =? AddRequest)%N with false.
    change (ModifyDNRequest =? BindRequest)%N with false. change (ModifyDNRequest =? CompareRequest)%N with false.
    change (ModifyDNRequest =? DelRequest)%N with false. change (ModifyDNRequest =? ExtendedRequest)%N with false.
    change (ModifyDNRequest =? ModifyDNRequest)%N with true. cbn match.
    unfold handle_moddn. destruct (is_empty bound); [|rewrite Hr]; cbn [lift_res]; rewrite ?H4;
      cbn [finish perr write_response]; unfold send_final; by rewrite Hs.
Qed.

(** Extended requests. *)
Lemma any_extended {S E} cfg (h : handler S E) (ev : renv E) bound id req (s : S) :
  p_cls req = ClassApplication -> p_tag req = ExtendedRequest ->
  handle cfg h ev bound (p_msg id req) s =
    match handle_extended cfg h ev bound req s with
    | (HRet (code, v), s') => send_final ev 0 [] (RFinal id ExtendedResponse code v) (Go bound) s'
    | (_, s') => mkResult [] Dead s'
    end.
Proof using Type.
  intros Hcl Ht. unfold handle, p_msg. cbn [p_kids p_seq as_int p_int p_val].
  rewrite Hcl. change (negb (ClassApplication =? ClassApplication)%N) with false. cbn match.
  unfold dispatch. rewrite Ht. done.
Qed.
Lemma any_password {S E} cfg (h : handler S E) (ev : renv E) bound id req r (s : S) :
  re_send ev 0 = true -> says_password req r ->
  (forall x b r, h_password h x b r s = (HRet (53, true)%N, s)) ->
  let res := handle cfg h ev bound (p_msg id req) s in
  (bound = [] -> res = mkResult [RFinal id ExtendedResponse 53 None] (Go bound) s) /\
  (forall pw h0, bound <> [] ->
     (pw_new r <> [] /\ pw = pw_new r \/ pw_new r = [] /\ generate_password (sv_genlen cfg) (re_draws ev) = Ok pw) ->
     hash_password pw (B "{ARGON2}") (re_salt ev) = Ok h0 ->
     res = mkResult [RFinal id ExtendedResponse 53 None] (Go bound) s).
Proof using Type.
  intros Hs Hsay Hp res. unfold res. clear res. pose proof Hsay as (Hc & Ht & _). rewrite any_extended by done.
  apply password_iff in Hsay as (body & He & Hb); [|done|done].
  unfold handle_extended. rewrite He, seqb_refl. unfold handle_pwmod. split.
  - intros ->. cbn. unfold send_final. by rewrite Hs.
  - intros pw h0 Hne Hpw Hh. assert (is_empty bound = false) as -> by by destruct bound. rewrite Hb.
    assert ((if is_empty (pw_new r) then generate_password (sv_genlen cfg) (re_draws ev) else Ok (pw_new r)) = Ok pw) as ->.
    { destruct Hpw as [[? ->]|[-> ?]]; [by destruct (pw_new r)|done]. }
    rewrite Hh, Hp. cbn. unfold send_final. by rewrite Hs.
Qed.
Lemma any_extended_malformed {S E} cfg (h : handler S E) (ev : renv E) bound id req (s : S) :
  re_send ev 0 = true -> p_cls req = ClassApplication -> p_tag req = ExtendedRequest -> (forall r, ~ says_password req r) ->
  exists code, In code [1; 53; 84]%N /\
    handle cfg h ev bound (p_msg id req) s = mkResult [RFinal id ExtendedResponse code None] (Go bound) s.
Proof using Type.
  intros Hs Hcl Ht Hno. rewrite any_extended by done. unfold handle_extended.
  destruct (parse_extended req) as [[oid body]|e| |] eqn:He.
  - destruct (seqb oid pwmod_oid) eqn:Eo.
    2:{ exists 1%N. split; [by left|]. unfold send_final. by rewrite Hs. }
    apply seqb_eq in Eo as ->. unfold handle_pwmod. destruct (is_empty bound) eqn:Eb.
    { exists 53%N. split; [by right; left|]. cbn. unfold send_final. by rewrite Hs. }
    destruct (parse_pwmod body) as [r|e| |] eqn:Ep.
    { destruct (Hno r). apply password_iff; [done|done|]. by exists body. }
    all: exists 84%N; split; [by right; right; left|].
    all: unfold parse_pwmod in Ep; destruct body as [b|]; [|done].
    all: destruct (decode_inner (p_data b)) as [inner|]; [|done].
    all: destruct (3 <? length (p_kids inner));
      [|destruct (pw_fields_else (p_kids inner) (mkPw [] [] [])) as [Hx|[r Hx]]; rewrite Hx in Ep].
    all: try done.
    all: injection Ep as <-; cbn; unfold send_final; by rewrite Hs.
  - exists 1%N. split; [by left|]. unfold send_final. by rewrite Hs.
  - exfalso. unfold parse_extended in He. destruct (p_kids req) as [|o rest]; [done|].
    destruct (1 <? length rest); [done|]. destruct (_ && _); [|done]. destruct rest; [done|].
    by destruct (_ && _).
  - exfalso. unfold parse_extended in He. destruct (p_kids req) as [|o rest]; [done|].
    destruct (1 <? length rest); [done|]. destruct (_ && _); [|done]. destruct rest; [done|].
    by destruct (_ && _).
Qed.
Lemma any_rest {S E} cfg (h : handler S E) (ev : renv E) bound id req (s : S) :
  re_send ev 0 = true ->
  (p_cls req = ClassApplication -> p_tag req = CompareRequest ->
     handle cfg h ev bound (p_msg id req) s = mkResult [RFinal id CompareRequest 1 None] Drop s) /\
  (p_cls req <> ClassApplication \/
   ~ In (p_tag req) [AddRequest; BindRequest; CompareRequest; DelRequest; ExtendedRequest; ModifyDNRequest; ModifyRequest; SearchRequest] ->
     handle cfg h ev bound (p_msg id req) s = mkResult [] Drop s).
Proof using Type.
  intros Hs. split.
  - intros Hc Ht. unfold handle, p_msg. cbn [p_kids p_seq as_int p_int p_val]. rewrite Hc.
    change (negb (ClassApplication =? ClassApplication)%N) with false. cbn match. unfold dispatch. rewrite Ht.
    unfold send_final. rewrite Hs. reflexivity.
  - intros Hx. unfold handle, p_msg. cbn [p_kids p_seq as_int p_int p_val].
    destruct (p_cls req =? ClassApplication)%N eqn:Ec; [|done]. apply N.eqb_eq in Ec. cbn [negb].
    destruct Hx as [?|Hx]; [done|]. unfold dispatch. cbn [In] in Hx.
    rewrite !(proj2 (N.eqb_neq _ _)) by (intros E'; apply Hx; rewrite E'; auto 10). done.
Qed.

(** Everything but the binds, for a handler that refuses writes. *)
Lemma refusing_reads {S E} cfg (h : handler S E) (ev : renv E) bound id req (s : S) :
  (forall k, re_send ev k = true) ->
  (forall x b r, h_add h x b r s = (HRet (53, true)%N, s)) -> (forall x b r, h_delete h x b r s = (HRet (53, true)%N, s)) ->
  (forall x b r, h_modify h x b r s = (HRet (53, true)%N, s)) -> (forall x b r, h_moddn h x b r s = (HRet (53, true)%N, s)) ->
  (forall x b r, h_password h x b r s = (HRet (53, true)%N, s)) ->
  let r := handle cfg h ev bound (p_msg id req) s in
  (forall evb, re_salt evb = re_salt ev -> re_draws evb = re_draws ev ->
     reads_write id bound req (r_out r) (r_next r) /\
     reads_password cfg evb id bound req (r_out r) (r_next r) /\ reads_rest id req (r_out r) (r_next r)) /\
  (p_cls req = ClassApplication -> p_tag req = BindRequest -> (forall dn pw, ~ says_bind req dn pw) ->
     exists code, In code [1; 2; 48]%N /\ only id bound (r_out r) (r_next r) BindResponse code) /\
  (p_cls req = ClassApplication -> p_tag req = SearchRequest -> (forall r, ~ says_search req r) ->
     last_words id (r_out r) (r_next r) SearchResultDone 1).
Proof using Type.
  intros Hs H1 H2 H3 H4 H5 r. pose proof (Hs 0) as Hs0. unfold r. clear r. split; [|split].
  - intros evb Hsalt Hdraws. split; [|split].
    + split.
      * intros o Hsay. unfold only. by rewrite (any_write cfg h ev bound id req o s).
      * intros Hc Ht Hno. unfold only. destruct (any_malformed cfg h ev bound id req s Hs0 Hc Ht Hno) as [X1 X2]. split.
        -- intros Hx. by rewrite (X1 Hx).
        -- intros Hx. destruct (X2 Hx) as [(code & Hin & ->)|[? ->]]; [left; by exists code|by right].
    + split.
      * intros r Hsay. unfold only. rewrite Hsalt, Hdraws.
        destruct (any_password cfg h ev bound id req r s Hs0 Hsay H5) as [X1 X2]. split; [|split].
        -- intros Hx. by rewrite (X1 Hx).
        -- intros pw h0 Hx Hy Hz. by rewrite (X2 pw h0 Hx Hy Hz).
        -- intros v Hx Hy Hz. rewrite (C108_answer T C W _ _ cfg h ev bound (p_msg id req) id req r v s Hs0 Hx); try done.
           ++ cbn [r_out r_next]. by destruct (sentence id ExtendedResponse bound v).
           ++ by exists (p_int id), [].
      * intros Hc Ht Hno. unfold only.
        destruct (any_extended_malformed cfg h ev bound id req s Hs0 Hc Ht Hno) as (code & Hin & ->). by exists code.
    + destruct (any_rest cfg h ev bound id req s Hs0) as [X1 X2]. unfold reads_rest, last_words. split.
      * intros Hc Ht. by rewrite X1.
      * intros Hx. by rewrite X2.
  - intros Hc Ht Hno. destruct (C80_malformed T C W _ _ cfg h ev bound id req s Hs0 Hc Ht) as (code & Hin & ->).
    { intros dn pw Hx. apply bind_stated in Hx; [|done]. by eapply Hno. }
    by exists code.
  - intros Hc Ht Hno. unfold last_words. rewrite (C74_malformed T C W _ _ cfg h ev bound id req s); auto.
Qed.
(** A bind on the file alone. *)
Lemma main_bind {Tr : Trees} (HT : TextOK T) attrs records d c cfg (ev : renv bool) bound id dn pw :
  build attrs records = Some d -> re_send ev 0 = true ->
  let r := handle cfg (ldif_handler c) ev bound (p_msg id (enc_bind dn pw)) d in
  by_main c records ev id bound (r_out r) (r_next r) dn pw.
Proof using Type.
  intros Hb Hs0 r. unfold r. clear r. unfold by_main. cbv zeta.
  destruct (C82_bind T C W Tr HT attrs records d c cfg ev bound id dn pw Hb Hs0) as (code & -> & H50 & H53 & H0 & H1 & Hin).
  change (fun e => In (Some e) records /\ to_lower (e_dn e) = to_lower dn) with (named records dn) in H0, H1.
  set (ok := ldif_allowed c (re_h ev) dn) in *.
  destruct Hin as [<-|[<-|[<-|[<-|[<-|[]]]]]]; unfold only.
  - left. split; [by apply H50|done].
  - right. left. destruct (proj1 H53 eq_refl) as (? & ? & ?). done.
  - right. right. left. destruct (proj1 H0 eq_refl) as [? Hg]. split; [done|]. split; [exact Hg|].
    change (0 =? 0)%N with true. cbn match. unfold accepted. by destruct (parse_dn dn).
  - right. right. right. left. destruct (proj1 H1 eq_refl) as (? & ? & ?). done.
  - right. right. right. right.
    assert (Hok : ok). { destruct (bind_dn_ok c (re_h ev) (to_lower dn)) eqn:E; [by apply allowed_iff|].
      assert (~ ok) as Hn by (unfold ok; rewrite <- allowed_iff, E; done). by apply H50 in Hn. }
    split; [done|]. split; [|split; [|split; [|done]]].
    + intros ->. destruct (to_lower dn) as [|y l] eqn:El.
      * assert (49 = 0)%N; [|done]. apply H0. split; [done|]. by left.
      * assert (49 = 53)%N; [|done]. by apply H53.
    + intros Hg. assert (49 = 0)%N; [|done]. apply H0. by split.
    + intros Hg. assert (49 = 1)%N; [|done]. apply H1. by split.
Qed.
(** Searches on the file. *)
Lemma main_search {Tr : Trees} (HT : TextOK T) (HTr : TreesOK Tr) attrs records d c cfg (ev : renv bool) bound id req :
  build attrs records = Some d -> sv_enforce cfg = false -> (forall k, re_send ev k = true) ->
  let r := handle cfg (ldif_handler c) ev bound (p_msg id req) d in
  reads_search c records ev id bound req (r_out r) (r_next r).
Proof using Type.
  intros Hb Hen Hs r. unfold r. clear r. split.
  - intros r Hc Ht Hsay below ok. unfold last_words.
    destruct (C82_search_refused T C W Tr c cfg ev d bound id req r Hc Ht Hsay Hen Hs) as (H1 & H2 & H3).
    split; [|split; [|split]].
    + intros Hx. by rewrite (H1 Hx).
    + intros Hx Hy Hz. by rewrite (H2 Hx Hy Hz).
    + intros Hx Hy Hz. by rewrite (H3 Hx Hy Hz).
    + intros f b Hok Hbl Hf Hsup Hsafe Hp Hasc Hpl.
      destruct (C82_search T C W Tr HT HTr attrs records d c cfg ev bound id req r f b) as (keep & l & Hk & Hl & ->); try done.
      exists keep, l. done.
  - intros Hc Ht Hno. unfold last_words. rewrite (C74_malformed T C W _ _ cfg (ldif_handler c) ev bound id req d); auto.
Qed.
Lemma main_any_search {Tr : Trees} (HT : TextOK T) (HTr : TreesOK Tr) attrs records d c cfg (ev : renv bool) bound id req :
  build attrs records = Some d -> sv_enforce cfg = false -> (forall k, re_send ev k = true) ->
  let r := handle cfg (ldif_handler c) ev bound (p_msg id req) d in
  reads_any_search c records ev id bound req (r_out r) (r_next r).
Proof using Type.
  intros Hb Hen Hs r0. unfold r0. clear r0. intros r f Hc Ht Hsay Ha Hbl Hf below J.
  destruct (C109_search T C W Tr HT HTr attrs records d c cfg ev bound id req r f) as (es & seen & rest & keep & H1 & H2 & H3 & H4 & H5 & H6); try done.
  exists es, seen, rest, keep. split; [exact H1|]. split; [exact H2|]. split; [exact H3|]. split; [exact H4|]. cbv zeta.
  split; [exact H5|]. unfold last_words. cbv zeta in H6.
  destruct rest as [|e rest]; [by rewrite H6|].
  destruct H6 as [(X1 & X2 & ->)|[(X1 & ->)|(X1 & ->)]]; [left|right; left|right; right]; done.
Qed.
(** Requests answered by the abstract server make runs of the abstract server. *)
Lemma desk_runs {S} cfg c records extra (h : handler S bool) (s : S) (good : renv bool -> packet -> Prop) :
  (forall ev bound p, good ev p -> exists id req, p = p_msg id req /\
     let r := handle cfg h ev bound p s in
     reads cfg c records extra ev id bound req (r_out r) (r_next r) /\ r_state r = s) ->
  forall es w, w_state w = s -> (forall k ev p, In (EPacket k ev p) es -> good ev p) ->
    desk_run cfg c records extra (mkDesk (w_conns w) (w_alive w)) es (said cfg h w es)
      (mkDesk (w_conns (run cfg h w es)) (w_alive (run cfg h w es))) /\
    w_state (run cfg h w es) = s.
Proof using Type.
  intros Hreq. induction es as [|e es IH]; intros w Hw Hpl; [split; [constructor|done]|].
  cbn [run said]. destruct (step cfg h w e) as [w1 out] eqn:Est. cbn [fst snd].
  assert (Hstep : desk_step cfg c records extra (mkDesk (w_conns w) (w_alive w)) e out (mkDesk (w_conns w1) (w_alive w1)) /\ w_state w1 = s).
  { unfold step in Est. destruct w as [cs s0 al]. cbn [w_conns w_state w_alive] in *. subst s0.
    destruct al; cbn [negb] in Est; [|injection Est as <- <-; split; [constructor|done]].
    destruct e as [k|k ev p|k].
    - destruct (cs !! k) as [bound|] eqn:Ek; injection Est as <- <-; (split; [|done]); [by econstructor|by constructor].
    - destruct (cs !! k) as [bound|] eqn:Ek; [|injection Est as <- <-; split; [by constructor|done]].
      destruct (Hreq ev bound p) as (id & req & -> & Hr & Hd); [apply (Hpl k); by left|].
      set (r := handle cfg h ev bound (p_msg id req) s) in *.
      pose proof (dk_serve cfg c records extra cs k ev id req bound (r_out r) (r_next r) Ek Hr) as Hk.
      destruct (r_next r); injection Est as <- <-; done.
    - injection Est as <- <-. split; [constructor|done]. }
  destruct Hstep as [Hst Hd]. destruct (IH w1 Hd) as [Hrun Hend].
  { intros k ev p Hin. apply (Hpl k ev p). by right. }
  split; [|done]. by econstructor.
Qed.
End proofs.

(** The messages: an identifier and a request, without controls; the responses can
    be written. *)
Definition plain_message (ev : renv bool) (p : packet) : Prop :=
  (forall i, re_send ev i = true) /\ exists id req, p = p_msg id req.

(** C102.  Every request is answered as the abstract server may answer it. *)
Theorem C102_request (T : Text) (C : Crypto) (W : Wire) (Tr : Trees) (HT : TextOK T) (HTr : TreesOK Tr)
    (attrs : list (str * str)) (records : list (option entry)) (d : dataset) (cfg : server_cfg) (c : ldif_cfg)
    (ev : renv bool) (id : Z) (bound : str) (req : packet) :
  build attrs records = Some d -> sv_enforce cfg = false -> (forall k, re_send ev k = true) ->
  let r := handle cfg (ldif_handler c) ev bound (p_msg id req) d in
  reads cfg c records None ev id bound req (r_out r) (r_next r) /\ r_state r = d.
Proof.
  intros Hb Hen Hs r. split; [|by apply readonly_handle, ldif_readonly].
  destruct (refusing_reads cfg (ldif_handler c) ev bound id req d) as (H1 & H2 & H3); try done.
  destruct (H1 ev) as (Hw & Hp & Hr); try done. split; [|split; [|split; [|split; [|split; [|split; [by apply sentence_handled|]]]]]]; try done.
  - split; [|exact H2]. intros dn pw Hsay. unfold r. rewrite (any_bind cfg (ldif_handler c) ev bound id req dn pw d Hsay).
    by apply (main_bind HT attrs).
  - by apply (main_search HT HTr attrs).
  - by apply (main_any_search HT HTr attrs).
Qed.
Print Assumptions C102_request.
(** With an overlay, for names whose lower case is its own lower case. *)
Theorem C102_overlay_request (T : Text) (C : Crypto) (W : Wire) (Tr : Trees) (HT : TextOK T) (HTr : TreesOK Tr)
    (oattrs attrs : list (str * str)) (orecords records : list (option entry)) (o d : dataset)
    (cfg : server_cfg) (c : ldif_cfg) (base : str) (ev : renv bool) (id : Z) (bound : str) (req : packet) :
  build oattrs orecords = Some o -> build attrs records = Some d -> sv_enforce cfg = false ->
  (forall k, re_send ev k = true) ->
  (forall dn pw, says_bind req dn pw -> to_lower (to_lower dn) = to_lower dn) ->
  let r := handle cfg (overlay base (ldif_handler c)) ev bound (p_msg id req) (o, d) in
  reads cfg c records (Some (base, orecords)) ev id bound req (r_out r) (r_next r) /\ r_state r = (o, d).
Proof.
  intros Ho Hb Hen Hs Hll r. split; [|by apply readonly_handle, overlay_readonly, ldif_readonly].
  destruct (refusing_reads cfg (overlay base (ldif_handler c)) ev bound id req (o, d)) as (H1 & H2 & H3); try done.
  destruct (H1 ev) as (Hw & Hp & Hr); try done. split; [|split; [|split; [|split; [|split; [|split; [by apply sentence_handled|]]]]]]; try done.
  - split; [|exact H2]. intros dn pw Hsay. unfold r.
    rewrite (any_bind cfg (overlay base (ldif_handler c)) ev bound id req dn pw (o, d) Hsay).
    destruct (C82_overlay_bind T C W Tr HT oattrs orecords o d c base cfg ev bound id dn pw Ho (Hs 0) (Hll _ _ Hsay)) as [X1 X2].
    pose proof (main_bind HT attrs records d c cfg ev bound id dn pw Hb (Hs 0)) as Hm. cbv zeta in Hm, X1.
    assert (Hcase : (exists e, named orecords dn e) \/ forall e, ~ named orecords dn e).
    { destruct (tree_get o (to_lower dn)) as [x|] eqn:Ex.
      - apply (tree_get_record oattrs orecords o (to_lower dn) Ho) in Ex as (e & He & Hd & ->). left. by exists e.
      - right. intros e [He Hd]. assert (tree_get o (to_lower dn) = Some (split_entry e)); [|congruence].
        apply (tree_get_record oattrs orecords o (to_lower dn) Ho). eauto. }
    destruct (decide (pw = [])) as [Hpw|Hpw].
    { left. destruct X1 as (-> & -> & _); [by left|]. split; [by left|done]. }
    destruct Hcase as [(e & He)|Hno].
    + right. split; [done|]. exists e. split; [done|]. destruct (X2 e Hpw He) as (code & -> & Z0 & Z1 & Hin).
      unfold by_overlay, only, accepted. cbv zeta. destruct Hin as [<-|[<-|[<-|[]]]].
      * left. destruct (proj1 Z0 eq_refl) as [? ?]. split; [done|]. split; [done|]. change (0 =? 0)%N with true. cbn match. by destruct (parse_dn dn).
      * right. left. destruct (proj1 Z1 eq_refl) as [? ?]. done.
      * right. right. split; [|done]. destruct (has_suffix (to_lower dn) base) eqn:Es.
        -- apply has_suffix_spec in Es. right. split; intros Hg.
           ++ assert (49 = 0)%N; [|done]. apply Z0. by split.
           ++ assert (49 = 1)%N; [|done]. apply Z1. by split.
        -- left. intros Hx. apply has_suffix_spec in Hx. congruence.
    + left. destruct X1 as (-> & -> & _); [by right|]. split; [by right|done].
  - split; [|exact H3]. intros sr Hc Ht. unfold r.
    rewrite (C82_overlay_search T C W Tr _ _ (ldif_handler c) base cfg ev bound id req o d Hc Ht). cbn [r_out r_next].
    by apply (main_search HT HTr attrs).
  - intros sr f Hc Ht. unfold r.
    rewrite (C82_overlay_search T C W Tr _ _ (ldif_handler c) base cfg ev bound id req o d Hc Ht). cbn [r_out r_next].
    by apply (main_any_search HT HTr attrs).
Qed.
Print Assumptions C102_overlay_request.

(** Every run is a run of the abstract server, with the same responses to every
    event, the same connections bound to the same names, and the data unchanged. *)
Theorem C102_refines (T : Text) (C : Crypto) (W : Wire) (Tr : Trees) (HT : TextOK T) (HTr : TreesOK Tr)
    (attrs : list (str * str)) (records : list (option entry)) (d : dataset) (cfg : server_cfg) (c : ldif_cfg)
    (es : list (event (E:=bool))) :
  build attrs records = Some d -> sv_enforce cfg = false -> (forall k ev p, In (EPacket k ev p) es -> plain_message ev p) ->
  let w := run cfg (ldif_handler c) (start d) es in
  desk_run cfg c records None (mkDesk ∅ true) es (said cfg (ldif_handler c) (start d) es) (mkDesk (w_conns w) (w_alive w)) /\
  w_state w = d.
Proof.
  intros Hb Hen Hpl. apply (desk_runs cfg c records None (ldif_handler c) d plain_message) with (w := start d); try done.
  intros ev bound p (Hs & id & req & ->). exists id, req. split; [done|]. by apply (C102_request T C W Tr HT HTr attrs).
Qed.
Print Assumptions C102_refines.
Theorem C102_overlay_refines (T : Text) (C : Crypto) (W : Wire) (Tr : Trees) (HT : TextOK T) (HTr : TreesOK Tr)
    (oattrs attrs : list (str * str)) (orecords records : list (option entry)) (o d : dataset)
    (cfg : server_cfg) (c : ldif_cfg) (base : str) (es : list (event (E:=bool))) :
  build oattrs orecords = Some o -> build attrs records = Some d -> sv_enforce cfg = false ->
  (forall k ev p, In (EPacket k ev p) es -> plain_message ev p /\
     forall id req dn pw, p = p_msg id req -> says_bind req dn pw -> to_lower (to_lower dn) = to_lower dn) ->
  let h := overlay base (ldif_handler c) in
  let w := run cfg h (start (o, d)) es in
  desk_run cfg c records (Some (base, orecords)) (mkDesk ∅ true) es (said cfg h (start (o, d)) es)
    (mkDesk (w_conns w) (w_alive w)) /\
  w_state w = (o, d).
Proof.
  intros Ho Hb Hen Hpl h.
  apply (desk_runs cfg c records (Some (base, orecords)) h (o, d) (fun ev p => plain_message ev p /\
     forall id req dn pw, p = p_msg id req -> says_bind req dn pw -> to_lower (to_lower dn) = to_lower dn)) with (w := start (o, d)); try done.
  intros ev bound p ((Hs & id & req & ->) & Hll). exists id, req. split; [done|].
  apply (C102_overlay_request T C W Tr HT HTr oattrs attrs); try done. intros dn pw. by apply (Hll id).
Qed.
Print Assumptions C102_overlay_refines.

(** The abstract server leaves no choice: a bind, a write, a password change, a
    malformed request and the other requests have one outcome, an unlimited search has one up to the order of the entries. *)
Theorem C102_settled (T : Text) (C : Crypto) (W : Wire) (Tr : Trees) (HT : TextOK T)
    (attrs oattrs : list (str * str)) (records orecords : list (option entry)) (d o : dataset) (base : str)
    (cfg : server_cfg) (c : ldif_cfg) (extra : option (str * list (option entry)))
    (ev : renv bool) (id : Z) (bound : str) (req : packet) (out1 out2 : list response) (n1 n2 : next) :
  build attrs records = Some d -> build oattrs orecords = Some o -> extra = None \/ extra = Some (base, orecords) ->
  reads cfg c records extra ev id bound req out1 n1 -> reads cfg c records extra ev id bound req out2 n2 ->
  ((exists o, says_write req o) \/ (exists dn pw, says_bind req dn pw) \/
   p_cls req <> ClassApplication \/ p_tag req = CompareRequest \/
   (p_cls req = ClassApplication /\ exists v, fault req v) \/
   (exists r, says_password req r /\
      (bound = [] \/ (fair (re_draws ev) /\ exists v, unmade (sv_genlen cfg) (re_draws ev) (re_salt ev) (pw_new r) v) \/
       exists pw h0, (pw_new r <> [] /\ pw = pw_new r \/ pw_new r = [] /\ generate_password (sv_genlen cfg) (re_draws ev) = Ok pw) /\
         hash_password pw (B "{ARGON2}") (re_salt ev) = Ok h0)) ->
     out1 = out2 /\ n1 = n2) /\
  (forall r f b, p_cls req = ClassApplication -> p_tag req = SearchRequest -> says_search req r ->
     compile_filter (sr_filter r) = Some (filter_packet f) -> supported f = true -> index_safe f -> (sr_size r <= 0)%Z ->
     parse_dn (sr_base r) = Some b -> Forall ascii_entry (records_of records) ->
     (forall e, In (Some e) records -> served_plain (sr_scope r) b (to_lower (e_dn e))) ->
     out1 ≡ₚ out2 /\ n1 = n2 /\ last out1 = last out2).
Proof.
  intros Hb Ho Hx (B1 & W1 & P1 & S1 & R1 & F1 & _) (B2 & W2 & P2 & S2 & R2 & F2 & _).
  assert (Hj : forall tag code, only id bound out1 n1 tag code -> only id bound out2 n2 tag code -> out1 = out2 /\ n1 = n2).
  { intros tag code (-> & ->) (-> & ->). done. }
  assert (Hl : forall tag code, last_words id out1 n1 tag code -> last_words id out2 n2 tag code -> out1 = out2 /\ n1 = n2).
  { intros tag code (-> & ->) (-> & ->). done. }
  assert (Hacc : forall dn, accepted id out1 n1 dn -> accepted id out2 n2 dn -> out1 = out2 /\ n1 = n2).
  { intros dn. unfold accepted. destruct (parse_dn dn); intros [-> ->] [-> ->]; done. }
  assert (Hexcl : forall e pw h, ldif_password e h -> accepts pw h -> ~ chokes_on e pw).
  { intros e pw h Hh Ha [Hno|(h' & Hh' & Hch)]; [by apply (Hno h)|]. rewrite (password_unique e h' h) in Hch by done.
    apply (validate_accepts HT) in Ha. apply (validate_chokes HT) in Hch. congruence. }
  split.
  - intros [(w & Hw)|[(dn & pw & Hs)|Hc]].
    + destruct W1 as [W1 _], W2 as [W2 _]. by eapply Hj; [apply W1|apply W2].
    + destruct B1 as [B1 _], B2 as [B2 _]. specialize (B1 dn pw Hs). specialize (B2 dn pw Hs).
      assert (Hmain : by_main c records ev id bound out1 n1 dn pw -> by_main c records ev id bound out2 n2 dn pw -> out1 = out2 /\ n1 = n2).
      { unfold by_main. cbv zeta. set (ok := ldif_allowed c (re_h ev) dn).
        set (good := pw = [] /\ to_lower dn = [] \/ pw <> [] /\ exists e h, named records dn e /\ ldif_password e h /\ accepts pw h).
        set (bad := pw <> [] /\ exists e, named records dn e /\ chokes_on e pw).
        assert (Hgb : good -> bad -> False).
        { intros [[-> _]|(_ & e & h & [He Hd] & Hh & Ha)] (Hne & e' & [He' Hd'] & Hch); [done|].
          assert (e' = e) as -> by (apply (record_unique attrs records d); [done..|congruence]). by eapply Hexcl. }
        assert (Hge : good -> pw = [] -> to_lower dn = []) by (intros [[_ ?]|[? _]]; done).
        assert (Hbe : bad -> pw <> []) by (intros [? _]; done). clearbody ok good bad.
        intros [[? X1]|[(?&?&?&X1)|[(?&?&X1)|[(?&?&X1)|(?&?&?&?&X1)]]]] [[? X2]|[(?&?&?&X2)|[(?&?&X2)|[(?&?&X2)|(?&?&?&?&X2)]]]];
          try (by eapply Hj); try (by eapply Hacc); exfalso; tauto. }
      destruct Hx as [-> | ->]; [by apply Hmain|].
      assert (Hover : forall e, by_overlay id bound out1 n1 base e dn pw -> by_overlay id bound out2 n2 base e dn pw -> out1 = out2 /\ n1 = n2).
      { intros e. unfold by_overlay. cbv zeta. set (ok := exists t, to_lower dn = t ++ base).
        set (good := exists h, ldif_password e h /\ accepts pw h).
        assert (Hgb : good -> chokes_on e pw -> False) by (intros (h & Hh & Ha); by eapply Hexcl).
        clearbody ok good. intros [(?&?&X1)|[(?&?&X1)|(?&X1)]] [(?&?&X2)|[(?&?&X2)|(?&X2)]];
          try (by eapply Hj); try (by eapply Hacc); exfalso; tauto. }
      destruct B1 as [[Hn1 B1]|(Hp1 & e1 & He1 & B1)], B2 as [[Hn2 B2]|(Hp2 & e2 & He2 & B2)].
      * by apply Hmain.
      * destruct Hn1 as [? | Hn1]; [done|by destruct (Hn1 e2)].
      * destruct Hn2 as [? | Hn2]; [done|by destruct (Hn2 e1)].
      * assert (e2 = e1) as ->; [|by apply (Hover e1)]. destruct He1, He2. apply (record_unique oattrs orecords o); [done..|congruence].
    + destruct R1 as [C1 R1], R2 as [C2 R2].
      destruct (decide (p_cls req = ClassApplication)) as [Hy|Hn].
      * destruct Hc as [?|[Ht|[(_ & v & Hv)|(q & Hsay & Hq)]]]; [done| |by eapply sentenced_once|].
        2:{ destruct P1 as [P1 _], P2 as [P2 _]. destruct (P1 q Hsay) as (X1 & Y1 & Z1), (P2 q Hsay) as (X2 & Y2 & Z2).
            destruct (decide (bound = [])) as [Hbe|Hne]; [by eapply Hj; [apply X1|apply X2]|].
            destruct Hq as [?|[(Hfair & v & Hv)|(pw & h0 & Hpw & Hh)]]; [done| |by eapply Hj; [eapply Y1|eapply Y2]].
            specialize (Z1 v Hne Hfair Hv). specialize (Z2 v Hne Hfair Hv). rewrite <- Z1 in Z2. by injection Z2 as -> ->. }
        by eapply Hl; [apply C1|apply C2].
      * destruct R1 as [-> ->]; [by left|]. by destruct R2 as [-> ->]; [by left|].
  - intros r f b Hc Ht Hsay Hf Hsup Hsafe Hsz Hp Hasc Hpl.
    destruct S1 as [S1 _], S2 as [S2 _].
    destruct (S1 r Hc Ht Hsay) as (X1 & Y1 & _ & Z1), (S2 r Hc Ht Hsay) as (X2 & Y2 & _ & Z2).
    assert (Hfin : out1 = out2 /\ n1 = n2 -> out1 ≡ₚ out2 /\ n1 = n2 /\ last out1 = last out2) by (intros [-> ->]; done).
    destruct (bind_dn_ok c (re_h ev) (to_lower bound)) eqn:Eok.
    2:{ assert (~ ldif_allowed c (re_h ev) bound) as Hn by (rewrite <- allowed_iff, Eok; done).
        apply Hfin. by eapply Hl; [apply X1|apply X2]. }
    apply allowed_iff in Eok. destruct (has_suffix (to_lower (sr_base r)) (lc_base c)) eqn:Es.
    2:{ assert (~ exists t, to_lower (sr_base r) = t ++ lc_base c) as Hn by (intros Hx'; apply has_suffix_spec in Hx'; congruence).
        apply Hfin. by eapply Hl; [apply Y1|apply Y2]; eauto. }
    apply has_suffix_spec in Es.
    destruct (Z1 f b Eok Es Hf Hsup Hsafe Hp Hasc Hpl) as (k1 & l1 & K1 & L1 & O1 & N1).
    destruct (Z2 f b Eok Es Hf Hsup Hsafe Hp Hasc Hpl) as (k2 & l2 & K2 & L2 & O2 & N2).
    assert ((0 <? sr_size r)%Z = false) as Hlt by (apply Z.ltb_ge; lia). rewrite Hlt in O1, O2.
    assert (Hll : l1 ≡ₚ l2).
    { rewrite L1, L2. assert (bfilter k1 (records_of records) = bfilter k2 (records_of records)) as ->; [|done].
      assert (Hin : forall e, In e (records_of records) -> k1 e = k2 e).
      { intros e He. assert (In (Some e) records) as He'.
        { unfold records_of in He. apply elem_of_list_In, elem_of_list_omap in He as (x & Hx' & ->). by apply elem_of_list_In. }
        destruct (k1 e) eqn:E1, (k2 e) eqn:E2; try done.
        - apply K1, K2 in E1; [congruence|done..].
        - apply K2, K1 in E2; [congruence|done..]. }
      clear -Hin. induction (records_of records) as [|e es IH]; [done|]. cbn [List.filter].
      rewrite (Hin e) by by left. rewrite IH; [done|]. intros e' He'. apply Hin. by right. }
    rewrite O1, O2, N1, N2, !last_snoc, Hll. done.
Qed.
Print Assumptions C102_settled.

(** The file of C48 with an overlay that has another password for Dora, who binds
    with it, cannot delete Sam, and finds them; a remote client that is anonymous
    can add nothing, and a comparison ends its connection. *)
Section case.
#[local] Existing Instances ascii_text toy.
#[local] Instance wire102 : Wire := wire_f f_uid.
#[local] Existing Instance plain_trees.
Definition orecords102 : list (option entry) :=
  [None; Some (mkEntry (B "uid=dora,ou=people,o=base") [mkAttr (B "userPassword") [B "over"]])].
Definition od102 : dataset := default (mkData [] ∅ ∅) (build [] orecords102).
Definition ev102 (local : bool) : renv bool := mkREnv local (B "salt") [] (fun _ => true).
Definition bind102 (pw : string) : packet := p_msg 1 (enc_bind (B "UID=Dora,ou=people,o=base") (B pw)).
Definition es102 : list (event (E:=bool)) :=
  [EOpen 1; EOpen 2;
   EPacket 1 (ev102 true) (bind102 "pw");
   EPacket 1 (ev102 true) (bind102 "over");
   EPacket 1 (ev102 true) (p_msg 2 (enc_delete (B "uid=sam,ou=people,o=base")));
   EPacket 1 (ev102 true) (p_msg 3 (enc_search (people_req 0) 0 0 (filter_packet f_uid)));
   EPacket 2 (ev102 false) (p_msg 1 (enc_delete (B "uid=sam,ou=people,o=base")));
   EPacket 2 (ev102 false) (p_msg 2 (Pkt ClassApplication true CompareRequest VNil [] []));
   EPacket 2 (ev102 false) (bind102 "over");
   EClose 1].
Definition h102 : handler (dataset * dataset) bool := overlay (B "o=base") (ldif_handler lc1).
Example C102_case :
  build [] orecords102 = Some od102 /\ build index_attributes records1 = Some ld1 /\
  (forall k ev p, In (EPacket k ev p) es102 -> plain_message ev p /\
     forall id req dn pw, p = p_msg id req -> says_bind req dn pw -> to_lower (to_lower dn) = to_lower dn) /\
  said (mkServer false 16) h102 (start (od102, ld1)) es102 =
    [[]; []; [RFinal 1 1 49 None]; [RFinal 1 1 0 None]; [RFinal 2 DelResponse 53 None];
     [REntry 3 (mkEntry (B "uid=dora,ou=people,o=base") [mkAttr (B "cn") [B "Dora Q"]]);
      REntry 3 (mkEntry (B "uid=sam,ou=people,o=base") [mkAttr (B "cn") [B "Sam"]]);
      RFinal 3 SearchResultDone 0 None];
     [RFinal 1 DelResponse 50 None]; [RFinal 2 CompareRequest 1 None]; []; []] /\
  (exists s, desk_run (mkServer false 16) lc1 records1 (Some (B "o=base", orecords102)) (mkDesk ∅ true) es102
     (said (mkServer false 16) h102 (start (od102, ld1)) es102) s /\ k_alive s = true) /\
  said (mkServer false 16) (ldif_handler lc1) (start ld1) (take 4 es102) =
    [[]; []; [RFinal 1 1 0 None]; [RFinal 1 1 49 None]].
Proof.
  assert (Ho : build [] orecords102 = Some od102).
  { assert (H : match build [] orecords102 with Some _ => true | None => false end = true) by (vm_compute; reflexivity).
    unfold od102. by destruct (build _ _). }
  assert (Hm : forall k ev p, In (EPacket k ev p) es102 -> plain_message ev p /\
     forall id req dn pw, p = p_msg id req -> says_bind req dn pw -> to_lower (to_lower dn) = to_lower dn).
  { assert (Hmsg : forall id req id' req', p_msg id req = p_msg id' req' -> req = req') by (intros; by injection H).
    assert (Hbind : forall dn0 pw0 dn pw, says_bind (enc_bind dn0 pw0) dn pw -> dn = dn0).
    { intros dn0 pw0 dn pw (_ & _ & v & x & a & Hk & _ & Hx & _).
      change (p_kids (enc_bind dn0 pw0)) with [p_int 3; p_octets dn0; p_ctx 0 pw0] in Hk.
      assert (x = p_octets dn0) as -> by congruence. cbn [p_val p_octets] in Hx. congruence. }
    assert (Hone : forall local id req, (p_tag req = BindRequest -> exists pw, req = enc_bind (B "UID=Dora,ou=people,o=base") pw) ->
      plain_message (ev102 local) (p_msg id req) /\
      forall id' req' dn pw, p_msg id req = p_msg id' req' -> says_bind req' dn pw -> to_lower (to_lower dn) = to_lower dn).
    { intros local id req Hreq. split; [split; [done|by exists id, req]|]. intros id' req' dn pw Hp Hs.
      apply Hmsg in Hp as <-. destruct (Hreq ltac:(apply Hs)) as [pw0 ->]. apply Hbind in Hs as ->. vm_compute. reflexivity. }
    intros k ev p Hin. cbn [In es102] in Hin.
    destruct Hin as [Hin|[Hin|[Hin|[Hin|[Hin|[Hin|[Hin|[Hin|[Hin|[Hin|[]]]]]]]]]]]; try discriminate Hin.
    all: injection Hin as _ <- <-; apply Hone; intros Ht; try discriminate Ht; by eexists. }
  split; [exact Ho|]. split; [apply ld1_build|]. split; [exact Hm|]. split; [vm_compute; reflexivity|]. split.
  - destruct (C102_overlay_refines _ _ wire102 _ ascii_text_ok plain_trees_ok [] index_attributes orecords102 records1
      od102 ld1 (mkServer false 16) lc1 (B "o=base") es102 Ho ld1_build eq_refl Hm) as [Hr _].
    eexists. split; [exact Hr|]. vm_compute. reflexivity.
  - vm_compute. reflexivity.
Qed.
End case.
