(** Properties C33-C38 and C46: the connection loop with the database backend. *)
From Verif Require Import Bytes Text Dn DnProofs Res Entry EntryProofs Password PasswordProofs
  Db DbSpec IdProofs DbProofs DbOps DbSearch DbFacts DbMore P_Password P_Db
  Packet Filter FilterProofs Handler Server ServerProofs CrashProofs.

(** The stored password of an entry. *)
Definition stored_password {T : Text} (e : entry) : str := get_eqfold_val (B "userPassword") (e_attrs e).

(** C33.  A bind succeeds exactly with the right credentials. *)
Lemma normalize_ne {T : Text} (HT : TextOK T) b : base_ok b -> normalize b <> [].
Proof.
  intros Hb. rewrite normalize_flat, (base_folded _ Hb) by apply Hb.
  destruct (flat_head b (base_ne _ Hb) (base_wf _ Hb)) as (c & s & -> & _). done.
Qed.
Lemma bolt_validate_success {T : Text} {C : Crypto} (HT : TextOK T) n pw d :
  bolt_validate n pw d = HRet (Success, false) <->
  exists e, search d n ScopeBase = Ok ([e], None) /\ accepts pw (stored_password e).
Proof.
  unfold bolt_validate. split.
  - destruct (search d n ScopeBase) as [[[|e [|e' es]] [x|]]|x| |] eqn:Es; try done.
    destruct (validate pw _) as [[|]|x| |] eqn:Ev; try done. intros _. exists e. split; [done|].
    by apply (validate_accepts HT).
  - intros (e & -> & Ha). apply (validate_accepts HT) in Ha. unfold stored_password in Ha. by rewrite Ha.
Qed.
Theorem C33_bind_iff (T : Text) (C : Crypto) (HT : TextOK T) (b : dn) (d : db) (m : dir)
    (c : bolt_cfg) (ev : env) (dn pw : str) (dd : list rdn) :
  base_ok b -> reachable b d -> represents d m -> bc_base c = normalize b ->
  parse_dn dn = Some dd -> wf_dn dd = true ->
  (bolt_bind c ev dn pw d = (HRet (Success, false), d) <->
   (dn = [] /\ pw = [] /\ bc_anon c = true) \/
   (pw <> [] /\ has_suffix (normalize dd) (normalize b) = true /\
    exists e, m !! fold_dn dd = Some e /\ accepts pw (stored_password e))).
Proof.
  intros Hb Hr Hm Hc Hp Hwf. destruct (reach_sim HT b d m Hb Hr Hm) as [_ (g & Hg & ->)].
  set (rest := match parse_normalize dn with
    | None => HRet (InvalidDNSyntax, false)
    | Some n =>
        if negb (has_suffix n (bc_base c)) then HRet (InvalidCredentials, false)
        else if is_empty pw then HRet (InvalidCredentials, false)
        else bolt_validate n pw d
    end).
  assert (Hrest : rest = HRet (Success, false) <->
    (pw <> [] /\ has_suffix (normalize dd) (normalize b) = true /\
     exists e, (snd <$> g) !! fold_dn dd = Some e /\ accepts pw (stored_password e))).
  { unfold rest, parse_normalize. rewrite Hp, Hc. cbn [fmap option_fmap option_map].
    destruct (has_suffix (normalize dd) (normalize b)) eqn:Es; cbn [negb]; [|by split; [|intros (_ & ? & _)]].
    destruct (is_empty pw) eqn:Epw.
    { split; [done|]. intros (Hne & _). apply is_empty_false in Hne. by rewrite Epw in Hne. }
    apply is_empty_false in Epw. rewrite (bolt_validate_success HT).
    destruct (last_ok (fold_dn dd)) eqn:El.
    - rewrite (search_base HT b d g (normalize dd) (fold_dn dd) Hg); [|by apply (parse_normalized HT)|by apply (fold_dn_wf HT)].
      rewrite (fold_dn_idem HT). destruct ((snd <$> g) !! fold_dn dd) as [e|]; split.
      + intros (e' & [= <-] & Ha). eauto 10.
      + intros (_ & _ & e' & [= <-] & Ha). eauto.
      + intros (e' & [=] & _).
      + intros (_ & _ & e' & [=] & _).
    - split.
      + intros (e & Hs & _). unfold search, parse_normalize in Hs.
        rewrite (normalize_flat _ Hwf), (parse_flat_dangling HT) in Hs; [done|by apply (fold_dn_wf HT)|done].
      + intros (_ & _ & e & He & _). rewrite lookup_fmap in He. destruct (g !! fold_dn dd) as [[i e']|] eqn:Eg; [|done].
        pose proof (gk_last _ _ (s_key _ _ _ Hg _ _ _ Eg)) as Hl. by rewrite El in Hl. }
  assert (Hb0 : bolt_bind c ev dn pw d = (if is_empty dn then
     if negb (bc_anon c) then HRet (InvalidCredentials, false)
     else if is_empty pw then HRet (Success, false) else rest
   else rest, d)) by done.
  rewrite Hb0. clear Hb0.
  destruct dn as [|x dn]; cbn [is_empty].
  - assert (dd = []) as ->.
    { unfold parse_dn in Hp. rewrite (trim_dn_print _ HT) in Hp by constructor. by injection Hp. }
    assert (Hno : has_suffix (normalize []) (normalize b) = false).
    { destruct (has_suffix (normalize []) (normalize b)) eqn:Es; [|done].
      apply has_suffix_spec in Es as [a Ha]. pose proof (normalize_ne HT b Hb).
      destruct (normalize b) eqn:En; [done|]. by destruct a. }
    destruct (bc_anon c); cbn [negb].
    + destruct pw as [|y pw]; cbn [is_empty]; [by split; auto|]. split.
      * intros [= H]. apply Hrest in H as (_ & Hs & _). by rewrite Hno in Hs.
      * intros [(_ & ? & _)|(_ & Hs & _)]; [done|]. by rewrite Hno in Hs.
    + split; [done|]. intros [(_ & _ & ?)|(_ & Hs & _)]; [done|]. by rewrite Hno in Hs.
  - split.
    + intros [= H]. right. by apply Hrest.
    + intros [(? & _)|H]; [done|]. apply Hrest in H. by rewrite H.
Qed.
Print Assumptions C33_bind_iff.

(** In any state, even a corrupt one, and for any text as name. *)
Definition credentials {T : Text} {C : Crypto} (c : bolt_cfg) (d : db) (dn pw : str) : Prop :=
  (dn = [] /\ pw = [] /\ bc_anon c = true) \/
  (pw <> [] /\ exists n e, parse_normalize dn = Some n /\ has_suffix n (bc_base c) = true /\
     search d n ScopeBase = Ok ([e], None) /\ accepts pw (stored_password e)).
Lemma bolt_bind_credentials {T : Text} {C : Crypto} (HT : TextOK T) c ev dn pw d d' :
  bolt_bind c ev dn pw d = (HRet (Success, false), d') -> credentials c d dn pw.
Proof.
  assert (Hrest : match parse_normalize dn with
    | None => HRet (InvalidDNSyntax, false)
    | Some n =>
        if negb (has_suffix n (bc_base c)) then HRet (InvalidCredentials, false)
        else if is_empty pw then HRet (InvalidCredentials, false)
        else bolt_validate n pw d
    end = HRet (Success, false) -> credentials c d dn pw).
  { destruct (parse_normalize dn) as [n|] eqn:En; [|done]. destruct (has_suffix n (bc_base c)) eqn:Es; [|done].
    cbn [negb]. destruct (is_empty pw) eqn:Ep; [done|]. apply is_empty_false in Ep.
    intros H. apply (bolt_validate_success HT) in H as (e & H1 & H2). right. split; [done|]. eauto 10. }
  unfold bolt_bind. destruct dn as [|x dn]; cbn [is_empty]; [|intros [= H _]; by apply Hrest].
  destruct (bc_anon c) eqn:Ea; [|done]. cbn [negb]. destruct pw as [|y pw]; cbn [is_empty].
  - intros _. left. done.
  - intros [= H _]. by apply Hrest.
Qed.
(** A packet is answered by a successful bind response only if it carries such
    credentials. *)
Theorem C33_bind_response (T : Text) (C : Crypto) (W : Wire) (HT : TextOK T) (cfg : server_cfg)
    (c : bolt_cfg) (ev : renv env) (bound : str) (p : packet) (d : db) (id : Z) (v : option str) :
  In (RFinal id BindResponse Success v) (r_out (handle cfg (bolt_handler c) ev bound p d)) ->
  exists dn pw, simple_bind p dn pw /\ credentials c d dn pw.
Proof.
  intros H. destruct (handle_inv cfg (bolt_handler c) ev bound p d) as [Hd|[[Hd _]|(id' & req & Henv & Hd & _)]];
    rewrite Hd in H; [done..|]. clear Hd. unfold dispatch in H.
  assert (Hsf : forall k pre r n (s : db) x, In x (r_out (send_final ev k pre r n s)) -> In x pre \/ x = r).
  { intros k pre r n s x. unfold send_final. destruct (re_send ev k); cbn; [|auto].
    rewrite in_app_iff. intros [?|[?|[]]]; auto. }
  assert (Hfin : forall t (r : hout answer * db), (t =? BindResponse)%N = false ->
    ~ In (RFinal id BindResponse Success v) (r_out (finish ev id' t bound r))).
  { intros t r Ht. destruct r as [[[code e]| |] s']; cbn [finish]; try (intros []).
    intros Hin. apply Hsf in Hin as [[]|[= _ <- _ _]]. done. }
  destruct (p_tag req =? AddRequest)%N; [exfalso; eapply Hfin; [|exact H]; done|].
  destruct (p_tag req =? BindRequest)%N eqn:Et.
  { apply N.eqb_eq in Et.
    destruct (handle_bind (bolt_handler c) ev req d) as [[code| |] s'] eqn:Eb; [|done..].
    destruct (code =? Success)%N eqn:Ec.
    - apply N.eqb_eq in Ec as ->. apply handle_bind_success in Eb as (x & y & a & dn & Hk & Hv & Hdn & Ha & Hb).
      exists dn, (p_data a). split; [|exact (bolt_bind_credentials HT c (re_h ev) dn _ d s' Hb)].
      exists id', req, x, y, a. done.
    - apply Hsf in H as [[]|[= _ <- _]]. done. }
  destruct (p_tag req =? CompareRequest)%N; [by apply Hsf in H as [[]|[=]]|].
  destruct (p_tag req =? DelRequest)%N; [exfalso; eapply Hfin; [|exact H]; done|].
  destruct (p_tag req =? ExtendedRequest)%N.
  { destruct (handle_extended _ _ _ _ _ _) as [[[code x]| |] s']; [|done..]. by apply Hsf in H as [[]|[=]]. }
  destruct (p_tag req =? ModifyDNRequest)%N; [exfalso; eapply Hfin; [|exact H]; done|].
  destruct (p_tag req =? ModifyRequest)%N; [exfalso; eapply Hfin; [|exact H]; done|].
  destruct (p_tag req =? SearchRequest)%N; [|done].
  assert (Hent : forall es, ~ In (RFinal id BindResponse Success v) (map (REntry id') es)).
  { intros es Hin. apply in_map_iff in Hin as (e & [=] & _). }
  destruct (handle_search _ _ _ _ _ _) as [[es [o| |]] s']; [|by destruct (Hent _ H)..].
  apply Hsf in H as [H|[=]]. by destruct (Hent _ H).
Qed.
Print Assumptions C33_bind_response.
Theorem C33_empty_password (T : Text) (C : Crypto) (HT : TextOK T) (c : bolt_cfg) (ev : env)
    (dn : str) (d d' : db) :
  dn <> [] -> bolt_bind c ev dn [] d <> (HRet (Success, false), d').
Proof. intros Hne H. apply (bolt_bind_credentials HT) in H as [(? & _)|(? & _)]; done. Qed.
Print Assumptions C33_empty_password.

(** ** The setting of the examples *)
(** Ada is the administrator; Carl has a password too. *)
Definition e_carl := ent "uid=carl,ou=people,o=base" [("uid", "carl"); ("userPassword", "pw")]%string.
Definition h1 : list (env * op) := [good (OpPut e_base); good (OpPut e_people); good (OpPut e_ada); good (OpPut e_carl)].
Definition d1 : db := run_ops (T:=ascii_text) (C:=toy) (normalize (T:=ascii_text) b0) h1 empty_db.
Lemma d1_reachable : reachable (T:=ascii_text) (C:=toy) b0 d1.
Proof.
  exists h1. split; [apply ops_okb_ok; vm_compute; reflexivity|]. split; [vm_compute; reflexivity|].
  reflexivity.
Qed.
Definition l1 : list (dn * entry) :=
  [(b0, e_base);
   ([(B "ou", B "people")] :: b0, e_people);
   ([(B "uid", B "ada")] :: [(B "ou", B "people")] :: b0, e_ada);
   ([(B "uid", B "carl")] :: [(B "ou", B "people")] :: b0, e_carl)].
Definition m1 : dir := list_to_map l1.
Lemma d1_m1 : represents (T:=ascii_text) d1 m1.
Proof.
  apply represents_list.
  - repeat constructor; vm_compute; reflexivity.
  - apply (bool_decide_unpack _). vm_compute. exact I.
Qed.
Definition c1 : bolt_cfg := mkCfg (B "o=base") (B "uid=ada,ou=people,o=base") false.
Definition cfg1 : server_cfg := mkServer true 16.
Example c1_new : bolt_new (T:=ascii_text) (B "O=Base") (B "UID=ada, OU=people,o=base") false = Some c1.
Proof. vm_compute. reflexivity. Qed.
(** A client's packets. *)
Definition pstr (s : string) : packet := Pkt ClassUniversal false TagOctetString (VStr (B s)) (B s) [].
Definition pint (n : Z) : packet := Pkt ClassUniversal false 2 (VInt n) [] [].
Definition msg (id : Z) (req : packet) : packet := Pkt ClassUniversal true TagSequence VNil [] [pint id; req].
Definition app (tag : N) (data : str) (kids : list packet) : packet := Pkt ClassApplication true tag VNil data kids.
Definition p_bind (id : Z) (dn pw : string) : packet :=
  msg id (app BindRequest [] [pint 3; pstr dn; Pkt ClassContext false 0 VNil (B pw) []]).
Definition p_del (id : Z) (dn : string) : packet := msg id (app DelRequest (B dn) []).
Definition p_search (id : Z) (base : string) (scope : Z) : packet :=
  msg id (app SearchRequest []
    [pstr base; pint scope; pint 0; pint 0; pint 0; Pkt 0 false 1 (VBool false) [] [];
     filter_packet (FPres (B "uid")); Pkt ClassUniversal true TagSequence VNil [] []]).
Definition p_exop (id : Z) : packet :=
  msg id (app ExtendedRequest []
    [Pkt ClassContext false 0 VNil pwmod_oid []; Pkt ClassContext false 1 VNil (B "body") []]).
(** Decoders: every filter is (uid=[*]), the body of a password modification
    names [user] and the new password "new". *)
Definition wire_for (user : string) : Wire := {|
  decompile_filter _ := Some (B "(uid=x)");
  compile_filter _ := Some (filter_packet (FPres (B "uid")));
  decode_inner _ := Some (Pkt ClassUniversal true TagSequence VNil []
    [Pkt ClassContext false 0 VNil (B user) []; Pkt ClassContext false 2 VNil (B "new") []]);
  decode_control _ := Ok KOther |}.
Definition wire1 : Wire := wire_for "uid=carl,ou=people,o=base".
Definition ev1 : renv env := mkREnv no_faults (B "salt") [] (fun _ => true).
Definition handle1 (bound : str) (p : packet) (d : db) : result (S:=db) :=
  handle (T:=ascii_text) (C:=toy) (W:=wire1) cfg1 (bolt_handler (T:=ascii_text) (C:=toy) c1) ev1 bound p d.

Example C33_case :
  bolt_bind (T:=ascii_text) (C:=toy) c1 no_faults (B "UID=Carl,ou=people,o=base") (B "pw") d1 = (HRet (Success, false), d1) /\
  (bolt_bind (T:=ascii_text) (C:=toy) c1 no_faults (B "UID=Carl,ou=people,o=base") (B "px") d1).1
    = HRet (InvalidCredentials, false) /\
  r_out (handle1 [] (p_bind 7 "UID=Carl,ou=people,o=base" "pw") d1) = [RFinal 7 BindResponse Success None] /\
  r_next (handle1 [] (p_bind 7 "UID=Carl,ou=people,o=base" "pw") d1) = Go (B "uid=carl,ou=people,o=base") /\
  (exists e, m1 !! fold_dn (T:=ascii_text) [[(B "UID", B "Carl")]; [(B "ou", B "people")]; [(B "o", B "base")]] = Some e /\
     stored_password (T:=ascii_text) e = B "pw").
Proof.
  split; [vm_compute; reflexivity|]. split; [vm_compute; reflexivity|]. split; [vm_compute; reflexivity|].
  split; [vm_compute; reflexivity|]. exists e_carl. split; vm_compute; reflexivity.
Qed.

(** C34.  A request on an anonymous connection leaves the database alone. *)
Theorem C34_anonymous_request (T : Text) (C : Crypto) (W : Wire) (cfg : server_cfg) (c : bolt_cfg)
    (ev : renv env) (p : packet) (d : db) :
  r_state (handle cfg (bolt_handler c) ev [] p d) = d.
Proof. by destruct (handle_state cfg c ev [] p d) as [H|[H _]]. Qed.
Print Assumptions C34_anonymous_request.

Lemma run_app {T : Text} {C : Crypto} {W : Wire} {S E : Type} cfg (h : handler S E) w es1 es2 :
  run cfg h w (es1 ++ es2) = run cfg h (run cfg h w es1) es2.
Proof. revert w. induction es1 as [|e es1 IH]; intros w; [done|]. apply IH. Qed.
Lemma run_snoc {T : Text} {C : Crypto} {W : Wire} {S E : Type} cfg (h : handler S E) w es e :
  run cfg h w (es ++ [e]) = (step cfg h (run cfg h w es) e).1.
Proof. by rewrite run_app. Qed.
(** ... so neither does any interleaving of requests on any number of
    connections as long as none of them is bound to a name. *)
Theorem C34_anonymous_run (T : Text) (C : Crypto) (W : Wire) (cfg : server_cfg) (c : bolt_cfg)
    (d : db) (es : list (event (E:=env))) :
  (forall es1 es2 conn b, es = es1 ++ es2 ->
     w_conns (run cfg (bolt_handler c) (start d) es1) !! conn = Some b -> b = []) ->
  w_state (run cfg (bolt_handler c) (start d) es) = d.
Proof.
  induction es as [|e es IH] using rev_ind; intros Hanon; [done|].
  rewrite run_snoc.
  assert (Hw : w_state (run cfg (bolt_handler c) (start d) es) = d).
  { apply IH. intros es1 es2 conn b ->. apply (Hanon es1 (es2 ++ [e])). by rewrite app_assoc. }
  assert (Hc : forall conn b, w_conns (run cfg (bolt_handler c) (start d) es) !! conn = Some b -> b = []).
  { intros conn b. by apply (Hanon es [e]). }
  unfold step. destruct (negb _); [done|]. destruct e as [k|k ev p|k].
  - by destruct (_ !! k).
  - destruct (_ !! k) as [b|] eqn:Ek; [|done]. apply Hc in Ek as ->.
    pose proof (C34_anonymous_request T C W cfg c ev p (w_state (run cfg (bolt_handler c) (start d) es))) as Hs.
    cbn [fst]. destruct (r_next _); cbn [w_state]; congruence.
  - done.
Qed.
Print Assumptions C34_anonymous_run.
Example C34_case :
  r_out (handle1 [] (p_del 3 "uid=carl,ou=people,o=base") d1) = [RFinal 3 DelResponse InsufficientAccessRights None] /\
  r_state (handle1 [] (p_del 3 "uid=carl,ou=people,o=base") d1) = d1 /\
  r_state (handle1 (B "uid=ada,ou=people,o=base") (p_del 3 "uid=carl,ou=people,o=base") d1) <> d1.
Proof.
  split; [vm_compute; reflexivity|]. split; [vm_compute; reflexivity|].
  intros H. apply (f_equal (fun d => dn2id d !! B "uid=carl,ou=people,o=base")) in H.
  vm_compute in H. discriminate.
Qed.

(** C35.  [conn] has been bound to [b] since a bind with a valid non-empty
    password earlier in the run. *)
Definition earned {T : Text} {C : Crypto} {W : Wire} (cfg : server_cfg) (c : bolt_cfg) (d : db)
    (es : list (event (E:=env))) (conn : nat) (b : str) : Prop :=
  exists es1 ev p es2 dn pw e,
    es = es1 ++ EPacket conn ev p :: es2 /\ simple_bind p dn pw /\ pw <> [] /\
    parse_normalize dn = Some b /\ has_suffix b (bc_base c) = true /\
    search (w_state (run cfg (bolt_handler c) (start d) es1)) b ScopeBase = Ok ([e], None) /\
    accepts pw (stored_password e) /\
    forall x y, es2 = x ++ y ->
      w_conns (run cfg (bolt_handler c) (start d) (es1 ++ EPacket conn ev p :: x)) !! conn = Some b.
Lemma parse_normalize_nil {T : Text} (HT : TextOK T) : parse_normalize [] = Some [].
Proof.
  unfold parse_normalize, parse_dn. rewrite (trim_dn_print _ HT) by constructor. reflexivity.
Qed.
Lemma earned_inv {T : Text} {C : Crypto} {W : Wire} (HT : TextOK T) cfg c d es conn b :
  w_conns (run cfg (bolt_handler c) (start d) es) !! conn = Some b -> b <> [] ->
  earned cfg c d es conn b.
Proof.
  revert conn b. induction es as [|e es IH] using rev_ind; intros conn b Hb Hne; [done|].
  assert (Hb' := Hb). rewrite run_snoc in Hb. set (w := run cfg (bolt_handler c) (start d) es) in *.
  assert (Hext : w_conns w !! conn = Some b -> earned cfg c d (es ++ [e]) conn b).
  { intros Hw. destruct (IH conn b Hw Hne) as (es1 & ev & p & es2 & dn & pw & e0 & -> & H1 & H2 & H3 & H4 & H5 & H6 & H7).
    exists es1, ev, p, (es2 ++ [e]), dn, pw, e0. split; [by rewrite <- app_assoc|].
    repeat (split; [done|]). intros x y Hxy.
    destruct y as [|z y _] using rev_ind.
    - rewrite app_nil_r in Hxy. subst x. rewrite <- Hb'. by rewrite <- app_assoc.
    - rewrite app_assoc in Hxy. apply app_inj_tail in Hxy as [-> _]. by eapply H7. }
  unfold step in Hb. destruct (negb (w_alive w)); [by apply Hext|]. destruct e as [k|k ev p|k].
  - destruct (w_conns w !! k) eqn:Ek; [by apply Hext|]. cbn [fst w_conns] in Hb.
    apply lookup_insert_Some in Hb as [[-> <-]|[_ Hb]]; [done|by apply Hext].
  - destruct (w_conns w !! k) as [bd|] eqn:Ek; [|by apply Hext].
    cbn [fst] in Hb. destruct (r_next (handle cfg (bolt_handler c) ev bd p (w_state w))) as [b1| |] eqn:En;
      cbn [w_conns] in Hb; [| |done].
    + apply lookup_insert_Some in Hb as [[-> ->]|[_ Hb]]; [|by apply Hext].
      destruct (decide (b = bd)) as [->|Hbd]; [by apply Hext|].
      apply handle_identity in En as (dn & pw & Hsb & Hn & s' & Hbind); [|done].
      apply (bolt_bind_credentials HT c (re_h ev)) in Hbind as [(-> & _ & _)|(Hpw & n & e & Hn' & Hsuf & Hs & Ha)].
      { rewrite (parse_normalize_nil HT) in Hn. by injection Hn as <-. }
      rewrite Hn in Hn'. injection Hn' as <-.
      exists es, ev, p, [], dn, pw, e. repeat (split; [done|]).
      intros x y Hxy. symmetry in Hxy. apply app_eq_nil in Hxy as [-> _]. exact Hb'.
    + apply lookup_delete_Some in Hb as [_ Hb]. by apply Hext.
  - cbn [fst w_conns] in Hb. apply lookup_delete_Some in Hb as [_ Hb]. by apply Hext.
Qed.
Theorem C35_who_can_change (T : Text) (C : Crypto) (W : Wire) (HT : TextOK T) (cfg : server_cfg)
    (c : bolt_cfg) (d : db) (es : list (event (E:=env))) (e : event (E:=env)) :
  let w := run cfg (bolt_handler c) (start d) es in
  let w' := run cfg (bolt_handler c) (start d) (es ++ [e]) in
  w_state w' <> w_state w ->
  exists conn ev p b, e = EPacket conn ev p /\ w_conns w !! conn = Some b /\ b <> [] /\
    earned cfg c d es conn b /\
    (b = bc_admin c \/ (password_exop p /\ own_password_change (w_state w) (w_state w') b)).
Proof.
  cbv zeta. rewrite run_snoc. set (w := run cfg (bolt_handler c) (start d) es). intros Hch.
  unfold step in Hch |- *. destruct (negb (w_alive w)); [done|]. destruct e as [k|k ev p|k].
  - by destruct (w_conns w !! k).
  - destruct (w_conns w !! k) as [b|] eqn:Ek; [|done]. exists k, ev, p, b.
    assert (Hst : w_state (match r_next (handle cfg (bolt_handler c) ev b p (w_state w)) with
      | Go b1 => mkWorld (<[k := b1]> (w_conns w)) (r_state (handle cfg (bolt_handler c) ev b p (w_state w))) true
      | Drop => mkWorld (delete k (w_conns w)) (r_state (handle cfg (bolt_handler c) ev b p (w_state w))) true
      | Dead => mkWorld ∅ (r_state (handle cfg (bolt_handler c) ev b p (w_state w))) false
      end) = r_state (handle cfg (bolt_handler c) ev b p (w_state w))) by by destruct (r_next _).
    cbn [fst] in Hch |- *. rewrite Hst in Hch |- *.
    destruct (handle_state cfg c ev b p (w_state w)) as [H|[Hne (o & Ho & Hal)]]; [done|].
    split; [done|]. split; [done|]. split; [done|]. split; [by apply earned_inv|].
    destruct Hal as [Hwa|(user & old & hash & -> & Hex & [Hu|Hu])]; [| |by left].
    + unfold write_allowed in Hwa. apply andb_true_iff in Hwa as [_ Hwa]. apply seqb_eq in Hwa. by left.
    + right. split; [done|]. rewrite Ho in Hch |- *.
      by destruct (password_op_change (bc_base c) (re_h ev) user old hash b (w_state w) Hu).
  - done.
Qed.
Print Assumptions C35_who_can_change.

Definition carl : str := B "uid=carl,ou=people,o=base".
Definition run1 (es : list (event (E:=env))) : world (S:=db) :=
  run (T:=ascii_text) (C:=toy) (W:=wire1) cfg1 (bolt_handler (T:=ascii_text) (C:=toy) c1) (start d1) es.
Definition es_pw : list (event (E:=env)) :=
  [EOpen 0; EPacket 0 ev1 (p_bind 1 "uid=carl,ou=people,o=base" "pw")].
(** Carl changes their own password. *)
Example C35_case :
  w_conns (run1 es_pw) !! 0 = Some carl /\
  w_state (run1 es_pw) = d1 /\
  option_map (stored_password (T:=ascii_text))
    (v ← dn2id (w_state (run1 (es_pw ++ [EPacket 0 ev1 (p_exop 2)]))) !! carl;
     id2ent (w_state (run1 (es_pw ++ [EPacket 0 ev1 (p_exop 2)]))) !! v) <> Some (B "pw") /\
  w_alive (run1 (es_pw ++ [EPacket 0 ev1 (p_exop 2)])) = true.
Proof.
  split; [vm_compute; reflexivity|]. split; [vm_compute; reflexivity|].
  split; [vm_compute; discriminate|vm_compute; reflexivity].
Qed.

(** C36.  A request that is handled gets its entries and one final response. *)
Theorem C36_one_response (T : Text) (C : Crypto) (W : Wire) (S E : Type) (cfg : server_cfg)
    (h : handler S E) (ev : renv E) (bound b : str) (p : packet) (s : S) :
  r_next (handle cfg h ev bound p s) = Go b ->
  exists id req es code v, envelope p id req /\
    r_out (handle cfg h ev bound p s) =
      map (REntry id) es ++ [RFinal id (response_tag (p_tag req)) code v] /\
    (es <> [] -> p_tag req = SearchRequest).
Proof. apply handle_go_out. Qed.
Print Assumptions C36_one_response.
(** A whole session: the packets of one connection up to the first that ends
    it. *)
Fixpoint session {T : Text} {C : Crypto} {W : Wire} {S E : Type} (cfg : server_cfg) (h : handler S E)
    (bound : str) (ps : list (renv E * packet)) (s : S) : list response * next :=
  match ps with
  | [] => ([], Go bound)
  | (ev, p) :: ps' =>
      let r := handle cfg h ev bound p s in
      match r_next r with
      | Go b => let '(out, n) := session cfg h b ps' (r_state r) in (r_out r ++ out, n)
      | n => (r_out r, n)
      end
  end.
Theorem C36_session (T : Text) (C : Crypto) (W : Wire) (S E : Type) (cfg : server_cfg)
    (h : handler S E) (ps : list (renv E * packet)) (bound b : str) (s : S) (out : list response) :
  session cfg h bound ps s = (out, Go b) ->
  exists reqs, Forall2 (fun p r => envelope p.2 r.1 r.2) ps reqs /\
    Forall2 (fun x r => exists code v, x = RFinal r.1 (response_tag (p_tag r.2)) code v)
      (bfilter is_final out) reqs.
Proof.
  revert bound s out. induction ps as [|[ev p] ps IH]; intros bound s out; cbn [session].
  { intros [= <- <-]. exists []. split; constructor. }
  destruct (r_next (handle cfg h ev bound p s)) as [b1| |] eqn:En; [|done..].
  destruct (session cfg h b1 ps _) as [out' n] eqn:Es. intros [= <- ->].
  destruct (IH _ _ _ Es) as (reqs & H1 & H2).
  apply handle_go_out in En as (id & req & es & code & v & Henv & Hout & _).
  exists ((id, req) :: reqs). split; [by constructor|]. rewrite Hout, <- app_assoc, List.filter_app.
  assert (bfilter is_final (map (REntry id) es) = []) as ->.
  { clear. induction es; [done|]. cbn. done. }
  cbn. constructor; [|done]. by exists code, v.
Qed.
Print Assumptions C36_session.
Example C36_case :
  r_out (handle1 [] (p_search 9 "ou=people,o=base" 1) d1) =
    [REntry 9 e_ada; REntry 9 e_carl; RFinal 9 SearchResultDone Success None] /\
  (session (T:=ascii_text) (C:=toy) (W:=wire1) cfg1 (bolt_handler (T:=ascii_text) (C:=toy) c1) []
    [(ev1, p_bind 1 "uid=carl,ou=people,o=base" "pw"); (ev1, p_del 2 "o=base")] d1) =
    ([RFinal 1 BindResponse Success None; RFinal 2 DelResponse InsufficientAccessRights None], Go carl).
Proof. split; vm_compute; reflexivity. Qed.
(** A compare request is answered with the tag of a request, and the connection
    is closed. *)
Theorem C36_compare_refuted : forall (T : Text) (C : Crypto) (W : Wire) (S E : Type) (cfg : server_cfg)
    (h : handler S E) (ev : renv E) (bound : str) (id : Z) (req : packet) (s : S),
  re_send ev 0 = true -> p_cls req = ClassApplication -> p_tag req = CompareRequest ->
  handle cfg h ev bound (msg id req) s = mkResult [RFinal id CompareRequest OperationsError None] Drop s.
Proof.
  intros T C W S E cfg h ev bound id req s Hs Hc Ht. unfold handle, msg. cbn [p_kids pint p_val as_int].
  rewrite Hc. cbn [N.eqb Pos.eqb negb]. unfold dispatch. rewrite Ht. change (ClassApplication =? ClassApplication)%N with true.
  cbn [negb N.eqb Pos.eqb AddRequest BindRequest CompareRequest]. unfold send_final. by rewrite Hs.
Qed.
Print Assumptions C36_compare_refuted.

(** C37.  Only the listed requests end the process ... *)
Theorem C37_only_listed (T : Text) (C : Crypto) (W : Wire) (HT : TextOK T) (cfg : server_cfg)
    (c : bolt_cfg) (b : dn) (d : db) (ev : renv env) (bound : str) (p : packet) :
  base_ok b -> reachable b d -> quiet cfg ev ->
  r_next (handle cfg (bolt_handler c) ev bound p d) = Dead -> fatal bare_sub cfg c ev bound p d.
Proof.
  intros Hb Hr Hq. destruct (reachable_sim HT b d Hb Hr) as [_ [g Hg]].
  by apply (dead_iff HT cfg c b d g ev bound p Hb Hg Hq).
Qed.
Print Assumptions C37_only_listed.
(** ... and they do; a substring filter without substrings has to be what the
    evaluation of the filter starts with. *)
Theorem C37_listed_crash (T : Text) (C : Crypto) (W : Wire) (HT : TextOK T) (cfg : server_cfg)
    (c : bolt_cfg) (b : dn) (d : db) (ev : renv env) (bound : str) (p : packet) :
  base_ok b -> reachable b d -> quiet cfg ev ->
  fatal leading_bare_sub cfg c ev bound p d -> r_next (handle cfg (bolt_handler c) ev bound p d) = Dead.
Proof.
  intros Hb Hr Hq. destruct (reachable_sim HT b d Hb Hr) as [_ [g Hg]].
  by apply (dead_iff HT cfg c b d g ev bound p Hb Hg Hq).
Qed.
Print Assumptions C37_listed_crash.
(** Everything else is answered in full or ends at most its own connection; the
    other connections stay as they are. *)
Theorem C37_others_unharmed (T : Text) (C : Crypto) (W : Wire) (HT : TextOK T) (cfg : server_cfg)
    (c : bolt_cfg) (b : dn) (w : world (S:=db)) (conn : nat) (ev : renv env) (bound : str) (p : packet) :
  base_ok b -> reachable b (w_state w) -> quiet cfg ev -> w_alive w = true ->
  w_conns w !! conn = Some bound -> ~ fatal bare_sub cfg c ev bound p (w_state w) ->
  let '(w', out) := step cfg (bolt_handler c) w (EPacket conn ev p) in
  w_alive w' = true /\ (forall k, k <> conn -> w_conns w' !! k = w_conns w !! k) /\
  (w_conns w' !! conn = None \/
   exists id req es code v, envelope p id req /\
     out = map (REntry id) es ++ [RFinal id (response_tag (p_tag req)) code v]).
Proof.
  intros Hb Hr Hq Ha Hc Hf. unfold step. rewrite Ha, Hc. cbn [negb].
  destruct (r_next (handle cfg (bolt_handler c) ev bound p (w_state w))) as [b1| |] eqn:En; cbn [w_alive w_conns].
  - split; [done|]. split; [intros k Hk; by apply lookup_insert_ne|]. right.
    apply handle_go_out in En as (id & req & es & code & v & Henv & Hout & _). eauto 10.
  - split; [done|]. split; [intros k Hk; by apply lookup_delete_ne|]. left. apply lookup_delete.
  - destruct Hf. by apply (C37_only_listed T C W HT cfg c b).
Qed.
Print Assumptions C37_others_unharmed.

(** One request of each kind. *)
Definition wire_old : Wire := {|
  decompile_filter _ := Some (B "(uid=**)");
  compile_filter _ := Some (filter_packet (FSub (B "uid") []));
  decode_inner _ := Some (Pkt ClassUniversal true TagSequence VNil []
    [Pkt ClassContext false 1 VNil (B "old") []; Pkt ClassContext false 2 VNil (B "new") []]);
  decode_control k := match p_kids k with [] => Panic | _ => Ok KOther end |}.
Definition h37 : list (env * op) :=
  h1 ++ [good (OpPut (ent "uid=eve,ou=people,o=base" [("uid", "eve"); ("userPassword", "{SSHA}abc")]%string))].
Definition d37 : db := run_ops (T:=ascii_text) (C:=toy) (normalize (T:=ascii_text) b0) h37 empty_db.
Lemma d37_reachable : reachable (T:=ascii_text) (C:=toy) b0 d37.
Proof.
  exists h37. split; [apply ops_okb_ok; vm_compute; reflexivity|]. split; [vm_compute; reflexivity|].
  reflexivity.
Qed.
Definition next37 (W : Wire) (bound : string) (p : packet) : next :=
  r_next (handle (T:=ascii_text) (C:=toy) (W:=W) cfg1 (bolt_handler (T:=ascii_text) (C:=toy) c1) ev1 (B bound) p d37).
Definition pseq (l : list packet) : packet := Pkt ClassUniversal true TagSequence VNil [] l.
Definition p_torn : packet := msg 4 (app ModifyRequest [] [pstr "o=base"; pseq [pseq []]]).
Lemma ev1_quiet W : (forall s q, compile_filter (Wire:=W) s = Some q -> exists f, q = filter_packet f) ->
  quiet (C:=toy) (W:=W) cfg1 ev1.
Proof.
  intros H. split; [discriminate|]. split; [discriminate|]. split; [cbn; lia|]. split; [constructor|]. split; [|exact H].
  intros pw salt. cbn. destruct (length salt =? 4); discriminate.
Qed.
Example C37_case :
  (* controls that the decoder chokes on *)
  next37 wire_old "" (Pkt ClassUniversal true TagSequence VNil [] [pint 1; app DelRequest (B "o=base") []; pseq [pseq []]]) = Dead /\
  (* empty names *)
  next37 wire1 "uid=ada,ou=people,o=base" (msg 2 (app AddRequest [] [pstr ""; pseq []])) = Dead /\
  next37 wire1 "uid=ada,ou=people,o=base" (p_del 2 "") = Dead /\
  next37 wire1 "uid=ada,ou=people,o=base"
    (msg 2 (app ModifyDNRequest [] [pstr "o=base"; pstr ""; Pkt 0 false 1 (VBool true) [] []])) = Dead /\
  (* a change cut off, from any bound user *)
  next37 wire1 "uid=carl,ou=people,o=base" p_torn = Dead /\
  (* another user's password *)
  next37 wire1 "uid=eve,ou=people,o=base" (p_exop 5) = Dead /\
  (* an old password against a malformed stored one *)
  next37 wire_old "uid=eve,ou=people,o=base" (p_exop 5) = Dead /\
  (* a substring filter without substrings, from anyone *)
  next37 wire_old "" (p_search 6 "ou=people,o=base" 1) = Dead /\
  (* the same requests from others *)
  next37 wire1 "uid=carl,ou=people,o=base" (p_del 2 "") = Go carl /\
  next37 wire1 "" p_torn = Go [] /\
  next37 wire1 "uid=carl,ou=people,o=base" (p_exop 5) = Go carl /\
  next37 wire1 "" (p_search 6 "ou=people,o=base" 1) = Go [].
Proof. repeat split; vm_compute; reflexivity. Qed.
Example C37_listed_case :
  fatal (T:=ascii_text) (C:=toy) (W:=wire1) leading_bare_sub cfg1 c1 ev1 carl p_torn d37 /\
  quiet (C:=toy) (W:=wire1) cfg1 ev1.
Proof.
  split.
  - eapply (fatal_changes _ _ _ _ _ _ _ 4%Z (app ModifyRequest [] [pstr "o=base"; pseq [pseq []]])).
    + eexists _, []. split; [reflexivity|]. split; reflexivity.
    + intros (i & req & cs & rest & k & H & _). discriminate.
    + discriminate.
    + reflexivity.
    + eexists (pstr "o=base"), (pseq [pseq []]), (B "o=base"), b0, [], (pseq []), [].
      split; [reflexivity|]. split; [reflexivity|]. split; [vm_compute; reflexivity|].
      split; [by repeat split|]. split; [reflexivity|]. split; [constructor|]. by left.
  - apply ev1_quiet. intros s q H. exists (FPres (B "uid")). apply (f_equal (fun o => match o with Some x => x | None => q end)) in H. exact (eq_sym H).
Qed.

(** C38.  A failed bind leaves the identity as it was, whatever the handler. *)
Theorem C38_failed_bind_keeps_identity (T : Text) (C : Crypto) (W : Wire) (S E : Type) (cfg : server_cfg)
    (h : handler S E) (ev : renv E) (bound : str) (id : Z) (req : packet) (s s' : S) (code : N) :
  p_cls req = ClassApplication -> p_tag req = BindRequest -> re_send ev 0 = true ->
  handle_bind h ev req s = (HRet code, s') -> code <> Success ->
  handle cfg h ev bound (msg id req) s = mkResult [RFinal id BindResponse code None] (Go bound) s'.
Proof.
  intros Hc Ht Hs Hb Hne. unfold handle, msg. cbn [p_kids pint p_val as_int].
  rewrite Hc. change (ClassApplication =? ClassApplication)%N with true. cbn [negb].
  unfold dispatch. rewrite Ht. cbn [N.eqb Pos.eqb AddRequest BindRequest]. rewrite Hb.
  apply N.eqb_neq in Hne. rewrite Hne. unfold send_final. by rewrite Hs.
Qed.
Print Assumptions C38_failed_bind_keeps_identity.
(** So the administrator's rights survive a failed bind. *)
Definition es_rebind : list (event (E:=env)) :=
  [EOpen 0; EPacket 0 ev1 (p_bind 1 "uid=ada,ou=people,o=base" "secret");
   EPacket 0 ev1 (p_bind 2 "uid=carl,ou=people,o=base" "wrong")].
Theorem C38_write_after_failed_bind : exists (T : Text) (C : Crypto) (W : Wire) (cfg : server_cfg) (c : bolt_cfg)
    (d : db) (es : list (event (E:=env))) (ev : renv env) (conn : nat) (p q : packet),
  TextOK T /\
  let w := run cfg (bolt_handler c) (start d) es in
  let w1 := step cfg (bolt_handler c) w (EPacket conn ev p) in
  let w2 := step cfg (bolt_handler c) w1.1 (EPacket conn ev q) in
  w1.2 = [RFinal 2 BindResponse InvalidCredentials None] /\
  w2.2 = [RFinal 3 DelResponse Success None] /\
  dn2id (w_state w1.1) !! carl <> None /\ dn2id (w_state w2.1) !! carl = None.
Proof.
  exists ascii_text, toy, wire1, cfg1, c1, d1, (take 2 es_rebind), ev1, 0,
    (p_bind 2 "uid=carl,ou=people,o=base" "wrong"), (p_del 3 "uid=carl,ou=people,o=base").
  split; [exact ascii_text_ok|]. cbv zeta.
  split; [vm_compute; reflexivity|]. split; [vm_compute; reflexivity|].
  split; [vm_compute; discriminate|vm_compute; reflexivity].
Qed.
Print Assumptions C38_write_after_failed_bind.
Example C38_case : w_conns (run1 es_rebind) !! 0 = Some (bc_admin c1).
Proof. vm_compute. reflexivity. Qed.

(** C46.  The identity plays no part in a search on the database backend. *)
Theorem C46_search_ignores_identity (T : Text) (C : Crypto) (W : Wire) (cfg : server_cfg) (c : bolt_cfg)
    (ev : renv env) (bound bound' : str) (id : Z) (req : packet) (d : db) :
  p_cls req = ClassApplication -> p_tag req = SearchRequest ->
  r_out (handle cfg (bolt_handler c) ev bound (msg id req) d) =
  r_out (handle cfg (bolt_handler c) ev bound' (msg id req) d).
Proof.
  intros Hc Ht. unfold handle, msg. cbn [p_kids pint p_val as_int]. rewrite Hc.
  change (ClassApplication =? ClassApplication)%N with true. cbn [negb]. unfold dispatch. rewrite Ht.
  cbn [N.eqb Pos.eqb AddRequest BindRequest CompareRequest DelRequest ExtendedRequest ModifyDNRequest ModifyRequest SearchRequest].
  assert (Hsame : handle_search cfg (bolt_handler c) ev bound req d = handle_search cfg (bolt_handler c) ev bound' req d) by done.
  rewrite Hsame. destruct (handle_search cfg (bolt_handler c) ev bound' req d) as [[es [o| |]] s']; [|done..].
  unfold send_final. destruct (re_send ev _); done.
Qed.
Print Assumptions C46_search_ignores_identity.
(** So a client that never bound reads the stored passwords. *)
Theorem C46_passwords_disclosed : exists (T : Text) (C : Crypto) (W : Wire) (cfg : server_cfg) (c : bolt_cfg)
    (b : dn) (d : db) (ev : renv env) (p : packet) (e : entry),
  TextOK T /\ base_ok b /\ reachable b d /\ bc_anon c = false /\
  In (REntry 9 e) (r_out (handle cfg (bolt_handler c) ev [] p d)) /\ stored_password e = B "secret".
Proof.
  exists ascii_text, toy, wire1, cfg1, c1, b0, d1, ev1, (p_search 9 "ou=people,o=base" 1), e_ada.
  split; [exact ascii_text_ok|]. split; [exact b0_ok|]. split; [exact d1_reachable|]. split; [reflexivity|].
  split; [|vm_compute; reflexivity].
  change (In (REntry 9 e_ada) (r_out (handle1 [] (p_search 9 "ou=people,o=base" 1) d1))).
  rewrite (proj1 C36_case). by left.
Qed.
Print Assumptions C46_passwords_disclosed.
Example C46_case : stored_password (T:=ascii_text) e_ada = B "secret".
Proof. vm_compute. reflexivity. Qed.
