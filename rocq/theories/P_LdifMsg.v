(** Property C82: bind and search messages on the LDIF backend. *)
From Verif Require Import Bytes Text Dn DnProofs Res Entry EntryProofs Password PasswordProofs P_Password Db DbSpec Packet
  Filter FilterProofs ScopeProofs P_Filter Handler Server ServerProofs P_Db P_Server Ldif LdifProofs LdifMore P_Ldif
  Encode EncodeProofs SessionProofs P_E2e P_Session.

(** What the answer of any handler to a bind becomes. *)
Lemma bind_answer {T : Text} {C : Crypto} {W : Wire} {S E} cfg (h : handler S E) (ev : renv E) bound id dn pw s :
  re_send ev 0 = true ->
  handle cfg h ev bound (p_msg id (enc_bind dn pw)) s =
  match h_bind h (re_h ev) dn pw s with
  | (HRet (0, false)%N, s') => match parse_normalize dn with
                         | Some n => mkResult [RFinal id 1 0 None] (Go n) s'
                         | None => mkResult [] Drop s'
                         end
  | (HRet (code, false), s') => mkResult [RFinal id 1 code None] (Go bound) s'
  | (HRet (_, true), s') | (HPanic, s') => mkResult [RFinal id 1 1 None] (Go bound) s'
  | (HKill, s') => mkResult [] Dead s'
  end.
Proof.
  intros Hs. unfold handle, p_msg. cbn [p_kids p_seq as_int p_int p_val].
  change (negb (p_cls (enc_bind dn pw) =? ClassApplication)%N) with false. cbn match.
  unfold dispatch. change (p_tag (enc_bind dn pw)) with BindRequest.
  change (BindRequest =? AddRequest)%N with false. change (BindRequest =? BindRequest)%N with true. cbn match.
  assert (handle_bind h ev (enc_bind dn pw) s =
    match h_bind h (re_h ev) dn pw s with
    | (HRet (code, false), s') => (HRet code, s')
    | (HRet (_, true), s') => (HRet OperationsError, s')
    | (HPanic, s') => (HRet OperationsError, s')
    | (HKill, s') => (HKill, s')
    end) as -> by done.
  change (p_kids (enc_bind dn pw)) with [p_int 3; p_octets dn; p_ctx 0 pw].
  destruct (h_bind h (re_h ev) dn pw s) as [o d'] eqn:Eb.
  unfold send_final. rewrite !Hs.
  destruct o as [[[|code] [|]]| |]; try reflexivity.
Qed.
(** Who may bind or search at all: nobody anonymously, except local clients if
    this is switched on, and names that end in the base. *)
Definition ldif_allowed {T : Text} (c : ldif_cfg) (local : bool) (dn : str) : Prop :=
  (to_lower dn = [] /\ lc_anon c = true /\ local = true) \/
  (to_lower dn <> [] /\ exists t, to_lower dn = t ++ lc_base c).
Lemma allowed_iff {T : Text} c local dn : bind_dn_ok c local (to_lower dn) = true <-> ldif_allowed c local dn.
Proof.
  unfold bind_dn_ok, ldif_allowed. destruct (to_lower dn) as [|y l]; cbn [is_empty].
  - rewrite andb_true_iff. split; [auto|]. by intros [(_&?&?)|[? _]].
  - rewrite has_suffix_spec. split; [auto|]. by intros [[? _]|[_ ?]].
Qed.
(** The three outcomes of looking at a record's password. *)
Lemma check_table {T : Text} {C : Crypto} (HT : TextOK T) e pw :
  (check_password (split_entry e) pw = HRet (Success, false) /\ exists h, ldif_password e h /\ accepts pw h) \/
  (check_password (split_entry e) pw = HPanic /\
     ((forall h, ~ ldif_password e h) \/ exists h, ldif_password e h /\ chokes pw h)) \/
  (check_password (split_entry e) pw = HRet (InvalidCredentials, false) /\
     exists h, ldif_password e h /\ ~ accepts pw h /\ ~ chokes pw h).
Proof.
  destruct (last (map a_vals (bfilter (fun a => is_userpassword (a_name a)) (e_attrs e)))) as [[|h vs]|] eqn:El.
  - right. left. unfold check_password, validate_entry. cbn [split_entry l_pw]. rewrite El. split; [done|]. left.
    intros h (l1 & a & l2 & vs & He & Ha & Hv & Hx).
    assert (H : last (map a_vals (bfilter (fun a => is_userpassword (a_name a)) (e_attrs e))) = Some (h :: vs)).
    { apply last_filter. exists l1, a, l2. split; [done|]. split; [by apply seqb_eq|]. split; [done|].
      intros b Hb. apply seqb_neq. by apply Hx. }
    congruence.
  - assert (Hp : ldif_password e h).
    { apply last_filter in El as (l1 & a & l2 & He & Ha & Hv & Hb). exists l1, a, l2, vs. split; [done|].
      split; [by apply seqb_eq|]. split; [done|]. intros b Hin. apply seqb_neq. by apply (Hb b Hin). }
    unfold check_password, validate_entry. cbn [split_entry l_pw]. rewrite El.
    destruct (validate_shape HT pw h) as [Hv|[Hv|Hv]]; rewrite Hv.
    + left. split; [done|]. exists h. split; [done|]. by apply (validate_accepts HT).
    + right. right. split; [done|]. exists h. split; [done|].
      rewrite <- (validate_accepts HT), <- (validate_chokes HT), Hv. done.
    + right. left. split; [done|]. right. exists h. split; [done|]. by apply (validate_chokes HT).
  - right. left. unfold check_password, validate_entry. cbn [split_entry l_pw]. rewrite El. split; [done|]. left.
    intros h (l1 & a & l2 & vs & He & Ha & _). apply last_filter_none with (b := a) in El.
    + unfold is_userpassword in El. by rewrite Ha, seqb_refl in El.
    + rewrite He. apply in_app_iff. right. by left.
Qed.
Lemma password_unique {T : Text} e h h' : ldif_password e h -> ldif_password e h' -> h = h'.
Proof.
  intros (l1 & a & l2 & vs & H1 & H2 & H3 & H4) (m1 & b & m2 & ws & G1 & G2 & G3 & G4).
  assert (E1 : last (map a_vals (bfilter (fun a => is_userpassword (a_name a)) (e_attrs e))) = Some (h :: vs)).
  { apply last_filter. exists l1, a, l2. split; [done|]. split; [by apply seqb_eq|]. split; [done|].
    intros x Hx. apply seqb_neq. by apply H4. }
  assert (E2 : last (map a_vals (bfilter (fun a => is_userpassword (a_name a)) (e_attrs e))) = Some (h' :: ws)).
  { apply last_filter. exists m1, b, m2. split; [done|]. split; [by apply seqb_eq|]. split; [done|].
    intros x Hx. apply seqb_neq. by apply G4. }
  congruence.
Qed.
(** A record whose password check fails with a panic. *)
Definition chokes_on {T : Text} {C : Crypto} (e : entry) (pw : str) : Prop :=
  (forall h, ~ ldif_password e h) \/ exists h, ldif_password e h /\ chokes pw h.

(** C82.  Every answer to a bind, by the records of the file; an accepted bind for
    a name that is no DN closes the connection without an answer. *)
Theorem C82_bind (T : Text) (C : Crypto) (W : Wire) (Tr : Trees) (HT : TextOK T) (attrs : list (str * str))
    (records : list (option entry)) (d : dataset) (c : ldif_cfg) (cfg : server_cfg) (ev : renv bool)
    (bound : str) (id : Z) (dn pw : str) :
  build attrs records = Some d -> re_send ev 0 = true ->
  let record e := In (Some e) records /\ to_lower (e_dn e) = to_lower dn in
  let ok := ldif_allowed c (re_h ev) dn in
  exists code, handle cfg (ldif_handler c) ev bound (p_msg id (enc_bind dn pw)) d =
    (if (code =? 0)%N then
       match parse_dn dn with
       | Some dd => mkResult [RFinal id 1 0 None] (Go (normalize dd)) d
       | None => mkResult [] Drop d
       end
     else mkResult [RFinal id 1 code None] (Go bound) d) /\
  (code = 50%N <-> ~ ok) /\
  (code = 53%N <-> ok /\ pw = [] /\ to_lower dn <> []) /\
  (code = 0%N <-> ok /\ (pw = [] /\ to_lower dn = [] \/
                          pw <> [] /\ exists e h, record e /\ ldif_password e h /\ accepts pw h)) /\
  (code = 1%N <-> ok /\ pw <> [] /\ exists e, record e /\ chokes_on e pw) /\
  In code [50; 53; 0; 1; 49]%N.
Proof.
  intros Hb Hs record ok. rewrite bind_answer by done. cbn [h_bind ldif_handler].
  unfold parse_normalize. unfold ldif_bind. cbv zeta.
  pose proof (allowed_iff c (re_h ev) dn) as Hok. fold ok in Hok.
  destruct (bind_dn_ok c (re_h ev) (to_lower dn)) eqn:Eo; cbn [negb].
  2:{ assert (~ ok) by (intros Hx; apply Hok in Hx; done). exists 50%N. split; [done|]. clearbody ok.
      repeat split; try done; try tauto; intros; naive_solver. }
  assert (Hk : ok) by by apply Hok. clear Hok Eo.
  destruct pw as [|p0 pw]; cbn [is_empty].
  { destruct (to_lower dn) as [|y l] eqn:El; cbn [is_empty].
    - exists 0%N. split; [by destruct (parse_dn dn)|]. clearbody ok. repeat split; try done; try tauto; naive_solver.
    - exists 53%N. split; [done|]. clearbody ok. repeat split; try done; try tauto; naive_solver. }
  destruct (tree_get d (to_lower dn)) as [x|] eqn:Ex.
  - apply (tree_get_record attrs records d (to_lower dn) Hb) in Ex as (e & He & Hd & ->).
    assert (Hr : forall e', record e' <-> e' = e).
    { intros e'. split; [|by intros ->]. intros [He' Hd']. eapply record_unique; eauto. congruence. }
    clearbody ok record.
    destruct (check_table HT e (p0 :: pw)) as [[-> (h & Hh & Ha)]|[[-> Hc]|[-> (h & Hh & Hna & Hnc)]]].
    + exists 0%N. split; [by destruct (parse_dn dn)|]. split; [by split; [|tauto]|]. split; [by split; [|naive_solver]|].
      split; [|split; [|vm_compute; tauto]].
      * split; [|done]. intros _. split; [done|]. right. split; [done|]. exists e, h. split; [by apply Hr|done].
      * split; [done|]. intros (_ & _ & e' & He' & [Hno|(h' & Hh' & Hch)]); apply Hr in He' as ->.
        -- by destruct (Hno h).
        -- rewrite (password_unique e h' h) in Hch by done.
           apply (validate_accepts HT) in Ha. apply (validate_chokes HT) in Hch. congruence.
    + exists 1%N. split; [done|]. split; [by split; [|tauto]|]. split; [by split; [|naive_solver]|].
      split; [|split; [|vm_compute; tauto]].
      * split; [done|]. intros (_ & [[? _]|(_ & e' & h & He' & Hh & Ha)]); [done|]. apply Hr in He' as ->.
        destruct Hc as [Hno|(h' & Hh' & Hch)]; [by destruct (Hno h)|].
        rewrite (password_unique e h' h) in Hch by done.
        apply (validate_accepts HT) in Ha. apply (validate_chokes HT) in Hch. congruence.
      * split; [|done]. intros _. split; [done|]. split; [done|]. exists e. split; [by apply Hr|done].
    + exists 49%N. split; [done|]. split; [by split; [|tauto]|]. split; [by split; [|naive_solver]|].
      split; [|split; [|vm_compute; tauto]].
      * split; [done|]. intros (_ & [[? _]|(_ & e' & h' & He' & Hh' & Ha)]); [done|]. apply Hr in He' as ->.
        by rewrite (password_unique e h' h) in Ha by done.
      * split; [done|]. intros (_ & _ & e' & He' & [Hno|(h' & Hh' & Hch)]); apply Hr in He' as ->.
        -- by destruct (Hno h).
        -- by rewrite (password_unique e h' h) in Hch by done.
  - assert (Hr : forall e', ~ record e').
    { intros e' [He' Hd']. assert (tree_get d (to_lower dn) = Some (split_entry e')); [|congruence].
      apply (tree_get_record attrs records d (to_lower dn) Hb). eauto. }
    clearbody ok record. exists 49%N. split; [done|].
    repeat split; try done; try tauto; naive_solver.
Qed.
Print Assumptions C82_bind.

(** With an overlay: a name the overlay has is decided there, if a password is
    given, any other bind is passed on. *)
Theorem C82_overlay_bind (T : Text) (C : Crypto) (W : Wire) (Tr : Trees) (HT : TextOK T) (attrs : list (str * str))
    (orecords : list (option entry)) (o d : dataset) (c : ldif_cfg) (base : str) (cfg : server_cfg)
    (ev : renv bool) (bound : str) (id : Z) (dn pw : str) :
  build attrs orecords = Some o -> re_send ev 0 = true -> to_lower (to_lower dn) = to_lower dn ->
  let record e := In (Some e) orecords /\ to_lower (e_dn e) = to_lower dn in
  let res := handle cfg (overlay base (ldif_handler c)) ev bound (p_msg id (enc_bind dn pw)) (o, d) in
  (pw = [] \/ (forall e, ~ record e) ->
     r_out res = r_out (handle cfg (ldif_handler c) ev bound (p_msg id (enc_bind dn pw)) d) /\
     r_next res = r_next (handle cfg (ldif_handler c) ev bound (p_msg id (enc_bind dn pw)) d) /\ r_state res = (o, d)) /\
  (forall e, pw <> [] -> record e ->
     let ok := exists t, to_lower dn = t ++ base in
     exists code, res =
       (if (code =? 0)%N then
          match parse_dn dn with
          | Some dd => mkResult [RFinal id 1 0 None] (Go (normalize dd)) (o, d)
          | None => mkResult [] Drop (o, d)
          end
        else mkResult [RFinal id 1 code None] (Go bound) (o, d)) /\
     (code = 0%N <-> ok /\ exists h, ldif_password e h /\ accepts pw h) /\
     (code = 1%N <-> ok /\ chokes_on e pw) /\
     In code [0; 1; 49]%N).
Proof.
  intros Hb Hs Hll record res. unfold res. clear res. rewrite !bind_answer by done.
  cbn [h_bind ldif_handler overlay]. unfold parse_normalize, overlay_bind. cbn [h_bind ldif_handler fst snd].
  assert (Hlow : ldif_bind c (re_h ev) (to_lower dn) pw d = ldif_bind c (re_h ev) dn pw d).
  { unfold ldif_bind. by rewrite Hll. }
  rewrite Hlow. clear Hlow. split.
  - intros Hor.
    assert (Hn : (if is_empty pw then let '(a, s') := ldif_bind c (re_h ev) dn pw d in (a, (o, s'))
        else match tree_get o (to_lower dn) with
             | Some x => (if negb (has_suffix (to_lower dn) base) then HRet (InvalidCredentials, false)
                          else check_password x pw, (o, d))
             | None => let '(a, s') := ldif_bind c (re_h ev) dn pw d in (a, (o, s'))
             end) = ((ldif_bind c (re_h ev) dn pw d).1, (o, d))).
    { assert (Hd : (ldif_bind c (re_h ev) dn pw d).2 = d) by done.
      destruct (ldif_bind c (re_h ev) dn pw d) as [a d'] eqn:Ed. cbn [snd] in Hd. subst d'. cbn [fst].
      destruct Hor as [-> |Hno]; [done|]. destruct (is_empty pw); [done|].
      destruct (tree_get o (to_lower dn)) as [x|] eqn:Ex; [|done].
      apply (tree_get_record attrs orecords o (to_lower dn) Hb) in Ex as (e & He & Hd' & _). by destruct (Hno e). }
    rewrite Hn. clear Hn.
    assert (Hd : (ldif_bind c (re_h ev) dn pw d).2 = d) by done.
    destruct (ldif_bind c (re_h ev) dn pw d) as [a d'] eqn:Ed. cbn [snd fst] in *. subst d'.
    destruct a as [[[|code] [|]]| |]; cbn [fmap option_fmap option_map]; try done. by destruct (parse_dn dn).
  - intros e Hpw [He Hd]. set (ok := exists t, to_lower dn = t ++ base). rewrite (proj2 (is_empty_false pw) Hpw).
    rewrite (proj2 (tree_get_record attrs orecords o (to_lower dn) Hb (split_entry e))) by eauto.
    assert (Hok : has_suffix (to_lower dn) base = true <-> ok) by (unfold ok; apply has_suffix_spec).
    destruct (has_suffix (to_lower dn) base); cbn [negb].
    2:{ assert (~ ok) by (intros Hx; by apply Hok in Hx). clearbody ok. exists 49%N. split; [done|]. split; [|split; [|vm_compute; tauto]]; (split; [done|]); tauto. }
    assert (Hk : ok) by by apply Hok. clearbody ok.
    destruct (check_table HT e pw) as [[-> (h & Hh & Ha)]|[[-> Hc]|[-> (h & Hh & Hna & Hnc)]]].
    + exists 0%N. split; [by destruct (parse_dn dn)|]. split; [|split; [|vm_compute; tauto]].
      * split; [|done]. intros _. split; [done|]. by exists h.
      * split; [done|]. intros (_ & [Hno|(h' & Hh' & Hch)]); [by destruct (Hno h)|].
        rewrite (password_unique e h' h) in Hch by done.
        apply (validate_accepts HT) in Ha. apply (validate_chokes HT) in Hch. congruence.
    + exists 1%N. split; [done|]. split; [|split; [|vm_compute; tauto]].
      * split; [done|]. intros (_ & h & Hh & Ha).
        destruct Hc as [Hno|(h' & Hh' & Hch)]; [by destruct (Hno h)|].
        rewrite (password_unique e h' h) in Hch by done.
        apply (validate_accepts HT) in Ha. apply (validate_chokes HT) in Hch. congruence.
      * split; [|done]. intros _. by split.
    + exists 49%N. split; [done|]. split; [|split; [|vm_compute; tauto]].
      * split; [done|]. intros (_ & h' & Hh' & Ha). by rewrite (password_unique e h' h) in Ha by done.
      * split; [done|]. intros (_ & [Hno|(h' & Hh' & Hch)]); [by destruct (Hno h)|].
        by rewrite (password_unique e h' h) in Hch by done.
Qed.
Print Assumptions C82_overlay_bind.

(** ** Searching *)
(** The loop that sends what the handler returns, without checks of its own. *)
Lemma send_all {T : Text} flt r (ok : nat -> bool) es i : (forall k, ok k = true) ->
  search_loop false flt r ok es i = (es, Ok tt).
Proof.
  intros Hok. revert i. induction es as [|e es IH]; intros i; [done|]. cbn [search_loop]. by rewrite Hok, IH.
Qed.
(** What becomes of the handler's answer to a search, if the server leaves the
    checks to the handler (server/server.go:49, the setting with the LDIF
    handlers). *)
Lemma search_answer {T : Text} {C : Crypto} {W : Wire} {S E} cfg (h : handler S E) (ev : renv E) bound id req r s :
  p_cls req = ClassApplication -> p_tag req = SearchRequest -> says_search req r -> sv_enforce cfg = false ->
  (forall k, re_send ev k = true) ->
  handle cfg h ev bound (p_msg id req) s =
  match h_search h (re_h ev) bound r s with
  | (HRet f, s') =>
      if f_err f then mkResult [RFinal id SearchResultDone (f_code f) None] Drop s'
      else mkResult (map (REntry id) (f_entries f) ++ [RFinal id SearchResultDone 0 None]) (Go bound) s'
  | (_, s') => mkResult [] Dead s'
  end.
Proof.
  intros Hcl Ht Hsay Hen Hs. unfold handle, p_msg. cbn [p_kids p_seq as_int p_int p_val].
  rewrite Hcl. change (negb (ClassApplication =? ClassApplication)%N) with false. cbn match.
  rewrite d_search by done. unfold handle_search. apply search_iff in Hsay. rewrite Hsay, Hen.
  destruct (h_search h (re_h ev) bound r s) as [[f| |] s']; [|done..].
  destruct (f_err f).
  - unfold send_final. by rewrite Hs.
  - rewrite send_all by done. unfold send_final. by rewrite Hs.
Qed.
(** Searches that are refused: the code, and the connection is closed. *)
Theorem C82_search_refused (T : Text) (C : Crypto) (W : Wire) (Tr : Trees) (c : ldif_cfg) (cfg : server_cfg)
    (ev : renv bool) (d : dataset) (bound : str) (id : Z) (req : packet) (r : search_req) :
  p_cls req = ClassApplication -> p_tag req = SearchRequest -> says_search req r -> sv_enforce cfg = false ->
  (forall k, re_send ev k = true) ->
  let res := handle cfg (ldif_handler c) ev bound (p_msg id req) d in
  let below := exists t, to_lower (sr_base r) = t ++ lc_base c in
  (~ ldif_allowed c (re_h ev) bound -> res = mkResult [RFinal id SearchResultDone 50 None] Drop d) /\
  (ldif_allowed c (re_h ev) bound -> ~ below ->
     compile_filter (sr_filter r) = None \/ (exists f, compile_filter (sr_filter r) = Some (filter_packet f)) ->
     res = mkResult [RFinal id SearchResultDone 50 None] Drop d) /\
  (ldif_allowed c (re_h ev) bound -> below -> compile_filter (sr_filter r) = None ->
     res = mkResult [RFinal id SearchResultDone 1 None] Drop d).
Proof.
  intros Hcl Ht Hsay Hen Hs res below. unfold res. clear res. rewrite (search_answer _ _ _ _ _ _ r) by done.
  cbn [h_search ldif_handler]. unfold ldif_search, search_checks.
  pose proof (allowed_iff c (re_h ev) bound) as Hok.
  assert (Hbl : has_suffix (to_lower (sr_base r)) (lc_base c) = true <-> below) by (unfold below; apply has_suffix_spec).
  clearbody below. split; [|split].
  - intros Hn. rewrite <- Hok in Hn. apply not_true_iff_false in Hn. by rewrite Hn.
  - intros Ha Hn Hf. apply Hok in Ha. rewrite Ha. cbn [negb]. rewrite <- Hbl in Hn. apply not_true_iff_false in Hn. rewrite Hn.
    destruct Hf as [-> | [f ->]]; [done|]. unfold index_filter.
    destruct (leaves_calm f) as [[ls ->]|[e ->]]; done.
  - intros Ha Hy Hf. apply Hok in Ha. rewrite Ha, Hf. cbn [negb]. apply Hbl in Hy. by rewrite Hy.
Qed.
Print Assumptions C82_search_refused.

(** Filters whose answer the index finds completely: an equality or presence
    assertion, or a conjunction with one for an attribute other than objectClass. *)
Inductive index_safe {T : Text} : flt -> Prop :=
| is_eq a v : asciis a -> asciis v -> index_safe (FEq a v)
| is_pres a : asciis a -> index_safe (FPres a)
| is_and_eq fl a v : asciis a -> asciis v -> eqfold (B "objectClass") a = false -> In (FEq a v) fl -> index_safe (FAnd fl)
| is_and_pres fl a : asciis a -> eqfold (B "objectClass") a = false -> In (FPres a) fl -> index_safe (FAnd fl).
Lemma safe_complete {T : Text} {C : Crypto} {W : Wire} {Tr : Trees} (HT : TextOK T) (HTr : TreesOK Tr) attrs records d c local bound r f :
  build attrs records = Some d -> search_ok c local bound r ->
  compile_filter (sr_filter r) = Some (filter_packet f) -> decided (records_of records) f r ->
  Forall ascii_entry (records_of records) -> index_safe f ->
  complete_for c local bound r f (records_of records) d.
Proof.
  intros Hb Hok Hf Hdec He Hs. destruct Hs as [a v Ha Hv|a Ha|fl a v Ha Hv Ho Hin|fl a Ha Ho Hin].
  - by eapply C49_equality.
  - eapply (C49_covered T C W Tr HT HTr attrs records d c local bound r (FPres a) [mkLeaf a LPres []] (fun _ => true)); eauto.
    intros e l Hin Hl _. destruct Hl as [<-|[]]. apply (ascii_agree HT); [|done|constructor]. by apply (proj1 (List.Forall_forall _ _) He).
  - eapply (C49_conjunction T C W Tr HT HTr attrs records d c local bound r fl a v); eauto.
  - eapply (C49_conjunction T C W Tr HT HTr attrs records d c local bound r fl a []); eauto. constructor.
Qed.
(** A record as it is served: the DN in lower case, without passwords. *)
Definition served {T : Text} (e : entry) : entry :=
  mkEntry (to_lower (e_dn e)) (bfilter (fun a => negb (seqb (to_lower (a_name a)) (B "userpassword"))) (e_attrs e)).
(** Names for which the scope checks are exact. *)
Definition served_plain {T : Text} (scope : Z) (b : dn) (dn : str) : Prop :=
  exists dd, parse_dn dn = Some dd /\
    (scope = 2%Z \/
     scope = 0%Z /\ ascii_dn b /\ single_dn b /\ ascii_dn dd /\ single_dn dd \/
     scope = 1%Z /\ ascii_dn b /\ single_dn b /\ ascii_dn dd /\ single_dn dd /\ b <> [] /\ plain_first dn).
(** A record answers a search: its lower-cased DN ends in the text of the base; for
    the scopes base and one it is the base or a child of it; and it satisfies the
    filter. *)
Definition answers {T : Text} (r : search_req) (b : dn) (f : flt) (e : entry) : Prop :=
  (exists t, to_lower (e_dn e) = t ++ to_lower (sr_base r)) /\
  (sr_scope r <> 2%Z -> exists dd, parse_dn (to_lower (e_dn e)) = Some dd /\ in_scope (sr_scope r) (fold_dn b) (fold_dn dd) = true) /\
  sat (served e) f.
Theorem C82_search (T : Text) (C : Crypto) (W : Wire) (Tr : Trees) (HT : TextOK T) (HTr : TreesOK Tr)
    (attrs : list (str * str)) (records : list (option entry)) (d : dataset) (c : ldif_cfg) (cfg : server_cfg)
    (ev : renv bool) (bound : str) (id : Z) (req : packet) (r : search_req) (f : flt) (b : dn) :
  build attrs records = Some d ->
  p_cls req = ClassApplication -> p_tag req = SearchRequest -> says_search req r -> sv_enforce cfg = false ->
  (forall k, re_send ev k = true) ->
  ldif_allowed c (re_h ev) bound -> (exists t, to_lower (sr_base r) = t ++ lc_base c) ->
  compile_filter (sr_filter r) = Some (filter_packet f) -> supported f = true -> index_safe f ->
  parse_dn (sr_base r) = Some b ->
  Forall ascii_entry (records_of records) ->
  (forall e, In (Some e) records -> served_plain (sr_scope r) b (to_lower (e_dn e))) ->
  exists (keep : entry -> bool) (l : list entry),
    (forall e, In (Some e) records -> (keep e = true <-> answers r b f e)) /\
    Permutation l (map (fun e => select_attributes (sr_attrs r) (served e)) (bfilter keep (records_of records))) /\
    let n := Z.to_nat (sr_size r mod 2 ^ 32) in
    handle cfg (ldif_handler c) ev bound (p_msg id req) d =
      mkResult (map (REntry id) (if (0 <? sr_size r)%Z then take (Nat.max 1 n) l else l) ++
                [RFinal id SearchResultDone 0 None]) (Go bound) d.
Proof.
  intros Hb Hcl Ht Hsay Hen Hs Ha Hbl Hf Hsup Hsafe Hp Hasc Hpl.
  assert (Hin : forall e, In (Some e) records <-> In e (records_of records)).
  { intros e. unfold records_of. clear. induction records as [|[x|] l IH]; cbn [omap list_omap]; [done| |].
    - cbn [In]. rewrite <- IH. split; (intros [H|H]; [left; congruence|auto]).
    - cbn [In]. rewrite <- IH. split; [by intros [?|?]|auto]. }
  setoid_rewrite Hin in Hpl. setoid_rewrite Hin. clear Hin.
  set (keepf e := match apply_filter (filter_packet f) (served e) with Ok x => x | _ => false end).
  set (keeps e := match filter_scope (sr_base r) (sr_scope r) (served e) with Ok x => x | _ => false end).
  assert (Hkf : forall e, apply_filter (filter_packet f) (served e) = Ok (keepf e) /\ (keepf e = true <-> sat (served e) f)).
  { intros e. destruct (C39_filter_boolean T f (served e) Hsup) as (x & Hx & Hxs). unfold keepf. by rewrite Hx. }
  assert (Hks : forall e, In e (records_of records) ->
    filter_scope (sr_base r) (sr_scope r) (served e) = Ok (keeps e) /\
    (keeps e = true <-> (sr_scope r <> 2%Z -> exists dd, parse_dn (to_lower (e_dn e)) = Some dd /\ in_scope (sr_scope r) (fold_dn b) (fold_dn dd) = true))).
  { intros e He. destruct (Hpl e He) as (dd & Hdd & Hor). unfold keeps.
    destruct Hor as [H2|[(H0 & Hab & Hsb & Had & Hsd)|(H1 & Hab & Hsb & Had & Hsd & Hne & Hpf)]].
    - rewrite H2. rewrite (C42_subtree_unchecked T (sr_base r) (served e) b dd Hp Hdd). split; [done|]. split; [|done]. intros _ ?; done.
    - rewrite H0. rewrite (proj1 (C42_scope_check T HT (sr_base r) (served e) b dd Hp Hdd Hab Had Hsb Hsd)).
      split; [done|]. split; [by eauto|]. intros Hx. destruct (Hx ltac:(done)) as (dd' & Hd' & Hi). congruence.
    - rewrite H1. rewrite (proj2 (C42_scope_check T HT (sr_base r) (served e) b dd Hp Hdd Hab Had Hsb Hsd)) by done.
      split; [done|]. split; [by eauto|]. intros Hx. destruct (Hx ltac:(done)) as (dd' & Hd' & Hi). congruence. }
  assert (Htake : forall e, In e (records_of records) ->
    take_entry (filter_packet f) r (public e) = Ok (if keepf e && keeps e then Some (select_attributes (sr_attrs r) (served e)) else None)).
  { intros e He. unfold take_entry. change (public e) with (served e). rewrite (proj1 (Hkf e)). cbn [rbind].
    destruct (keepf e); cbn [negb andb]; [|done]. rewrite (proj1 (Hks e He)). cbn [rbind]. by destruct (keeps e). }
  assert (Hok : search_ok c (re_h ev) bound r).
  { split; [by apply allowed_iff|by apply has_suffix_spec]. }
  assert (Hdec : decided (records_of records) f r).
  { apply List.Forall_forall. intros e He _. rewrite (Htake e He). by eexists. }
  destruct (safe_complete HT HTr attrs records d c (re_h ev) bound r f Hb Hok Hf Hdec Hasc Hsafe) as (l & Hl & Hres).
  exists (fun e => has_suffix (low_dn e) (to_lower (sr_base r)) && (keepf e && keeps e)), l. split; [|split].
  - intros e He. unfold answers. rewrite !andb_true_iff, (proj2 (Hkf e)), (proj2 (Hks e He)). unfold low_dn.
    rewrite has_suffix_spec. tauto.
  - rewrite Hl. unfold scan. clear - Htake. induction (records_of records) as [|e es IH]; [done|].
    cbn [omap list_omap List.filter]. rewrite (Htake e) by by left.
    assert (IH' := IH (fun e He => Htake e (or_intror He))). clear IH.
    destruct (has_suffix (low_dn e) (to_lower (sr_base r))); cbn [andb]; [|done].
    destruct (keepf e && keeps e); [|done]. cbn [map]. by constructor.
  - cbv zeta. rewrite (search_answer _ _ _ _ _ _ r) by done. cbn [h_search ldif_handler].
    assert (Hd : (ldif_search c (re_h ev) bound r d).2 = d) by done.
    destruct (ldif_search c (re_h ev) bound r d) as [x d']. cbn [fst snd] in *. subst d' x. cbn [f_err f_entries].
    done.
Qed.
Print Assumptions C82_search.
(** The overlay passes searches on. *)
Theorem C82_overlay_search (T : Text) (C : Crypto) (W : Wire) (Tr : Trees) (S E : Type) (next : handler S E)
    (base : str) (cfg : server_cfg) (ev : renv E) (bound : str) (id : Z) (req : packet) (o : dataset) (s : S) :
  p_cls req = ClassApplication -> p_tag req = SearchRequest ->
  let r := handle cfg next ev bound (p_msg id req) s in
  handle cfg (overlay base next) ev bound (p_msg id req) (o, s) = mkResult (r_out r) (r_next r) (o, r_state r).
Proof.
  intros Hcl Ht r. unfold r. clear r. unfold handle, p_msg. cbn [p_kids p_seq as_int p_int p_val].
  rewrite Hcl. change (negb (ClassApplication =? ClassApplication)%N) with false. cbn match.
  rewrite !d_search by done.
  assert (Hhs : handle_search cfg (overlay base next) ev bound req (o, s) =
    let '(es, x, s') := handle_search cfg next ev bound req s in (es, x, (o, s'))).
  { unfold handle_search. destruct (parse_search req) as [r| | |]; [|done..].
    assert (Hx : forall flt,
      match h_search (overlay base next) (re_h ev) bound r (o, s) with
      | (HRet f, s') =>
          if f_err f then ([], HRet (Some (f_code f)), s')
          else match search_loop (sv_enforce cfg) flt r (re_send ev) (f_entries f) 0 with
               | (es, Ok _) => (es, HRet None, s')
               | (es, Err (ELdap code _)) => (es, HRet (Some code), s')
               | (es, Err _) => (es, HRet (Some OperationsError), s')
               | (es, Panic) => (es, HPanic, s')
               | (es, Diverge) => (es, HKill, s')
               end
      | (HPanic, s') => ([], HPanic, s')
      | (HKill, s') => ([], HKill, s')
      end = let '(es, x, s') :=
        match h_search next (re_h ev) bound r s with
        | (HRet f, s') =>
            if f_err f then ([], HRet (Some (f_code f)), s')
            else match search_loop (sv_enforce cfg) flt r (re_send ev) (f_entries f) 0 with
                 | (es, Ok _) => (es, HRet None, s')
                 | (es, Err (ELdap code _)) => (es, HRet (Some code), s')
                 | (es, Err _) => (es, HRet (Some OperationsError), s')
                 | (es, Panic) => (es, HPanic, s')
                 | (es, Diverge) => (es, HKill, s')
                 end
        | (HPanic, s') => ([], HPanic, s')
        | (HKill, s') => ([], HKill, s')
        end in (es, x, (o, s'))).
    { intros flt. cbn [h_search overlay]. unfold overlay_search. cbn [fst snd].
      destruct (h_search next (re_h ev) bound r s) as [[f| |] s']; [|done..]. destruct (f_err f); [done|].
      destruct (search_loop _ _ _ _ _ _) as [es [[]|[]| |]]; done. }
    cbv zeta. destruct (sv_enforce cfg).
    - destruct (compile_filter (sr_filter r)); [apply Hx|done].
    - apply Hx. }
  rewrite Hhs. destruct (handle_search cfg next ev bound req s) as [[es [x| |]] s']; [|done..].
  unfold send_final. by destruct (re_send ev _).
Qed.
Print Assumptions C82_overlay_search.

(** The file of C48: Dora binds with other case; Sam has no password; a local
    client searches the people. *)
Definition lserve (local : bool) (f : flt) (bound : string) (p : packet) : result :=
  handle (T:=ascii_text) (C:=toy) (W:=wire_f f) (mkServer false 16)
    (ldif_handler (T:=ascii_text) (C:=toy) (W:=wire_f f) (Tr:=plain_trees) lc1)
    (mkREnv local (B "salt") [] (fun _ => true)) (B bound) p ld1.
Definition people_req (size : Z) : search_req := mkSearch (B "OU=people,o=base") 1 size false (B "f") [B "cn"; B "userPassword"].
Definition f_uid : flt := FPres (B "uid").
Example C82_case :
  let bind local dn pw := r_out (lserve local f_uid "" (p_msg 7 (enc_bind (B dn) (B pw)))) in
  (let res := lserve false f_uid "" (p_msg 7 (enc_bind (B "UID=Dora,ou=people,o=base") (B "pw"))) in
   (r_out res, r_next res) = ([RFinal 7 1 0 None], Go (B "uid=dora,ou=people,o=base"))) /\
  bind false "uid=dora,ou=people,o=base"%string "old"%string = [RFinal 7 1 49 None] /\
  bind false "uid=sam,ou=people,o=base"%string "pw"%string = [RFinal 7 1 1 None] /\
  bind false "uid=dora,ou=people,o=base"%string ""%string = [RFinal 7 1 53 None] /\
  bind false ""%string ""%string = [RFinal 7 1 50 None] /\
  bind true ""%string ""%string = [RFinal 7 1 0 None] /\
  build (T:=ascii_text) index_attributes records1 = Some ld1 /\
  supported f_uid = true /\ index_safe (T:=ascii_text) f_uid /\ Forall ascii_entry (records_of records1) /\
  (forall e, In (Some e) records1 ->
     served_plain (T:=ascii_text) 1 [[(B "OU", B "people")]; [(B "o", B "base")]] (to_lower (Text:=ascii_text) (e_dn e))) /\
  parse_dn (T:=ascii_text) (sr_base (people_req 0)) = Some [[(B "OU", B "people")]; [(B "o", B "base")]] /\
  (let res := lserve true f_uid "" (p_msg 8 (enc_search (people_req 0) 0 0 (filter_packet f_uid))) in
   (r_out res, r_next res) =
    ([REntry 8 (mkEntry (B "uid=dora,ou=people,o=base") [mkAttr (B "cn") [B "Dora Q"]]);
              REntry 8 (mkEntry (B "uid=sam,ou=people,o=base") [mkAttr (B "cn") [B "Sam"]]);
              RFinal 8 SearchResultDone 0 None], Go [])) /\
  length (r_out (lserve true f_uid "" (p_msg 8 (enc_search (people_req 1) 0 0 (filter_packet f_uid))))) = 2 /\
  (let res := lserve false f_uid "" (p_msg 8 (enc_search (people_req 0) 0 0 (filter_packet f_uid))) in
   (r_out res, r_next res) = ([RFinal 8 SearchResultDone 50 None], Drop)).
Proof.
  split; [vm_compute; reflexivity|]. do 5 (split; [vm_compute; reflexivity|]).
  split; [apply ld1_build|]. split; [done|]. split; [apply is_pres; apply (bool_decide_unpack _); vm_compute; exact I|].
  split; [repeat constructor; apply (bool_decide_unpack _); vm_compute; exact I|].
  split; [|split; [vm_compute; reflexivity|]; split; [|split]; vm_compute; reflexivity].
  intros e He.
  cbn [In records1] in He. destruct He as [[= <-]|[[=]|[[= <-]|[[= <-]|[[= <-]|[]]]]]].
  - exists [[(B "o", B "base")]]. split; [vm_compute; reflexivity|]. right. right.
    repeat split; try (apply (bool_decide_unpack _); vm_compute; exact I). left. apply (bool_decide_unpack _); vm_compute; exact I.
  - exists [[(B "ou", B "people")]; [(B "o", B "base")]]. split; [vm_compute; reflexivity|]. right. right.
    repeat split; try (apply (bool_decide_unpack _); vm_compute; exact I).
    right. exists (B "ou=people"), (B " o=base"). split; [vm_compute; reflexivity|]. apply (bool_decide_unpack _); vm_compute; exact I.
  - exists [[(B "uid", B "dora")]; [(B "ou", B "people")]; [(B "o", B "base")]]. split; [vm_compute; reflexivity|]. right. right.
    repeat split; try (apply (bool_decide_unpack _); vm_compute; exact I).
    right. exists (B "uid=dora"), (B "ou=people,o=base"). split; [vm_compute; reflexivity|]. apply (bool_decide_unpack _); vm_compute; exact I.
  - exists [[(B "uid", B "sam")]; [(B "ou", B "people")]; [(B "o", B "base")]]. split; [vm_compute; reflexivity|]. right. right.
    repeat split; try (apply (bool_decide_unpack _); vm_compute; exact I).
    right. exists (B "uid=sam"), (B "ou=people,o=base"). split; [vm_compute; reflexivity|]. apply (bool_decide_unpack _); vm_compute; exact I.
Qed.
