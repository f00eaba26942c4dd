(** Properties C39-C44: filtering, size limits, attribute selection, scope and
    routing. *)
From Verif Require Import Bytes Text Dn DnProofs Res Entry EntryProofs Password Db DbSpec
  IdProofs DbProofs DbOps DbSearch DbFacts DbMore PasswordProofs P_Password P_Db
  Packet Filter FilterProofs ScopeProofs.

(** C39.  A supported filter evaluates to the truth value of the formula. *)
Theorem C39_filter_boolean (T : Text) (f : flt) (e : entry) :
  supported f = true ->
  exists b, apply_filter (filter_packet f) e = Ok b /\ (b = true <-> sat e f).
Proof.
  intros H. destruct (apply_filter_sat f e (supported_evaluable _ H)) as (b & Hb & Hs).
  rewrite (supported_first_only _ H) in Hs. eauto.
Qed.
Print Assumptions C39_filter_boolean.
(** Any other filter without unsupported comparisons is judged by the first
    component of each substring assertion. *)
Theorem C39_first_component (T : Text) (f : flt) (e : entry) :
  evaluable f = true ->
  exists b, apply_filter (filter_packet f) e = Ok b /\ (b = true <-> sat e (first_only f)).
Proof. apply apply_filter_sat. Qed.
Print Assumptions C39_first_component.

Definition f_ada : flt :=
  FAnd [FOr [FEq (B "UID") (B "ADA"); FPres (B "mail")];
        FNot (FEq (B "uid") (B "bob")); FSub (B "uid") [(SubInitial, B "a")]].
Example C39_case : supported f_ada = true /\
  apply_filter (T:=ascii_text) (filter_packet f_ada) e_ada = Ok true /\
  apply_filter (T:=ascii_text) (filter_packet f_ada) e_bob = Ok false.
Proof. split; [|split]; vm_compute; reflexivity. Qed.

(** Several components: the filter (uid=a*z) accepts "Ada", although the entry
    does not satisfy it; its negation rejects an entry that satisfies it. *)
Theorem C39_components_refuted : exists (T : Text) (f : flt) (e : entry),
  TextOK T /\ evaluable f = true /\
  apply_filter (filter_packet f) e = Ok true /\ ~ sat e f /\
  apply_filter (filter_packet (FNot f)) e = Ok false /\ sat e (FNot f).
Proof.
  exists ascii_text, (FSub (B "uid") [(SubInitial, B "a"); (SubFinal, B "z")]), e_ada.
  assert (Hn : ~ sat (T:=ascii_text) e_ada (FSub (B "uid") [(SubInitial, B "a"); (SubFinal, B "z")])).
  { intros (x & y & Hx & Hy & Ha & Hs).
    destruct Hx as [<-|[<-|[]]]; [|vm_compute in Ha; discriminate].
    destruct Hy as [<-|[]].
    change (fold (Text:=ascii_text) (B "Ada")) with (B "ada") in Hs.
    destruct Hs as (b & Hb & Ho). change (B "ada") with ("a"%char :: B "da") in Hb.
    cbn [snd folded map app fst] in Hb. injection Hb as <-.
    inversion Ho as [| |? a v Hy]; subst.
    apply (f_equal (fun s => has_suffix s (B "z"))) in Hy.
    rewrite (proj2 (has_suffix_spec _ _) (ex_intro _ a eq_refl)) in Hy. vm_compute in Hy. discriminate. }
  split; [exact ascii_text_ok|]. split; [reflexivity|]. split; [vm_compute; reflexivity|].
  split; [exact Hn|]. split; [vm_compute; reflexivity|exact Hn].
Qed.
Print Assumptions C39_components_refuted.

(** A substring assertion without components is a panic, an unsupported
    comparison an error. *)
Theorem C39_failures (T : Text) (a : str) (o : other) (e : entry) :
  apply_filter (filter_packet (FSub a [])) e = Panic /\
  apply_filter (filter_packet (FOther o)) e = perr OperationsError.
Proof. split; [reflexivity|]. destruct o as [[] ? ?|]; reflexivity. Qed.
Print Assumptions C39_failures.

(** C40.  [keep] says which entries pass filter and scope; neither check fails. *)
Definition passes {T : Text} (flt : packet) (r : search_req) (keep : entry -> bool) (es : list entry) : Prop :=
  Forall (fun e =>
    (apply_filter flt e = Ok false /\ keep e = false) \/
    (apply_filter flt e = Ok true /\ filter_scope (sr_base r) (sr_scope r) e = Ok (keep e))) es.
Theorem C40_unlimited (T : Text) (flt : packet) (r : search_req) (keep : entry -> bool) (es : list entry) :
  passes flt r keep es -> (sr_size r <= 0)%Z ->
  search_loop true flt r (fun _ => true) es 0 =
  (map (select_attributes (sr_attrs r)) (bfilter keep es), Ok tt).
Proof. intros H Hs. by apply loop_unlimited. Qed.
Print Assumptions C40_unlimited.
(** With a limit: the first [N] entries, and the error exactly if there are more. *)
Theorem C40_limited (T : Text) (flt : packet) (r : search_req) (keep : entry -> bool) (es : list entry) :
  passes flt r keep es -> (0 < sr_size r)%Z ->
  let N := Z.to_nat (sr_size r) in
  exists x,
  search_loop true flt r (fun _ => true) es 0 =
  (map (select_attributes (sr_attrs r)) (take N (bfilter keep es)), x) /\
  (x = perr SizeLimitExceeded <-> N < length (bfilter keep es)) /\
  (x = Ok tt <-> length (bfilter keep es) <= N).
Proof.
  intros H Hs N. pose proof (loop_limited flt r keep es 0 H Hs ltac:(lia)) as Hl.
  rewrite Nat.sub_0_r in Hl. fold N in Hl. eexists. split; [exact Hl|].
  destruct (Nat.leb_spec (length (bfilter keep es)) N); split; split; intros; try done; lia.
Qed.
Print Assumptions C40_limited.

Definition req0 (base : string) (scope size : Z) (attrs : list string) : search_req :=
  mkSearch (B base) scope size false (B "(uid=*)") (map B attrs).
Example C40_case :
  let keep e := match_present (T:=ascii_text) (B "uid") (e_attrs e) in
  passes (T:=ascii_text) (filter_packet (FPres (B "uid"))) (req0 "o=base" 2 1 []) keep [e_base; e_ada; e_bob] /\
  search_loop (T:=ascii_text) true (filter_packet (FPres (B "uid"))) (req0 "o=base" 2 1 []) (fun _ => true)
    [e_base; e_ada; e_bob] 0 = ([e_ada], perr SizeLimitExceeded) /\
  search_loop (T:=ascii_text) true (filter_packet (FPres (B "uid"))) (req0 "o=base" 2 2 []) (fun _ => true)
    [e_base; e_ada; e_bob] 0 = ([e_ada; e_bob], Ok tt).
Proof.
  split; [|split; vm_compute; reflexivity].
  repeat constructor; first [left; split; vm_compute; reflexivity|right; split; vm_compute; reflexivity].
Qed.

(** C41.  Every attribute is returned as often as it was requested, unchanged
    and in the stored order; an empty request means everything. *)
Theorem C41_attributes (T : Text) (req : list str) (e : entry) :
  e_dn (select_attributes req e) = e_dn e /\
  (req = [] \/ req = [[]] -> select_attributes req e = e) /\
  (req <> [] -> req <> [[]] ->
   e_attrs (select_attributes req e) =
   concat (map (fun a => repeat a (length (bfilter (fun r => seqb r (B "*") || eqfold (a_name a) r) req)))
     (e_attrs e))).
Proof.
  assert (Hf : filter_attributes req (e_attrs e) =
    concat (map (fun a => repeat a (length (bfilter (fun r => seqb r (B "*") || eqfold (a_name a) r) req)))
     (e_attrs e))).
  { unfold filter_attributes. rewrite flat_map_concat_map. f_equal. apply map_ext. intros a. apply inner_count. }
  destruct req as [|r [|r' req]]; cbn [select_attributes]; [|destruct r as [|c r]; cbn [is_empty]|].
  - split; [done|]. split; [done|]. done.
  - split; [done|]. split; [done|]. done.
  - split; [done|]. split; [intros [?|?]; done|]. intros _ _. exact Hf.
  - split; [done|]. split; [intros [?|?]; done|]. intros _ _. exact Hf.
Qed.
Print Assumptions C41_attributes.
(** So an attribute is in the answer exactly if it is stored and requested. *)
Theorem C41_only_requested (T : Text) (req : list str) (e : entry) (a : attr) :
  req <> [] -> req <> [[]] ->
  (In a (e_attrs (select_attributes req e)) <->
   In a (e_attrs e) /\ exists r, In r req /\ (r = B "*" \/ eqfold (a_name a) r = true)).
Proof.
  intros H1 H2. destruct (C41_attributes T req e) as (_ & _ & H). rewrite (H H1 H2).
  rewrite in_concat. split.
  - intros (l & Hl & Ha). apply in_map_iff in Hl as (a' & <- & Ha').
    pose proof (repeat_spec _ _ _ Ha). subst a'. split; [done|].
    destruct (bfilter _ req) as [|r l] eqn:E; [done|]. exists r.
    assert (Hr : In r (bfilter (fun r => seqb r (B "*") || eqfold (a_name a) r) req)) by (rewrite E; by left).
    apply filter_In in Hr as [Hr Hp]. split; [done|]. apply orb_true_iff in Hp as [Hp|Hp]; [|by right].
    left. by apply seqb_eq.
  - intros (Ha & r & Hr & Hp). eexists. split; [apply in_map_iff; exists a; split; [reflexivity|done]|].
    assert (Hin : In r (bfilter (fun r => seqb r (B "*") || eqfold (a_name a) r) req)).
    { apply filter_In. split; [done|]. apply orb_true_iff. destruct Hp as [->|Hp]; [left; by apply seqb_eq|by right]. }
    destruct (bfilter _ req); [done|]. by left.
Qed.
Print Assumptions C41_only_requested.
Example C41_case :
  select_attributes (T:=ascii_text) [B "USERPASSWORD"] e_ada =
    mkEntry (e_dn e_ada) [mkAttr (B "userPassword") [B "secret"]] /\
  select_attributes (T:=ascii_text) [B "uid"; B "*"] e_bob =
    mkEntry (e_dn e_bob) [mkAttr (B "uid") [B "bob"]; mkAttr (B "uid") [B "bob"]].
Proof. split; vm_compute; reflexivity. Qed.

(** C42.  For ASCII single-valued names and a first RDN without escape and
    semicolon the check agrees with the scope. *)
Theorem C42_scope_check (T : Text) (HT : TextOK T) (base : str) (e : entry) (b d : dn) :
  parse_dn base = Some b -> parse_dn (e_dn e) = Some d ->
  ascii_dn b -> ascii_dn d -> single_dn b -> single_dn d ->
  filter_scope base 0 e = Ok (in_scope 0 (fold_dn b) (fold_dn d)) /\
  (b <> [] -> plain_first (e_dn e) ->
   filter_scope base 1 e = Ok (in_scope 1 (fold_dn b) (fold_dn d))).
Proof.
  intros Hb Hd Hab Had Hsb Hsd. unfold in_scope. cbn [Z.eqb Pos.eqb]. split.
  - rewrite (scope_base _ _ _ _ Hd Hb). f_equal. apply eq_true_iff_eq.
    rewrite bool_decide_eq_true. by apply dn_eqfold_single.
  - intros Hne Hpl. rewrite (scope_one HT _ _ _ _ Hpl Hd Hb Hne). f_equal.
    destruct d as [|r t]; [done|]. cbn [fold_dn map child_of]. apply eq_true_iff_eq.
    rewrite bool_decide_eq_true. apply Forall_cons in Had as [_ Had]. apply Forall_cons in Hsd as [_ Hsd].
    by apply dn_eqfold_single.
Qed.
Print Assumptions C42_scope_check.
(** The subtree check accepts whatever the backend returns. *)
Theorem C42_subtree_unchecked (T : Text) (base : str) (e : entry) (b d : dn) :
  parse_dn base = Some b -> parse_dn (e_dn e) = Some d -> filter_scope base 2 e = Ok true.
Proof. intros Hb Hd. by eapply scope_sub. Qed.
Print Assumptions C42_subtree_unchecked.
Example C42_case :
  filter_scope (T:=ascii_text) (B "OU=people,o=base") 1 e_ada = Ok true /\
  filter_scope (T:=ascii_text) (B "o=base") 1 e_ada = Ok false /\
  filter_scope (T:=ascii_text) (B "UID=ada,ou=People,o=base") 0 e_ada = Ok true /\
  plain_first (e_dn e_ada).
Proof.
  split; [vm_compute; reflexivity|]. split; [vm_compute; reflexivity|]. split; [vm_compute; reflexivity|].
  split; [repeat constructor|]. right. exists (B "uid=Ada"), (B "ou=people,o=base").
  split; [reflexivity|]. repeat constructor.
Qed.
(** Without these conditions a direct child is lost, or the search fails: an
    escaped comma, or a semicolon as separator. *)
Theorem C42_escaped_comma_refuted : exists (T : Text) (base : str) (b : dn) (e1 e2 e3 : entry) (d1 d2 d3 : dn),
  TextOK T /\ parse_dn base = Some b /\
  parse_dn (e_dn e1) = Some d1 /\ parse_dn (e_dn e2) = Some d2 /\ parse_dn (e_dn e3) = Some d3 /\
  in_scope 1 (fold_dn b) (fold_dn d1) = true /\ filter_scope base 1 e1 = perr OperationsError /\
  in_scope 1 (fold_dn b) (fold_dn d2) = true /\ filter_scope base 1 e2 = Ok false /\
  in_scope 1 (fold_dn b) (fold_dn d3) = true /\ filter_scope base 1 e3 = Ok false.
Proof.
  exists ascii_text, (B "o=base"), [[(B "o", B "base")]],
    (mkEntry (B "cn=a\,b,o=base") []), (mkEntry (B "cn=x\,b=c,o=base") []), (mkEntry (B "cn=a;o=base") []),
    [[(B "cn", B "a,b")]; [(B "o", B "base")]], [[(B "cn", B "x,b=c")]; [(B "o", B "base")]],
    [[(B "cn", B "a")]; [(B "o", B "base")]].
  split; [exact ascii_text_ok|]. repeat split; vm_compute; reflexivity.
Qed.
Print Assumptions C42_escaped_comma_refuted.

(** C43.  What a search on the database backend sends: the handler returns what
    the database search yields (boltdb/handler.go:298), the loop does the rest. *)
Definition names_plain {T : Text} (scope : Z) (b : dn) (m : dir) : Prop :=
  scope = 2%Z \/
  (ascii_dn b /\ forall (k : dn) (e : entry), (m : dir) !! k = Some e ->
     (forall d, parse_dn (e_dn e) = Some d -> ascii_dn d) /\ (scope = 1%Z -> b <> [] /\ plain_first (e_dn e))).
Theorem C43_search_exact (T : Text) (C : Crypto) (HT : TextOK T) (b : dn) (d : db) (m : dir)
    (r : search_req) (f : flt) (dd : dn) :
  base_ok b -> reachable b d -> represents d m ->
  parse_dn (sr_base r) = Some dd -> wf_dn dd = true -> is_Some (m !! fold_dn dd) ->
  scope_ok (sr_scope r) -> names_plain (sr_scope r) dd m ->
  supported f = true -> (sr_size r <= 0)%Z ->
  exists (es sent : list entry) (keep : entry -> bool),
    search d (sr_base r) (sr_scope r) = Ok (es, None) /\
    search_loop true (filter_packet f) r (fun _ => true) es 0 =
      (map (select_attributes (sr_attrs r)) sent, Ok tt) /\
    (forall e, keep e = true <-> sat e f) /\
    sent ≡ₚ map snd (bfilter (fun p => in_scope (sr_scope r) (fold_dn dd) p.1 && keep p.2) (map_to_list m)).
Proof.
  intros Hb Hr Hm Hp Hwf [e0 He0] Hsc Hnp Hf Hz.
  destruct (reach_sim HT b d m Hb Hr Hm) as [_ (g & Hg & ->)].
  pose proof (search_spec HT b d g (sr_base r) dd (sr_scope r) Hb Hg Hp Hwf Hsc) as Hs.
  rewrite He0 in Hs. destruct Hs as (es & Hs & Hperm).
  set (keep e := match apply_filter (filter_packet f) e with Ok b => b | _ => false end).
  assert (Hk : forall e, apply_filter (filter_packet f) e = Ok (keep e) /\ (keep e = true <-> sat e f)).
  { intros e. destruct (C39_filter_boolean T f e Hf) as (x & Hx & Hxs). unfold keep. by rewrite Hx. }
  exists es, (bfilter keep es), keep. split; [done|]. split; [|split; [apply Hk|]].
  - apply loop_unlimited; [|done]. apply List.Forall_forall. intros e He.
    assert (exists k, (snd <$> g) !! k = Some e /\ in_scope (sr_scope r) (fold_dn dd) k = true) as (k & Hke & Hks).
    { apply elem_of_list_In in He. rewrite Hperm in He. apply elem_of_list_In, in_map_iff in He as ([k e'] & <- & He).
      apply filter_In in He as [He Hks]. apply elem_of_list_In, elem_of_map_to_list in He. by exists k. }
    rewrite lookup_fmap in Hke. destruct (g !! k) as [[i e']|] eqn:Eg; [|done].
    cbn in Hke. injection Hke as ->.
    destruct (s_dn _ _ _ Hg _ _ _ Eg) as (de & Hde & _ & Hfold).
    destruct (Hk e) as [Hke _]. destruct (keep e) eqn:Ek; [right|left; done]. split; [done|].
    destruct Hnp as [H2|[Hab Hnp]].
    { rewrite H2. by eapply scope_sub. }
    destruct (Hnp k e) as [Had Hpl]; [by rewrite lookup_fmap, Eg|]. specialize (Had _ Hde).
    destruct Hsc as [H0|[H1|H2]].
    + rewrite H0 in *. change ScopeBase with 0%Z in *. rewrite (scope_base _ _ _ _ Hde Hp). f_equal.
      unfold in_scope in Hks. cbn [Z.eqb Pos.eqb] in Hks. apply bool_decide_eq_true in Hks.
      apply (dn_eqfold_of_fold HT); [done..|]. by rewrite Hfold.
    + rewrite H1 in *. change ScopeOne with 1%Z in *. destruct (Hpl eq_refl) as [Hne Hpf].
      rewrite (scope_one HT _ _ _ _ Hpf Hde Hp Hne). f_equal.
      unfold in_scope in Hks. cbn [Z.eqb Pos.eqb] in Hks. rewrite <- Hfold in Hks.
      destruct de as [|r0 t]; [done|]. cbn [fold_dn map child_of] in Hks. apply bool_decide_eq_true in Hks.
      apply Forall_cons in Had as [_ Had]. by apply (dn_eqfold_of_fold HT).
    + rewrite H2. by eapply scope_sub.
  - assert (Hfm : forall l : list (dn * entry), bfilter keep (map snd (bfilter (fun p => in_scope (sr_scope r) (fold_dn dd) p.1) l)) =
      map snd (bfilter (fun p => in_scope (sr_scope r) (fold_dn dd) p.1 && keep p.2) l)).
    { induction l as [|p l IH]; [done|]. cbn [List.filter]. destruct (in_scope _ _ p.1); cbn [map List.filter andb]; [|done].
      rewrite IH. by destruct (keep p.2). }
    rewrite <- Hfm. clear -Hperm. induction Hperm; cbn [List.filter]; [done|..].
    + destruct (keep x); [by constructor|done].
    + destruct (keep x), (keep y); try done. by constructor.
    + by etrans.
Qed.
Print Assumptions C43_search_exact.
(** A base that does not exist gives no entries. *)
Theorem C43_missing_base (T : Text) (C : Crypto) (HT : TextOK T) (b : dn) (d : db) (m : dir)
    (s : str) (scope : Z) (dd : dn) :
  base_ok b -> reachable b d -> represents d m ->
  parse_dn s = Some dd -> wf_dn dd = true -> scope_ok scope ->
  m !! fold_dn dd = None -> search d s scope = Ok ([], Some ENotFound).
Proof.
  intros Hb Hr Hm Hp Hwf Hsc Hn. destruct (reach_sim HT b d m Hb Hr Hm) as [_ (g & Hg & ->)].
  pose proof (search_spec HT b d g s dd scope Hb Hg Hp Hwf Hsc) as Hs. by rewrite Hn in Hs.
Qed.
Print Assumptions C43_missing_base.
Example C43_case :
  scope_ok 1 /\ names_plain (T:=ascii_text) 1 ([(B "ou", B "people")] :: b0) m0 /\
  is_Some (m0 !! fold_dn (T:=ascii_text) ([(B "ou", B "people")] :: b0)) /\
  match search d0 (T:=ascii_text) (B "OU=people,o=base") 1 with
  | Ok (es, None) =>
      search_loop (T:=ascii_text) true (filter_packet (FNot (FEq (B "cn") (B "BOB"))))
        (req0 "OU=people,o=base" 1 0 ["uid"]%string) (fun _ => true) es 0 =
      ([mkEntry (e_dn e_ada) [mkAttr (B "uid") [B "Ada"]]], Ok tt)
  | _ => False
  end.
Proof.
  split; [right; left; reflexivity|]. split; [|split].
  - right. split; [repeat constructor|]. intros k e He.
    apply elem_of_list_to_map_2, elem_of_list_In in He.
    destruct He as [[= <- <-]|[[= <- <-]|[[= <- <-]|[[= <- <-]|[]]]]];
      (split; [intros dd Hdd; vm_compute in Hdd; injection Hdd as <-; repeat constructor
              |intros _; split; [done|split; [repeat constructor|]]]).
    + left. repeat constructor.
    + right. exists (B "ou=People"), (B " o=Base"). split; [reflexivity|repeat constructor].
    + right. exists (B "uid=Ada"), (B "ou=people,o=base"). split; [reflexivity|repeat constructor].
    + right. exists (B "cn=bob"), (B "ou=people,o=base"). split; [reflexivity|repeat constructor].
  - apply (bool_decide_unpack _). vm_compute. exact I.
  - vm_compute. reflexivity.
Qed.

(** The conditions on names are needed.  An entry whose name equals the base
    only under full case folding is found by the database and then dropped. *)
Definition e_strasse := ent "ou=strasse,o=base" [("ou", "strasse")]%string.
Definition h_sharp : list (env * op) := [good (OpPut e_base); good (OpPut e_strasse)].
Definition s_sharp : str := B "ou=stra" ++ [ascii_of_N 195; ascii_of_N 159] ++ B "e,o=base".
Theorem C43_folding_refuted : exists (T : Text) (C : Crypto) (b : dn) (d : db) (r : search_req) (f : flt) (e : entry),
  TextOK T /\ base_ok b /\ reachable b d /\ supported f = true /\ sr_size r = 0%Z /\ sr_scope r = ScopeBase /\
  search d (sr_base r) (sr_scope r) = Ok ([e], None) /\ sat e f /\
  search_loop true (filter_packet f) r (fun _ => true) [e] 0 = ([], Ok tt).
Proof.
  exists sharp_text, toy, b0, (run_ops (T:=sharp_text) (C:=toy) (normalize (T:=sharp_text) b0) h_sharp empty_db),
    (mkSearch s_sharp 0 0 false [] []), (FPres (B "ou")), e_strasse.
  split; [exact sharp_text_ok|]. split; [split; vm_compute; done|]. split.
  { exists h_sharp. split; [|split; [vm_compute; reflexivity|reflexivity]].
    repeat constructor; intros dd Hdd; vm_compute in Hdd; injection Hdd as <-; vm_compute; reflexivity. }
  split; [reflexivity|]. split; [reflexivity|]. split; [reflexivity|].
  split; [vm_compute; reflexivity|]. split; [|vm_compute; reflexivity].
  exists (mkAttr (B "ou") [B "strasse"]). split; [by left|vm_compute; reflexivity].
Qed.
Print Assumptions C43_folding_refuted.
(** One entry with an escaped comma in its first RDN makes every one-level
    search at its parent fail. *)
Definition e_comma := ent "cn=a\,b,o=base" [("cn", "a,b")]%string.
Definition h_comma : list (env * op) := [good (OpPut e_base); good (OpPut e_comma)].
Theorem C43_comma_refuted : exists (T : Text) (C : Crypto) (b : dn) (d : db) (r : search_req) (f : flt) (e : entry),
  TextOK T /\ base_ok b /\ reachable b d /\ supported f = true /\ sr_size r = 0%Z /\ sr_scope r = ScopeOne /\
  search d (sr_base r) (sr_scope r) = Ok ([e], None) /\ sat e f /\
  search_loop true (filter_packet f) r (fun _ => true) [e] 0 = ([], perr OperationsError).
Proof.
  exists ascii_text, toy, b0, (run_ops (T:=ascii_text) (C:=toy) (normalize (T:=ascii_text) b0) h_comma empty_db),
    (mkSearch (B "o=base") 1 0 false [] []), (FPres (B "cn")), e_comma.
  split; [exact ascii_text_ok|]. split; [exact b0_ok|]. split.
  { exists h_comma. split; [apply ops_okb_ok; vm_compute; reflexivity|].
    split; [vm_compute; reflexivity|reflexivity]. }
  split; [reflexivity|]. split; [reflexivity|]. split; [reflexivity|].
  split; [vm_compute; reflexivity|]. split; [|vm_compute; reflexivity].
  exists (mkAttr (B "cn") [B "a,b"]). split; [by left|vm_compute; reflexivity].
Qed.
Print Assumptions C43_comma_refuted.

(** C44.  The chosen name has the most components among the matching ones. *)
Lemma components_pos s : 0 < components s.
Proof.
  unfold components. destruct (Bytes.split ","%char s) eqn:E; [|simpl; lia].
  destruct s as [|c s]; [done|]. cbn [Bytes.split] in E.
  destruct (aeqb ","%char c); [done|]. by destruct (Bytes.split ","%char s).
Qed.
Definition weight (s : str) : nat := if is_empty s then 0 else components s.
Lemma route_from_spec dn names best :
  let w := route_from best dn names in
  weight best <= weight w /\
  (w = best \/ (In w names /\ has_suffix dn w = true)) /\
  forall n, In n names -> has_suffix dn n = true -> weight n <= weight w.
Proof.
  revert best. induction names as [|n names IH]; intros best; cbn [route_from].
  { split; [done|]. split; [by left|]. done. }
  set (best' := if has_suffix dn n then _ else best).
  destruct (IH best') as (H1 & H2 & H3).
  assert (Hb : weight best <= weight best' /\ (has_suffix dn n = true -> weight n <= weight best') /\
    (best' = best \/ best' = n /\ has_suffix dn n = true)).
  { unfold best'. destruct (has_suffix dn n) eqn:Es; [|split; [done|]; split; [done|by left]].
    fold (weight best). destruct (Nat.ltb_spec (weight best) (components n)) as [Hlt|Hge].
    - split; [|split; [done|by right]]. unfold weight in *. destruct n as [|c n]; cbn [is_empty]; [|lia].
      destruct best; cbn [is_empty] in *; [lia|]. pose proof (components_pos (a :: best)).
      vm_compute (components []) in Hlt. lia.
    - split; [done|]. split; [|by left]. intros _. unfold weight at 1. destruct (is_empty n); lia. }
  destruct Hb as (Hb1 & Hb2 & Hb3). split; [lia|]. split.
  - destruct H2 as [->|[Hin Hs]]; [|right; split; [by right|done]].
    destruct Hb3 as [->|[-> Hs]]; [by left|]. right. split; [by left|done].
  - intros x [<-|Hx] Hs; [|by apply H3]. specialize (Hb2 Hs). lia.
Qed.
Theorem C44_most_specific (dn : str) (names : list str) :
  let w := route dn names in
  (w <> [] -> In w names /\ has_suffix dn w = true) /\
  (w = [] -> forall n, In n names -> has_suffix dn n = true -> n = []) /\
  (forall n, In n names -> has_suffix dn n = true -> components n <= components w).
Proof.
  intros w. destruct (route_from_spec dn names []) as (_ & H2 & H3). fold (route dn names) in H2, H3. fold w in H2, H3.
  split; [|split].
  - intros Hw. by destruct H2.
  - intros Hw n Hn Hs. specialize (H3 n Hn Hs). rewrite Hw in H3. destruct n as [|c n]; [done|].
    pose proof (components_pos (c :: n)). unfold weight in H3. cbn [is_empty] in H3. lia.
  - intros n Hn Hs. specialize (H3 n Hn Hs). pose proof (components_pos w). unfold weight in H3.
    destruct n as [|c n]; [vm_compute (components []); lia|]. cbn [is_empty] in H3.
    destruct w; cbn [is_empty] in H3; [|done]. pose proof (components_pos (c :: n)). lia.
Qed.
Print Assumptions C44_most_specific.
(** Without ties the order of registration does not matter. *)
Theorem C44_order_independent (dn : str) (names names' : list str) :
  names ≡ₚ names' ->
  (forall n n', In n names -> In n' names -> n <> [] -> n' <> [] ->
     has_suffix dn n = true -> has_suffix dn n' = true -> components n = components n' -> n = n') ->
  route dn names = route dn names'.
Proof.
  intros Hp Hu. destruct (C44_most_specific dn names) as (A1 & A2 & A3).
  destruct (C44_most_specific dn names') as (B1 & B2 & B3).
  assert (Hin : forall x, In x names <-> In x names').
  { intros x. rewrite <- !elem_of_list_In. by rewrite Hp. }
  destruct (decide (route dn names = [])) as [E|E], (decide (route dn names' = [])) as [E'|E'].
  - congruence.
  - destruct (B1 E') as [Hi Hs]. exfalso. apply E'. apply (A2 E); [by apply Hin|done].
  - destruct (A1 E) as [Hi Hs]. exfalso. apply E. apply (B2 E'); [by apply Hin|done].
  - destruct (A1 E) as [Hi Hs], (B1 E') as [Hi' Hs']. apply Hu; try done; [by apply Hin|].
    apply Nat.le_antisymm; [apply B3|apply A3]; try done; by apply Hin.
Qed.
Print Assumptions C44_order_independent.
Example C44_case :
  let names := [B "o=base"; B "ou=people,o=base"; []; B "o=other"] in
  route (B "uid=ada,ou=people,o=base") names = B "ou=people,o=base" /\
  route (B "uid=ada,ou=people,o=base") (rev names) = B "ou=people,o=base" /\
  route (B "o=third") names = [].
Proof. split; [|split]; vm_compute; reflexivity. Qed.
(** With a tie it does: names are compared as text, so "o=base" and "foo=base"
    both match. *)
Theorem C44_tie_refuted : exists (dn : str) (n n' : str),
  route dn [n; n'] = n /\ route dn [n'; n] = n' /\ n <> n'.
Proof. exists (B "cn=a,foo=base"), (B "o=base"), (B "foo=base"). split; [|split]; vm_compute; done. Qed.
Print Assumptions C44_tie_refuted.
