(** Property C107: base and one-level searches for any names.

    The server decides whether an entry is a child of the base by the text of its
    name after the first comma, escaped or not. *)
From Verif Require Import Bytes Text Dn DnProofs Res Entry EntryProofs Password PasswordProofs
  Db DbSpec IdProofs DbProofs DbOps DbSearch DbFacts DbMore P_Password P_Db
  Packet Filter FilterProofs ScopeProofs P_Filter Handler Server ServerProofs CrashProofs P_Server
  Encode EncodeProofs E2e E2eProofs P_E2e SessionProofs P_Session P_Judge.

Section placed.
Context {T : Text} (b : dn) (scope : Z) (e : entry).
(** The place of an entry, as seen from the base [b]: the names are compared by
    go-ldap's EqualFold ([dn_eqfold]).  Stuck: the text after the first comma is no
    name. *)
Inductive placed : judgement -> Prop :=
| pl_below : scope = 2%Z -> placed Yes
| pl_base d : scope = 0%Z -> parse_dn (e_dn e) = Some d -> placed (if dn_eqfold d b then Yes else No)
| pl_child p rest s : scope = 1%Z -> e_dn e = p ++ ","%char :: rest -> ~ In ","%char p -> parse_dn rest = Some s ->
    placed (if dn_eqfold s b then Yes else No)
| pl_torn p rest : scope = 1%Z -> e_dn e = p ++ ","%char :: rest -> ~ In ","%char p -> parse_dn rest = None -> placed Stuck
| pl_top d : scope = 1%Z -> ~ In ","%char (e_dn e) -> parse_dn (e_dn e) = Some d -> b <> [] \/ d <> [] -> placed No
| pl_root : scope = 1%Z -> ~ In ","%char (e_dn e) -> parse_dn (e_dn e) = Some [] -> b = [] -> placed Yes.
(** What a search makes of an entry: the filter is asked first. *)
Inductive considered (f : flt) : judgement -> Prop :=
| c_filter j : judge e f j -> j <> Yes -> considered f j
| c_place j : judge e f Yes -> placed j -> considered f j.
End placed.

Lemma no_comma p : ~ In ","%char p <-> Forall (fun x => aeqb ","%char x = false) p.
Proof.
  rewrite List.Forall_forall. split.
  - intros H x Hx. destruct (aeqb ","%char x) eqn:E; [|done]. apply aeqb_eq in E as <-. done.
  - intros H Hx. specialize (H _ Hx). by rewrite (proj2 (aeqb_eq _ _) eq_refl) in H.
Qed.
Lemma first_comma s : ~ In ","%char s \/ exists p rest, s = p ++ ","%char :: rest /\ ~ In ","%char p.
Proof.
  induction s as [|x s IH]; [by left; intros []|]. destruct (decide (x = ","%char)) as [->|Hx].
  { right. exists [], s. split; [done|]. intros []. }
  destruct IH as [IH|(p & rest & -> & Hp)].
  - left. intros [?|?]; [done|tauto].
  - right. exists (x :: p), rest. split; [done|]. intros [?|?]; [done|tauto].
Qed.
Lemma first_comma_once p rest p' rest' : p ++ ","%char :: rest = p' ++ ","%char :: rest' -> ~ In ","%char p -> ~ In ","%char p' ->
  p = p' /\ rest = rest'.
Proof.
  revert p'. induction p as [|x p IH]; intros [|y p']; cbn [Datatypes.app In]; intros H Hp Hp'.
  - by injection H as ->.
  - injection H as <- _. tauto.
  - injection H as -> _. tauto.
  - injection H as <- H. destruct (IH p' H) as [-> ->]; [tauto..|]. done.
Qed.
Lemma eqfold_nil_r {T : Text} d : dn_eqfold d [] = true <-> d = [].
Proof. by destruct d. Qed.

(** C107.  The code says where an entry is placed ... *)
Theorem C107_place (T : Text) (HT : TextOK T) (base : str) (b d : dn) (scope : Z) (e : entry) (j : judgement) :
  parse_dn base = Some b -> parse_dn (e_dn e) = Some d -> placed b scope e j -> filter_scope base scope e = said_so j.
Proof.
  intros Hb Hd Hj. unfold filter_scope. rewrite Hb, Hd.
  assert (Hyn : forall x : bool, Ok x = said_so (if x then Yes else No)) by by intros [].
  assert (Hnil : parse_dn [] = Some []) by (unfold parse_dn; by rewrite (trim_dn_print _ HT) by constructor).
  destruct Hj as [ -> |d' -> Hd'|p rest s -> He Hp Hs|p rest -> He Hp Hs|d' -> Hno Hd' Hne| -> Hno Hd' ->].
  - done.
  - rewrite Hd in Hd'. injection Hd' as <-. apply Hyn.
  - change (1 =? ScopeBase)%Z with false. change (1 =? ScopeOne)%Z with true. cbv iota.
    rewrite He, (split_app_sep _ _ _ (proj1 (no_comma p) Hp)). pose proof (split_nonempty ","%char rest) as Hsn.
    destruct (Bytes.split ","%char rest) as [|h t0] eqn:Es; [done|]. cbn [length Nat.ltb Nat.leb andb tail].
    rewrite <- Es. change (B ",") with [","%char]. rewrite join_split, Hs. apply Hyn.
  - change (1 =? ScopeBase)%Z with false. change (1 =? ScopeOne)%Z with true. cbv iota.
    rewrite He, (split_app_sep _ _ _ (proj1 (no_comma p) Hp)). pose proof (split_nonempty ","%char rest) as Hsn.
    destruct (Bytes.split ","%char rest) as [|h t0] eqn:Es; [done|]. cbn [length Nat.ltb Nat.leb andb tail].
    rewrite <- Es. change (B ",") with [","%char]. by rewrite join_split, Hs.
  - change (1 =? ScopeBase)%Z with false. change (1 =? ScopeOne)%Z with true. cbv iota.
    rewrite Hd in Hd'. injection Hd' as <-.
    rewrite (split_no_sep _ _ (proj1 (no_comma _) Hno)). cbn [length Nat.ltb Nat.leb andb tail Bytes.join].
    destruct (dn_eqfold d b) eqn:E; [|done]. cbn [negb]. rewrite Hnil. destruct b as [|r b]; [|done].
    apply eqfold_nil_r in E. by destruct Hne.
  - change (1 =? ScopeBase)%Z with false. change (1 =? ScopeOne)%Z with true. cbv iota.
    rewrite Hd in Hd'. injection Hd' as ->.
    rewrite (split_no_sep _ _ (proj1 (no_comma _) Hno)). cbn [length Nat.ltb Nat.leb andb tail Bytes.join dn_eqfold negb].
    by rewrite Hnil.
Qed.
Print Assumptions C107_place.
(** ... which is one place for every entry with a name. *)
Theorem C107_one_place (T : Text) (HT : TextOK T) (b d : dn) (scope : Z) (e : entry) :
  parse_dn (e_dn e) = Some d -> scope_ok scope ->
  exists j, placed b scope e j /\ j <> Fatal /\ forall j', placed b scope e j' -> j' = j.
Proof.
  intros Hd Hsc.
  assert (Hx : exists j, placed b scope e j /\ j <> Fatal).
  { destruct Hsc as [-> |[-> | ->]].
    - exists (if dn_eqfold d b then Yes else No). split; [by eapply pl_base|by destruct (dn_eqfold d b)].
    - destruct (first_comma (e_dn e)) as [Hno|(p & rest & He & Hp)].
      + destruct (decide (b = [])) as [Hb|Hb]; [destruct d as [|r d]|].
        * exists Yes. split; [by apply pl_root|done].
        * exists No. split; [eapply pl_top; [done..|by right]|done].
        * exists No. split; [eapply pl_top; [done..|by left]|done].
      + destruct (parse_dn rest) as [s|] eqn:Hs.
        * exists (if dn_eqfold s b then Yes else No). split; [by eapply pl_child|by destruct (dn_eqfold s b)].
        * exists Stuck. split; [by eapply pl_torn|done].
    - exists Yes. split; [by apply pl_below|done]. }
  destruct Hx as (j & Hj & Hf). exists j. split; [done|]. split; [done|]. intros j' Hj'.
  assert (Hin : forall p rest, e_dn e = p ++ ","%char :: rest -> In ","%char (e_dn e)) by (intros p rest ->; apply in_elt).
  inversion Hj; inversion Hj'; subst; try lia; try congruence;
    try (exfalso; match goal with H : ~ In _ _ |- _ => apply H; by eapply Hin end);
    try (match goal with H1 : e_dn e = _ ++ _, H2 : e_dn e = _ ++ _ |- _ =>
           rewrite H1 in H2; destruct (first_comma_once _ _ _ _ H2) as [-> ->]; [done..|congruence] end);
    try (match goal with H1 : parse_dn (e_dn e) = Some ?x, H2 : parse_dn (e_dn e) = Some ?y |- _ =>
           rewrite H1 in H2; injection H2 as <- end; tauto).
  all: assert (s0 = s) as -> by (rewrite H0 in H5; destruct (first_comma_once _ _ _ _ H5) as [-> ->]; [done..|congruence]); done.
Qed.
Print Assumptions C107_one_place.
(** For ASCII names whose first component has nothing to escape this is the place
    of the entry in the tree. *)
Theorem C107_plain (T : Text) (HT : TextOK T) (base : str) (b d : dn) (scope : Z) (e : entry) :
  parse_dn base = Some b -> parse_dn (e_dn e) = Some d -> ascii_dn b -> ascii_dn d -> single_dn b -> single_dn d ->
  scope = 0%Z \/ (scope = 1%Z /\ b <> [] /\ plain_first (e_dn e)) ->
  placed b scope e (if in_scope scope (fold_dn b) (fold_dn d) then Yes else No).
Proof.
  intros Hb Hd Hab Had Hsb Hsd Hsc. destruct (C42_scope_check T HT base e b d Hb Hd Hab Had Hsb Hsd) as [H0 H1].
  assert (Hok : scope_ok scope) by (destruct Hsc as [-> |[-> _]]; [by left|by right; left]).
  destruct (C107_one_place T HT b d scope e Hd Hok) as (j & Hj & _ & _).
  pose proof (C107_place T HT base b d scope e j Hb Hd Hj) as Hf.
  assert (Ok (in_scope scope (fold_dn b) (fold_dn d)) = said_so j) as E.
  { destruct Hsc as [-> |(-> & Hne & Hpl)]; [by rewrite <- H0|by rewrite <- H1]. }
  destruct (in_scope scope (fold_dn b) (fold_dn d)), j; done.
Qed.
Print Assumptions C107_plain.

Lemma placed_once {T : Text} b scope e j j' : placed b scope e j -> placed b scope e j' -> j = j'.
Proof.
  intros Hj Hj'.
  assert (Hin : forall p rest, e_dn e = p ++ ","%char :: rest -> In ","%char (e_dn e)) by (intros p rest ->; apply in_elt).
  inversion Hj; inversion Hj'; subst; try lia; try congruence;
    try (exfalso; match goal with H : ~ In _ _ |- _ => apply H; by eapply Hin end);
    try (match goal with H1 : e_dn e = _ ++ _, H2 : e_dn e = _ ++ _ |- _ =>
           rewrite H1 in H2; destruct (first_comma_once _ _ _ _ H2) as [-> ->]; [done..|congruence] end);
    try (match goal with H1 : parse_dn (e_dn e) = Some ?x, H2 : parse_dn (e_dn e) = Some ?y |- _ =>
           rewrite H1 in H2; injection H2 as <- end; tauto).
  all: assert (s0 = s) as -> by (rewrite H0 in H5; destruct (first_comma_once _ _ _ _ H5) as [-> ->]; [done..|congruence]); done.
Qed.
Lemma considered_once {T : Text} b scope e f j j' : considered b scope e f j -> considered b scope e f j' -> j = j'.
Proof.
  assert (Hx : forall j j', judge e f j -> judge e f j' -> j = j').
  { intros k k' H1 H2. destruct (C106_judgement T f e) as (i & _ & Hi). by rewrite (Hi k H1), (Hi k' H2). }
  intros [k Hk Hn|k Hk Hp] [k' Hk' Hn'|k' Hk' Hp'].
  - by apply Hx.
  - by destruct (Hn (Hx _ _ Hk Hk')).
  - by destruct (Hn' (Hx _ _ Hk' Hk)).
  - by eapply placed_once.
Qed.

(** The whole search: any filter, any names. *)
Theorem C107_search (T : Text) (C : Crypto) (W : Wire) (HT : TextOK T) (cfg : server_cfg) (c : bolt_cfg)
    (ev : renv env) (b : dn) (d : db) (m : dir) (bound : str) (id : Z) (req : packet)
    (r : search_req) (f : flt) (dd : dn) :
  base_ok b -> reachable b d -> represents d m ->
  p_cls req = ClassApplication -> p_tag req = SearchRequest -> says_search req r ->
  compile_filter (sr_filter r) = Some (filter_packet f) -> sv_enforce cfg = true ->
  (forall k, re_send ev k = true) ->
  parse_dn (sr_base r) = Some dd -> wf_dn dd = true -> is_Some (m !! fold_dn dd) -> scope_ok (sr_scope r) ->
  exists (es seen rest : list entry) (keep : entry -> bool),
    es ≡ₚ map snd (bfilter (fun p => in_scope (sr_scope r) (fold_dn dd) p.1) (map_to_list m)) /\ es = seen ++ rest /\
    (forall e, In e seen -> considered dd (sr_scope r) e f (if keep e then Yes else No)) /\
    let sent := bfilter keep seen in
    let out := map (fun e => REntry id (select_attributes (sr_attrs r) e)) sent in
    let done_ code := out ++ [RFinal id SearchResultDone code None] in
    let result := handle cfg (bolt_handler c) ev bound (p_msg id req) d in
    ((0 < sr_size r)%Z -> (Z.of_nat (length sent) <= sr_size r)%Z) /\
    match rest with
    | [] => result = mkResult (done_ 0%N) (Go bound) d
    | e :: _ =>
        (considered dd (sr_scope r) e f Yes /\ (0 < sr_size r)%Z /\ Z.of_nat (length sent) = sr_size r /\ result = mkResult (done_ 4%N) Drop d) \/
        (considered dd (sr_scope r) e f Stuck /\ result = mkResult (done_ 1%N) Drop d) \/
        (considered dd (sr_scope r) e f Fatal /\ result = mkResult out Dead d)
    end.
Proof.
  intros Hb Hr Hm Hcl Ht Hsay Hf Hen Hs Hp Hwf [e0 He0] Hsc.
  destruct (reach_sim HT b d m Hb Hr Hm) as [_ (g & Hg & ->)].
  pose proof (search_spec HT b d g (sr_base r) dd (sr_scope r) Hb Hg Hp Hwf Hsc) as Hsearch.
  rewrite He0 in Hsearch. destruct Hsearch as (es & Hsearch & Hperm).
  assert (HJ : Forall (fun e => exists j, considered dd (sr_scope r) e f j /\ look f r e = said_so j) es).
  { apply List.Forall_forall. intros e He.
    assert (exists k, (snd <$> g) !! k = Some e) as (k & Hke).
    { apply elem_of_list_In in He. rewrite Hperm in He. apply elem_of_list_In, in_map_iff in He as ([k e'] & <- & He).
      apply filter_In in He as [He _]. apply elem_of_list_In, elem_of_map_to_list in He. by exists k. }
    rewrite lookup_fmap in Hke. destruct (g !! k) as [[i e']|] eqn:Eg; [|done].
    cbn in Hke. injection Hke as ->. destruct (s_dn _ _ _ Hg _ _ _ Eg) as (de & Hde & _ & _).
    destruct (C106_judgement T f e) as (j & Hj & _). unfold look. rewrite (C106_filter T f e j Hj).
    destruct (judgement_dec j Yes) as [->|Hn].
    - destruct (C107_one_place T HT dd de (sr_scope r) e Hde Hsc) as (j' & Hj' & _). exists j'.
      split; [by apply c_place|]. cbn [said_so]. by eapply C107_place.
    - exists j. split; [by apply c_filter|]. by destruct j. }
  destruct (loop_goes (fun e => considered dd (sr_scope r) e f) f r (re_send ev) es Hs HJ 0)
    as (sent & end_ & Hloop & seen & rest & keep & Hes & -> & Hseen & Hlim & Hrest); [lia|].
  exists es, seen, rest, keep. split; [exact Hperm|]. split; [done|]. split; [done|]. cbn zeta.
  split; [exact Hlim|].
  rewrite (loop_handled cfg c ev bound id req r f d es _ end_ Hcl Ht Hsay Hf Hen Hs Hsearch Hloop).
  destruct rest as [|e rest]; [by rewrite Hrest|].
  destruct Hrest as [(H1 & H0 & H2 & ->)|[(H1 & ->)|(H1 & ->)]]; [left|right; left|right; right]; done.
Qed.
Print Assumptions C107_search.
(** Without a limit: all entries that pass are sent, or one that is undecided ends
    the search with an error, after entries that pass and may not be all of them. *)
Theorem C107_unlimited (T : Text) (C : Crypto) (W : Wire) (HT : TextOK T) (cfg : server_cfg) (c : bolt_cfg)
    (ev : renv env) (b : dn) (d : db) (m : dir) (bound : str) (id : Z) (req : packet)
    (r : search_req) (f : flt) (dd : dn) :
  base_ok b -> reachable b d -> represents d m ->
  p_cls req = ClassApplication -> p_tag req = SearchRequest -> says_search req r ->
  compile_filter (sr_filter r) = Some (filter_packet f) -> sv_enforce cfg = true ->
  (forall k, re_send ev k = true) ->
  parse_dn (sr_base r) = Some dd -> wf_dn dd = true -> is_Some (m !! fold_dn dd) -> scope_ok (sr_scope r) -> (sr_size r <= 0)%Z ->
  let below := map snd (bfilter (fun p => in_scope (sr_scope r) (fold_dn dd) p.1) (map_to_list m)) in
  let J e := considered dd (sr_scope r) e f in
  let result := handle cfg (bolt_handler c) ev bound (p_msg id req) d in
  let entries l := map (fun e => REntry id (select_attributes (sr_attrs r) e)) l in
  ((forall e, In e below -> J e Yes \/ J e No) ->
     exists (keep : entry -> bool) (l : list entry), (forall e, In e below -> (keep e = true <-> J e Yes)) /\ l ≡ₚ bfilter keep below /\
       result = mkResult (entries l ++ [RFinal id SearchResultDone 0 None]) (Go bound) d) /\
  (forall e, In e below -> J e Stuck -> (forall e', In e' below -> ~ J e' Fatal) ->
     exists l, (forall e', In e' l -> In e' below /\ J e' Yes) /\
       result = mkResult (entries l ++ [RFinal id SearchResultDone 1 None]) Drop d) /\
  (forall e, In e below -> J e Fatal -> (forall e', In e' below -> ~ J e' Stuck) ->
     exists l, (forall e', In e' l -> In e' below /\ J e' Yes) /\ result = mkResult (entries l) Dead d).
Proof.
  intros Hb Hr Hm Hcl Ht Hsay Hf Hen Hs Hp Hwf Hin Hsc Hsz below J result entries.
  destruct (C107_search T C W HT cfg c ev b d m bound id req r f dd Hb Hr Hm Hcl Ht Hsay Hf Hen Hs Hp Hwf Hin Hsc)
    as (es & seen & rest & keep & Hall & Hes & Hseen & _ & Hrest).
  fold below in Hall. cbv zeta in Hrest. fold result in Hrest.
  assert (Hmem : forall e, In e below <-> In e es).
  { intros e. rewrite <- !elem_of_list_In. by rewrite Hall. }
  assert (Hnamed : forall e, In e below -> exists de, parse_dn (e_dn e) = Some de).
  { destruct (reach_sim HT b d m Hb Hr Hm) as [_ (g & Hg & Hmg)]. intros e He.
    apply in_map_iff in He as ([k e'] & <- & He). apply filter_In in He as [He _].
    apply elem_of_list_In, elem_of_map_to_list in He. cbn [snd]. subst m. rewrite lookup_fmap in He.
    destruct (g !! k) as [[i e0]|] eqn:Eg; [|done]. cbn in He. injection He as ->.
    destruct (s_dn _ _ _ Hg _ _ _ Eg) as (de & Hde & _ & _). by exists de. }
  assert (Hone : forall e j j', In e below -> J e j -> J e j' -> j = j').
  { intros e j j' He H1 H2. destruct (Hnamed e He) as [de Hde].
    assert (Hx : forall j, J e j -> look f r e = said_so j).
    { intros k [k' Hk Hn|k' Hk Hpl]; unfold look; rewrite (C106_filter T f e _ Hk); [by destruct k'|]. cbn [said_so]. by eapply C107_place. }
    apply Hx in H1, H2. rewrite H1 in H2. by destruct j, j'. }
  assert (Hdone : forall e, In e below -> rest = [] -> J e Yes \/ J e No).
  { intros e He ->. rewrite app_nil_r in Hes. subst es. apply Hmem, Hseen in He. destruct (keep e); auto. }
  assert (Hsent : forall e, In e (bfilter keep seen) -> In e below /\ J e Yes).
  { intros e He. apply filter_In in He as [He Hk]. split; [apply Hmem; rewrite Hes; apply in_or_app; by left|].
    specialize (Hseen e He). by rewrite Hk in Hseen. }
  assert (Hrb : forall e rest', rest = e :: rest' -> In e below).
  { intros e rest' ->. apply Hmem. rewrite Hes. apply in_or_app. right. by left. }
  split; [|split].
  - intros Hdec. destruct rest as [|e rest].
    2:{ pose proof (Hrb e rest eq_refl) as He. exfalso.
        destruct Hrest as [(_ & H0 & _)|[(Hj & _)|(Hj & _)]];
          [lia| |]; destruct (Hdec e He) as [H|H]; by pose proof (Hone _ _ _ He Hj H). }
    rewrite app_nil_r in Hes. subst seen. exists keep, (bfilter keep es). split; [|split; [|exact Hrest]].
    + intros e He. pose proof (Hseen e (proj1 (Hmem e) He)) as H1. destruct (keep e); [done|]. split; [done|]. intros H. by pose proof (Hone _ _ _ He H1 H).
    + clear -Hall. induction Hall as [|x l l' _ IH|x y l|l1 l2 l3 _ IH1 _ IH2]; cbn [List.filter]; [done| | |by rewrite IH1].
      * destruct (keep x); by rewrite IH.
      * destruct (keep x), (keep y); try done. constructor.
  - intros e He Hst Hno. destruct rest as [|e' rest].
    { destruct (Hdone e He eq_refl) as [H|H]; by pose proof (Hone _ _ _ He Hst H). }
    pose proof (Hrb e' rest eq_refl) as He'. exists (bfilter keep seen). split; [done|].
    destruct Hrest as [(_ & H0 & _)|[(_ & ->)|(Hj & _)]]; [lia|done|by apply Hno in Hj].
  - intros e He Hst Hno. destruct rest as [|e' rest].
    { destruct (Hdone e He eq_refl) as [H|H]; by pose proof (Hone _ _ _ He Hst H). }
    pose proof (Hrb e' rest eq_refl) as He'. exists (bfilter keep seen). split; [done|].
    destruct Hrest as [(_ & H0 & _)|[(Hj & _)|(_ & ->)]]; [lia|by apply Hno in Hj|done].
Qed.
Print Assumptions C107_unlimited.

(** In a one-level search below the base the child with an escaped comma is torn
    (the rest of its name is no name), the one with another equals sign is lost, the
    plain one is found. *)
Definition torn107 : entry := mkEntry (B "cn=a\,b,o=base") [mkAttr (B "cn") [B "a,b"]].
Definition lost107 : entry := mkEntry (B "cn=x\,b=c,o=base") [mkAttr (B "cn") [B "x,b=c"]].
Definition h107 : list (env * op) := [good (OpPut e_base); good (OpPut e_people); good (OpPut torn107)].
Definition d107 : db := run_ops (T:=ascii_text) (C:=toy) (normalize (T:=ascii_text) b0) h107 empty_db.
Definition read107 : search_req := mkSearch (B "o=base") 1 0 false (B "(uid=x)") [].
Definition wire107 : Wire := {|
  decompile_filter _ := Some (B "(uid=x)"); compile_filter _ := Some (filter_packet (FNot (FPres (B "uid"))));
  decode_inner _ := None; decode_control _ := Ok KOther |}.
Example C107_case :
  placed (T:=ascii_text) b0 1 torn107 Stuck /\ placed (T:=ascii_text) b0 1 lost107 No /\
  placed (T:=ascii_text) b0 1 e_people Yes /\ placed (T:=ascii_text) b0 1 e_base No /\
  reachable (T:=ascii_text) (C:=toy) b0 d107 /\
  considered (T:=ascii_text) b0 1 torn107 (FNot (FPres (B "uid"))) Stuck /\
  says_search (W:=wire107) (enc_search read107 0 0 (filter_packet (FNot (FPres (B "uid"))))) read107 /\
  (let res := handle (T:=ascii_text) (C:=toy) (W:=wire107) cfg1 (bolt_handler (T:=ascii_text) (C:=toy) c1) ev1 []
     (p_msg 1 (enc_search read107 0 0 (filter_packet (FNot (FPres (B "uid")))))) d107 in
   last (r_out res) = Some (RFinal 1 SearchResultDone 1 None) /\ r_next res = Drop).
Proof.
  assert (Hno : forall p, forallb (fun x => negb (aeqb ","%char x)) p = true -> ~ In ","%char p).
  { intros p Hp Hin. rewrite List.forallb_forall in Hp. by specialize (Hp _ Hin). }
  assert (Htorn : placed (T:=ascii_text) b0 1 torn107 Stuck).
  { apply (pl_torn _ _ _ (B "cn=a\") (B "b,o=base")); [done|done|by apply Hno|vm_compute; reflexivity]. }
  split; [exact Htorn|].
  assert (Hchild : forall e p rest d j, e_dn e = p ++ ","%char :: rest -> forallb (fun x => negb (aeqb ","%char x)) p = true ->
    parse_dn (T:=ascii_text) rest = Some d -> (if dn_eqfold (T:=ascii_text) d b0 then Yes else No) = j ->
    placed (T:=ascii_text) b0 1 e j).
  { intros e p rest d j He Hp Hr <-. eapply pl_child; [done|done|by apply Hno|done]. }
  split. { apply (Hchild lost107 (B "cn=x\") (B "b=c,o=base") [[(B "b", B "c")]; [(B "o", B "base")]]); vm_compute; reflexivity. }
  split. { apply (Hchild e_people (B "ou=People") (B " o=Base") [[(B "o", B "Base")]]); vm_compute; reflexivity. }
  split. { apply (pl_top _ _ _ [[(B "o", B "base")]]); [done|by apply Hno|vm_compute; reflexivity|by left]. }
  split. { exists h107. split; [apply ops_okb_ok; vm_compute; reflexivity|]. split; [vm_compute; reflexivity|reflexivity]. }
  split. { apply c_place; [|exact Htorn]. apply j_not_yes. constructor. intros (x & Hx & Hn). vm_compute in Hx.
           destruct Hx as [<-|[]]. vm_compute in Hn. discriminate. }
  split; [by apply search_iff|]. vm_compute. repeat split.
Qed.
