(** Property C109: searches on the LDIF backend with any filter and any names. *)
From Verif Require Import Bytes Text Dn DnProofs Res Entry EntryProofs Password PasswordProofs P_Password
  Db DbSpec DbSearch Packet Filter FilterProofs ScopeProofs P_Filter Handler Server ServerProofs P_Db P_Server
  Ldif LdifProofs LdifMore P_Ldif Encode EncodeProofs E2e SessionProofs P_E2e P_Session P_LdifMsg P_Judge P_Place.

Section weighed.
Context {T : Text} (base : str) (scope : Z) (e : entry).
(** Where an entry stands, seen from the text of the base.  Stuck: one of the two
    names is no name, or the place is (C107). *)
Inductive stands : judgement -> Prop :=
| st_base : parse_dn base = None -> stands Stuck
| st_name : parse_dn (e_dn e) = None -> stands Stuck
| st_other b d : parse_dn base = Some b -> parse_dn (e_dn e) = Some d -> ~ scope_ok scope -> stands Yes
| st_place b d j : parse_dn base = Some b -> parse_dn (e_dn e) = Some d -> scope_ok scope -> placed b scope e j -> stands j.
(** What a search makes of an entry: the filter is asked first. *)
Inductive weighed (f : flt) : judgement -> Prop :=
| w_filter j : judge e f j -> j <> Yes -> weighed f j
| w_stands j : judge e f Yes -> stands j -> weighed f j.

Lemma stands_said (HT : TextOK T) j : stands j -> filter_scope base scope e = said_so j.
Proof using Type.
  intros [H|H|b d Hb Hd Hs|b d j' Hb Hd Hs Hp].
  - unfold filter_scope. by rewrite H.
  - unfold filter_scope. rewrite H. by destruct (parse_dn base).
  - unfold filter_scope. rewrite Hb, Hd. unfold scope_ok in Hs.
    destruct (Z.eqb_spec scope ScopeBase); [tauto|]. destruct (Z.eqb_spec scope ScopeOne); [tauto|]. done.
  - by eapply C107_place.
Qed.
Lemma stands_some (HT : TextOK T) : exists j, stands j.
Proof using Type.
  destruct (parse_dn base) as [b|] eqn:Eb; [|exists Stuck; by apply st_base].
  destruct (parse_dn (e_dn e)) as [d|] eqn:Ed; [|exists Stuck; by apply st_name].
  assert (scope_ok scope \/ ~ scope_ok scope) as [Hs|Hs].
  { unfold scope_ok. destruct (decide (scope = ScopeBase)), (decide (scope = ScopeOne)), (decide (scope = ScopeSub)); tauto. }
  - destruct (C107_one_place T HT b d scope e Ed Hs) as (j & Hj & _). exists j. by eapply st_place.
  - exists Yes. by eapply st_other.
Qed.
Lemma weighed_said (HT : TextOK T) f j : weighed f j ->
  match apply_filter (filter_packet f) e with Ok true => filter_scope base scope e | x => x end = said_so j.
Proof using Type.
  intros [j' Hj Hn|j' Hj Hs]; rewrite (C106_filter T f e _ Hj); [by destruct j'|]. cbn [said_so]. by apply stands_said.
Qed.
End weighed.

(** C109.  Every filter and all names give exactly one verdict on every entry ... *)
Theorem C109_weighed (T : Text) (HT : TextOK T) (base : str) (scope : Z) (e : entry) (f : flt) :
  exists j, weighed base scope e f j /\ forall j', weighed base scope e f j' -> j' = j.
Proof.
  assert (exists j, weighed base scope e f j) as [j Hj].
  { destruct (C106_judgement T f e) as (j & Hj & _). destruct (judgement_dec j Yes) as [->|Hn].
    - destruct (stands_some base scope e HT) as [j Hs]. exists j. by apply w_stands.
    - exists j. by apply w_filter. }
  exists j. split; [done|]. intros j' Hj'. apply (weighed_said _ _ _ HT) in Hj, Hj'. rewrite Hj in Hj'. by destruct j, j'.
Qed.
Print Assumptions C109_weighed.

Section goes.
Context {T : Text} {C : Crypto} {W : Wire} {Tr : Trees} (HT : TextOK T).
Lemma weighed_take f r e j : weighed (sr_base r) (sr_scope r) e f j ->
  take_entry (filter_packet f) r e =
  match j with
  | Yes => Ok (Some (select_attributes (sr_attrs r) e)) | No => Ok None
  | Stuck => perr OperationsError | Fatal => Panic
  end.
Proof using HT.
  intros H. apply (weighed_said _ _ _ HT) in H. unfold take_entry.
  destruct (apply_filter (filter_packet f) e) as [[]| | |]; cbn [rbind negb].
  - rewrite H. by destruct j.
  - by destruct j.
  - destruct j; cbn [said_so] in H; try done. by injection H as ->.
  - by destruct j.
  - by destruct j.
Qed.
(** How many entries a search returns at most. *)
Definition most (size : Z) : nat := Nat.max 1 (Z.to_nat (size mod 2 ^ 32)).
Lemma enough_most size count : (0 < size)%Z -> count < most size ->
  enough None size (S count) = (S count =? most size).
Proof using Type.
  intros H0 Hc. unfold enough, u32, most in *. cbn [orb]. rewrite (proj2 (Z.ltb_lt _ _) H0). cbn [andb].
  pose proof (Z.mod_pos_bound size (2 ^ 32) ltac:(lia)) as Hb.
  destruct (Z.leb_spec (size mod 2 ^ 32) (Z.of_nat (S count))), (Nat.eqb_spec (S count) (Nat.max 1 (Z.to_nat (size mod 2 ^ 32)))); lia.
Qed.
Lemma take_goes d f r ps es :
  Forall2 (fun p e => exists x, d_heap d !! p = Some x /\ l_entry x = served e) ps es ->
  forall count, ((0 < sr_size r)%Z -> count < most (sr_size r)) ->
  let J e := weighed (sr_base r) (sr_scope r) (served e) f in
  exists seen rest (keep : entry -> bool), es = seen ++ rest /\
    (forall e, In e seen -> J e (if keep e then Yes else No)) /\
    let sent := bfilter keep seen in
    let out := Ok (map (fun e => select_attributes (sr_attrs r) (served e)) sent) in
    let result := take_all d (filter_packet f) r ps count in
    ((0 < sr_size r)%Z -> count + length sent <= most (sr_size r)) /\
    match rest with
    | [] => result = out
    | e :: _ =>
        ((0 < sr_size r)%Z /\ count + length sent = most (sr_size r) /\ result = out) \/
        (J e Stuck /\ result = perr OperationsError) \/ (J e Fatal /\ result = Panic)
    end.
Proof using HT.
  intros H.
  set (keep := fun e => match take_entry (filter_packet f) r (served e) with Ok (Some _) => true | _ => false end).
  enough (Hx : forall count, ((0 < sr_size r)%Z -> count < most (sr_size r)) ->
    exists seen rest, es = seen ++ rest /\
    (forall e, In e seen -> weighed (sr_base r) (sr_scope r) (served e) f (if keep e then Yes else No)) /\
    ((0 < sr_size r)%Z -> count + length (bfilter keep seen) <= most (sr_size r)) /\
    match rest with
    | [] => take_all d (filter_packet f) r ps count = Ok (map (fun e => select_attributes (sr_attrs r) (served e)) (bfilter keep seen))
    | e :: _ =>
        ((0 < sr_size r)%Z /\ count + length (bfilter keep seen) = most (sr_size r) /\
           take_all d (filter_packet f) r ps count = Ok (map (fun e => select_attributes (sr_attrs r) (served e)) (bfilter keep seen))) \/
        (weighed (sr_base r) (sr_scope r) (served e) f Stuck /\ take_all d (filter_packet f) r ps count = perr OperationsError) \/
        (weighed (sr_base r) (sr_scope r) (served e) f Fatal /\ take_all d (filter_packet f) r ps count = Panic)
    end).
  { intros count Hc J. destruct (Hx count Hc) as (seen & rest & H1 & H2 & H3). by exists seen, rest, keep. }
  induction H as [|p e ps es (x & Hx & Hxe) _ IH]; intros count Hc.
  { exists [], []. cbn. split; [done|]. split; [by intros ? []|]. split; [|done]. intros H0. specialize (Hc H0). lia. }
  destruct (C109_weighed T HT (sr_base r) (sr_scope r) (served e) f) as (j & Hj & _).
  pose proof (weighed_take f r (served e) j Hj) as Ht.
  cbn [take_all]. rewrite Hx, Hxe, Ht.
  assert (Hk : keep e = match j with Yes => true | _ => false end) by (unfold keep; rewrite Ht; by destruct j).
  destruct j; cbn [rbind].
  - (* returned *) destruct (enough None (sr_size r) (S count)) eqn:Ee.
    + assert ((0 < sr_size r)%Z) as H0.
      { unfold enough in Ee. cbn [orb] in Ee. apply andb_true_iff in Ee as [Ee _]. by apply Z.ltb_lt. }
      rewrite enough_most in Ee by auto. apply Nat.eqb_eq in Ee.
      exists [e], es. cbn [List.filter]. rewrite Hk. cbn [length map]. split; [done|].
      split; [intros ? [<-|[]]; by rewrite Hk|]. split; [lia|]. destruct es; [done|]. left. split; [done|]. split; [lia|done].
    + destruct (IH (S count)) as (seen & rest & -> & Hs & Hl & Hr).
      { intros H0. specialize (Hc H0). rewrite enough_most in Ee by auto. apply Nat.eqb_neq in Ee. lia. }
      exists (e :: seen), rest. cbn [List.filter]. rewrite Hk. cbn [length map]. split; [done|].
      split; [intros ? [<-|Hin]; [by rewrite Hk|by apply Hs]|]. split; [intros H0; specialize (Hl H0); lia|].
      destruct rest as [|e' rest]; [by rewrite Hr|].
      destruct Hr as [(H0 & H1 & ->)|[(H1 & ->)|(H1 & ->)]]; [left; split; [done|]; split; [lia|done]|right; by left|right; by right].
  - (* passed over *) destruct (IH count Hc) as (seen & rest & -> & Hs & Hl & Hr).
    exists (e :: seen), rest. cbn [List.filter]. rewrite Hk. split; [done|].
    split; [intros ? [<-|Hin]; [by rewrite Hk|by apply Hs]|]. split; [done|]. done.
  - exists [], (e :: es). cbn [List.filter length map]. split; [done|]. split; [by intros ? []|].
    split; [intros H0; specialize (Hc H0); lia|]. right. left. done.
  - exists [], (e :: es). cbn [List.filter length map]. split; [done|]. split; [by intros ? []|].
    split; [intros H0; specialize (Hc H0); lia|]. right. right. done.
Qed.
End goes.

(** Filters from which nothing can be looked up in an index: negations, comparisons
    that are not supported, substrings with none or several components, and
    combinations of these. *)
Inductive unhinted : flt -> Prop :=
| uh_not g : unhinted (FNot g)
| uh_other o : unhinted (FOther o)
| uh_sub a ps : length ps <> 1 -> unhinted (FSub a ps)
| uh_and l : Forall unhinted l -> unhinted (FAnd l)
| uh_or l : Forall unhinted l -> unhinted (FOr l).
Lemma unhinted_leaves {T : Text} f : unhinted f -> leaves (filter_packet f) = Ok [] \/ exists x, leaves (filter_packet f) = Err x.
Proof.
  assert (Hall : forall l, Forall (fun f => unhinted f -> leaves (filter_packet f) = Ok [] \/ exists x, leaves (filter_packet f) = Err x) l ->
    Forall unhinted l -> leaves_all (map filter_packet l) = Ok [] \/ exists x, leaves_all (map filter_packet l) = Err x).
  { clear f. induction 1 as [|f l Hf _ IH]; intros Hu; [by left|]. apply Forall_cons in Hu as [Hu Hl]. cbn [map leaves_all].
    destruct (Hf Hu) as [-> | [x ->]]; cbn [rbind]; [|right; by eexists].
    destruct (IH Hl) as [-> | [x ->]]; cbn [rbind]; [by left|right; by eexists]. }
  induction f as [l IH|l IH|f IH|a v|a ps|a|t] using flt_ind'; intros Hu; inversion Hu; subst.
  - rewrite leaves_and. by apply Hall.
  - rewrite leaves_or. by apply Hall.
  - by left.
  - right. exists EOther. by destruct ps as [|p [|q ps]].
  - left. by destruct t as [[]|].
Qed.

(** ... and the search goes through the records below the base, in some order. *)
Theorem C109_search (T : Text) (C : Crypto) (W : Wire) (Tr : Trees) (HT : TextOK T) (HTr : TreesOK Tr)
    (attrs : list (str * str)) (records : list (option entry)) (d : dataset) (c : ldif_cfg) (cfg : server_cfg)
    (ev : renv bool) (bound : str) (id : Z) (req : packet) (r : search_req) (f : flt) :
  build attrs records = Some d ->
  p_cls req = ClassApplication -> p_tag req = SearchRequest -> says_search req r -> sv_enforce cfg = false ->
  (forall k, re_send ev k = true) ->
  ldif_allowed c (re_h ev) bound -> (exists t, to_lower (sr_base r) = t ++ lc_base c) ->
  compile_filter (sr_filter r) = Some (filter_packet f) ->
  let below := bfilter (fun e => has_suffix (to_lower (e_dn e)) (to_lower (sr_base r))) (records_of records) in
  let J e := weighed (sr_base r) (sr_scope r) (served e) f in
  exists (es seen rest : list entry) (keep : entry -> bool),
    es ⊆+ below /\ (unhinted f -> es ≡ₚ below) /\ es = seen ++ rest /\
    (forall e, In e seen -> J e (if keep e then Yes else No)) /\
    let sent := bfilter keep seen in
    let out := map (fun e => REntry id (select_attributes (sr_attrs r) (served e))) sent in
    let result := handle cfg (ldif_handler c) ev bound (p_msg id req) d in
    let good := mkResult (out ++ [RFinal id SearchResultDone 0 None]) (Go bound) d in
    ((0 < sr_size r)%Z -> length sent <= Nat.max 1 (Z.to_nat (sr_size r mod 2 ^ 32))) /\
    match rest with
    | [] => result = good
    | e :: _ =>
        ((0 < sr_size r)%Z /\ length sent = Nat.max 1 (Z.to_nat (sr_size r mod 2 ^ 32)) /\ result = good) \/
        (J e Stuck /\ result = mkResult [RFinal id SearchResultDone 1 None] Drop d) \/
        (J e Fatal /\ result = mkResult [] Dead d)
    end.
Proof.
  intros Hb Hcl Ht Hsay Hen Hs Ha Hbl Hf below J.
  pose proof (build_spec attrs records) as Hd. rewrite Hb in Hd.
  assert (exists fs, index_filter (filter_packet f) = Ok fs /\ (unhinted f -> fs = [])) as (fs & Hfs & Hun).
  { unfold index_filter. destruct (leaves_calm f) as [[ls Hls]|[x Hx]].
    - rewrite Hls. eexists. split; [done|]. intros Hu. destruct (unhinted_leaves f Hu) as [H|[y H]]; [|congruence].
      rewrite Hls in H. by injection H as ->.
    - rewrite Hx. by exists []. }
  set (ps := candidates d (sr_base r) fs).
  set (look p := default (mkEntry [] []) (records_of records !! p)).
  assert (Hps : forall p, p ∈ ps -> records_of records !! p = Some (look p) /\ has_suffix (low_dn (look p)) (to_lower (sr_base r)) = true).
  { intros p Hp. apply (candidates_elem HTr attrs _ d Hd) in Hp as (e & He & Hsf). unfold look. by rewrite He. }
  assert (H2 : Forall2 (fun p e => exists x, d_heap d !! p = Some x /\ l_entry x = served e) ps (map look ps)).
  { clearbody ps. induction ps as [|p ps IH]; [constructor|]. cbn [map]. constructor.
    - destruct (Hps p) as [He _]; [by apply elem_of_cons; left|]. exists (split_entry (look p)). split; [|done].
      rewrite (id_heap _ _ _ Hd). pose proof (list_lookup_fmap split_entry (records_of records) p) as H. rewrite He in H. exact H.
    - apply IH. intros q Hq. apply Hps. apply elem_of_cons. by right. }
  assert (Hinj : forall p q, records_of records !! p = records_of records !! q -> is_Some (records_of records !! p) -> p = q).
  { intros p q He [e Hp]. rewrite Hp in He.
    assert (d_tree d !! low_dn e = Some p) as E1 by (apply (id_tree _ _ _ Hd); eauto).
    assert (d_tree d !! low_dn e = Some q) as E2 by (apply (id_tree _ _ _ Hd); eauto). congruence. }
  assert (Hnd : NoDup (map look ps)).
  { pose proof (candidates_nodup HTr attrs _ d Hd (sr_base r) fs) as Hn. fold ps in Hn. clearbody ps.
    clear H2. induction Hn as [|p ps Hp Hn IH]; [constructor|]. cbn [map]. constructor.
    - intros Hin. apply elem_of_list_In, in_map_iff in Hin as (q & Hq & Hin). apply elem_of_list_In in Hin.
      destruct (Hps p) as [E1 _]; [by apply elem_of_cons; left|]. destruct (Hps q) as [E2 _]; [by apply elem_of_cons; right|].
      assert (p = q) as ->; [|done]. apply Hinj; [congruence|]. rewrite E1. by eexists.
    - apply IH. intros q Hq. apply Hps. apply elem_of_cons. by right. }
  assert (Hin : forall e, e ∈ map look ps -> e ∈ below).
  { intros e He. apply elem_of_list_In, in_map_iff in He as (p & <- & Hp). apply elem_of_list_In in Hp.
    destruct (Hps p Hp) as [E1 E2]. apply elem_of_list_In, filter_In. split; [|done].
    apply elem_of_list_In. by eapply elem_of_list_lookup_2. }
  destruct (take_goes HT d f r ps (map look ps) H2 0) as (seen & rest & keep & Hes & Hseen & Hlim & Hrest).
  { unfold most. lia. }
  exists (map look ps), seen, rest, keep. split; [by apply NoDup_submseteq|]. split.
  { intros Hu. apply NoDup_Permutation; [done| |].
    - apply NoDup_ListNoDup, List.NoDup_filter, NoDup_ListNoDup.
      pose proof (id_nodup _ _ _ Hd) as Hn. by apply NoDup_fmap_1 in Hn.
    - intros e. split; [apply Hin|]. intros He. apply elem_of_list_In, filter_In in He as [He Hsf].
      apply elem_of_list_In, elem_of_list_lookup in He as [p Hp].
      assert (p ∈ ps) as Hin'. { eapply (candidates_scan HTr attrs _ d Hd); eauto. }
      apply elem_of_list_In, in_map_iff. exists p. split; [unfold look; by rewrite Hp|by apply elem_of_list_In]. }
  split; [done|]. split; [done|]. cbv zeta. split; [exact Hlim|].
  rewrite (search_answer _ _ _ _ _ _ r) by done. cbn [h_search ldif_handler]. unfold ldif_search, search_checks.
  apply allowed_iff in Ha. rewrite Ha, Hf, Hfs. cbn [negb].
  rewrite (proj2 (has_suffix_spec _ _) Hbl). fold ps. cbv zeta in Hrest. cbn [Nat.add] in Hrest.
  destruct rest as [|e rest].
  - rewrite Hrest. cbn [ldif_found f_err f_entries]. by rewrite map_map.
  - destruct Hrest as [(H0 & H1 & ->)|[(H1 & ->)|(H1 & ->)]].
    + left. split; [done|]. split; [done|]. cbn [ldif_found f_err f_entries]. by rewrite map_map.
    + right. left. done.
    + right. right. done.
Qed.
Print Assumptions C109_search.
(** Without a limit and without an index the order does not matter: either all
    records that pass are sent, or one record that is undecided spoils the search. *)
Theorem C109_all_or_nothing (T : Text) (C : Crypto) (W : Wire) (Tr : Trees) (HT : TextOK T) (HTr : TreesOK Tr)
    (attrs : list (str * str)) (records : list (option entry)) (d : dataset) (c : ldif_cfg) (cfg : server_cfg)
    (ev : renv bool) (bound : str) (id : Z) (req : packet) (r : search_req) (f : flt) :
  build attrs records = Some d ->
  p_cls req = ClassApplication -> p_tag req = SearchRequest -> says_search req r -> sv_enforce cfg = false ->
  (forall k, re_send ev k = true) ->
  ldif_allowed c (re_h ev) bound -> (exists t, to_lower (sr_base r) = t ++ lc_base c) ->
  compile_filter (sr_filter r) = Some (filter_packet f) -> unhinted f -> (sr_size r <= 0)%Z ->
  let below := bfilter (fun e => has_suffix (to_lower (e_dn e)) (to_lower (sr_base r))) (records_of records) in
  let J e := weighed (sr_base r) (sr_scope r) (served e) f in
  let result := handle cfg (ldif_handler c) ev bound (p_msg id req) d in
  ((forall e, In e below -> J e Yes \/ J e No) ->
     exists (keep : entry -> bool) (l : list entry), (forall e, In e below -> (keep e = true <-> J e Yes)) /\ l ≡ₚ bfilter keep below /\
       result = mkResult (map (fun e => REntry id (select_attributes (sr_attrs r) (served e))) l ++
                          [RFinal id SearchResultDone 0 None]) (Go bound) d) /\
  (forall e, In e below -> J e Stuck -> (forall e', In e' below -> ~ J e' Fatal) ->
     result = mkResult [RFinal id SearchResultDone 1 None] Drop d) /\
  (forall e, In e below -> J e Fatal -> (forall e', In e' below -> ~ J e' Stuck) -> result = mkResult [] Dead d).
Proof.
  intros Hb Hcl Ht Hsay Hen Hs Ha Hbl Hf Hu Hsz below J result.
  destruct (C109_search T C W Tr HT HTr attrs records d c cfg ev bound id req r f Hb Hcl Ht Hsay Hen Hs Ha Hbl Hf)
    as (es & seen & rest & keep & _ & Hall & Hes & Hseen & _ & Hrest).
  specialize (Hall Hu). fold below in Hall. cbv zeta in Hrest. fold result in Hrest.
  assert (Hone : forall e j j', J e j -> J e j' -> j = j').
  { intros e j j' H1 H2. destruct (C109_weighed T HT (sr_base r) (sr_scope r) (served e) f) as (k & _ & Hk).
    by rewrite (Hk j H1), (Hk j' H2). }
  assert (Hmem : forall e, In e below <-> In e es).
  { intros e. rewrite <- !elem_of_list_In. by rewrite Hall. }
  assert (Hdone : forall e, In e below -> rest = [] -> J e Yes \/ J e No).
  { intros e He ->. rewrite app_nil_r in Hes. subst es. apply Hmem, Hseen in He. destruct (keep e); auto. }
  split; [|split].
  - intros Hdec. destruct rest as [|e rest].
    2:{ assert (In e below) as He. { apply Hmem. rewrite Hes. apply in_or_app. right. by left. }
        exfalso. destruct Hrest as [(H0 & _)|[(Hj & _)|(Hj & _)]]; [lia| |];
          destruct (Hdec e He) as [H|H]; pose proof (Hone _ _ _ Hj H); done. }
    rewrite app_nil_r in Hes. subst seen. exists keep, (bfilter keep es). split; [|split; [|exact Hrest]].
    + intros e He. apply Hmem, Hseen in He. destruct (keep e); [done|]. split; [done|]. intros H. by pose proof (Hone _ _ _ He H).
    + clear -Hall. induction Hall as [|x l l' _ IH|x y l|l1 l2 l3 _ IH1 _ IH2]; cbn [List.filter]; [done| | |by rewrite IH1].
      * destruct (keep x); by rewrite IH.
      * destruct (keep x), (keep y); try done. constructor.
  - intros e He Hst Hno. destruct rest as [|e' rest].
    { destruct (Hdone e He eq_refl) as [H|H]; by pose proof (Hone _ _ _ Hst H). }
    destruct Hrest as [(H0 & _)|[(_ & ->)|(Hj & _)]]; [lia|done|]. exfalso. apply (Hno e'); [|done].
    apply Hmem. rewrite Hes. apply in_or_app. right. by left.
  - intros e He Hst Hno. destruct rest as [|e' rest].
    { destruct (Hdone e He eq_refl) as [H|H]; by pose proof (Hone _ _ _ Hst H). }
    destruct Hrest as [(H0 & _)|[(Hj & _)|(_ & ->)]]; [lia| |done]. exfalso. apply (Hno e'); [|done].
    apply Hmem. rewrite Hes. apply in_or_app. right. by left.
Qed.
Print Assumptions C109_all_or_nothing.

(** The file of C48, searched by a local client: everybody but Dora; an unsupported
    comparison that only entries without uid reach; the same for everybody. *)
Section case.
#[local] Existing Instance ascii_text.
Definition f109_not : flt := FNot (FEq (B "uid") (B "DORA")).
Definition f109_ge : flt := FOther (OCmp CGreater (B "uid") (B "d")).
Definition f109_and : flt := FAnd [FPres (B "cn"); FNot f109_ge].
Definition ask109 (f : flt) : result :=
  lserve true f "" (p_msg 8 (enc_search (mkSearch (B "o=base") 2 0 false (B "f") [B "cn"]) 0 0 (filter_packet f))).
Example C109_case :
  ldif_allowed lc1 true [] /\ (exists t, to_lower (B "o=base") = t ++ lc_base lc1) /\
  unhinted f109_not /\ ~ unhinted f109_and /\
  weighed (B "o=base") 2 (served e_dora) f109_not No /\ weighed (B "o=base") 2 (served e_sam) f109_not Yes /\
  weighed (B "o=base") 2 (served e_people) f109_and No /\ weighed (B "o=base") 2 (served e_sam) f109_and Stuck /\
  r_out (ask109 f109_not) =
    [REntry 8 (mkEntry (B "o=base") []); REntry 8 (mkEntry (B "ou=people, o=base") []);
     REntry 8 (mkEntry (B "uid=sam,ou=people,o=base") [mkAttr (B "cn") [B "Sam"]]);
     RFinal 8 SearchResultDone 0 None] /\
  (r_out (ask109 f109_and), r_next (ask109 f109_and)) = ([RFinal 8 SearchResultDone 1 None], Drop) /\
  unhinted (FNot f109_ge) /\ weighed (B "o=base") 2 (served e_sam) (FNot f109_ge) Stuck /\
  r_out (ask109 (FNot f109_ge)) = [RFinal 8 SearchResultDone 1 None].
Proof.
  assert (Hy : forall e f j, apply_filter (filter_packet f) e = said_so j -> judge e f j).
  { intros e f j H. destruct (C106_judgement _ f e) as (j' & Hj & _). pose proof (C106_filter _ f e j' Hj) as H'.
    rewrite H in H'. by destruct j, j'. }
  split; [by left|]. split; [by exists []|]. split; [constructor|].
  split. { intros H. inversion H as [| | |l Hl|]. apply Forall_cons in Hl as [Hl _]. inversion Hl. }
  split; [apply w_filter; [apply Hy; vm_compute; reflexivity|done]|].
  split. { apply w_stands; [apply Hy; vm_compute; reflexivity|].
           eapply st_place; [vm_compute; reflexivity|vm_compute; reflexivity|by right; right|by apply pl_below]. }
  split; [apply w_filter; [apply Hy; vm_compute; reflexivity|done]|].
  split; [apply w_filter; [apply Hy; vm_compute; reflexivity|done]|].
  split; [vm_compute; reflexivity|]. split; [vm_compute; reflexivity|]. split; [constructor|].
  split; [apply w_filter; [apply Hy; vm_compute; reflexivity|done]|]. vm_compute; reflexivity.
Qed.
End case.
