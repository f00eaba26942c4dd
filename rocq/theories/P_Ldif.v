(** Properties C45, C47-C49 and C53: the LDIF backend. *)
From Verif Require Import Bytes Text Dn DnProofs Res Entry EntryProofs Password PasswordProofs P_Password Db Packet
  Filter FilterProofs Handler Server ServerProofs P_Db P_Server Ldif LdifProofs LdifMore.

(** ** The setting of the examples *)
Definition plain_trees : Trees := {| visit l := l |}.
Lemma plain_trees_ok : TreesOK plain_trees.
Proof. intros l. reflexivity. Qed.
Definition wire_f (f : flt) : Wire := {|
  decompile_filter _ := Some (B "f");
  compile_filter _ := Some (filter_packet f);
  decode_inner _ := None;
  decode_control _ := Ok KOther
|}.
(** Dora has two userPassword attributes; her entry comes with other case. *)
Definition e_dora := mkEntry (B "uid=Dora,ou=people,o=base")
  [mkAttr (B "uid") [B "Dora"]; mkAttr (B "cn") [B "Dora Q"]; mkAttr (B "objectClass") [B "person"];
   mkAttr (B "USERPASSWORD") [B "old"]; mkAttr (B "userPassword") [B "pw"; B "other"]].
Definition e_sam := mkEntry (B "uid=sam,ou=people,o=base")
  [mkAttr (B "uid") [B "sam"]; mkAttr (B "cn") [B "Sam"]; mkAttr (B "objectClass") [B "device"]].
Definition records1 : list (option entry) := [Some e_base; None; Some e_people; Some e_dora; Some e_sam].
Definition ld1 : dataset := default (mkData [] ∅ ∅) (build (T:=ascii_text) index_attributes records1).
Lemma ld1_build : build (T:=ascii_text) index_attributes records1 = Some ld1.
Proof.
  assert (H : match build (T:=ascii_text) index_attributes records1 with Some _ => true | None => false end = true)
    by (vm_compute; reflexivity).
  unfold ld1. by destruct (build _ _).
Qed.
Definition lc1 : ldif_cfg := mkLdif (B "o=base") true index_attributes.
Definition lreq (attrs : list string) (size : Z) : search_req :=
  mkSearch (B "o=base") 2 size false (B "f") (map B attrs).
Definition find1 (f : flt) (r : search_req) : hout found :=
  (ldif_search (T:=ascii_text) (W:=wire_f f) (Tr:=plain_trees) lc1 true [] r ld1).1.
Definition dns (x : hout found) : option (list str) :=
  match x with HRet f => Some (map e_dn (f_entries f)) | _ => None end.

(** * C53 *)
(** Building succeeds exactly if no two records have the same lower-cased DN,
    and then every record can be looked up under it and nothing else can. *)
Theorem C53_build_iff (T : Text) (attrs : list (str * str)) (records : list (option entry)) :
  (exists d, build attrs records = Some d) <-> NoDup (map low_dn (records_of records)).
Proof.
  pose proof (build_spec attrs records) as H. destruct (build attrs records) as [d|].
  - split; [intros _; apply (id_nodup _ _ _ H)|eauto].
  - split; [by intros [d ?]|]. done.
Qed.
Print Assumptions C53_build_iff.
Theorem C53_lookup (T : Text) (attrs : list (str * str)) (records : list (option entry)) (d : dataset) :
  build attrs records = Some d ->
  (forall e, In (Some e) records ->
     exists x, tree_get d (to_lower (e_dn e)) = Some x /\ e_dn (l_entry x) = to_lower (e_dn e) /\
       forall a, In a (e_attrs (l_entry x)) <-> In a (e_attrs e) /\ to_lower (a_name a) <> B "userpassword") /\
  (forall k x, tree_get d k = Some x -> exists e, In (Some e) records /\ to_lower (e_dn e) = k).
Proof.
  intros Hb. pose proof (build_spec attrs records) as Hd. rewrite Hb in Hd.
  assert (Hin : forall e, In (Some e) records <-> In e (records_of records)).
  { intros e. unfold records_of. clear. induction records as [|[x|] l IH]; cbn [omap list_omap]; [done| |].
    - cbn [In]. rewrite <- IH. split; (intros [H|H]; [left; congruence|auto]).
    - cbn [In]. rewrite <- IH. split; [by intros [?|?]|auto]. }
  split.
  - intros e He. exists (split_entry e). split; [|split; [done|]].
    + apply Hin, elem_of_list_In, elem_of_list_lookup in He as [p He]. unfold tree_get.
      rewrite (proj2 (id_tree _ _ _ Hd (to_lower (e_dn e)) p)) by eauto.
      rewrite (id_heap _ _ _ Hd). pose proof (list_lookup_fmap split_entry (records_of records) p) as Hx.
      rewrite He in Hx. exact Hx.
    + intros a. cbn [split_entry l_entry e_attrs]. rewrite filter_In. unfold is_userpassword.
      destruct (seqb (to_lower (a_name a)) (B "userpassword")) eqn:E.
      * apply seqb_eq in E. split; [by intros [_ ?]|by intros [_ ?]].
      * apply seqb_neq in E. tauto.
  - intros k x Hx. unfold tree_get in Hx. destruct (d_tree d !! k) as [p|] eqn:Ep; [|done].
    apply (id_tree _ _ _ Hd) in Ep as (e & He & <-). exists e. split; [|done]. apply Hin, elem_of_list_In. by eapply elem_of_list_lookup_2.
Qed.
Print Assumptions C53_lookup.
Example C53_case :
  build (T:=ascii_text) index_attributes records1 = Some ld1 /\
  (exists x, tree_get ld1 (B "uid=dora,ou=people,o=base") = Some x /\ l_pw x = Some [B "pw"; B "other"]) /\
  build (T:=ascii_text) index_attributes (records1 ++ [Some (mkEntry (B "O=BASE") [])]) = None.
Proof. split; [apply ld1_build|]. split; [eexists; split; vm_compute; reflexivity|vm_compute; reflexivity]. Qed.

(** * C45 *)
Definition no_password {T : Text} (e : entry) : Prop :=
  forall a, In a (e_attrs e) -> to_lower (a_name a) <> B "userpassword".
Lemma public_no_password {T : Text} e : no_password (public e).
Proof.
  intros a Ha. cbn in Ha. apply filter_In in Ha as [_ Ha]. apply negb_true_iff, seqb_neq in Ha. done.
Qed.
Lemma select_no_password {T : Text} req e : no_password e -> no_password (select_attributes req e).
Proof. intros H a Ha. apply H. by eapply select_subset. Qed.
Theorem C45_no_password (T : Text) (C : Crypto) (W : Wire) (Tr : Trees) (attrs : list (str * str))
    (records : list (option entry)) (d : dataset) (c : ldif_cfg) (local : bool) (bound : str)
    (r : search_req) (f : found) (e : entry) :
  build attrs records = Some d -> (ldif_search c local bound r d).1 = HRet f -> In e (f_entries f) ->
  no_password e.
Proof.
  intros Hb Hs He. pose proof (build_spec attrs records) as Hd. rewrite Hb in Hd.
  apply ldif_search_found in Hs as [[Hf _]|(flt & fs & es & _ & Ht & ->)]; [by rewrite Hf in He|].
  apply take_all_from in Ht. cbn [f_entries] in He. apply (proj1 (List.Forall_forall _ _) Ht) in He as (p & x & _ & Hx & Hk).
  apply take_entry_some in Hk as (-> & _). apply select_no_password.
  rewrite (id_heap _ _ _ Hd) in Hx. apply elem_of_list_lookup_2, elem_of_list_In, in_map_iff in Hx as (e0 & <- & _).
  apply public_no_password.
Qed.
Print Assumptions C45_no_password.
(** Whatever packets are sent over whatever connections, with or without the
    overlay: no entry with a userPassword attribute is written to a client. *)
Theorem C45_server (T : Text) (C : Crypto) (W : Wire) (Tr : Trees) (attrs : list (str * str))
    (records : list (option entry)) (d : dataset) (c : ldif_cfg) (cfg : server_cfg)
    (es : list event) (ev : event) (id : Z) (e : entry) :
  build attrs records = Some d ->
  In (REntry id e) (step cfg (ldif_handler c) (run cfg (ldif_handler c) (start d) es) ev).2 ->
  no_password e.
Proof.
  intros Hb. pose proof (readonly_run cfg (ldif_handler c) (start d) es (ldif_readonly c)) as Hst.
  set (w := run _ _ _ _) in *. cbn [w_state start] in Hst. unfold step.
  destruct (w_alive w); [|done]. cbn [negb]. destruct ev as [k|k ev p|k]; [by destruct (w_conns w !! k)| |done].
  destruct (w_conns w !! k) as [bound|]; [|done]. cbn [snd]. rewrite Hst. intros H.
  apply entry_response in H as (r & f & s' & e0 & Hs & Hin & Hor).
  assert (Hn : no_password e0).
  { eapply (C45_no_password T C W Tr); [exact Hb| |exact Hin]. cbn [h_search ldif_handler] in Hs. by rewrite Hs. }
  destruct Hor as [-> | ->]; [done|]. by apply select_no_password.
Qed.
Print Assumptions C45_server.
Theorem C45_overlay (T : Text) (C : Crypto) (W : Wire) (Tr : Trees) (attrs : list (str * str))
    (records : list (option entry)) (o d : dataset) (c : ldif_cfg) (base : str) (cfg : server_cfg)
    (es : list event) (ev : event) (id : Z) (e : entry) :
  build attrs records = Some d ->
  let h := overlay base (ldif_handler c) in
  In (REntry id e) (step cfg h (run cfg h (start (o, d)) es) ev).2 -> no_password e.
Proof.
  intros Hb h. pose proof (readonly_run cfg h (start (o, d)) es (overlay_readonly base _ (ldif_readonly c))) as Hst.
  set (w := run _ _ _ _) in *. cbn [w_state start] in Hst. unfold step.
  destruct (w_alive w); [|done]. cbn [negb]. destruct ev as [k|k ev p|k]; [by destruct (w_conns w !! k)| |done].
  destruct (w_conns w !! k) as [bound|]; [|done]. cbn [snd]. rewrite Hst. intros H.
  apply entry_response in H as (r & f & s' & e0 & Hs & Hin & Hor).
  assert (Hn : no_password e0).
  { eapply (C45_no_password T C W Tr); [exact Hb| |exact Hin]. unfold h in Hs. cbn [h_search overlay] in Hs.
    unfold overlay_search in Hs. cbn [snd h_search ldif_handler] in Hs.
    destruct (ldif_search c (re_h ev) bound r d) as [f0 s0] eqn:El. injection Hs as -> _. by rewrite El. }
  destruct Hor as [-> | ->]; [done|]. by apply select_no_password.
Qed.
Print Assumptions C45_overlay.
(** Nor can the passwords be inferred: unless userPassword has been made an
    indexed attribute, two data sets that differ in passwords only answer every
    search alike. *)
Definition same_but_passwords {T : Text} (r1 r2 : list (option entry)) : Prop :=
  map strip (records_of r1) = map strip (records_of r2).
Theorem C45_no_inference (T : Text) (C : Crypto) (W : Wire) (Tr : Trees) (attrs : list (str * str))
    (r1 r2 : list (option entry)) (d1 d2 : dataset) (c : ldif_cfg) (local : bool) (bound : str) (r : search_req) :
  unindexed attrs -> same_but_passwords r1 r2 -> build attrs r1 = Some d1 -> build attrs r2 = Some d2 ->
  (ldif_search c local bound r d1).1 = (ldif_search c local bound r d2).1.
Proof.
  intros Hu Hs Hb1 Hb2. pose proof (build_spec attrs r1) as Hd1. rewrite Hb1 in Hd1.
  pose proof (build_spec attrs r2) as Hd2. rewrite Hb2 in Hd2.
  destruct (data_same attrs _ _ d1 d2 Hu Hs Hd1 Hd2) as (Hi & Ht & Hh).
  unfold ldif_search. cbn [fst]. destruct (search_checks c local bound r) as [x|[flt fs]]; [done|].
  rewrite (candidates_same d1 d2 _ _ Hi Ht Hh), (take_all_same d1 d2 _ _ _ _ Hh). done.
Qed.
Print Assumptions C45_no_inference.
Lemma index_attributes_unindexed : unindexed (T:=ascii_text) index_attributes.
Proof.
  intros op. destruct (new_register (T:=ascii_text) index_attributes !! _) as [i|] eqn:E; [exfalso|done].
  apply elem_of_map_to_list in E.
  assert (H : forallb (fun p : str * idx => negb (has_prefix p.1 (B "userpassword")))
    (map_to_list (new_register (T:=ascii_text) index_attributes)) = true) by (vm_compute; reflexivity).
  apply elem_of_list_In in E. apply (proj1 (forallb_forall _ _) H) in E. cbn [fst] in E.
  apply negb_true_iff in E.
  clear H.
  rewrite (proj2 (has_prefix_spec _ _)) in E by eauto. discriminate E.
Qed.
Example C45_case :
  (forall pw op, same_but_passwords (T:=ascii_text) records1
     (Some (mkEntry (e_dn e_base) (e_attrs e_base ++ [mkAttr (B "UserPassword") [pw]])) :: tail records1) /\
     new_register (T:=ascii_text) index_attributes !! (B "userpassword" ++ B "," ++ op) = None) /\
  find1 (FPres (B "uid")) (lreq ["*"; "userPassword"; "USERPASSWORD"]%string 0) =
    HRet (mkFound [mkEntry (B "uid=dora,ou=people,o=base")
                     [mkAttr (B "uid") [B "Dora"]; mkAttr (B "cn") [B "Dora Q"]; mkAttr (B "objectClass") [B "person"]];
                   mkEntry (B "uid=sam,ou=people,o=base") (e_attrs e_sam)] Success false) /\
  dns (find1 (FEq (B "userPassword") (B "pw")) (lreq [] 0)) = Some [].
Proof.
  split; [|split; vm_compute; reflexivity]. intros pw op. split; [vm_compute; reflexivity|apply index_attributes_unindexed].
Qed.

(** * C47 *)
(** Every write method refuses and leaves the data alone ... *)
Theorem C47_writes_refused (T : Text) (C : Crypto) (W : Wire) (Tr : Trees) (c : ldif_cfg) (local : bool)
    (bound dn : str) (ra : add_req) (rm : modify_req) (rn : moddn_req) (rp : pw_req) (d : dataset) :
  let no := (HRet (UnwillingToPerform, true), d) in
  let h := ldif_handler c in
  h_add h local bound ra d = no /\ h_delete h local bound dn d = no /\ h_modify h local bound rm d = no /\
  h_moddn h local bound rn d = no /\ h_password h local bound rp d = no.
Proof. repeat split. Qed.
Print Assumptions C47_writes_refused.
(** ... no packet is answered by success except binds and searches, and no
    packet changes the data, on the server as a whole, with or without the
    overlay. *)
Theorem C47_success (T : Text) (C : Crypto) (W : Wire) (Tr : Trees) (c : ldif_cfg) (base : str) (cfg : server_cfg)
    (ev : renv bool) (bound : str) (p : packet) (o d : dataset) (id : Z) (t : N) (v : option str) :
  In (RFinal id t Success v) (r_out (handle cfg (ldif_handler c) ev bound p d)) \/
  In (RFinal id t Success v) (r_out (handle cfg (overlay base (ldif_handler c)) ev bound p (o, d))) ->
  t = BindResponse \/ t = SearchResultDone.
Proof. intros [H|H]; eapply refusing_success; try exact H; repeat split. Qed.
Print Assumptions C47_success.
Theorem C47_data_stays (T : Text) (C : Crypto) (W : Wire) (Tr : Trees) (c : ldif_cfg) (base : str) (cfg : server_cfg)
    (es : list event) (o d : dataset) :
  w_state (run cfg (ldif_handler c) (start d) es) = d /\
  w_state (run cfg (overlay base (ldif_handler c)) (start (o, d)) es) = (o, d).
Proof.
  split; [apply (readonly_run cfg (ldif_handler c) (start d) es), ldif_readonly|].
  apply (readonly_run cfg (overlay base (ldif_handler c)) (start (o, d)) es), overlay_readonly, ldif_readonly.
Qed.
Print Assumptions C47_data_stays.
(** Dora binds and tries to delete Sam: she is refused and Sam is still there. *)
Definition levl : renv bool := mkREnv true (B "salt") [] (fun _ => true).
Definition lhandle (bound : string) (p : packet) : result :=
  handle (T:=ascii_text) (C:=toy) (W:=wire_f (FPres (B "uid")))
    (mkServer true 8) (ldif_handler (T:=ascii_text) (C:=toy) (W:=wire_f (FPres (B "uid"))) (Tr:=plain_trees) lc1)
    levl (B bound) p ld1.
Example C47_case :
  let r1 := lhandle "" (p_bind 1 "uid=dora,ou=people,o=base" "pw") in
  let r2 := lhandle "uid=dora,ou=people,o=base" (p_del 2 "uid=sam,ou=people,o=base") in
  r_out r1 = [RFinal 1 BindResponse Success None] /\ r_next r1 = Go (B "uid=dora,ou=people,o=base") /\
  r_out r2 = [RFinal 2 DelResponse UnwillingToPerform None] /\
  dns (find1 (FEq (B "uid") (B "sam")) (lreq [] 0)) = Some [B "uid=sam,ou=people,o=base"].
Proof. repeat split; vm_compute; reflexivity. Qed.

(** * C48 *)
(** [h] is the first value of the last userPassword attribute of [e]. *)
Definition ldif_password {T : Text} (e : entry) (h : str) : Prop :=
  exists l1 a l2 vs, e_attrs e = l1 ++ a :: l2 /\ to_lower (a_name a) = B "userpassword" /\ a_vals a = h :: vs /\
    forall b, In b l2 -> to_lower (a_name b) <> B "userpassword".
Lemma last_filter {A B} (P : A -> bool) (f : A -> B) (l : list A) (y : B) :
  last (map f (bfilter P l)) = Some y <->
  exists l1 a l2, l = l1 ++ a :: l2 /\ P a = true /\ f a = y /\ forall b, In b l2 -> P b = false.
Proof.
  split.
  - revert y. induction l as [|x l IH] using rev_ind; [done|]. intros y. rewrite List.filter_app, map_app. cbn [List.filter].
    destruct (P x) eqn:Ex; cbn [map].
    + rewrite last_snoc. intros [= <-]. exists l, x, []. done.
    + rewrite app_nil_r. intros H. apply IH in H as (l1 & a & l2 & -> & Ha & Hf & Hb). exists l1, a, (l2 ++ [x]).
      split; [by rewrite <- app_assoc|]. split; [done|]. split; [done|]. intros b. rewrite in_app_iff.
      intros [?|[<-|[]]]; auto.
  - intros (l1 & a & l2 & -> & Ha & <- & Hb). rewrite List.filter_app. cbn [List.filter]. rewrite Ha.
    assert (bfilter P l2 = []) as ->.
    { clear -Hb. induction l2 as [|b l2 IH]; [done|]. cbn [List.filter]. rewrite (Hb b (or_introl eq_refl)). apply IH. intros c Hc. apply Hb. by right. }
    rewrite map_app. apply last_snoc.
Qed.
Lemma last_filter_none {A B} (P : A -> bool) (f : A -> B) (l : list A) :
  last (map f (bfilter P l)) = None <-> forall b, In b l -> P b = false.
Proof.
  rewrite last_None. split.
  - intros H b Hb. destruct (P b) eqn:E; [|done]. assert (Hi : In (f b) (map f (bfilter P l))) by (apply in_map, filter_In; done).
    by rewrite H in Hi.
  - intros H. induction l as [|b l IH]; [done|]. cbn [List.filter]. rewrite (H b (or_introl eq_refl)). apply IH. intros c Hc. apply H. by right.
Qed.
Lemma check_password_iff {T : Text} {C : Crypto} (HT : TextOK T) e pw :
  check_password (split_entry e) pw = HRet (Success, false) <-> exists h, ldif_password e h /\ accepts pw h.
Proof.
  unfold check_password, validate_entry. cbn [split_entry l_pw].
  destruct (last (map a_vals (bfilter (fun a => is_userpassword (a_name a)) (e_attrs e)))) as [vs|] eqn:El.
  - pose proof El as Hl. apply last_filter in Hl as (l1 & a & l2 & He & Ha & Hv & Hb). apply seqb_eq in Ha.
    assert (Hiff : forall h, ldif_password e h <-> exists vs', vs = h :: vs').
    { intros h. split.
      - intros (m1 & b & m2 & ws & Hm & Hn & Hw & Hc).
        assert (Hs : last (map a_vals (bfilter (fun a => is_userpassword (a_name a)) (e_attrs e))) = Some (h :: ws)).
        { apply last_filter. exists m1, b, m2. split; [done|]. split; [by apply seqb_eq|]. split; [done|].
          intros x Hx. apply seqb_neq. by apply Hc. }
        rewrite El in Hs. injection Hs as ->. by exists ws.
      - intros [vs' Hvs]. exists l1, a, l2, vs'. split; [done|]. split; [done|]. split; [by rewrite Hv|].
        intros b Hx. apply seqb_neq. by apply (Hb b Hx). }
    destruct vs as [|h vs].
    + split; [done|]. intros (h & Hh & _). apply Hiff in Hh as [? ?]. done.
    + split.
      * intros H. exists h. split; [apply Hiff; eauto|]. apply (validate_accepts HT).
        destruct (validate pw h) as [[|]| | |]; done.
      * intros (h' & Hh & Hacc). apply Hiff in Hh as [vs' [= <- _]]. apply (validate_accepts HT) in Hacc. by rewrite Hacc.
  - split; [done|]. intros (h & (l1 & a & l2 & vs & He & Ha & _) & _). apply last_filter_none with (b := a) in El.
    + unfold is_userpassword in El. rewrite Ha, seqb_refl in El. done.
    + rewrite He. apply in_app_iff. right. by left.
Qed.
Lemma tree_get_record {T : Text} attrs records d k : build attrs records = Some d ->
  (forall x, tree_get d k = Some x <-> exists e, In (Some e) records /\ to_lower (e_dn e) = k /\ x = split_entry e).
Proof.
  intros Hb. pose proof (build_spec attrs records) as Hd. rewrite Hb in Hd.
  assert (Hin : forall e, In (Some e) records <-> In e (records_of records)).
  { intros e. unfold records_of. clear. induction records as [|[x|] l IH]; cbn [omap list_omap]; [done| |].
    - cbn [In]. rewrite <- IH. split; (intros [H|H]; [left; congruence|auto]).
    - cbn [In]. rewrite <- IH. split; [by intros [?|?]|auto]. }
  assert (Hheap : forall p, d_heap d !! p = split_entry <$> (records_of records !! p)).
  { intros p. rewrite (id_heap _ _ _ Hd). apply (list_lookup_fmap split_entry). }
  intros x. unfold tree_get. split.
  - destruct (d_tree d !! k) as [p|] eqn:Ep; [|done]. apply (id_tree _ _ _ Hd) in Ep as (e & He & Hk).
    rewrite Hheap, He. intros [= <-]. exists e. split; [|done]. apply Hin, elem_of_list_In. by eapply elem_of_list_lookup_2.
  - intros (e & He & Hk & ->). apply Hin, elem_of_list_In, elem_of_list_lookup in He as [p He].
    rewrite (proj2 (id_tree _ _ _ Hd k p)) by eauto. by rewrite Hheap, He.
Qed.
Lemma record_unique {T : Text} attrs records d e e' : build attrs records = Some d ->
  In (Some e) records -> In (Some e') records -> to_lower (e_dn e) = to_lower (e_dn e') -> e = e'.
Proof.
  intros Hb He He' Hk. pose proof (proj1 (C53_build_iff T attrs records) (ex_intro _ d Hb)) as Hn.
  assert (Hin : forall e, In (Some e) records -> In e (records_of records)).
  { clear. intros e H. unfold records_of. induction records as [|[x|] l IH]; [done| |].
    - cbn [omap list_omap]. destruct H as [H|H]; [left; congruence|right; by apply IH].
    - destruct H as [?|H]; [done|by apply IH]. }
  apply Hin in He, He'. clear -He He' Hk Hn. induction (records_of records) as [|x l IH]; [done|].
  cbn [map] in Hn. apply NoDup_cons in Hn as [Hx Hn].
  assert (Hnot : forall y, In y l -> low_dn y <> low_dn x).
  { intros y Hy Heq. apply Hx. rewrite <- Heq. by apply elem_of_list_In, in_map. }
  destruct He as [->|He], He' as [->|He']; try done.
  - destruct (Hnot e' He'). unfold low_dn. congruence.
  - destruct (Hnot e He). unfold low_dn. congruence.
  - by apply IH.
Qed.
(** Who may bind. *)
Definition ldif_credentials {T : Text} {C : Crypto} (c : ldif_cfg) (local : bool)
    (records : list (option entry)) (dn pw : str) : Prop :=
  (to_lower dn = [] /\ pw = [] /\ lc_anon c = true /\ local = true) \/
  (pw <> [] /\
   ((to_lower dn = [] /\ lc_anon c = true /\ local = true) \/
    (to_lower dn <> [] /\ has_suffix (to_lower dn) (lc_base c) = true)) /\
   exists e h, In (Some e) records /\ to_lower (e_dn e) = to_lower dn /\ ldif_password e h /\ accepts pw h).
Theorem C48_bind_iff (T : Text) (C : Crypto) (W : Wire) (Tr : Trees) (HT : TextOK T) (attrs : list (str * str))
    (records : list (option entry)) (d : dataset) (c : ldif_cfg) (local : bool) (dn pw : str) :
  build attrs records = Some d ->
  (ldif_bind c local dn pw d = (HRet (Success, false), d) <-> ldif_credentials c local records dn pw).
Proof.
  intros Hb. pose proof (tree_get_record attrs records d (to_lower dn) Hb) as Hg.
  set (G := match tree_get d (to_lower dn) with
            | None => HRet ((InvalidCredentials, false) : answer) | Some x => check_password x pw end).
  assert (HG : G = HRet (Success, false) <->
    exists e h, In (Some e) records /\ to_lower (e_dn e) = to_lower dn /\ ldif_password e h /\ accepts pw h).
  { unfold G. destruct (tree_get d (to_lower dn)) as [x|] eqn:Ex.
    - pose proof (proj1 (Hg x) eq_refl) as (e & He & Hk & ->). rewrite (check_password_iff HT). split.
      + intros (h & Hh & Ha). eauto 10.
      + intros (e' & h & He' & Hk' & Hh & Ha). exists h. split; [|done].
        assert (e = e') as -> by (eapply record_unique; eauto; congruence). done.
    - split; [done|]. intros (e & h & He & Hk & _). assert (Hx : tree_get d (to_lower dn) = Some (split_entry e)) by (rewrite Ex; apply Hg; eauto).
      congruence. }
  unfold ldif_bind, bind_dn_ok, ldif_credentials. cbv zeta. unfold G in HG. clear G Hg. revert HG.
  destruct (to_lower dn) as [|y l]; intros HG; cbn [is_empty].
  - destruct (lc_anon c); cbn [andb negb]; [|split; [done|by intros [(_&_&?&_)|(_&[(_&?&_)|(?&_)]&_)]]].
    destruct local; cbn [negb]; [|split; [done|by intros [(_&_&_&?)|(_&[(_&_&?)|(?&_)]&_)]]].
    destruct pw as [|z pw]; cbn [is_empty].
    + split; [auto|done].
    + split.
      * intros H. right. split; [done|]. split; [auto|]. apply HG. by injection H.
      * intros [(_&?&_)|(_&_&H)]; [done|]. apply HG in H. exact (f_equal (fun a => (a, d)) H).
  - destruct (has_suffix (y :: l) (lc_base c)); cbn [negb]; [|split; [done|by intros [(?&_)|(_&[(?&_)|(_&?)]&_)]]].
    destruct pw as [|z pw]; cbn [is_empty].
    + split; [done|by intros [(?&_)|(?&_)]].
    + split.
      * intros H. right. split; [done|]. split; [auto|]. apply HG. by injection H.
      * intros [(?&_)|(_&_&H)]; [done|]. apply HG in H. exact (f_equal (fun a => (a, d)) H).
Qed.
Print Assumptions C48_bind_iff.

(** Without a password attribute, or with one without values, a bind as an
    existing entry panics; the connection loop turns this into an error. *)
Theorem C48_no_stored_password (T : Text) (C : Crypto) (W : Wire) (Tr : Trees) (attrs : list (str * str))
    (records : list (option entry)) (d : dataset) (c : ldif_cfg) (local : bool) (dn pw : str) (e : entry) :
  build attrs records = Some d -> In (Some e) records -> to_lower (e_dn e) = to_lower dn ->
  to_lower dn <> [] -> has_suffix (to_lower dn) (lc_base c) = true -> pw <> [] ->
  (forall h, ~ ldif_password e h) ->
  (ldif_bind c local dn pw d).1 = HPanic.
Proof.
  intros Hb He Hk Hne Hs Hpw Hno. unfold ldif_bind, bind_dn_ok. cbn [fst].
  rewrite (proj2 (is_empty_false (to_lower dn)) Hne), Hs, (proj2 (is_empty_false pw) Hpw). cbn [negb].
  rewrite (proj2 (tree_get_record attrs records d (to_lower dn) Hb (split_entry e))) by eauto.
  unfold check_password, validate_entry. cbn [split_entry l_pw].
  destruct (last _) as [[|h vs]|] eqn:El; [done| |done]. exfalso.
  apply last_filter in El as (l1 & a & l2 & Hl & Ha & Hv & Hx). apply (Hno h). exists l1, a, l2, vs.
  split; [done|]. split; [by apply seqb_eq|]. split; [done|]. intros b Hin. apply seqb_neq. by apply (Hx b Hin).
Qed.
Print Assumptions C48_no_stored_password.
(** What the other binds are answered. *)
Theorem C48_refused (T : Text) (C : Crypto) (W : Wire) (Tr : Trees) (HT : TextOK T) (attrs : list (str * str))
    (records : list (option entry)) (d : dataset) (c : ldif_cfg) (local : bool) (dn pw : str) :
  build attrs records = Some d ->
  let out := (ldif_bind c local dn pw d).1 in
  let allowed := to_lower dn = [] /\ lc_anon c = true /\ local = true \/
                 to_lower dn <> [] /\ exists t, to_lower dn = t ++ lc_base c in
  (~ allowed -> out = HRet (InsufficientAccessRights, false)) /\
  (allowed -> pw = [] -> to_lower dn <> [] -> out = HRet (UnwillingToPerform, false)) /\
  (allowed -> pw <> [] -> (forall e, In (Some e) records -> to_lower (e_dn e) <> to_lower dn) ->
     out = HRet (InvalidCredentials, false)) /\
  (forall e h, allowed -> pw <> [] -> In (Some e) records -> to_lower (e_dn e) = to_lower dn -> ldif_password e h ->
     (~ accepts pw h -> ~ chokes pw h -> out = HRet (InvalidCredentials, false)) /\
     (chokes pw h -> out = HPanic)).
Proof.
  intros Hb out allowed. unfold out, ldif_bind. cbn [fst].
  assert (Ha : bind_dn_ok c local (to_lower dn) = true <-> allowed).
  { unfold bind_dn_ok, allowed. destruct (to_lower dn) as [|y l]; cbn [is_empty].
    - rewrite andb_true_iff. split; [auto|]. by intros [(_&?&?)|[? _]].
    - rewrite has_suffix_spec. split; [auto|]. by intros [[? _]|[_ ?]]. }
  clearbody allowed. split; [|split; [|split]].
  - intros Hn. rewrite <- Ha in Hn. apply not_true_iff_false in Hn. by rewrite Hn.
  - intros Hal -> Hne. apply Ha in Hal. rewrite Hal. cbn [negb is_empty]. by rewrite (proj2 (is_empty_false _) Hne).
  - intros Hal Hpw Hno. apply Ha in Hal. rewrite Hal, (proj2 (is_empty_false pw) Hpw). cbn [negb].
    destruct (tree_get d (to_lower dn)) as [x|] eqn:E; [|done].
    apply (tree_get_record attrs records d (to_lower dn) Hb) in E as (e & He & Hk & _). by destruct (Hno e He).
  - intros e h Hal Hpw He Hk (l1 & a & l2 & vs & Hl & Hn & Hv & Hx). apply Ha in Hal.
    rewrite Hal, (proj2 (is_empty_false pw) Hpw). cbn [negb].
    rewrite (proj2 (tree_get_record attrs records d (to_lower dn) Hb (split_entry e))) by eauto.
    unfold check_password, validate_entry. cbn [split_entry l_pw].
    assert (last (map a_vals (bfilter (fun a => is_userpassword (a_name a)) (e_attrs e))) = Some (h :: vs)) as ->.
    { apply last_filter. exists l1, a, l2. split; [done|]. split; [by apply seqb_eq|]. split; [done|].
      intros x Hin. apply seqb_neq. by apply Hx. }
    split.
    + intros H1 H2. rewrite <- (validate_accepts HT) in H1. rewrite <- (validate_chokes HT) in H2.
      destruct (validate_shape HT pw h) as [?|[E|?]]; [done| |done]. by rewrite E.
    + intros H1. apply (validate_chokes HT) in H1. by rewrite H1.
Qed.
Print Assumptions C48_refused.
(** The overlay goes first: an entry of the overlay hides the one below. *)
Theorem C48_overlay (T : Text) (C : Crypto) (W : Wire) (Tr : Trees) (HT : TextOK T) (attrs : list (str * str))
    (records : list (option entry)) (o d : dataset) (c : ldif_cfg) (base : str) (local : bool) (dn pw : str) :
  build attrs records = Some o ->
  let out := (h_bind (overlay base (ldif_handler c)) local dn pw (o, d)).1 in
  (forall e, pw <> [] -> In (Some e) records -> to_lower (e_dn e) = to_lower dn ->
     (out = HRet (Success, false) <->
      has_suffix (to_lower dn) base = true /\ exists h, ldif_password e h /\ accepts pw h)) /\
  (pw = [] \/ (forall e, In (Some e) records -> to_lower (e_dn e) <> to_lower dn) ->
   out = (ldif_bind c local (to_lower dn) pw d).1).
Proof.
  intros Hb out. unfold out. cbn [h_bind overlay]. unfold overlay_bind. cbn [fst snd].
  pose proof (tree_get_record attrs records o (to_lower dn) Hb) as Hg. split.
  - intros e Hpw He Hk. rewrite (proj2 (is_empty_false pw) Hpw).
    rewrite (proj2 (Hg (split_entry e))) by eauto. cbn [fst].
    destruct (has_suffix (to_lower dn) base); cbn [negb].
    + rewrite (check_password_iff HT). tauto.
    + split; [done|by intros [? _]].
  - intros Hor. assert (Hnext : (let '(a, s') := h_bind (ldif_handler c) local (to_lower dn) pw d in (a, (o, s'))).1 =
      (ldif_bind c local (to_lower dn) pw d).1) by done.
    destruct (is_empty pw) eqn:Ep; [done|]. apply is_empty_false in Ep. destruct Hor as [?|Hor]; [done|].
    destruct (tree_get o (to_lower dn)) as [x|] eqn:Ex; [|done].
    destruct (proj1 (Hg x) eq_refl) as (e & He & Hk & _). by destruct (Hor e He).
Qed.
Print Assumptions C48_overlay.
(** On the wire: success is answered only to a simple bind with such
    credentials. *)
Theorem C48_response (T : Text) (C : Crypto) (W : Wire) (Tr : Trees) (HT : TextOK T) (attrs : list (str * str))
    (records : list (option entry)) (d : dataset) (c : ldif_cfg) (cfg : server_cfg) (ev : renv bool) (bound : str)
    (p : packet) (id : Z) (v : option str) :
  build attrs records = Some d ->
  In (RFinal id BindResponse Success v) (r_out (handle cfg (ldif_handler c) ev bound p d)) ->
  exists dn pw, simple_bind p dn pw /\ ldif_credentials c (re_h ev) records dn pw.
Proof.
  intros Hb H. apply bind_success in H as (dn & pw & s' & Hp & Hs). exists dn, pw. split; [done|].
  apply (C48_bind_iff T C W Tr HT attrs records d c (re_h ev) dn pw Hb).
  cbn [h_bind ldif_handler] in Hs. assert (s' = d) as -> by (by injection Hs). done.
Qed.
Print Assumptions C48_response.
Example C48_case :
  let bind local dn pw := (ldif_bind (T:=ascii_text) (C:=toy) lc1 local (B dn) (B pw) ld1).1 in
  bind false "UID=Dora,ou=people,o=base"%string "pw"%string = HRet (Success, false) /\
  bind false "UID=Dora,ou=people,o=base"%string "old"%string = HRet (InvalidCredentials, false) /\
  bind false "UID=Dora,ou=people,o=base"%string ""%string = HRet (UnwillingToPerform, false) /\
  bind false ""%string ""%string = HRet (InsufficientAccessRights, false) /\
  bind true ""%string ""%string = HRet (Success, false) /\
  bind true "uid=sam,ou=people,o=base"%string "pw"%string = HPanic /\
  r_out (lhandle "" (p_bind 1 "uid=sam,ou=people,o=base" "pw")) = [RFinal 1 BindResponse OperationsError None] /\
  (let o := default ld1 (build (T:=ascii_text) [] [Some (mkEntry (B "uid=dora,ou=people,o=base") [mkAttr (B "userpassword") [B "over"]])]) in
   let bind pw := (h_bind (overlay (T:=ascii_text) (C:=toy) (B "o=base")
     (ldif_handler (T:=ascii_text) (C:=toy) (W:=wire_f (FAnd [])) (Tr:=plain_trees) lc1)) false
     (B "uid=dora,ou=people,o=base") (B pw) (o, ld1)).1 in
   bind "over"%string = HRet (Success, false) /\ bind "pw"%string = HRet (InvalidCredentials, false)).
Proof. repeat split; vm_compute; reflexivity. Qed.

(** * C49 *)
(** A filter whose matches are all found by leaves that stay in the index
    filter: the search returns what a look at every record returns, in some
    order. *)
Definition search_ok {T : Text} (c : ldif_cfg) (local : bool) (bound : str) (r : search_req) : Prop :=
  bind_dn_ok c local (to_lower bound) = true /\ has_suffix (to_lower (sr_base r)) (lc_base c) = true.
(** No record under the base makes filter or scope check fail. *)
Definition decided {T : Text} (es : list entry) (f : flt) (r : search_req) : Prop :=
  Forall (fun e => has_suffix (low_dn e) (to_lower (sr_base r)) = true ->
    exists o, take_entry (filter_packet f) r (public e) = Ok o) es.
Definition complete_for {T : Text} {C : Crypto} {W : Wire} {Tr : Trees} (c : ldif_cfg) (local : bool) (bound : str)
    (r : search_req) (f : flt) (es : list entry) (d : dataset) : Prop :=
  exists l, Permutation l (scan es (sr_base r) (filter_packet f) r) /\
    (ldif_search c local bound r d).1 = HRet (mkFound
      (if (0 <? sr_size r)%Z then take (Nat.max 1 (Z.to_nat (u32 (sr_size r)))) l else l) Success false).
Lemma complete_from {T : Text} {C : Crypto} {W : Wire} {Tr : Trees} (HTr : TreesOK Tr) attrs records d c local bound r f fs :
  build attrs records = Some d -> search_ok c local bound r ->
  compile_filter (sr_filter r) = Some (filter_packet f) -> index_filter (filter_packet f) = Ok fs ->
  decided (records_of records) f r ->
  (forall p e x, records_of records !! p = Some e -> has_suffix (low_dn e) (to_lower (sr_base r)) = true ->
     take_entry (filter_packet f) r (public e) = Ok (Some x) -> p ∈ candidates d (sr_base r) fs) ->
  complete_for c local bound r f (records_of records) d.
Proof.
  intros Hb [Hbind Hbase] Hf Hfs Hdec Hc. pose proof (build_spec attrs records) as Hd. rewrite Hb in Hd.
  exists (omap (sel d (filter_packet f) r) (candidates d (sr_base r) fs)).
  split; [by apply (candidates_complete HTr attrs _ d Hd)|].
  pose proof (judged_all HTr attrs _ d Hd (filter_packet f) r (sr_base r) fs Hdec) as Hj.
  unfold ldif_search, search_checks. cbn [fst]. rewrite Hbind, Hf, Hfs, Hbase. cbn [negb].
  destruct (Z.ltb_spec 0 (sr_size r)).
  - rewrite take_all_limited by (done || lia). by rewrite Nat.sub_0_r.
  - by rewrite take_all_unlimited.
Qed.
Theorem C49_covered (T : Text) (C : Crypto) (W : Wire) (Tr : Trees) (HT : TextOK T) (HTr : TreesOK Tr)
    (attrs : list (str * str)) (records : list (option entry)) (d : dataset) (c : ldif_cfg) (local : bool)
    (bound : str) (r : search_req) (f : flt) (ls : list leaf) (keep : leaf -> bool) :
  build attrs records = Some d -> search_ok c local bound r ->
  compile_filter (sr_filter r) = Some (filter_packet f) -> decided (records_of records) f r ->
  leaves (filter_packet f) = Ok ls -> covered keep f = true ->
  (forall l, In l ls -> keep l = true -> kept ls l = true) ->
  (forall e l, In e (records_of records) -> In l ls -> keep l = true -> cases_agree l (public e)) ->
  complete_for c local bound r f (records_of records) d.
Proof.
  intros Hb Hok Hf Hdec Hl Hc Hk Hca. eapply complete_from; eauto.
  - unfold index_filter. by rewrite Hl.
  - pose proof (build_spec attrs records) as Hd. rewrite Hb in Hd. by eapply covered_complete.
Qed.
Print Assumptions C49_covered.
(** Filters the index cannot be used for are answered by looking at every
    record: those with unusable substrings, and those with a leaf that has no
    index. *)
Theorem C49_unindexed (T : Text) (C : Crypto) (W : Wire) (Tr : Trees) (HTr : TreesOK Tr)
    (attrs : list (str * str)) (records : list (option entry)) (d : dataset) (c : ldif_cfg) (local : bool)
    (bound : str) (r : search_req) (f : flt) :
  build attrs records = Some d -> search_ok c local bound r ->
  compile_filter (sr_filter r) = Some (filter_packet f) -> decided (records_of records) f r ->
  (forall ls, leaves (filter_packet f) = Ok ls ->
     ls = [] \/ exists l, In l (drop_objectclass ls) /\ register_load l (d_index d) = None) ->
  complete_for c local bound r f (records_of records) d.
Proof.
  intros Hb Hok Hf Hdec Hl. pose proof (build_spec attrs records) as Hd. rewrite Hb in Hd.
  assert (Hscan : forall fs, index_filter (filter_packet f) = Ok fs -> fs = [] \/ load_all fs (d_index d) = None ->
    complete_for c local bound r f (records_of records) d).
  { intros fs Hfs Hor. eapply complete_from; eauto. intros p e x He Hs _. by eapply (candidates_scan HTr attrs). }
  unfold index_filter in Hscan. destruct (leaves_calm f) as [[ls Hls]|[e He]].
  - rewrite Hls in Hscan. apply (Hscan (drop_objectclass ls) eq_refl).
    destruct (Hl ls Hls) as [-> | (l & Hin & Hr)]; [left; done|right].
    revert Hin. generalize (drop_objectclass ls). induction l0 as [|g l0 IH]; [done|]. cbn [load_all].
    intros [->|Hin]; [by rewrite Hr|]. rewrite (IH Hin). by destruct (register_load g (d_index d)).
  - rewrite He in Hscan. apply (Hscan [] eq_refl). by left.
Qed.
Print Assumptions C49_unindexed.

(** Entries and leaves in ASCII. *)
Definition ascii_entry (e : entry) : Prop := Forall (fun a => asciis (a_name a) /\ Forall asciis (a_vals a)) (e_attrs e).
Lemma ascii_agree {T : Text} (HT : TextOK T) l e : ascii_entry e -> asciis (lf_attr l) -> asciis (lf_val l) ->
  cases_agree l (public e).
Proof.
  intros He Ha Hv a Hin. cbn [public split_entry l_entry e_attrs] in Hin. apply filter_In in Hin as [Hin _].
  apply (proj1 (List.Forall_forall _ _) He) in Hin as [Hn Hvs]. split.
  - rewrite (eqfold_ascii _ HT) by done. rewrite !(lower_ascii_ok _ HT) by done. apply seqb_eq.
  - intros v Hin. apply (proj1 (List.Forall_forall _ _) Hvs) in Hin.
    rewrite (eqfold_ascii _ HT) by done. rewrite !(lower_ascii_ok _ HT) by done. apply seqb_eq.
Qed.
(** An equality assertion on any attribute. *)
Theorem C49_equality (T : Text) (C : Crypto) (W : Wire) (Tr : Trees) (HT : TextOK T) (HTr : TreesOK Tr)
    (attrs : list (str * str)) (records : list (option entry)) (d : dataset) (c : ldif_cfg) (local : bool)
    (bound : str) (r : search_req) (a v : str) :
  build attrs records = Some d -> search_ok c local bound r ->
  compile_filter (sr_filter r) = Some (filter_packet (FEq a v)) -> decided (records_of records) (FEq a v) r ->
  Forall ascii_entry (records_of records) -> asciis a -> asciis v ->
  complete_for c local bound r (FEq a v) (records_of records) d.
Proof.
  intros Hb Hok Hf Hdec He Ha Hv. eapply (C49_covered T C W Tr HT HTr attrs records d c local bound r (FEq a v) [mkLeaf a LEq v] (fun _ => true)); eauto.
  intros e l Hin Hl _. destruct Hl as [<-|[]]. apply (ascii_agree HT); [|done|done]. by apply (proj1 (List.Forall_forall _ _) He).
Qed.
Print Assumptions C49_equality.
(** A conjunction with an equality or presence assertion on an attribute other
    than objectClass, whatever the other parts. *)
Theorem C49_conjunction (T : Text) (C : Crypto) (W : Wire) (Tr : Trees) (HT : TextOK T) (HTr : TreesOK Tr)
    (attrs : list (str * str)) (records : list (option entry)) (d : dataset) (c : ldif_cfg) (local : bool)
    (bound : str) (r : search_req) (fl : list flt) (a v : str) :
  build attrs records = Some d -> search_ok c local bound r ->
  compile_filter (sr_filter r) = Some (filter_packet (FAnd fl)) -> decided (records_of records) (FAnd fl) r ->
  In (FEq a v) fl \/ In (FPres a) fl -> eqfold (B "objectClass") a = false ->
  Forall ascii_entry (records_of records) -> asciis a -> asciis v ->
  complete_for c local bound r (FAnd fl) (records_of records) d.
Proof.
  intros Hb Hok Hf Hdec Hin Hoc He Ha Hv. destruct (leaves_calm (FAnd fl)) as [[ls Hls]|[e Hle]].
  2:{ eapply (C49_unindexed T C W Tr HTr); eauto. intros ls Hls. congruence. }
  set (keep := fun l : leaf => seqb (lf_attr l) a &&
    match lf_op l with LEq => seqb (lf_val l) v | LPres => is_empty (lf_val l) | LSub _ => false end).
  eapply (C49_covered T C W Tr HT HTr attrs records d c local bound r (FAnd fl) ls keep); eauto.
  - cbn [covered]. apply existsb_exists. destruct Hin as [Hin|Hin]; (eexists; split; [exact Hin|]); cbn [covered];
      unfold keep; cbn [lf_attr lf_op lf_val]; by rewrite !seqb_refl.
  - intros l _ Hk. unfold keep in Hk. apply andb_true_iff in Hk as [Hk _]. apply seqb_eq in Hk.
    unfold kept, is_objectclass. rewrite Hk, Hoc. apply orb_true_r.
  - intros e l Hine _ Hk. unfold keep in Hk. apply andb_true_iff in Hk as [Hk Hk2]. apply seqb_eq in Hk.
    apply (ascii_agree HT); [by apply (proj1 (List.Forall_forall _ _) He)|by rewrite Hk|].
    destruct (lf_op l); [apply seqb_eq in Hk2; by rewrite Hk2|destruct (lf_val l); [constructor|done]|done].
Qed.
Print Assumptions C49_conjunction.
Definition f_and : flt := FAnd [FEq (B "OBJECTCLASS") (B "Person"); FNot (FEq (B "uid") (B "sam")); FPres (B "CN")].
Example C49_case :
  Forall ascii_entry (records_of records1) /\
  decided (T:=ascii_text) (records_of records1) f_and (lreq [] 0) /\
  search_ok (T:=ascii_text) lc1 true [] (lreq [] 0) /\
  dns (find1 f_and (lreq [] 0)) = Some [B "uid=dora,ou=people,o=base"] /\
  index_filter (T:=ascii_text) (filter_packet f_and) = Ok [mkLeaf (B "CN") LPres []].
Proof.
  split; [repeat constructor; apply (bool_decide_unpack _); vm_compute; exact I|].
  split; [|split; [|split]; try (vm_compute; reflexivity)].
  - repeat constructor; intros _; eexists; vm_compute; reflexivity.
  - split; vm_compute; reflexivity.
Qed.

(** Misses: a disjunction with a negation, one with an objectClass assertion,
    and a substring assertion in other case. *)
Definition misses (f : flt) (e : entry) : Prop :=
  decided (T:=ascii_text) (records_of records1) f (lreq [] 0) /\
  In e (scan (T:=ascii_text) (records_of records1) (B "o=base") (filter_packet f) (lreq [] 0)) /\
  exists es, find1 f (lreq [] 0) = HRet (mkFound es Success false) /\ ~ In e es.
Theorem C49_misses_refuted : exists e,
  misses (FOr [FEq (B "uid") (B "nobody"); FNot (FEq (B "uid") (B "nobody"))]) e /\
  misses (FOr [FEq (B "uid") (B "nobody"); FEq (B "objectClass") (B "person")]) e /\
  misses (FSub (B "cn") [(SubInitial, B "dora")]) e /\
  misses (FSub (B "cn") [(SubFinal, B "q")]) e /\
  misses (FAnd [FEq (B "objectClass") (B "person"); FSub (B "cn") [(SubInitial, B "dora")]]) e.
Proof.
  exists (public (T:=ascii_text) e_dora).
  repeat split;
    first [repeat constructor; intros _; eexists; vm_compute; reflexivity
          |vm_compute; tauto
          |eexists; split; [vm_compute; reflexivity|vm_compute; intuition discriminate]].
Qed.
Print Assumptions C49_misses_refuted.

(** A Text in which U+017F (bytes C5 BF, long s) matches "s" under EqualFold and
    folding while ToLower keeps it, as in Go. *)
Fixpoint long_fold (s : str) : str :=
  match s with
  | [] => []
  | c :: s' =>
      match s' with
      | d :: s'' =>
          if (code c =? 197)%N && (code d =? 191)%N then "s"%char :: long_fold s'' else lower_ch c :: long_fold s'
      | [] => [lower_ch c]
      end
  end.
Definition long_text : Text := {|
  fold := long_fold;
  eqfold a b := seqb (long_fold a) (long_fold b);
  to_lower := lower_ascii;
  to_upper := upper_ascii;
  trim_dn := trim_sp;
  trim_val := trim_sp;
  runes s := s;
  hexber _ := None
|}.
Lemma long_fold_cons c s :
  long_fold (c :: s) =
  match s with
  | d :: s'' =>
      if (code c =? 197)%N && (code d =? 191)%N then "s"%char :: long_fold s'' else lower_ch c :: long_fold s
  | [] => [lower_ch c]
  end.
Proof. by destruct s. Qed.
Lemma long_fold_ascii s : asciis s -> long_fold s = lower_ascii s.
Proof.
  intros H. induction H as [|c s Hc Hs IH]; [done|]. destruct s as [|d s]; [done|].
  rewrite long_fold_cons. assert ((code c =? 197)%N = false) as ->.
  { unfold is_ascii in Hc. apply N.ltb_lt in Hc. apply N.eqb_neq. lia. }
  cbn [andb]. rewrite IH. done.
Qed.
Lemma lower_197 c : (code (lower_ch c) =? 197)%N = (code c =? 197)%N.
Proof. apply (eqb_true_iff _ _). revert c. apply ascii_forall. vm_compute. reflexivity. Qed.
Lemma lower_191 c : (code (lower_ch c) =? 191)%N = (code c =? 191)%N.
Proof. apply (eqb_true_iff _ _). revert c. apply ascii_forall. vm_compute. reflexivity. Qed.
Lemma long_fold_head s :
  match long_fold s with
  | [] => s = []
  | x :: _ => exists c r, s = c :: r /\ (x = lower_ch c \/ x = "s"%char)
  end.
Proof.
  destruct s as [|c s]; [done|]. rewrite long_fold_cons.
  destruct s as [|d s]; [by exists c, []; auto|].
  destruct ((code c =? 197)%N && (code d =? 191)%N); exists c, (d :: s); auto.
Qed.
Lemma long_fold_idem s : long_fold (long_fold s) = long_fold s.
Proof.
  remember (length s) as n eqn:Hn. revert s Hn. induction (lt_wf n) as [n _ IH]. intros s Hn.
  destruct s as [|c s]; [done|]. rewrite long_fold_cons.
  destruct s as [|d s]; [by simpl; rewrite lower_ch_idem|].
  destruct ((code c =? 197)%N && (code d =? 191)%N) eqn:E.
  - assert (Hs : long_fold (long_fold s) = long_fold s).
    { eapply IH; [|reflexivity]. simpl in Hn. lia. }
    rewrite long_fold_cons. replace (code "s"%char =? 197)%N with false by reflexivity. cbn [andb].
    destruct (long_fold s) as [|x r] eqn:Ef; [done|]. rewrite Hs. done.
  - assert (Hs : long_fold (long_fold (d :: s)) = long_fold (d :: s)).
    { eapply IH; [|reflexivity]. simpl in Hn. simpl. lia. }
    rewrite long_fold_cons. pose proof (long_fold_head (d :: s)) as Hh.
    destruct (long_fold (d :: s)) as [|x r] eqn:Ef; [by rewrite lower_ch_idem|].
    destruct Hh as (d' & r' & [= <- <-] & Hx).
    assert ((code (lower_ch c) =? 197)%N && (code x =? 191)%N = false) as ->.
    { rewrite lower_197. destruct Hx as [-> | ->].
      - by rewrite lower_191.
      - replace (code "s"%char =? 191)%N with false by reflexivity. apply andb_false_r. }
    rewrite lower_ch_idem. f_equal. done.
Qed.
Lemma long_text_ok : TextOK long_text.
Proof.
  split; simpl; intros; try done.
  - by apply long_fold_ascii.
  - apply long_fold_idem.
  - by rewrite !long_fold_ascii.
  - apply seqb_refl.
  - apply seqb_sym.
  - by destruct s.
  - by apply trim_sp_keeps.
Qed.
(** Outside ASCII even an equality assertion misses entries: the index compares
    lower-cased texts, the filter folded ones. *)
Theorem C49_folding_refuted : exists (T : Text) (records : list (option entry)) (d : dataset) (e : entry) (v : str),
  TextOK T /\ build index_attributes records = Some d /\
  In e (scan (records_of records) (B "o=base") (filter_packet (FEq (B "uid") v)) (lreq [] 0)) /\
  (ldif_search (W:=wire_f (FEq (B "uid") v)) (Tr:=plain_trees) lc1 true [] (lreq [] 0) d).1 =
    HRet (mkFound [] Success false).
Proof.
  set (v := [ascii_of_N 197; ascii_of_N 191]).
  set (e := mkEntry (B "o=base") [mkAttr (B "uid") [v]]).
  exists long_text, [Some e], (default (mkData [] ∅ ∅) (build (T:=long_text) index_attributes [Some e])), e, (B "s").
  split; [exact long_text_ok|]. split; [|split].
  - assert (H : match build (T:=long_text) index_attributes [Some e] with Some _ => true | None => false end = true)
      by (vm_compute; reflexivity).
    by destruct (build (T:=long_text) index_attributes [Some e]).
  - vm_compute. tauto.
  - vm_compute. reflexivity.
Qed.
Print Assumptions C49_folding_refuted.

(** * C58 *)
(** Whatever is returned comes from a record whose lower-cased DN ends in the
    lower-cased base of the request, which ends in the base of the backend; it
    satisfies the filter and the scope. *)
Theorem C58_origin (T : Text) (C : Crypto) (W : Wire) (Tr : Trees) (HTr : TreesOK Tr) (attrs : list (str * str))
    (records : list (option entry)) (d : dataset) (c : ldif_cfg) (local : bool) (bound : str)
    (r : search_req) (f : found) (e : entry) :
  build attrs records = Some d -> (ldif_search c local bound r d).1 = HRet f -> In e (f_entries f) ->
  exists e0 flt, In (Some e0) records /\ has_suffix (to_lower (e_dn e0)) (to_lower (sr_base r)) = true /\
    has_suffix (to_lower (sr_base r)) (lc_base c) = true /\
    compile_filter (sr_filter r) = Some flt /\ apply_filter flt (public e0) = Ok true /\
    filter_scope (sr_base r) (sr_scope r) (public e0) = Ok true /\
    e = select_attributes (sr_attrs r) (public e0).
Proof.
  intros Hb Hs He. pose proof (build_spec attrs records) as Hd. rewrite Hb in Hd.
  apply ldif_search_found in Hs as [[Hf _]|(flt & fs & es & Hck & Ht & ->)]; [by rewrite Hf in He|].
  apply take_all_from in Ht. cbn [f_entries] in He.
  apply (proj1 (List.Forall_forall _ _) Ht) in He as (p & x & Hp & Hx & Hk).
  apply take_entry_some in Hk as (He & Hflt & Hsc).
  apply (candidates_elem HTr attrs _ d Hd) in Hp as (e0 & He0 & Hsuf).
  assert (x = split_entry e0) as ->.
  { rewrite (id_heap _ _ _ Hd) in Hx. pose proof (list_lookup_fmap split_entry (records_of records) p) as Hy.
    rewrite He0 in Hy. change (map split_entry (records_of records) !! p = Some (split_entry e0)) in Hy. congruence. }
  unfold search_checks in Hck. destruct (negb (bind_dn_ok _ _ _)); [done|].
  destruct (compile_filter (sr_filter r)) as [flt'|]; [|done].
  destruct (index_filter flt') as [fs'| | |]; try done.
  destruct (has_suffix (to_lower (sr_base r)) (lc_base c)) eqn:Eb; [|done]. injection Hck as -> ->.
  exists e0, flt. split; [|done].
  apply elem_of_list_lookup_2, elem_of_list_In in He0. clear -He0. unfold records_of in He0.
  induction records as [|[y|] l IH]; [done| |].
  - cbn [omap list_omap] in He0. destruct He0 as [->|He0]; [by left|right; by apply IH].
  - right. by apply IH.
Qed.
Print Assumptions C58_origin.
(** The base is compared as text: an entry that is not under the base is
    returned for it. *)
Definition e_near := mkEntry (B "cn=x,foo=base") [mkAttr (B "cn") [B "x"]].
Theorem C58_suffix_refuted : exists (records : list (option entry)) (d : dataset) (e : entry),
  build (T:=ascii_text) index_attributes records = Some d /\
  (ldif_search (T:=ascii_text) (W:=wire_f (FPres (B "cn"))) (Tr:=plain_trees) lc1 true [] (lreq [] 0) d).1 =
    HRet (mkFound [e] Success false) /\
  (exists de db, parse_dn (T:=ascii_text) (e_dn e) = Some de /\ parse_dn (T:=ascii_text) (B "o=base") = Some db /\
     forall up, fold_dn (T:=ascii_text) de <> up ++ fold_dn (T:=ascii_text) db).
Proof.
  exists [Some e_near], (default (mkData [] ∅ ∅) (build (T:=ascii_text) index_attributes [Some e_near])), e_near.
  split; [|split].
  - assert (H : match build (T:=ascii_text) index_attributes [Some e_near] with Some _ => true | None => false end = true)
      by (vm_compute; reflexivity).
    by destruct (build (T:=ascii_text) index_attributes [Some e_near]).
  - vm_compute. reflexivity.
  - eexists _, _. split; [vm_compute; reflexivity|]. split; [vm_compute; reflexivity|]. intros up H.
    apply (f_equal (fun l => last l)) in H. rewrite last_app in H. vm_compute in H. discriminate.
Qed.
Print Assumptions C58_suffix_refuted.
Example C58_case : find1 (FEq (B "CN") (B "sam")) (lreq ["uid"]%string 0) =
  HRet (mkFound [mkEntry (B "uid=sam,ou=people,o=base") [mkAttr (B "uid") [B "sam"]]] Success false).
Proof. vm_compute. reflexivity. Qed.

(** * C59 *)
(** A size limit cuts the result off without an error; only its low 32 bits
    count, and at least one entry is returned. *)
Theorem C59_size_limit (T : Text) (C : Crypto) (W : Wire) (Tr : Trees) (HTr : TreesOK Tr) (attrs : list (str * str))
    (records : list (option entry)) (d : dataset) (c : ldif_cfg) (local : bool) (bound : str)
    (b : str) (scope : Z) (types : bool) (flt : str) (req : list str) (n : Z) (es : list entry) :
  let r k := mkSearch b scope k types flt req in
  build attrs records = Some d -> (0 < n)%Z ->
  (ldif_search c local bound (r 0%Z) d).1 = HRet (mkFound es Success false) ->
  (ldif_search c local bound (r n) d).1 =
    HRet (mkFound (take (Nat.max 1 (Z.to_nat (n mod 2 ^ 32))) es) Success false).
Proof.
  intros r Hb Hn Hs. pose proof (build_spec attrs records) as Hd. rewrite Hb in Hd.
  unfold ldif_search in *. cbn [fst] in *.
  change (search_checks c local bound (r n)) with (search_checks c local bound (r 0%Z)).
  destruct (search_checks c local bound (r 0%Z)) as [x|[fl fs]] eqn:Eck.
  { exfalso. subst x. unfold search_checks, refused in Eck.
    destruct (negb _); [done|]. destruct (compile_filter _); [|done].
    destruct (index_filter _); [destruct (has_suffix _ _)|..]; done. }
  change (candidates d (sr_base (r n)) fs) with (candidates d (sr_base (r 0%Z)) fs).
  set (ps := candidates d (sr_base (r 0%Z)) fs) in *.
  assert (Hte : forall e, take_entry fl (r n) e = take_entry fl (r 0%Z) e) by done.
  destruct (take_all d fl (r 0%Z) ps 0) as [l|e| |] eqn:Et; try done.
  2:{ destruct e; done. }
  injection Hs as ->. 
  assert (Hj : judged d fl (r 0%Z) ps).
  { clear -Et. revert es Et. generalize 0. induction ps as [|p ps IH]; intros k es Et; [constructor|].
    cbn [take_all] in Et. destruct (d_heap d !! p) as [x|] eqn:Ex; [|done].
    destruct (take_entry fl (r 0%Z) (l_entry x)) as [[e|]| | |] eqn:Ee; try done; cbn [rbind] in Et.
    - change (enough None (sr_size (r 0%Z)) (S k)) with false in Et. cbn iota in Et.
      destruct (take_all d fl (r 0%Z) ps (S k)) as [l| | |] eqn:El; try done.
      constructor; [eauto|]. by eapply IH.
    - constructor; [eauto|]. by eapply IH. }
  rewrite take_all_unlimited in Et by done. injection Et as <-.
  rewrite take_all_limited; [|done|done|lia]. rewrite Nat.sub_0_r. done.
Qed.
Print Assumptions C59_size_limit.
Example C59_case :
  dns (find1 (FPres (B "uid")) (lreq [] 0)) = Some [B "uid=dora,ou=people,o=base"; B "uid=sam,ou=people,o=base"] /\
  dns (find1 (FPres (B "uid")) (lreq [] 1)) = Some [B "uid=dora,ou=people,o=base"] /\
  dns (find1 (FPres (B "uid")) (lreq [] (2 ^ 32))) = Some [B "uid=dora,ou=people,o=base"].
Proof. repeat split; vm_compute; reflexivity. Qed.
