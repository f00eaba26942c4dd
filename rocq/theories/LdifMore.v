(** More lemmas about Ldif.v: completeness of the index and the handlers behind
    the connection loop. *)
From Verif Require Import Bytes Text Dn DnProofs Res Entry EntryProofs Password PasswordProofs Db Packet Filter
  FilterProofs Handler Server ServerProofs Ldif LdifProofs.

(** * The connection loop with any handler *)
Section loop.
Context {T : Text} {C : Crypto} {W : Wire} {S E : Type}.
Variable (cfg : server_cfg) (h : handler S E).

Lemma send_final_in (ev : renv E) k pre r n (s : S) x : In x (r_out (send_final ev k pre r n s)) -> In x pre \/ x = r.
Proof using Type.
  unfold send_final. destruct (re_send ev k); cbn; [|auto]. rewrite in_app_iff. intros [?|[?|[]]]; auto.
Qed.
Lemma send_final_state (ev : renv E) k pre r n (s : S) : r_state (send_final ev k pre r n s) = s.
Proof using Type. unfold send_final. by destruct (re_send ev k). Qed.
(** A successful final response, by kind of request. *)
Lemma success_response (ev : renv E) bound p (s : S) id t v :
  In (RFinal id t Success v) (r_out (handle cfg h ev bound p s)) ->
  exists req, envelope p id req /\
   ((t = AddResponse /\ p_tag req = AddRequest /\ exists e s', handle_add h ev bound req s = (HRet (Success, e), s')) \/
    (t = DelResponse /\ p_tag req = DelRequest /\ exists e s', handle_delete h ev bound req s = (HRet (Success, e), s')) \/
    (t = ModifyResponse /\ p_tag req = ModifyRequest /\ exists e s', handle_modify h ev bound req s = (HRet (Success, e), s')) \/
    (t = ModifyDNResponse /\ p_tag req = ModifyDNRequest /\ exists e s', handle_moddn h ev bound req s = (HRet (Success, e), s')) \/
    (t = ExtendedResponse /\ p_tag req = ExtendedRequest /\ exists s', handle_extended cfg h ev bound req s = (HRet (Success, v), s')) \/
    (t = BindResponse /\ p_tag req = BindRequest /\ exists s', handle_bind h ev req s = (HRet Success, s')) \/
    (t = SearchResultDone /\ p_tag req = SearchRequest)).
Proof using Type.
  intros H. destruct (handle_inv cfg h ev bound p s) as [Hd|[[Hd _]|(id' & req & Henv & Hd & _)]];
    rewrite Hd in H; [done..|]. clear Hd. unfold dispatch in H.
  assert (Hfin : forall t' (r : hout answer * S), In (RFinal id t Success v) (r_out (finish ev id' t' bound r)) ->
    id = id' /\ t = t' /\ exists e s', r = (HRet (Success, e), s')).
  { intros t' r Hin. destruct r as [[[code e]| |] s']; cbn [finish] in Hin; try done.
    apply send_final_in in Hin as [[]|[= -> -> <- _]]. eauto. }
  assert (Hent : forall es, ~ In (RFinal id t Success v) (map (REntry id') es)).
  { intros es Hin. apply in_map_iff in Hin as (e & [=] & _). }
  destruct (p_tag req =? AddRequest)%N eqn:Et1.
  { apply Hfin in H as (-> & -> & H). apply N.eqb_eq in Et1. exists req. split; [done|]. left. done. }
  destruct (p_tag req =? BindRequest)%N eqn:Et2.
  { apply N.eqb_eq in Et2. destruct (handle_bind h ev req s) as [[code| |] s'] eqn:Eb; [|done..].
    destruct (code =? Success)%N eqn:Ec.
    - apply N.eqb_eq in Ec as ->. destruct (p_kids req) as [|x [|y l]]; [done..|].
      destruct (as_str (p_val y)); [|done]. destruct (parse_normalize _); [|done].
      apply send_final_in in H as [[]|[= -> -> _]]. exists req. split; [done|]. do 5 right. left. eauto.
    - apply send_final_in in H as [[]|[= _ _ <- _]]. done. }
  destruct (p_tag req =? CompareRequest)%N; [by apply send_final_in in H as [[]|[=]]|].
  destruct (p_tag req =? DelRequest)%N eqn:Et3.
  { apply Hfin in H as (-> & -> & H). apply N.eqb_eq in Et3. exists req. split; [done|]. right. left. done. }
  destruct (p_tag req =? ExtendedRequest)%N eqn:Et4.
  { apply N.eqb_eq in Et4. destruct (handle_extended cfg h ev bound req s) as [[[code x]| |] s'] eqn:Ee; [|done..].
    apply send_final_in in H as [[]|[= -> -> <- <-]]. exists req. split; [done|]. do 4 right. left. eauto. }
  destruct (p_tag req =? ModifyDNRequest)%N eqn:Et5.
  { apply Hfin in H as (-> & -> & H). apply N.eqb_eq in Et5. exists req. split; [done|]. do 3 right. left. done. }
  destruct (p_tag req =? ModifyRequest)%N eqn:Et6.
  { apply Hfin in H as (-> & -> & H). apply N.eqb_eq in Et6. exists req. split; [done|]. do 2 right. left. done. }
  destruct (p_tag req =? SearchRequest)%N eqn:Et7; [|done]. apply N.eqb_eq in Et7.
  destruct (handle_search cfg h ev bound req s) as [[es [o| |]] s']; [|by destruct (Hent _ H)..].
  apply send_final_in in H as [H|[= -> -> _]]; [by destruct (Hent _ H)|]. exists req. split; [done|]. do 6 right. done.
Qed.
Lemma bind_success (ev : renv E) bound p (s : S) id v :
  In (RFinal id BindResponse Success v) (r_out (handle cfg h ev bound p s)) ->
  exists dn pw s', simple_bind p dn pw /\ h_bind h (re_h ev) dn pw s = (HRet (Success, false), s').
Proof using Type.
  intros H. apply success_response in H as (req & Henv & [(?&_)|[(?&_)|[(?&_)|[(?&_)|[(?&_)|[(_ & Ht & s' & Hb)|(?&_)]]]]]]); try done.
  apply handle_bind_success in Hb as (x & y & a & dn & Hk & Hv & Hdn & Ha & Hb).
  exists dn, (p_data a), s'. split; [|done]. exists id, req, x, y, a. done.
Qed.
(** An entry written to the client comes from the handler's search. *)
Lemma search_loop_in enforce flt r ok es i e : In e (search_loop enforce flt r ok es i).1 ->
  exists e0, In e0 es /\ (e = e0 \/ e = select_attributes (sr_attrs r) e0).
Proof using Type.
  revert i. induction es as [|e0 es IH]; intros i; cbn [search_loop]; [done|].
  assert (Hrec : forall j, In e (search_loop enforce flt r ok es j).1 ->
    exists e1, In e1 (e0 :: es) /\ (e = e1 \/ e = select_attributes (sr_attrs r) e1)).
  { intros j Hj. apply IH in Hj as (e1 & H1 & H2). exists e1. split; [by right|done]. }
  assert (Hsend : forall e', In e (if ok i then let '(l, x) := search_loop enforce flt r ok es (Datatypes.S i) in (e' :: l, x)
      else ([], perr OperationsError)).1 -> e = e' \/ exists e1, In e1 (e0 :: es) /\ (e = e1 \/ e = select_attributes (sr_attrs r) e1)).
  { intros e'. destruct (ok i); [|done]. specialize (Hrec (Datatypes.S i)).
    destruct (search_loop _ _ _ _ _ _) as [l x]. cbn [fst] in *. intros [<-|H]; auto. }
  destruct enforce.
  - destruct (apply_filter flt e0) as [[|]| | |]; try done; [|apply Hrec].
    destruct (filter_scope _ _ _) as [[|]| | |]; try done; [|apply Hrec].
    destruct (_ && _); [done|]. intros H. apply Hsend in H as [->|H]; [|done]. exists e0. split; [by left|auto].
  - intros H. apply Hsend in H as [->|H]; [|done]. exists e0. split; [by left|auto].
Qed.
Lemma entry_response (ev : renv E) bound p (s : S) id e :
  In (REntry id e) (r_out (handle cfg h ev bound p s)) ->
  exists r f s' e0, h_search h (re_h ev) bound r s = (HRet f, s') /\ In e0 (f_entries f) /\
    (e = e0 \/ e = select_attributes (sr_attrs r) e0).
Proof using Type.
  intros H. destruct (handle_inv cfg h ev bound p s) as [Hd|[[Hd _]|(id' & req & Henv & Hd & _)]];
    rewrite Hd in H; [done..|]. clear Hd. unfold dispatch in H.
  assert (Hfin : forall t' (r : hout answer * S), ~ In (REntry id e) (r_out (finish ev id' t' bound r))).
  { intros t' r Hin. destruct r as [[[code x]| |] s']; cbn [finish] in Hin; try done.
    by apply send_final_in in Hin as [[]|[=]]. }
  destruct (p_tag req =? AddRequest)%N; [by destruct (Hfin _ _ H)|].
  destruct (p_tag req =? BindRequest)%N.
  { destruct (handle_bind h ev req s) as [[code| |] s'] eqn:Eb; [|done..].
    destruct (code =? Success)%N; [|by apply send_final_in in H as [[]|[=]]].
    destruct (p_kids req) as [|x [|y l]]; [done..|].
    destruct (as_str (p_val y)); [|done]. destruct (parse_normalize _); [|done]. by apply send_final_in in H as [[]|[=]]. }
  destruct (p_tag req =? CompareRequest)%N; [by apply send_final_in in H as [[]|[=]]|].
  destruct (p_tag req =? DelRequest)%N; [by destruct (Hfin _ _ H)|].
  destruct (p_tag req =? ExtendedRequest)%N.
  { destruct (handle_extended cfg h ev bound req s) as [[[code x]| |] s'] eqn:Ee; [|done..].
    by apply send_final_in in H as [[]|[=]]. }
  destruct (p_tag req =? ModifyDNRequest)%N; [by destruct (Hfin _ _ H)|].
  destruct (p_tag req =? ModifyRequest)%N; [by destruct (Hfin _ _ H)|].
  destruct (p_tag req =? SearchRequest)%N; [|done].
  destruct (handle_search cfg h ev bound req s) as [[es o] s'] eqn:Es.
  assert (Hin : In e es).
  { assert (Hm : In (REntry id e) (map (REntry id') es)).
    { destruct o as [o| |]; [|done..]. by apply send_final_in in H as [H|[=]]. }
    by apply in_map_iff in Hm as (e' & [= _ ->] & Hm). }
  clear H Hfin. unfold handle_search in Es. destruct (parse_search req) as [r| | |]; try (injection Es as <- _ _; done).
  assert (Hrun : forall flt, match h_search h (re_h ev) bound r s with
        | (HRet f, s') =>
            if f_err f then ([], HRet (Some (f_code f)), s')
            else match search_loop (sv_enforce cfg) flt r (re_send ev) (f_entries f) 0 with
                 | (es, Ok _) => (es, HRet None, s')
                 | (es, Err (ELdap code _)) => (es, HRet (Some code), s')
                 | (es, Err _) => (es, HRet (Some OperationsError), s')
                 | (es, Panic) => (es, HPanic, s')
                 | (es, Diverge) => (es, HKill, s')
                 end
        | (HPanic, s') => ([], HPanic, s')
        | (HKill, s') => ([], HKill, s')
        end = (es, o, s') ->
    exists r f s' e0, h_search h (re_h ev) bound r s = (HRet f, s') /\ In e0 (f_entries f) /\
      (e = e0 \/ e = select_attributes (sr_attrs r) e0)).
  { intros flt. destruct (h_search h (re_h ev) bound r s) as [[f| |] s1] eqn:Eh; try (intros [= <- _ _]; done).
    destruct (f_err f); [intros [= <- _ _]; done|].
    pose proof (search_loop_in (sv_enforce cfg) flt r (re_send ev) (f_entries f) 0 e) as Hl.
    intros Hx. assert (Hes : (search_loop (sv_enforce cfg) flt r (re_send ev) (f_entries f) 0).1 = es).
    { clear Hl. destruct (search_loop (sv_enforce cfg) flt r (re_send ev) (f_entries f) 0) as [es' [u|x| |]]; [|destruct x|..]; cbn [fst]; congruence. }
    rewrite Hes in Hl. destruct (Hl Hin) as (e0 & H1 & H2). exists r, f, s1, e0. done. }
  destruct (sv_enforce cfg); [destruct (compile_filter (sr_filter r)) as [flt|]|]; [by apply (Hrun flt)|by injection Es as <- _ _|by eapply Hrun].
Qed.
(** A handler that never changes the state. *)
Definition readonly : Prop :=
  (forall ev b r s, (h_add h ev b r s).2 = s) /\ (forall ev b r s, (h_bind h ev b r s).2 = s) /\
  (forall ev b r s, (h_delete h ev b r s).2 = s) /\ (forall ev b r s, (h_modify h ev b r s).2 = s) /\
  (forall ev b r s, (h_moddn h ev b r s).2 = s) /\ (forall ev b r s, (h_password h ev b r s).2 = s) /\
  (forall ev b r s, (h_search h ev b r s).2 = s).
Lemma readonly_handle (ev : renv E) bound p (s : S) : readonly -> r_state (handle cfg h ev bound p s) = s.
Proof using Type.
  intros (Ha & Hb & Hd & Hm & Hn & Hp & Hs).
  destruct (handle_inv cfg h ev bound p s) as [->|[[-> _]|(id & req & Henv & -> & _)]]; [done..|].
  assert (Hfin : forall t (r : hout answer * S), r.2 = s -> r_state (finish ev id t bound r) = s).
  { intros t [[[code e]| |] s']; cbn [finish snd]; intros ->; [apply send_final_state|done|done]. }
  assert (Hlift : forall A (x : res A) k, (forall a, (k a).2 = s) -> (lift_res x k s).2 = s).
  { intros A [a|[]| |] k Hk; cbn; auto. }
  unfold dispatch. destruct (p_tag req =? AddRequest)%N.
  { apply Hfin. unfold handle_add. destruct (is_empty bound); [done|]. apply Hlift. intros a. apply Ha. }
  destruct (p_tag req =? BindRequest)%N.
  { assert (Hst : (handle_bind h ev req s).2 = s).
    { unfold handle_bind. destruct (p_kids req) as [|v rest]; [done|]. destruct (as_int _); [|done].
      destruct (negb _); [done|]. destruct rest as [|y rest]; [done|]. destruct (as_str _) as [dn|]; [|done].
      destruct rest as [|a rest]; [done|]. destruct (negb _); [done|]. destruct (negb _); [done|].
      specialize (Hb (re_h ev) dn (p_data a) s). by destruct (h_bind _ _ _ _ _) as [[[code [|]]| |] s']. }
    destruct (handle_bind h ev req s) as [[code| |] s']; cbn [snd] in Hst; subst s'; [|done..].
    destruct (code =? Success)%N; [|apply send_final_state].
    destruct (p_kids req) as [|x [|y l]]; [done..|].
    destruct (as_str (p_val y)); [|done]. destruct (parse_normalize _); [|done]. apply send_final_state. }
  destruct (p_tag req =? CompareRequest)%N; [apply send_final_state|].
  destruct (p_tag req =? DelRequest)%N.
  { apply Hfin. unfold handle_delete. destruct (is_empty bound); [done|]. apply Hlift. intros a. apply Hd. }
  destruct (p_tag req =? ExtendedRequest)%N.
  { assert (Hpw : forall body, (handle_pwmod cfg h ev bound body s).2 = s).
    { intros body. unfold handle_pwmod. destruct (is_empty bound); [done|]. destruct (parse_pwmod body) as [r|[]| |]; try done.
      destruct (if is_empty (pw_new r) then _ else _) as [pw| | |]; try done.
      destruct (hash_password _ _ _) as [hash| | |]; try done.
      specialize (Hp (re_h ev) bound (mkPw (if is_empty (pw_user r) then bound else pw_user r) (pw_old r) hash) s).
      destruct (h_password _ _ _ _ _) as [[[code e]| |] s']; cbn [snd] in *; try done. by destruct (code =? Success)%N. }
    assert (Hst : (handle_extended cfg h ev bound req s).2 = s).
    { unfold handle_extended. destruct (parse_extended req) as [[oid body]| | |]; try done.
      destruct (seqb oid pwmod_oid); [|done]. specialize (Hpw body).
      destruct (handle_pwmod _ _ _ _ _ _) as [[[[code e] v]| |] s']; cbn [snd] in *; try done. by destruct (_ && _). }
    destruct (handle_extended cfg h ev bound req s) as [[[code x]| |] s']; cbn [snd] in Hst; subst s'; [|done..].
    apply send_final_state. }
  destruct (p_tag req =? ModifyDNRequest)%N.
  { apply Hfin. unfold handle_moddn. destruct (is_empty bound); [done|]. apply Hlift. intros a. apply Hn. }
  destruct (p_tag req =? ModifyRequest)%N.
  { apply Hfin. unfold handle_modify. destruct (is_empty bound); [done|]. apply Hlift. intros a. apply Hm. }
  destruct (p_tag req =? SearchRequest)%N; [|done].
  assert (Hst : (handle_search cfg h ev bound req s).2 = s).
  { unfold handle_search. destruct (parse_search req) as [r| | |]; try done. specialize (Hs (re_h ev) bound r s).
    destruct (sv_enforce cfg); [destruct (compile_filter _); [|done]|];
      (destruct (h_search _ _ _ _ _) as [[f| |] s']; cbn [snd] in *; try done; destruct (f_err f); [done|];
       by destruct (search_loop _ _ _ _ _ _) as [es' [u|[]| |]]). }
  destruct (handle_search cfg h ev bound req s) as [[es [o| |]] s']; cbn [snd] in Hst; subst s'; [|done..].
  apply send_final_state.
Qed.
Lemma readonly_run w es : readonly -> w_state (run cfg h w es) = w_state w.
Proof using Type.
  intros Hr. revert w. induction es as [|e es IH]; intros w; [done|]. cbn [run]. rewrite IH. unfold step.
  destruct (w_alive w); [|done]. cbn [negb]. destruct e as [c|c ev p|c]; [by destruct (w_conns w !! c)| |done].
  destruct (w_conns w !! c) as [bound|]; [|done]. cbn [fst].
  pose proof (readonly_handle ev bound p (w_state w) Hr) as H. by destruct (r_next _).
Qed.
End loop.

(** * The handlers *)
Section handlers.
Context {T : Text} {C : Crypto} {W : Wire} {Tr : Trees}.
Lemma ldif_readonly c : readonly (ldif_handler c).
Proof using Type. repeat split. Qed.
Lemma overlay_readonly {S E} base (next : handler S E) : readonly next -> readonly (overlay base next).
Proof using Type.
  intros (_ & Hb & _ & _ & _ & _ & Hs). repeat split; intros; cbn [overlay h_bind h_search]; try done.
  - unfold overlay_bind. destruct s as [o s]. cbn [fst snd].
    specialize (Hb ev (to_lower b) r s). destruct (h_bind next ev (to_lower b) r s) as [a s']. cbn [snd] in Hb. subst s'.
    destruct (is_empty r); [done|]. destruct (tree_get o (to_lower b)); done.
  - unfold overlay_search. destruct s as [o s]. cbn [fst snd]. specialize (Hs ev b r s).
    destruct (h_search next ev b r s) as [a s']. cbn [snd] in Hs. by subst s'.
Qed.
End handlers.

(** * Completeness *)
Section complete.
Context {T : Text} {C : Crypto} {W : Wire} {Tr : Trees}.

(** An entry as searches see it: without its password. *)
Definition public (e : entry) : entry := l_entry (split_entry e).
(** What a look at every record would return. *)
Definition scan (es : list entry) (base : str) (flt : packet) (r : search_req) : list entry :=
  omap (fun e => if has_suffix (low_dn e) (to_lower base)
                 then match take_entry flt r (public e) with Ok o => o | _ => None end else None) es.

Lemma omap_same {A B} (f : A -> option B) (l l' : list A) : NoDup l -> NoDup l' ->
  (forall p x, f p = Some x -> (p ∈ l <-> p ∈ l')) -> Permutation (omap f l) (omap f l').
Proof using Type.
  intros Hl Hl' H.
  assert (Hf : forall k : list A, omap f k = omap f (bfilter (fun p => if f p then true else false) k)).
  { induction k as [|p k IH]; [done|]. cbn [omap list_omap]. cbn [List.filter].
    destruct (f p) as [x|] eqn:E; [cbn [omap list_omap]; rewrite E; by f_equal|done]. }
  rewrite (Hf l), (Hf l').
  assert (Hp : Permutation (bfilter (fun p => if f p then true else false) l) (bfilter (fun p => if f p then true else false) l')).
  { apply NoDup_Permutation; [by apply NoDup_ListNoDup, List.NoDup_filter, NoDup_ListNoDup|by apply NoDup_ListNoDup, List.NoDup_filter, NoDup_ListNoDup|].
    intros p. rewrite !elem_of_list_In, !filter_In, <- !elem_of_list_In. destruct (f p) as [x|] eqn:E; [|by split; intros [_ ?]].
    rewrite (H p x E). tauto. }
  clear -Hp. induction Hp as [|p k k' _ IH|p q k|k1 k2 k3 _ IH1 _ IH2]; [done| | |by rewrite IH1].
  - cbn. destruct (f p); [by constructor|done].
  - cbn. destruct (f p), (f q); try done. constructor.
Qed.
Lemma omap_seq {A B} (f : A -> option B) (l : list A) (g : nat -> option B) (k : nat) :
  (forall i x, l !! i = Some x -> g (k + i) = f x) -> omap g (seq k (length l)) = omap f l.
Proof using Type.
  revert k. induction l as [|x l IH]; intros k H; [done|]. cbn [length seq omap list_omap].
  pose proof (H 0 x eq_refl) as H0. rewrite Nat.add_0_r in H0. rewrite H0.
  assert (omap g (seq (S k) (length l)) = omap f l) as Hl.
  { apply IH. intros i y Hy. rewrite <- (H (S i) y Hy). f_equal. lia. }
  destruct (f x); [f_equal|]; exact Hl.
Qed.

Variable (HT : TextOK T) (HTr : TreesOK Tr) (attrs : list (str * str)) (es : list entry) (d : dataset).
Hypothesis (Hd : is_data attrs es d).

Lemma sel_ok flt r p e : es !! p = Some e ->
  sel d flt r p = match take_entry flt r (public e) with Ok o => o | _ => None end.
Proof using Hd.
  intros He. unfold sel. rewrite (id_heap _ _ _ Hd).
  pose proof (list_lookup_fmap split_entry es p) as H. rewrite He in H.
  change (map split_entry es !! p = Some (split_entry e)) in H. rewrite H. done.
Qed.
Lemma candidates_complete base fs flt r :
  (forall p e x, es !! p = Some e -> has_suffix (low_dn e) (to_lower base) = true ->
     take_entry flt r (public e) = Ok (Some x) -> p ∈ candidates d base fs) ->
  Permutation (omap (sel d flt r) (candidates d base fs)) (scan es base flt r).
Proof using Hd HTr.
  intros H. set (g := fun p => if has_suffix (dn_of d p) (to_lower base) then sel d flt r p else None).
  assert (Hg : forall p e, es !! p = Some e -> g p = if has_suffix (low_dn e) (to_lower base)
      then match take_entry flt r (public e) with Ok o => o | _ => None end else None).
  { intros p e He. unfold g. rewrite (dn_of_ok _ _ _ _ _ Hd He), (sel_ok flt r p e He). done. }
  assert (Hc : omap (sel d flt r) (candidates d base fs) = omap g (candidates d base fs)).
  { pose proof (candidates_elem HTr attrs es d Hd base fs) as Hel. revert Hel. generalize (candidates d base fs).
    induction l as [|p l IH]; intros Hel; [done|]. cbn [omap list_omap].
    destruct (Hel p) as (e & He & Hs); [apply elem_of_cons; auto|].
    assert (sel d flt r p = g p) as ->. { by rewrite (Hg p e He), (sel_ok flt r p e He), Hs. }
    assert (omap (sel d flt r) l = omap g l) as Hl. { apply IH. intros q Hq. apply Hel. apply elem_of_cons. auto. }
    destruct (g p); [f_equal|]; exact Hl. }
  rewrite Hc. unfold scan. rewrite <- (omap_seq _ es g 0).
  - apply omap_same.
    + apply (candidates_nodup HTr attrs es d Hd).
    + apply NoDup_ListNoDup, seq_NoDup.
    + intros p x Hx. rewrite elem_of_seq. split.
      * intros Hp. apply (candidates_elem HTr attrs es d Hd) in Hp as (e & He & _). apply lookup_lt_Some in He. lia.
      * intros Hp. destruct (lookup_lt_is_Some_2 es p ltac:(lia)) as [e He]. rewrite (Hg p e He) in Hx.
        destruct (has_suffix (low_dn e) (to_lower base)) eqn:Es; [|done].
        destruct (take_entry flt r (public e)) as [o| | |] eqn:Et; try done. subst o. by eapply H.
  - intros i x Hi. by apply Hg.
Qed.
Lemma judged_all flt r base fs :
  Forall (fun e => has_suffix (low_dn e) (to_lower base) = true -> exists o, take_entry flt r (public e) = Ok o) es ->
  judged d flt r (candidates d base fs).
Proof using Hd HTr.
  intros H. apply Forall_forall. intros p Hp. apply (candidates_elem HTr attrs es d Hd) in Hp as (e & He & Hs).
  rewrite Forall_lookup in H. destruct (H p e He Hs) as [o Ho]. exists (split_entry e), o. split; [|done].
  rewrite (id_heap _ _ _ Hd). pose proof (list_lookup_fmap split_entry es p) as Hx. rewrite He in Hx. exact Hx.
Qed.
Lemma covered_complete (keep : leaf -> bool) base f r ls :
  leaves (filter_packet f) = Ok ls -> covered keep f = true ->
  (forall l, In l ls -> keep l = true -> kept ls l = true) ->
  (forall e l, In e es -> In l ls -> keep l = true -> cases_agree l (public e)) ->
  forall p e x, es !! p = Some e -> has_suffix (low_dn e) (to_lower base) = true ->
    take_entry (filter_packet f) r (public e) = Ok (Some x) -> p ∈ candidates d base (drop_objectclass ls).
Proof using Hd HT HTr.
  intros Hl Hc Hkeep Hca p e x He Hs Ht. apply take_entry_some in Ht as (_ & Ht & _).
  destruct (covered_hits keep f (public e) ls Hl Hc Ht) as (l & Hin & Hk0 & Hh & Hp). pose proof (Hkeep l Hin Hk0) as Hk.
  destruct (load_all (drop_objectclass ls) (d_index d)) as [ps|] eqn:El.
  2:{ eapply (candidates_scan HTr attrs es d Hd); eauto. }
  pose proof (kept_in ls l Hin Hk) as Hkin. unfold candidates. rewrite El.
  destruct (is_empty (drop_objectclass ls)) eqn:Ee; [by destruct (drop_objectclass ls); [apply elem_of_nil in Hkin|]|].
  rewrite uncached_elem. split; [|split; [apply not_elem_of_nil|by rewrite (dn_of_ok _ _ _ _ _ Hd He)]].
  apply (load_all_elem _ _ _ El). destruct (register_load l (d_index d)) as [ql|] eqn:Er.
  - exists l, ql. split; [done|]. split; [done|]. apply (leaf_finds attrs es d Hd HT l p e ql He Hh); [|done|done].
    apply Hca; [|done|done]. apply elem_of_list_In. by eapply elem_of_list_lookup_2.
  - exfalso. revert El Er Hkin. clear. generalize (drop_objectclass ls) as fs. revert ps.
    intros ps fs. revert ps. induction fs as [|g fs IH]; intros ps El Er Hin; [by apply elem_of_nil in Hin|].
    cbn [load_all] in El. destruct (register_load g (d_index d)) eqn:Eg; [|done]. destruct (load_all fs (d_index d)) eqn:Ef; [|done].
    apply elem_of_cons in Hin as [->|Hin]; [congruence|]. by eapply IH.
Qed.
End complete.

(** The filters of clients have no odd leaves. *)
Lemma leaves_calm {T : Text} (f : flt) : (exists ls, leaves (filter_packet f) = Ok ls) \/ (exists e, leaves (filter_packet f) = Err e).
Proof.
  induction f as [l IH|l IH|f IH|a v|a ps|a|t] using flt_ind'.
  1,2: rewrite ?leaves_and, ?leaves_or; induction IH as [|f l Hf _ IH]; [left; by eexists|]; cbn [map leaves_all];
    destruct Hf as [[x ->]|[e ->]]; cbn [rbind]; [|right; by eexists];
    fold (leaves_all (map filter_packet l)); destruct IH as [[y ->]|[e ->]]; cbn [rbind]; [left|right]; by eexists.
  - left. by eexists.
  - left. by eexists.
  - cbn [filter_packet]. destruct ps as [|[t v] [|? ?]]; [right; by eexists| |right; by eexists].
    left. cbn. destruct (_ || _); by eexists.
  - left. by eexists.
  - left. destruct t as [[] ? ?|]; by eexists.
Qed.

(** * Parsers never fail with the code of success *)
Section honest.
Context {T : Text} {W : Wire}.
Definition honest {A} (r : res A) : Prop := forall code i, r = Err (ELdap code i) -> code <> Success.
Lemma honest_ok {A} (a : A) : honest (Ok a).
Proof using Type. done. Qed.
Lemma honest_panic {A} : honest (@Panic A).
Proof using Type. done. Qed.
Lemma honest_perr {A} c : c <> Success -> honest (@perr A c).
Proof using Type. by intros H code i [= <- _]. Qed.
Lemma honest_bind {A B} (r : res A) (k : A -> res B) : honest r -> (forall a, honest (k a)) -> honest (rbind r k).
Proof using Type.
  intros Hr Hk. destruct r as [a|e| |]; cbn [rbind]; [apply Hk| |done|done]. intros code i Hx. apply (Hr code i). congruence.
Qed.
Lemma honest_opt {A} c (o : option A) : c <> Success -> honest (opt c o).
Proof using Type. destruct o; [intros _; apply honest_ok|apply honest_perr]. Qed.
Ltac hon := repeat first
  [ apply honest_ok | apply honest_panic | (apply honest_perr; done) | (apply honest_opt; done)
  | assumption | match goal with |- honest (rbind _ _) => apply honest_bind; [|intros ?] end
  | match goal with |- honest (match ?x with _ => _ end) => destruct x end ].
Lemma honest_dn p : honest (parse_dn_field p).
Proof using Type. unfold parse_dn_field, check_dn. hon. Qed.
Lemma honest_vals l : honest (parse_vals l).
Proof using Type. induction l as [|p l IH]; cbn [parse_vals]; hon. Qed.
Lemma honest_attribute b p : honest (parse_attribute b p).
Proof using Type.
  unfold parse_attribute, parse_attr_type, parse_attr_values. hon; apply honest_vals.
Qed.
Lemma honest_attrs l : honest (parse_attrs l).
Proof using Type. induction l as [|p l IH]; cbn [parse_attrs]; [hon|]. apply honest_bind; [apply honest_attribute|intros a]. hon. Qed.
Lemma honest_changes l : honest (parse_changes l).
Proof using Type.
  induction l as [|p l IH]; cbn [parse_changes]; [hon|]. apply honest_bind; [|intros a; hon].
  unfold parse_change, parse_change_op. hon. apply honest_attribute.
Qed.
Lemma honest_add p : honest (parse_add p).
Proof using Type.
  unfold parse_add, parse_attr_list. hon; try apply honest_dn; apply honest_attrs.
Qed.
Lemma honest_delete p : honest (parse_delete p).
Proof using Type. unfold parse_delete, check_dn. hon. Qed.
Lemma honest_modify p : honest (parse_modify p).
Proof using Type. unfold parse_modify, parse_mod_list. hon; try apply honest_dn; apply honest_changes. Qed.
Lemma honest_moddn p : honest (parse_moddn p).
Proof using Type. unfold parse_moddn. hon; apply honest_dn. Qed.
Lemma honest_pwmod b : honest (parse_pwmod b).
Proof using Type.
  assert (H : forall l r, honest (parse_pw_fields l r)).
  { induction l as [|p l IH]; intros r; cbn [parse_pw_fields]; [hon|]. hon; apply IH. }
  unfold parse_pwmod. hon. apply H.
Qed.
End honest.

(** * A backend that refuses all writes *)
Section refusing.
Context {T : Text} {C : Crypto} {W : Wire} {S E : Type}.
Variable (cfg : server_cfg) (h : handler S E).
Definition refusing : Prop :=
  (forall ev b r s, (h_add h ev b r s).1 = HRet (UnwillingToPerform, true)) /\
  (forall ev b r s, (h_delete h ev b r s).1 = HRet (UnwillingToPerform, true)) /\
  (forall ev b r s, (h_modify h ev b r s).1 = HRet (UnwillingToPerform, true)) /\
  (forall ev b r s, (h_moddn h ev b r s).1 = HRet (UnwillingToPerform, true)) /\
  (forall ev b r s, (h_password h ev b r s).1 = HRet (UnwillingToPerform, true)).
Lemma lift_refused {A} (x : res A) k e (s s' : S) : (forall a, (k a).1 = HRet (UnwillingToPerform, true)) ->
  honest x -> lift_res x k s <> (HRet (Success, e), s').
Proof using Type.
  intros Hk Hx. destruct x as [a|y| |]; cbn; try done.
  - intros Heq. specialize (Hk a). rewrite Heq in Hk. done.
  - destruct y; try done. intros [= -> _ _]. by eapply Hx.
Qed.
Lemma refusing_success (ev : renv E) bound p (s : S) id t v : refusing ->
  In (RFinal id t Success v) (r_out (handle cfg h ev bound p s)) -> t = BindResponse \/ t = SearchResultDone.
Proof using Type.
  intros (H1 & H2 & H3 & H4 & H5) H. apply success_response in H as (req & _ & H).
  destruct H as [(_ & _ & e & s' & H)|[(_ & _ & e & s' & H)|[(_ & _ & e & s' & H)|[(_ & _ & e & s' & H)|[(_ & _ & s' & H)|[(? & _)|(? & _)]]]]]];
    [exfalso..|auto|auto].
  - unfold handle_add in H. destruct (is_empty bound); [done|]. revert H. apply lift_refused; [intros a; apply H1|apply honest_add].
  - unfold handle_delete in H. destruct (is_empty bound); [done|]. revert H. apply lift_refused; [intros a; apply H2|apply honest_delete].
  - unfold handle_modify in H. destruct (is_empty bound); [done|]. revert H. apply lift_refused; [intros a; apply H3|apply honest_modify].
  - unfold handle_moddn in H. destruct (is_empty bound); [done|]. revert H. apply lift_refused; [intros a; apply H4|apply honest_moddn].
  - unfold handle_extended in H. destruct (parse_extended req) as [[oid body]| | |]; try done.
    destruct (seqb oid pwmod_oid); [|done].
    assert (Hpw : forall err v s1, handle_pwmod cfg h ev bound body s <> (HRet ((Success, err), v), s1)).
    { intros err w s1. unfold handle_pwmod. destruct (is_empty bound); [done|].
      destruct (parse_pwmod body) as [r|y| |] eqn:Ep; try done.
      - destruct (if is_empty (pw_new r) then _ else _) as [pw| | |]; try done.
        destruct (hash_password _ _ _) as [hash| | |]; try done.
        specialize (H5 (re_h ev) bound (mkPw (if is_empty (pw_user r) then bound else pw_user r) (pw_old r) hash) s).
        destruct (h_password _ _ _ _ _) as [[[code e]| |] s2]; cbn [fst] in H5; try done. injection H5 as -> ->. done.
      - destruct y; try done. intros [= -> _ _ _]. by apply (honest_pwmod body _ _ Ep). }
    destruct (handle_pwmod cfg h ev bound body s) as [[[[code e] w]| |] s2]; try done.
    destruct (_ && _); [done|]. injection H as -> _ _. by eapply Hpw.
Qed.
End refusing.
