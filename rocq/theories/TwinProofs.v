(** Two databases with the same directory, served side by side. *)
From Verif Require Import Bytes Text Dn DnProofs Res Entry EntryProofs Password PasswordProofs P_Password
  Db DbSpec IdProofs DbProofs DbOps DbSearch DbFacts DbMore P_Db
  Packet Filter FilterProofs P_Filter Handler Server ServerProofs CrashProofs P_Server
  Encode EncodeProofs E2e E2eProofs P_E2e.

(** What two clients may get for the same request: the same messages, but for
    the order of the entries of a search; when a search ends early the entries
    sent are equally many, of the same entries in different orders. *)
Inductive alike : list response -> list response -> Prop :=
| alike_same l : alike l l
| alike_search id es1 es2 n code : es1 ≡ₚ es2 -> (code = 0%N -> length es1 <= n) ->
    alike (map (REntry id) (take n es1) ++ [RFinal id SearchResultDone code None])
          (map (REntry id) (take n es2) ++ [RFinal id SearchResultDone code None])
| alike_broken id es1 es2 n : es1 ≡ₚ es2 ->
    alike (map (REntry id) (take n es1)) (map (REntry id) (take n es2)).

Section twin.
Context {T : Text} {C : Crypto} {W : Wire} (HT : TextOK T).

(** A database made by at most [n] operations. *)
Definition made (b : dn) (n : nat) (d : db) : Prop :=
  exists h, Forall (fun p : env * op => op_ok p.2) h /\ length h <= n /\ d = run_ops (normalize b) h empty_db.
(** Two such databases with the same directory. *)
Definition same_dir (b : dn) (n : nat) (d1 d2 : db) : Prop :=
  made b n d1 /\ made b n d2 /\ exists m, represents d1 m /\ represents d2 m.
(** A search none of whose candidates makes the filter or the scope check fail
    (C39, C42 say which do), and whose base is a proper name. *)
Definition fair (cfg : server_cfg) (m : dir) (p : packet) : Prop :=
  forall id req r, envelope p id req -> p_tag req = SearchRequest -> says_search req r ->
    dn_text_ok (sr_base r) /\
    (sv_enforce cfg = true -> forall flt dd k e, compile_filter (sr_filter r) = Some flt ->
       parse_dn (sr_base r) = Some dd -> m !! k = Some e -> in_scope (sr_scope r) (fold_dn dd) k = true ->
       exists keep, judged flt r e keep).

Lemma made_mono b n d : made b n d -> made b (S n) d.
Proof using Type. intros (h & ? & ? & ->). exists h. split; [done|]. split; [lia|done]. Qed.
Lemma made_reachable b n d : (N.of_nat n + 1 < 2 ^ 64)%N -> made b n d -> reachable b d.
Proof using Type. intros Hn (h & ? & ? & ->). exists h. split; [done|]. split; [lia|done]. Qed.
Lemma made_op b n d ev o : made b n d -> op_ok o -> made b (S n) (run_op (normalize b) ev o d).2.
Proof using Type.
  intros (h & Hh & Hl & ->) Ho. exists (h ++ [(ev, o)]). split; [apply Forall_app; split; [done|]; by constructor|].
  split; [rewrite app_length; cbn; lia|]. by rewrite run_ops_app.
Qed.
Lemma same_mono b n d1 d2 : same_dir b n d1 d2 -> same_dir b (S n) d1 d2.
Proof using Type. intros (H1 & H2 & H3). split; [by apply made_mono|]. split; [by apply made_mono|done]. Qed.

Context (b : dn) (Hb : base_ok b) (n : nat) (Hn : (N.of_nat n + 1 < 2 ^ 64)%N).
Context (c : bolt_cfg) (Hc : bc_base c = normalize b).
Context (d1 d2 : db) (Hd : same_dir b n d1 d2).

(** The same outcome, the same directory after. *)
Definition both {A} (x1 x2 : hout A * db) : Prop := x1.1 = x2.1 /\ same_dir b (S n) x1.2 x2.2.
Lemma both_idle {A} (x : hout A) : both (x, d1) (x, d2).
Proof using Hd. split; [done|]. by apply same_mono. Qed.

Lemma write_both o tr : op_ok o -> both (bolt_write c no_faults o tr d1) (bolt_write c no_faults o tr d2).
Proof using HT Hb Hn Hc Hd.
  intros Ho. destruct Hd as (H1 & H2 & m & M1 & M2).
  pose proof (C13_database_refines_directory T C HT b d1 m o Hb (made_reachable _ _ _ Hn H1) M1 Ho) as R1.
  pose proof (C13_database_refines_directory T C HT b d2 m o Hb (made_reachable _ _ _ Hn H2) M2 Ho) as R2.
  pose proof (made_op b n d1 no_faults o H1 Ho) as K1. pose proof (made_op b n d2 no_faults o H2 Ho) as K2.
  unfold both, bolt_write. rewrite Hc.
  destruct (spec_op b o m) as [m'|e| |]; [| | |done].
  - destruct R1 as (e1 & E1 & R1), R2 as (e2 & E2 & R2). rewrite E1 in *. rewrite E2 in *. cbn in *.
    split; [done|]. split; [done|]. split; [done|]. by exists m'.
  - rewrite R1 in *. rewrite R2 in *. cbn in *. split; [done|]. split; [done|]. split; [done|]. by exists m.
  - rewrite R1 in *. rewrite R2 in *. cbn in *. split; [done|]. split; [done|]. split; [done|]. by exists m.
Qed.

(** Searches find the same entries. *)
Lemma search_both s scope : dn_text_ok s -> scope_ok scope ->
  exists es1 es2 x, search d1 s scope = Ok (es1, x) /\ search d2 s scope = Ok (es2, x) /\ es1 ≡ₚ es2 /\
    forall m, represents d1 m ->
      Forall (fun e => exists dd k, parse_dn s = Some dd /\ m !! k = Some e /\ in_scope scope (fold_dn dd) k = true) es1.
Proof using HT Hb Hn Hd.
  intros Ht Hsc. destruct Hd as (H1 & H2 & m & M1 & M2).
  destruct (reach_sim HT b d1 m Hb (made_reachable _ _ _ Hn H1) M1) as [_ (g1 & G1 & E1)].
  destruct (reach_sim HT b d2 m Hb (made_reachable _ _ _ Hn H2) M2) as [_ (g2 & G2 & E2)].
  destruct (parse_dn s) as [dd|] eqn:Ep.
  2: { exists [], [], (Some EParse). unfold search, parse_normalize. rewrite Ep. by repeat split. }
  pose proof (Ht dd Ep) as Hwf.
  pose proof (search_spec HT b d1 g1 s dd scope Hb G1 Ep Hwf Hsc) as S1.
  pose proof (search_spec HT b d2 g2 s dd scope Hb G2 Ep Hwf Hsc) as S2. rewrite <- E1 in S1. rewrite <- E2 in S2.
  destruct (m !! fold_dn dd) as [e|].
  - destruct S1 as (es1 & -> & P1), S2 as (es2 & -> & P2). exists es1, es2, None. split; [done|]. split; [done|].
    split; [by rewrite P1, P2|]. intros m' Hm'. rewrite (represents_unique HT d1 m' m Hm' M1).
    apply List.Forall_forall. intros e' He'.
    apply (Permutation_in _ P1) in He'. apply in_map_iff in He' as ([k e''] & <- & Hin). apply filter_In in Hin as [Hin Hs].
    apply elem_of_list_In, elem_of_map_to_list in Hin. by exists dd, k.
  - exists [], [], (Some ENotFound). by repeat split.
Qed.
Lemma search_other d s scope : made b n d -> dn_text_ok s -> ~ scope_ok scope -> exists x, search d s scope = Ok ([], x).
Proof using HT Hb Hn.
  intros Hm Ht Hsc. pose proof (made_reachable _ _ _ Hn Hm) as Hr. destruct (reachable_sim HT b d Hb Hr) as [_ [g Hg]].
  unfold search, parse_normalize. destruct (parse_dn s) as [dd|] eqn:Ep; [|by eexists]. cbn [fmap option_fmap option_map].
  pose proof (Ht dd Ep) as Hwf. rewrite normalize_flat by done.
  rewrite (sim_get_id _ _ _ _ Hg) by by apply (fold_dn_wf HT). cbn [rbind].
  assert ((scope =? ScopeBase)%Z = false) as -> by (apply Z.eqb_neq; intros ->; apply Hsc; by left).
  assert ((scope =? ScopeOne)%Z = false) as -> by (apply Z.eqb_neq; intros ->; apply Hsc; by right; left).
  assert ((scope =? ScopeSub)%Z = false) as -> by (apply Z.eqb_neq; intros ->; apply Hsc; by right; right).
  destruct (_ =? 0)%N; by eexists.
Qed.

Lemma bind_both ev dn pw : (forall x, parse_normalize dn = Some x -> dn_text_ok x) -> both (bolt_bind c ev dn pw d1) (bolt_bind c ev dn pw d2).
Proof using HT Hb Hn Hd.
  intros Ht. split; [|by apply same_mono]. unfold bolt_bind. cbn [fst].
  assert (Hv : forall x, parse_normalize dn = Some x -> bolt_validate x pw d1 = bolt_validate x pw d2).
  { intros x Hx. unfold bolt_validate. destruct (search_both x ScopeBase (Ht x Hx) (or_introl eq_refl)) as (es1 & es2 & y & -> & -> & P & _).
    destruct es1 as [|e1 [|e1' es1]].
    - apply Permutation_nil in P as ->. done.
    - apply Permutation_length_1_inv in P as ->. done.
    - destruct es2 as [|e2 [|e2' es2]]; [by apply Permutation_length in P|by apply Permutation_length in P|done]. }
  destruct (parse_normalize dn) as [x|] eqn:E; [|done]. rewrite (Hv x eq_refl). done.
Qed.

(** The loop over the entries sees of the list only which entries it keeps, and
    stops after a number of them that depends on how many there are. *)
Fixpoint cut (limit : Z) (ok : nat -> bool) (k i : nat) : nat * res unit :=
  match k with
  | 0 => (0, Ok tt)
  | S k' =>
      if (0 <? limit)%Z && (limit <=? Z.of_nat i)%Z then (0, perr SizeLimitExceeded)
      else if ok i then let '(m, x) := cut limit ok k' (S i) in (S m, x) else (0, perr OperationsError)
  end.
Lemma cut_ok limit ok k : forall i, (cut limit ok k i).2 = Ok tt -> (cut limit ok k i).1 = k.
Proof using Type.
  induction k as [|k IH]; intros i; [done|]. cbn [cut]. destruct (_ && _); [done|]. destruct (ok i); [|done].
  specialize (IH (S i)). destruct (cut limit ok k (S i)). cbn in *. intros H. by rewrite IH.
Qed.
Lemma cut_le limit ok k : forall i, (cut limit ok k i).1 <= k.
Proof using Type.
  induction k as [|k IH]; intros i; [done|]. cbn [cut]. destruct (_ && _); [apply Nat.le_0_l|]. destruct (ok i); [|apply Nat.le_0_l].
  specialize (IH (S i)). destruct (cut limit ok k (S i)). cbn in *. by apply le_n_S.
Qed.
Lemma cut_code limit ok k : forall i, (cut limit ok k i).2 = Ok tt \/ exists code, (cut limit ok k i).2 = Err (ELdap code true) /\ code <> 0%N.
Proof using Type.
  induction k as [|k IH]; intros i; [by left|]. cbn [cut]. destruct (_ && _); [right; eexists; by split|].
  destruct (ok i); [|right; eexists; by split]. specialize (IH (S i)). by destruct (cut limit ok k (S i)).
Qed.
Definition keeps (flt : packet) (r : search_req) (e : entry) : bool :=
  match apply_filter flt e with
  | Ok true => match filter_scope (sr_base r) (sr_scope r) e with Ok x => x | _ => false end
  | _ => false
  end.
Lemma loop_cut flt r ok es : Forall (fun e => exists keep, judged flt r e keep) es -> forall i,
  search_loop true flt r ok es i =
  (map (select_attributes (sr_attrs r)) (take (cut (sr_size r) ok (length (bfilter (keeps flt r) es)) i).1 (bfilter (keeps flt r) es)),
   (cut (sr_size r) ok (length (bfilter (keeps flt r) es)) i).2).
Proof using Type.
  induction 1 as [|e es [keep Hk] _ IH]; intros i; [done|]. cbn [search_loop List.filter].
  assert (Hke : keeps flt r e = keep) by (unfold keeps; by destruct Hk as [[-> ->]|[-> ->]]). rewrite Hke.
  destruct Hk as [[-> ->]|[-> ->]]; [apply IH|]. destruct keep; [|apply IH].
  cbn [length cut]. destruct (_ && _); [done|]. destruct (ok i); [|done]. rewrite IH.
  by destruct (cut (sr_size r) ok _ (S i)).
Qed.
Lemma loop_cut_off flt r ok es : forall i,
  search_loop false flt r ok es i = (take (cut 0 ok (length es) i).1 es, (cut 0 ok (length es) i).2).
Proof using Type.
  induction es as [|e es IH]; intros i; [done|]. cbn [search_loop length cut Z.ltb Z.compare andb].
  destruct (ok i); [|done]. rewrite IH. by destruct (cut 0 ok _ (S i)).
Qed.

(** * One message *)
Definition twins (r1 r2 : result) : Prop :=
  r_next r1 = r_next r2 /\ alike (r_out r1) (r_out r2) /\ same_dir b (S n) (r_state r1) (r_state r2).
Lemma final_twins (ev : renv env) k r x s1 s2 : same_dir b (S n) s1 s2 ->
  twins (send_final ev k [] r x s1) (send_final ev k [] r x s2).
Proof using Type. intros H. unfold send_final. by destruct (re_send ev k); (split; [done|]); (split; [constructor|]). Qed.
Lemma finish_twins (ev : renv env) id tag bound x1 x2 : both x1 x2 ->
  twins (finish ev id tag bound x1) (finish ev id tag bound x2).
Proof using Type.
  destruct x1 as [a1 s1], x2 as [a2 s2]. intros [E H]. cbn in E, H. subst a2.
  destruct a1 as [[code e]| |]; cbn [finish]; [by apply final_twins|..]; (split; [done|]); (split; [constructor|done]).
Qed.
Lemma lift_both {A} (r : res A) (k1 k2 : A -> hout answer * db) :
  (forall a, r = Ok a -> both (k1 a) (k2 a)) -> both (lift_res r k1 d1) (lift_res r k2 d2).
Proof using Hd.
  intros H. destruct r as [a|e| |]; cbn [lift_res]; [by apply H| |apply both_idle..].
  destruct e; apply both_idle.
Qed.

Lemma handle_twins cfg (ev : renv env) bound p :
  re_h ev = no_faults -> dn_text_ok bound -> clean p -> (forall m, represents d1 m -> fair cfg m p) ->
  twins (handle cfg (bolt_handler c) ev bound p d1) (handle cfg (bolt_handler c) ev bound p d2).
Proof using HT Hb Hn Hc Hd.
  intros Hev Hbd [Hops Hbind] Hfair.
  assert (Hidle : forall (l : list response) x, twins (mkResult l x d1) (mkResult l x d2)).
  { intros l x. split; [done|]. split; [constructor|]. by apply same_mono. }
  unfold handle. destruct (p_kids p) as [|i [|req rest]] eqn:Ek; [apply Hidle..|].
  destruct (as_int (p_val i)) as [id|] eqn:Ei; [|apply Hidle]. apply as_int_inv in Ei.
  destruct (N.eqb_spec (p_cls req) ClassApplication) as [Ecl|]; [|apply Hidle]. cbn [negb].
  destruct (match rest with [] => true | c0 :: _ => decode_controls (p_kids c0) end); [|apply Hidle].
  assert (Henv : envelope p id req) by (exists i, rest; done).
  assert (Hask : forall o, says_write req o -> op_ok o).
  { intros o Ho. apply (Hops bound); [done|]. exists i, req, rest, id. auto. }
  assert (Hw : forall A (r : res A) (mk : A -> op) tr,
    (forall a, r = Ok a -> says_write req (mk a)) ->
    both (lift_res r (fun a => if write_allowed c bound then bolt_write c (re_h ev) (mk a) tr d1 else (HRet (InsufficientAccessRights, false), d1)) d1)
         (lift_res r (fun a => if write_allowed c bound then bolt_write c (re_h ev) (mk a) tr d2 else (HRet (InsufficientAccessRights, false), d2)) d2)).
  { intros A r mk tr Hr. apply lift_both. intros a Ha. destruct (write_allowed c bound); [|apply both_idle].
    rewrite Hev. apply write_both. apply Hask. by apply Hr. }
  unfold dispatch.
  destruct (N.eqb_spec (p_tag req) AddRequest) as [Et|_].
  { unfold handle_add. apply finish_twins. destruct (is_empty bound); [apply both_idle|].
    apply (Hw add_req (parse_add req) (fun r => OpPut (entry_from_add r))).
    intros a Ha. split; [done|]. left. split; [done|]. exists a. split; [by apply add_iff|done]. }
  destruct (N.eqb_spec (p_tag req) BindRequest) as [Et|_].
  { assert (Hbb : (handle_bind (bolt_handler c) ev req d1).1 = (handle_bind (bolt_handler c) ev req d2).1 /\
      (handle_bind (bolt_handler c) ev req d1).2 = d1 /\ (handle_bind (bolt_handler c) ev req d2).2 = d2).
    { unfold handle_bind. destruct (p_kids req) as [|v rs] eqn:Er; [done|].
      destruct (as_int (p_val v)) as [z|] eqn:Ev; [|done]. apply as_int_inv in Ev.
      destruct (Z.eqb_spec z 3) as [->|]; [|done]. cbn [negb].
      destruct rs as [|x rs]; [done|]. destruct (as_str (p_val x)) as [dn|] eqn:Ex; [|done]. apply as_str_inv in Ex.
      destruct rs as [|a rs]; [done|]. destruct (N.eqb_spec (p_tag a) 0) as [Ea|]; [|done]. cbn [negb].
      destruct rs as [|? ?]; [|done]. cbn [is_empty negb].
      assert (Hsb : simple_bind p dn (p_data a)) by (exists id, req, v, x, a; done).
      cbn [h_bind bolt_handler].
      destruct (bind_both (re_h ev) dn (p_data a)) as [Hx _]; [by intros y Hy; eapply Hbind|].
      assert (H1 : (bolt_bind c (re_h ev) dn (p_data a) d1).2 = d1) by done.
      assert (H2 : (bolt_bind c (re_h ev) dn (p_data a) d2).2 = d2) by done.
      destruct (bolt_bind c (re_h ev) dn (p_data a) d1) as [x1 s1], (bolt_bind c (re_h ev) dn (p_data a) d2) as [x2 s2].
      cbn in Hx, H1, H2. subst. by destruct x2 as [[code [|]]| |]. }
    destruct (handle_bind (bolt_handler c) ev req d1) as [x1 s1], (handle_bind (bolt_handler c) ev req d2) as [x2 s2].
    cbn in Hbb. destruct Hbb as (-> & -> & ->).
    assert (Hs : same_dir b (S n) d1 d2) by by apply same_mono.
    destruct x2 as [code| |]; [|apply Hidle..].
    destruct (code =? Success)%N; [|by apply final_twins].
    destruct (p_kids req) as [|v [|x rs]]; [apply Hidle..|]. destruct (as_str (p_val x)) as [dn|]; [|apply Hidle].
    destruct (parse_normalize dn); [by apply final_twins|apply Hidle]. }
  destruct (p_tag req =? CompareRequest)%N; [apply final_twins; by apply same_mono|].
  destruct (N.eqb_spec (p_tag req) DelRequest) as [Et|_].
  { unfold handle_delete. apply finish_twins. destruct (is_empty bound); [apply both_idle|].
    apply (Hw str (parse_delete req) OpDelete).
    intros a Ha. split; [done|]. right; left. split; [done|]. exists a. split; [by apply delete_iff|done]. }
  destruct (N.eqb_spec (p_tag req) ExtendedRequest) as [Et|_].
  { assert (Hx : both (handle_extended cfg (bolt_handler c) ev bound req d1) (handle_extended cfg (bolt_handler c) ev bound req d2)).
    { unfold handle_extended. destruct (parse_extended req) as [[oid body]|e| |] eqn:Ep; [|apply both_idle..].
      destruct (seqb oid pwmod_oid) eqn:Eo; [|apply both_idle]. apply seqb_eq in Eo as ->.
      assert (Hpw : both (handle_pwmod cfg (bolt_handler c) ev bound body d1) (handle_pwmod cfg (bolt_handler c) ev bound body d2)).
      { unfold handle_pwmod. destruct (is_empty bound) eqn:Hbe; [apply both_idle|].
        destruct (parse_pwmod body) as [r|e| |] eqn:Er; [|destruct e; apply both_idle|apply both_idle..].
        set (user := if is_empty (pw_user r) then bound else pw_user r).
        destruct (if is_empty (pw_new r) then _ else _) as [pw|e| |]; [|apply both_idle..].
        destruct (hash_password pw _ _) as [hash|e| |]; [|apply both_idle..].
        cbn [h_password bolt_handler].
        assert (Hp : both (bolt_password c (re_h ev) bound (mkPw user (pw_old r) hash) d1) (bolt_password c (re_h ev) bound (mkPw user (pw_old r) hash) d2)).
        { assert (Ho : op_ok (OpPassword (mkPw user (pw_old r) hash))).
          { apply (Hops bound); [done|]. exists i, req, rest, id. split; [done|]. split; [done|]. right. exists r, hash.
            split; [apply password_iff; [done..|]; by exists body|]. unfold user. by destruct (pw_user r). }
          unfold bolt_password. cbn [pw_user]. rewrite Hbe, Hev. destruct (is_empty user); [by apply write_both|].
          destruct (parse_normalize user); [|apply both_idle]. destruct (_ && _); [apply both_idle|by apply write_both]. }
        destruct (bolt_password c (re_h ev) bound _ d1) as [x1 s1], (bolt_password c (re_h ev) bound _ d2) as [x2 s2].
        destruct Hp as [E H]. cbn in E, H. subst x2. destruct x1 as [[code e]| |]; [|by split..].
        destruct (code =? Success)%N; by split. }
      destruct (handle_pwmod cfg (bolt_handler c) ev bound body d1) as [x1 s1], (handle_pwmod cfg (bolt_handler c) ev bound body d2) as [x2 s2].
      destruct Hpw as [E H]. cbn in E, H. subst x2. destruct x1 as [[[code e] v]| |]; [|by split..].
      destruct (_ && _); by split. }
    destruct (handle_extended cfg (bolt_handler c) ev bound req d1) as [x1 s1], (handle_extended cfg (bolt_handler c) ev bound req d2) as [x2 s2].
    destruct Hx as [E H]. cbn in E, H. subst x2. destruct x1 as [[code v]| |]; [by apply final_twins|..];
      (split; [done|]); (split; [constructor|done]). }
  destruct (N.eqb_spec (p_tag req) ModifyDNRequest) as [Et|_].
  { unfold handle_moddn. apply finish_twins. destruct (is_empty bound); [apply both_idle|].
    apply (Hw moddn_req (parse_moddn req) OpModDn).
    intros a Ha. split; [done|]. right; right; right. split; [done|]. exists a. split; [by apply moddn_iff|done]. }
  destruct (N.eqb_spec (p_tag req) ModifyRequest) as [Et|_].
  { unfold handle_modify. apply finish_twins. destruct (is_empty bound); [apply both_idle|].
    apply (Hw modify_req (parse_modify req) OpModify).
    intros a Ha. split; [done|]. right; right; left. split; [done|]. exists a. split; [by apply modify_iff|done]. }
  destruct (N.eqb_spec (p_tag req) SearchRequest) as [Et|_]; [|apply Hidle].
  assert (Hs : same_dir b (S n) d1 d2) by by apply same_mono.
  unfold handle_search. destruct (parse_search req) as [r|e| |] eqn:Ep; [|by apply final_twins|apply Hidle..].
  destruct Hd as (_ & _ & m & M1 & _).
  destruct (Hfair m M1 id req r Henv Et) as [Htx Hj]; [by apply search_iff|]. clear Hfair.
  (* what the database gives *)
  assert (Hf : exists es1 es2, (bolt_search c (re_h ev) bound r d1) = (HRet (mkFound es1 Success false), d1) /\
     (bolt_search c (re_h ev) bound r d2) = (HRet (mkFound es2 Success false), d2) /\ es1 ≡ₚ es2 /\
     Forall (fun e => exists dd k, parse_dn (sr_base r) = Some dd /\ m !! k = Some e /\ in_scope (sr_scope r) (fold_dn dd) k = true) es1).
  { unfold bolt_search. destruct (decide (sr_scope r = ScopeBase \/ sr_scope r = ScopeOne \/ sr_scope r = ScopeSub)) as [Hsc|Hsc].
    - destruct (search_both (sr_base r) (sr_scope r) Htx Hsc) as (es1 & es2 & x & -> & -> & P & F). exists es1, es2.
      split; [done|]. split; [done|]. split; [done|]. by apply F.
    - destruct Hd as (K1 & K2 & _). destruct (search_other d1 _ _ K1 Htx Hsc) as [x1 ->], (search_other d2 _ _ K2 Htx Hsc) as [x2 ->].
      exists [], []. repeat split; done. }
  destruct Hf as (es1 & es2 & F1 & F2 & HP & HF). cbn [h_search bolt_handler].
  (* the loop *)
  assert (Hend : forall flt l1 l2 k (x : res unit), l1 ≡ₚ l2 -> k <= length l1 ->
    search_loop (sv_enforce cfg) flt r (re_send ev) es1 0 = (take k l1, x) ->
    search_loop (sv_enforce cfg) flt r (re_send ev) es2 0 = (take k l2, x) ->
    (x = Ok tt -> k = length l1) -> x = Ok tt \/ (exists code, x = Err (ELdap code true) /\ code <> 0%N) ->
    twins
      (let '(es, o, s') := match bolt_search c (re_h ev) bound r d1 with
        | (HRet f, s') => if f_err f then ([], HRet (Some (f_code f)), s')
            else match search_loop (sv_enforce cfg) flt r (re_send ev) (f_entries f) 0 with
                 | (es, Ok _) => (es, HRet None, s')
                 | (es, Err (ELdap code _)) => (es, HRet (Some code), s')
                 | (es, Err _) => (es, HRet (Some OperationsError), s')
                 | (es, Panic) => (es, HPanic, s')
                 | (es, Diverge) => (es, HKill, s')
                 end
        | (HPanic, s') => ([], HPanic, s') | (HKill, s') => ([], HKill, s') end in
       match o with
       | HRet o => send_final ev (S (length es)) (map (REntry id) es)
          (RFinal id SearchResultDone (match o with Some code => code | None => Success end) None)
          (match o with Some _ => Drop | None => Go bound end) s'
       | _ => mkResult (map (REntry id) es) Dead s' end)
      (let '(es, o, s') := match bolt_search c (re_h ev) bound r d2 with
        | (HRet f, s') => if f_err f then ([], HRet (Some (f_code f)), s')
            else match search_loop (sv_enforce cfg) flt r (re_send ev) (f_entries f) 0 with
                 | (es, Ok _) => (es, HRet None, s')
                 | (es, Err (ELdap code _)) => (es, HRet (Some code), s')
                 | (es, Err _) => (es, HRet (Some OperationsError), s')
                 | (es, Panic) => (es, HPanic, s')
                 | (es, Diverge) => (es, HKill, s')
                 end
        | (HPanic, s') => ([], HPanic, s') | (HKill, s') => ([], HKill, s') end in
       match o with
       | HRet o => send_final ev (S (length es)) (map (REntry id) es)
          (RFinal id SearchResultDone (match o with Some code => code | None => Success end) None)
          (match o with Some _ => Drop | None => Go bound end) s'
       | _ => mkResult (map (REntry id) es) Dead s' end)).
  { intros flt l1 l2 k x Hl Hk E1 E2 Hx Hcode. rewrite F1, F2. cbn [f_err f_entries]. rewrite E1, E2.
    assert (Hlen : length (take k l1) = length (take k l2)) by (rewrite !take_length; by rewrite (Permutation_length Hl)).
    assert (Hsend : forall code nx, (code = 0%N -> k = length l1) ->
      twins (send_final ev (S (length (take k l1))) (map (REntry id) (take k l1)) (RFinal id SearchResultDone code None) nx d1)
            (send_final ev (S (length (take k l2))) (map (REntry id) (take k l2)) (RFinal id SearchResultDone code None) nx d2)).
    { intros code nx Hcd. rewrite <- Hlen. unfold send_final. destruct (re_send ev _); (split; [done|]); (split; [|done]); cbn [r_out].
      - apply alike_search; [done|]. intros H0. by rewrite (Hcd H0).
      - by apply alike_broken. }
    destruct Hcode as [->|(code & -> & Hc0)]; apply Hsend; [intros _; by apply Hx|intros H; by destruct (Hc0 H)]. }
  assert (Hon : sv_enforce cfg = true -> forall flt, compile_filter (sr_filter r) = Some flt ->
    exists l1 l2 k x, l1 ≡ₚ l2 /\ k <= length l1 /\ search_loop (sv_enforce cfg) flt r (re_send ev) es1 0 = (take k l1, x) /\
      search_loop (sv_enforce cfg) flt r (re_send ev) es2 0 = (take k l2, x) /\ (x = Ok tt -> k = length l1) /\
      (x = Ok tt \/ (exists code, x = Err (ELdap code true) /\ code <> 0%N))).
  { intros Hen flt Hfl. rewrite Hen. specialize (Hj Hen flt).
    assert (J1 : Forall (fun e => exists keep, judged flt r e keep) es1).
    { eapply Forall_impl; [exact HF|]. intros e (dd & k & Hdd & Hk & Hsc). by eapply Hj. }
    assert (J2 : Forall (fun e => exists keep, judged flt r e keep) es2) by by rewrite <- HP.
    rewrite (loop_cut _ _ _ _ J1), (loop_cut _ _ _ _ J2).
    assert (Hpf : bfilter (keeps flt r) es1 ≡ₚ bfilter (keeps flt r) es2) by (by apply bfilter_perm).
    rewrite <- (Permutation_length Hpf).
    set (kk := cut (sr_size r) (re_send ev) (length (bfilter (keeps flt r) es1)) 0).
    exists (map (select_attributes (sr_attrs r)) (bfilter (keeps flt r) es1)), (map (select_attributes (sr_attrs r)) (bfilter (keeps flt r) es2)),
      (kk.1), (kk.2). rewrite map_length. split; [by apply Permutation_map|]. split; [apply cut_le|].
    rewrite !firstn_map. split; [done|]. split; [done|]. split; [apply cut_ok|apply cut_code]. }
  assert (Hoff : sv_enforce cfg = false -> forall flt,
    exists l1 l2 k x, l1 ≡ₚ l2 /\ k <= length l1 /\ search_loop (sv_enforce cfg) flt r (re_send ev) es1 0 = (take k l1, x) /\
      search_loop (sv_enforce cfg) flt r (re_send ev) es2 0 = (take k l2, x) /\ (x = Ok tt -> k = length l1) /\
      (x = Ok tt \/ (exists code, x = Err (ELdap code true) /\ code <> 0%N))).
  { intros Hen flt. rewrite Hen. rewrite !loop_cut_off. rewrite <- (Permutation_length HP).
    exists es1, es2, (cut 0 (re_send ev) (length es1) 0).1, (cut 0 (re_send ev) (length es1) 0).2.
    split; [done|]. split; [apply cut_le|]. split; [done|]. split; [done|]. split; [apply cut_ok|apply cut_code]. }
  destruct (sv_enforce cfg) eqn:Hen.
  - destruct (compile_filter (sr_filter r)) as [flt|] eqn:Efl; [|by apply final_twins].
    destruct (Hon eq_refl flt eq_refl) as (l1 & l2 & k & x & H1 & H2 & H3 & H4 & H5 & H6). by eapply Hend.
  - destruct (Hoff eq_refl (Pkt 0 false 0 VNil [] [])) as (l1 & l2 & k & x & H1 & H2 & H3 & H4 & H5 & H6). by eapply Hend.
Qed.
End twin.
