(** Property C88: the server with metrics enabled. *)
From Verif Require Import Bytes Text Dn DnProofs Res Entry EntryProofs Password PasswordProofs P_Password
  Db DbSpec P_Db Packet Filter Handler Server.
From Verif Require Stats StatsProofs P_Stats.
From Verif Require Import P_Server Conns ConnsProofs Counted CountedProofs.

(** What happened in a run: the packets read, and the requests with some tag among
    them; connections taken and ended. *)
Definition packets (tr : list label) : list (nat * (renv env * packet)) :=
  omap (fun l => match l with LRead k ev p => Some (k, (ev, p)) | _ => None end) tr.
Section words.
Context {W : Wire}.
(** A packet is a request with this tag: a message number, an operation of that
    class, and controls that do not make the decoder panic. *)
Definition request (tag : N) (p : packet) : Prop :=
  exists i req rest id, p_kids p = i :: req :: rest /\ as_int (p_val i) = Some id /\ p_cls req = ClassApplication /\ p_tag req = tag /\
    match rest with x :: _ => decode_controls (p_kids x) = true | [] => True end.
Definition requestb (tag : N) (p : packet) : bool :=
  match p_kids p with
  | i :: req :: rest =>
      bool_decide (is_Some (as_int (p_val i))) && (p_cls req =? ClassApplication)%N && (p_tag req =? tag)%N &&
      match rest with x :: _ => decode_controls (p_kids x) | [] => true end
  | _ => false
  end.
Lemma requestb_ok tag p : requestb tag p = true <-> request tag p.
Proof.
  unfold requestb, request. split.
  - destruct (p_kids p) as [|i [|req rest]] eqn:E; [done|done|]. rewrite !andb_true_iff, bool_decide_eq_true, !N.eqb_eq.
    intros ((([id Hi] & Hc) & Ht) & Hr). exists i, req, rest, id. repeat split; try done. by destruct rest.
  - intros (i & req & rest & id & -> & Hi & -> & -> & Hr). rewrite Hi, !N.eqb_refl. cbn. destruct rest; done.
Qed.
(** How often something happened. *)
Definition how_often (f : label -> bool) (tr : list label) : Z := Z.of_nat (length (bfilter f tr)).
Definition accepts (l : label) : bool := match l with LAccept _ _ => true | _ => false end.
Definition closes (l : label) : bool := match l with LEnd _ => true | _ => false end.
Definition asks (tag : N) (l : label) : bool := match l with LRead _ _ p => requestb tag p | _ => false end.
Lemma counted_request p x : counted p = Some x <->
  exists tag, request tag p /\ In (tag, x)
    [(AddRequest, Stats.CAdd); (BindRequest, Stats.CBind); (DelRequest, Stats.CDelete); (ModifyDNRequest, Stats.CModDN);
     (ModifyRequest, Stats.CModify); (SearchRequest, Stats.CSearch); (UnbindRequest, Stats.CUnbind)].
Proof.
  assert (Ht : forall tag, counted_tag tag = Some x <-> In (tag, x)
    [(AddRequest, Stats.CAdd); (BindRequest, Stats.CBind); (DelRequest, Stats.CDelete); (ModifyDNRequest, Stats.CModDN);
     (ModifyRequest, Stats.CModify); (SearchRequest, Stats.CSearch); (UnbindRequest, Stats.CUnbind)]).
  { intros tag. unfold counted_tag. split.
    - repeat match goal with |- context [if (tag =? ?t)%N then _ else _] => destruct (N.eqb_spec tag t) as [->|?]; [intros [= <-]; cbn; tauto|] end. done.
    - cbn [In]. intros H. repeat (destruct H as [[= <- <-]|H]; [done|]). done. }
  unfold counted. split.
  - destruct (p_kids p) as [|i [|req rest]] eqn:Ek; [done|done|]. destruct (as_int (p_val i)) as [id|] eqn:Ei; [|done].
    destruct (N.eqb_spec (p_cls req) ClassApplication) as [Ec|]; [|done]. cbn [negb].
    destruct (match rest with y :: _ => decode_controls (p_kids y) | [] => true end) eqn:Er; [|done].
    intros H%Ht. exists (p_tag req). split; [|done]. exists i, req, rest, id. repeat split; try done. by destruct rest.
  - intros (tag & (i & req & rest & id & Ek & Ei & Ec & <- & Er) & H%Ht). rewrite Ek, Ei, Ec. cbn [negb N.eqb].
    rewrite N.eqb_refl. cbn [negb]. destruct rest as [|y r]; [done|]. by rewrite Er.
Qed.
End words.

Section runs.
Context {T : Text} {C : Crypto} {W : Wire}.
Variable (cfg : server_cfg) (c : bolt_cfg).
Notation mstep := (mstep cfg c). Notation mrun := (mrun cfg c).

Lemma mrun_app w tr w1 tr' w2 : mrun w tr w1 -> mrun w1 tr' w2 -> mrun w (tr ++ tr') w2.
Proof. intros H1 H2. induction H2 as [|tr' w2 l w3 _ IH Hs]; [by rewrite app_nil_r|]. rewrite app_assoc. by econstructor. Qed.
Lemma mrun_one w l w' : mstep w l w' -> mrun w [l] w'.
Proof. intros H. eapply (mr_more cfg c w [] w l w'); [constructor|done]. Qed.
Lemma mrun_cons w l w1 tr w' : mstep w l w1 -> mrun w1 tr w' -> mrun w (l :: tr) w'.
Proof. intros H1 H2. exact (mrun_app w [l] w1 tr w' (mrun_one _ _ _ H1) H2). Qed.
Lemma mstep_stats w l w' : mstep w l w' -> m_stats w' = Stats.s_run (m_stats w) (calls_of l).
Proof. by destruct 1. Qed.
Lemma mrun_stats w tr w' : mrun w tr w' -> m_stats w' = Stats.s_run (m_stats w) (flat_map calls_of tr).
Proof.
  induction 1 as [|tr w1 l w2 _ IH Hs]; [done|]. rewrite flat_map_app, s_run_app. cbn [flat_map]. rewrite app_nil_r, <- IH. by apply mstep_stats.
Qed.
Lemma mrun_inv d tr w : mrun (mstart d) tr w -> StatsProofs.inv (m_stats w).
Proof. intros H. rewrite (mrun_stats _ _ _ H). apply StatsProofs.inv_run, StatsProofs.inv_init. Qed.
Lemma mstep_alive w l w' : mstep w l w' -> cw_alive (m_srv w) = true.
Proof. destruct 1; try done; by eapply cstep_alive. Qed.
End runs.

(** C88.  The server proper does with metrics on only what it does without: what
    C85 says of every run holds of these. *)
Theorem C88_same (T : Text) (C : Crypto) (W : Wire) (cfg : server_cfg) (c : bolt_cfg) (d : db) (tr : list label) (w : mworld) :
  mrun cfg c (mstart d) tr w -> served cfg c d (m_srv w) (packets tr).
Proof.
  intros H. induction H as [|tr w1 l w2 H IH Hs]; [constructor|].
  unfold packets in *. rewrite omap_app. cbn [omap list_omap].
  destruct Hs; cbn [m_srv]; rewrite ?app_nil_r.
  - done.
  - eapply sv_other; [exact IH|by constructor|]. intros (k' & x & x' & ev & p & H4 & H5 & H6 & H7). cbn [cw_conns] in H5. unfold put in H5.
    destruct (decide (k = k')) as [->|Hne]; [congruence|]. rewrite lookup_insert_ne in H5 by done. congruence.
  - by constructor.
  - eapply sv_other; [exact IH|done|]. intros (k' & x & x' & ev & p & H4 & H5 & H6 & H7).
    assert (k' = k) as ->. { destruct (decide (k' = k)) as [|Hne]; [done|]. rewrite (cstep_same cfg c _ _ k k' H0 (ends_changes _ _ _ H1) Hne) in H5. congruence. }
    destruct H1 as (y & y' & E1 & E2 & E3 & E4). congruence.
  - by eapply sv_other.
  - done.
  - done.
Qed.
Print Assumptions C88_same.

(** Every connection there is, with metrics on, was counted once as taken, and every
    one that has ended once as closed; none else were. *)
Lemma how_often_app f a b : how_often f (a ++ b) = (how_often f a + how_often f b)%Z.
Proof. unfold how_often. rewrite List.filter_app, app_length. lia. Qed.
Lemma cstep_keeps (T : Text) (C : Crypto) (W : Wire) cfg c s s' k x : cstep cfg c s s' -> cw_conns s !! k = Some x ->
  exists x', cw_conns s' !! k = Some x' /\ (cn_phase x = PClosed -> cn_phase x' = PClosed).
Proof.
  intros H Hx. destruct H; cbn [cw_conns]; unfold put; try (by exists x);
    (match goal with |- context [<[?j := _]> _] => destruct (decide (j = k)) as [->|Hne] end);
    try (rewrite lookup_insert_ne by done; by exists x); rewrite lookup_insert; eexists; (split; [done|]); intros E;
    try done; congruence || (simplify_eq; done).
Qed.
Theorem C88_connections (T : Text) (C : Crypto) (W : Wire) (cfg : server_cfg) (c : bolt_cfg) (d : db) (tr : list label) (w : mworld) :
  mrun cfg c (mstart d) tr w ->
  exists taken closed : list nat,
    NoDup taken /\ (forall k, In k taken <-> is_Some (cw_conns (m_srv w) !! k) \/ exists i, m_new w !! i = Some k) /\
    NoDup closed /\ (forall k, In k closed <-> exists x, cw_conns (m_srv w) !! k = Some x /\ cn_phase x = PClosed) /\
    how_often accepts tr = Z.of_nat (length taken) /\ how_often closes tr = Z.of_nat (length closed).
Proof.
  intros H. induction H as [|tr w1 l w2 H IH Hs].
  - exists [], []. repeat split; try constructor; try done.
    + cbn [mstart m_srv m_new cstart cw_conns]. intros [[x Hx]|[i Hi]]; [by rewrite lookup_empty in Hx|by rewrite lookup_empty in Hi].
    + cbn [mstart m_srv m_new cstart cw_conns]. intros [x [Hx _]]. by rewrite lookup_empty in Hx.
  - destruct IH as (tk & cl & Nt & It & Nc & Ic & Et & Ec). rewrite !how_often_app.
    destruct Hs as [i k Ha Hf Hi Hk Hn|i k Ha Hf Hi Hk|k b out ev p Ha Hf Hk|k s' Hs He Hf|k s' Hs Hr He Hc Hf Ho|t Ha|j Ha Hf]; cbn [m_srv m_new cw_conns].
    + exists (k :: tk), cl. cbn [length]. repeat split; try done.
      * constructor; [|done]. rewrite elem_of_list_In, It. rewrite Hk. intros [[? ?]|[j Hj]]; [done|by eapply Hn].
      * intros [<-|Hin]; [right; exists i; by rewrite lookup_insert|]. apply It in Hin as [Hin|[j Hj]]; [by left|].
        right. exists j. rewrite lookup_insert_ne; [done|]. intros ->. congruence.
      * intros [Hx|[j Hj]]; [right; apply It; by left|]. destruct (decide (i = j)) as [->|Hne].
        -- rewrite lookup_insert in Hj. injection Hj as ->. by left.
        -- rewrite lookup_insert_ne in Hj by done. right. apply It. eauto.
      * apply Ic.
      * apply Ic.
      * unfold how_often in *. cbn [List.filter accepts length]. lia.
      * unfold how_often in *. cbn [List.filter closes length]. lia.
    + exists tk, cl. unfold put. repeat split; try done.
      * intros Hin. destruct (decide (k = k0)) as [->|Hne]; [left; by rewrite lookup_insert|].
        rewrite lookup_insert_ne by done. apply It in Hin as [Hin|[j Hj]]; [by left|]. right. exists j.
        rewrite lookup_delete_ne; [done|]. intros ->. congruence.
      * intros [Hx|[j Hj]].
        -- destruct (decide (k = k0)) as [->|Hne]; [apply It; eauto|]. rewrite lookup_insert_ne in Hx by done. apply It. by left.
        -- apply lookup_delete_Some in Hj as [_ Hj]. apply It. eauto.
      * intros Hin. apply Ic in Hin as (x & Hx & Hp). exists x. rewrite lookup_insert_ne; [done|]. intros ->. congruence.
      * intros (x & Hx & Hp). destruct (decide (k = k0)) as [->|Hne]; [rewrite lookup_insert in Hx; by simplify_eq|].
        rewrite lookup_insert_ne in Hx by done. apply Ic. eauto.
      * unfold how_often in *. cbn [List.filter accepts length]. lia.
      * unfold how_often in *. cbn [List.filter closes length]. lia.
    + exists tk, cl. unfold put. repeat split; try done.
      * intros Hin. apply It in Hin as [Hin|?]; [|by right]. left. destruct (decide (k = k0)) as [->|Hne]; [by rewrite lookup_insert|by rewrite lookup_insert_ne].
      * intros [Hx|?]; apply It; [|by right]. left. destruct (decide (k = k0)) as [->|Hne]; [by rewrite Hk|by rewrite lookup_insert_ne in Hx].
      * intros Hin. apply Ic in Hin as (x & Hx & Hp). exists x. rewrite lookup_insert_ne; [done|]. intros ->. rewrite Hk in Hx. by simplify_eq.
      * intros (x & Hx & Hp). destruct (decide (k = k0)) as [->|Hne]; [rewrite lookup_insert in Hx; by simplify_eq|].
        rewrite lookup_insert_ne in Hx by done. apply Ic. eauto.
      * unfold how_often in *. cbn [List.filter accepts length]. lia.
      * unfold how_often in *. cbn [List.filter closes length]. lia.
    + pose proof He as (x & x' & Hx & Hx' & Hp & Hp'). pose proof (ends_changes _ _ _ He) as Hch.
      assert (Hsame : forall j, j <> k -> cw_conns s' !! j = cw_conns (m_srv w1) !! j) by (intros j Hj; by eapply cstep_same).
      exists tk, (k :: cl). cbn [length]. repeat split; try done.
      * intros Hin. apply It in Hin as [Hin|?]; [|by right]. left. destruct (decide (k0 = k)) as [->|Hne]; [by rewrite Hx'|by rewrite Hsame].
      * intros [Hy|?]; apply It; [|by right]. left. destruct (decide (k0 = k)) as [->|Hne]; [by rewrite Hx|by rewrite <- Hsame].
      * constructor; [|done]. rewrite elem_of_list_In, Ic. intros (y & Hy & Hpy). congruence.
      * intros [<-|Hin]; [eauto|]. apply Ic in Hin as (y & Hy & Hpy). exists y. rewrite Hsame; [done|]. intros ->. congruence.
      * intros (y & Hy & Hpy). destruct (decide (k0 = k)) as [->|Hne]; [by left|]. right. apply Ic. exists y. by rewrite <- Hsame.
      * unfold how_often in *. cbn [List.filter accepts length]. lia.
      * unfold how_often in *. cbn [List.filter closes length]. lia.
    + exists tk, cl. repeat split; try done.
      * intros Hin. apply It in Hin as [[x Hx]|?]; [|by right]. left. destruct (cstep_keeps _ _ _ _ _ _ _ _ _ Hs Hx) as (y & Hy & _). by rewrite Hy.
      * intros [Hy|?]; apply It; [|by right]. left. destruct (cw_conns (m_srv w1) !! k0) eqn:E; [done|]. destruct (Hc k0). split; [done|].
        intros E'. rewrite E' in Hy. by destruct Hy.
      * intros Hin. apply Ic in Hin as (x & Hx & Hp). destruct (cstep_keeps _ _ _ _ _ _ _ _ _ Hs Hx) as (y & Hy & Hq). eauto.
      * intros (y & Hy & Hp). apply Ic. destruct (cw_conns (m_srv w1) !! k0) as [x|] eqn:E.
        -- exists x. split; [done|]. destruct (cn_phase x) eqn:Ep; try done; exfalso; apply (He k0); exists x, y; by rewrite Ep.
        -- destruct (Hc k0). split; [done|]. by rewrite Hy.
      * unfold how_often in *. cbn [List.filter accepts length]. lia.
      * unfold how_often in *. cbn [List.filter closes length]. lia.
    + exists tk, cl. repeat split; try done; try apply It; try apply Ic.
      * unfold how_often in *. cbn [List.filter accepts length]. lia.
      * unfold how_often in *. cbn [List.filter closes length]. lia.
    + exists tk, cl. repeat split; try done; try apply It; try apply Ic.
      * unfold how_often in *. cbn [List.filter accepts length]. lia.
      * unfold how_often in *. cbn [List.filter closes length]. lia.
Qed.
Print Assumptions C88_connections.

(** With all counting done, /metrics shows how many connections were taken and are
    open, and how many requests of the three kinds were read, malformed ones and
    those of anybody included.  The greatest number of connections is always
    zero (C63). *)
Lemma mrun_calls (T : Text) (C : Crypto) (W : Wire) cfg c d tr w : mrun cfg c (mstart d) tr w ->
  Stats.s_calls Stats.s_init (flat_map calls_of tr) =
  omap (fun l => match l with
                 | LAccept _ _ => Some Stats.COpen | LRead _ _ p => counted p | LEnd _ => Some Stats.CClose
                 | LMetrics _ => Some Stats.CClone | _ => None end) tr.
Proof.
  intros H. induction H as [|tr w1 l w2 H IH Hs]; [done|].
  rewrite flat_map_app, s_calls_app, omap_app, IH. f_equal. cbn [flat_map omap list_omap]. rewrite app_nil_r.
  change Stats.s_init with (m_stats (mstart d)). rewrite <- (mrun_stats cfg c _ _ _ H).
  destruct Hs as [i k _ Hf|i k|k b out ev p _ Hf|k s' _ _ Hf|k s'|t|j _ Hf]; cbn [calls_of]; try reflexivity.
  - exact (proj1 (free_other _ _ _ Hf)).
  - destruct (counted p) as [x|]; [|reflexivity]. exact (proj1 (free_other _ _ _ Hf)).
  - exact (proj1 (free_other _ _ _ Hf)).
  - exact (proj1 (free_other _ _ _ Hf)).
Qed.
Theorem C88_metrics (T : Text) (C : Crypto) (W : Wire) (cfg : server_cfg) (c : bolt_cfg) (d : db) (tr : list label) (w : mworld) :
  mrun cfg c (mstart d) tr w -> P_Stats.at_rest (m_stats w) ->
  collected (Stats.ss_stats (m_stats w)) =
    [(B "kidm_ldapserver_connections_total", Stats.u64 (how_often accepts tr));
     (B "kidm_ldapserver_connections_current", Stats.u64 (how_often accepts tr - how_often closes tr));
     (B "kidm_ldapserver_connections_max", 0%Z);
     (B "kidm_ldapserver_binds_total", Stats.u64 (how_often (asks BindRequest) tr));
     (B "kidm_ldapserver_unbinds_total", Stats.u64 (how_often (asks UnbindRequest) tr));
     (B "kidm_ldapserver_searches_total", Stats.u64 (how_often (asks SearchRequest) tr))].
Proof.
  intros H Hr. pose proof (mrun_stats cfg c _ _ _ H) as Es. cbn [m_stats mstart] in Es.
  pose proof (mrun_calls _ _ _ _ _ _ _ _ H) as Ec.
  rewrite Es in Hr. pose proof (P_Stats.C54_exact (flat_map calls_of tr) Hr) as (E1 & E2 & _ & E4 & _ & _ & _ & E8 & E9).
  rewrite Ec in E1, E2, E4, E8, E9. rewrite Es.
  assert (N : forall x f, (forall l, f l = true <-> match l with
      | LAccept _ _ => Some Stats.COpen | LRead _ _ p => counted p | LEnd _ => Some Stats.CClose
      | LMetrics _ => Some Stats.CClone | _ => None end = Some x) ->
    P_Stats.how_many x (omap (fun l => match l with
      | LAccept _ _ => Some Stats.COpen | LRead _ _ p => counted p | LEnd _ => Some Stats.CClose
      | LMetrics _ => Some Stats.CClone | _ => None end) tr) = how_often f tr).
  { intros x f Hf. unfold P_Stats.how_many, how_often. f_equal. clear -Hf. induction tr as [|l tr IH]; [done|].
    cbn [omap list_omap List.filter]. specialize (Hf l).
    destruct (match l with LAccept _ _ => _ | LStart _ _ => _ | LRead _ _ p => _ | LEnd _ => _ | LWork => _ | LCount _ => _ | LMetrics _ => _ end) as [y|].
    - cbn [List.filter]. destruct (decide (y = x)) as [->|Hne].
      + rewrite bool_decide_true by done. rewrite (proj2 Hf eq_refl). cbn [length]. by rewrite IH.
      + rewrite bool_decide_false by done. destruct (f l); [|done]. destruct Hf as [Hf _]. specialize (Hf eq_refl). congruence.
    - destruct (f l); [|done]. destruct Hf as [Hf _]. by specialize (Hf eq_refl). }
  assert (A : forall tag x, In (tag, x) [(BindRequest, Stats.CBind); (SearchRequest, Stats.CSearch); (UnbindRequest, Stats.CUnbind)] ->
    forall l, asks tag l = true <-> match l with
      | LAccept _ _ => Some Stats.COpen | LRead _ _ p => counted p | LEnd _ => Some Stats.CClose
      | LMetrics _ => Some Stats.CClone | _ => None end = Some x).
  { intros tag x Hin l. destruct l as [i k|i k|k ev p|k| |t|j]; cbn [asks]; try (split; [done|]; intros [= <-]; cbn in Hin; naive_solver).
    rewrite requestb_ok, counted_request. split.
    - intros H'. exists tag. split; [done|]. cbn [In] in *. destruct Hin as [[= <- <-]|[[= <- <-]|[[= <- <-]|[]]]]; tauto.
    - intros (t & H' & Ht). assert (t = tag) as ->; [|done]. cbn [In] in *.
      destruct Hin as [[= <- <-]|[[= <- <-]|[[= <- <-]|[]]]]; destruct_or? Ht; congruence. }
  rewrite (N Stats.COpen accepts) in E1, E2.
  2,3: intros l; destruct l; cbn [accepts]; try done; rewrite counted_request; split; [done|]; intros (? & _ & Ht); cbn [In] in Ht; naive_solver.
  rewrite (N Stats.CClose closes) in E2.
  2: intros l; destruct l; cbn [closes]; try done; rewrite counted_request; split; [done|]; intros (? & _ & Ht); cbn [In] in Ht; naive_solver.
  rewrite (N Stats.CBind (asks BindRequest)) in E4 by (apply A; cbn; tauto).
  rewrite (N Stats.CUnbind (asks UnbindRequest)) in E8 by (apply A; cbn; tauto).
  rewrite (N Stats.CSearch (asks SearchRequest)) in E9 by (apply A; cbn; tauto).
  unfold collected. set (s := Stats.ss_stats _) in *. clearbody s. destruct s as [co cu mx ad bi de md mo un se].
  cbn [Stats.clone Stats.s_conns Stats.s_current Stats.s_max Stats.s_binds Stats.s_unbinds Stats.s_searches] in *.
  by rewrite E1, E2, E4, E8, E9.
Qed.
Print Assumptions C88_metrics.
(** A reading of the metrics that has come to an end shows the counters of one
    moment. *)
Lemma mrun_split (T : Text) (C : Crypto) (W : Wire) cfg c w tr1 tr2 w' : mrun cfg c w (tr1 ++ tr2) w' ->
  exists w1, mrun cfg c w tr1 w1 /\ mrun cfg c w1 tr2 w'.
Proof.
  revert w'. induction tr2 as [|l tr2 IH] using rev_ind; intros w' H.
  - rewrite app_nil_r in H. exists w'. split; [done|constructor].
  - rewrite app_assoc in H. remember ((tr1 ++ tr2) ++ [l]) as tr eqn:E. destruct H as [|tr w1 l' w2 H Hs].
    + by destruct (tr1 ++ tr2).
    + apply app_inj_tail in E as [-> ->]. destruct (IH _ H) as (w3 & H1 & H2). exists w3. split; [done|]. by econstructor.
Qed.
Lemma cut (W : Wire) (tr : list label) es1 es2 : flat_map calls_of tr = es1 ++ es2 ->
  exists tr1 tr2, tr = tr1 ++ tr2 /\ flat_map calls_of tr1 = es1.
Proof.
  revert es1. induction tr as [|l tr IH]; intros es1 H.
  - exists [], []. symmetry in H. apply app_eq_nil in H as [-> _]. done.
  - destruct es1 as [|e es1]; [by exists [], (l :: tr)|]. cbn [flat_map] in H.
    assert (Hl : calls_of l = [] \/ calls_of l = [e]).
    { destruct l as [i k|i k|k ev p|k| |t|j]; cbn [calls_of] in *; try (destruct (counted p)); cbn [Datatypes.app] in H; try (by left); right; congruence. }
    destruct Hl as [Hl|Hl]; rewrite Hl in H; cbn [Datatypes.app] in H.
    + destruct (IH (e :: es1) H) as (tr1 & tr2 & -> & E). exists (l :: tr1), tr2. cbn [flat_map]. by rewrite Hl.
    + injection H as H. destruct (IH es1 H) as (tr1 & tr2 & -> & E). exists (l :: tr1), tr2. cbn [flat_map]. by rewrite Hl, E.
Qed.
Lemma reader_clones (T : Text) (C : Crypto) (W : Wire) cfg c d tr w j x : mrun cfg c (mstart d) tr w ->
  Stats.ss_threads (m_stats w) !! reader_id j = Some x -> Stats.th_call x = Stats.CClone.
Proof.
  intros H Hx. rewrite (mrun_stats cfg c _ _ _ H) in Hx. cbn [m_stats mstart] in Hx.
  apply call_made in Hx. apply elem_of_list_In, in_flat_map in Hx as (l & _ & Hl).
  destruct l as [i k|i k|k ev p|k| |t|j']; cbn [calls_of] in Hl; try (destruct (counted p)); cbn [In] in Hl;
    try (by destruct Hl); destruct Hl as [Hl|[]]; injection Hl as E1 E2; unfold reader_id, listener_id, conn_id in *; try lia; by symmetry.
Qed.
Theorem C88_moment (T : Text) (C : Crypto) (W : Wire) (cfg : server_cfg) (c : bolt_cfg) (d : db) (tr : list label) (w : mworld) j x :
  mrun cfg c (mstart d) tr w -> Stats.ss_threads (m_stats w) !! reader_id j = Some x -> Stats.th_prog x = [] ->
  exists tr1 w1 tr2, tr = tr1 ++ tr2 /\ mrun cfg c (mstart d) tr1 w1 /\ mrun cfg c w1 tr2 w /\
    collected (Stats.th_copy x) = collected (Stats.ss_stats (m_stats w1)).
Proof.
  intros H Hx Hp. pose proof (reader_clones _ _ _ _ _ _ _ _ _ _ H Hx) as Hc.
  rewrite (mrun_stats cfg c _ _ _ H) in Hx. cbn [m_stats mstart] in Hx.
  destruct (copy_read _ _ _ Hx Hc) as (es1 & es2 & E & Ec); [rewrite Hp; cbn; lia|].
  destruct (cut _ _ _ _ E) as (tr1 & tr2 & -> & E1). destruct (mrun_split _ _ _ _ _ _ _ _ _ H) as (w1 & H1 & H2).
  exists tr1, w1, tr2. split; [done|]. split; [done|]. split; [done|].
  rewrite (mrun_stats cfg c _ _ _ H1), E1. cbn [m_stats mstart]. by rewrite Ec.
Qed.
Print Assumptions C88_moment.

(** Unless an add was read, counting holds nothing up for good: all of it can be
    finished, while the server proper stands still. *)
Theorem C88_completes (T : Text) (C : Crypto) (W : Wire) (cfg : server_cfg) (c : bolt_cfg) (d : db) (tr : list label) (w : mworld) :
  mrun cfg c (mstart d) tr w -> cw_alive (m_srv w) = true ->
  (forall k ev p, In (LRead k ev p) tr -> ~ request AddRequest p) ->
  exists ts w', mrun cfg c w (map LCount ts) w' /\ m_srv w' = m_srv w /\ m_new w' = m_new w /\ P_Stats.at_rest (m_stats w').
Proof.
  intros H Ha Hn. pose proof (mrun_stats cfg c _ _ _ H) as Es. cbn [m_stats mstart] in Es.
  pose proof (mrun_calls _ _ _ _ _ _ _ _ H) as Ec.
  destruct (P_Stats.C54_completes (flat_map calls_of tr)) as (_ & _ & ts & Hts).
  { rewrite Ec. intros Hin. apply elem_of_list_omap in Hin as (l & Hl & Hx). apply elem_of_list_In in Hl.
    destruct l as [i k|i k|k ev p|k| |t|j]; try done. apply counted_request in Hx as (tag & Hr & Hin). apply (Hn _ _ _ Hl).
    cbn [In] in Hin. destruct_or? Hin; congruence. }
  rewrite <- Es in Hts. clear -Ha Hts. exists ts.
  assert (G : exists w', mrun cfg c w (map LCount ts) w' /\ m_srv w' = m_srv w /\ m_new w' = m_new w).
  { clear Hts. revert w Ha. induction ts as [|t ts IH]; intros w Ha; [exists w; split; [constructor|done]|].
    pose proof (ms_count cfg c w t Ha) as Hs. match type of Hs with Counted.mstep _ _ _ _ ?w1 => destruct (IH w1 Ha) as (w' & H1 & H2 & H3) end.
    exists w'. split; [eapply mrun_cons; [exact Hs|exact H1]|]. by rewrite H2, H3. }
  destruct G as (w' & H1 & H2 & H3). exists w'. split; [done|]. split; [done|]. split; [done|].
  rewrite (mrun_stats cfg c _ _ _ H1).
  replace (flat_map calls_of (map LCount ts)) with (map Stats.SRun ts); [done|]. clear. induction ts as [|t ts IH]; [done|]. cbn. by rewrite IH.
Qed.
Print Assumptions C88_completes.

(** An add request, be it of somebody not bound or malformed, is never answered:
    its connection does nothing any more. *)
Lemma busy_stays (T : Text) (C : Crypto) (W : Wire) cfg c w l w' k x : mstep cfg c w l w' ->
  cw_conns (m_srv w) !! k = Some x -> ~ free w (conn_id k) -> cw_conns (m_srv w') !! k = Some x.
Proof.
  intros Hs Hx Hf. destruct Hs as [i j|i j Ha Hi Hn Hj|j b out ev p Ha Hi Hj|j s' H1 H2 H3|j s' H1 H2 H3 H4 H5 H6|t|j]; cbn [m_srv cw_conns]; try done.
  - unfold put. rewrite lookup_insert_ne; [done|]. intros ->. congruence.
  - unfold put. rewrite lookup_insert_ne; [done|]. intros ->. done.
  - destruct (decide (k = j)) as [->|Hne]; [done|]. by rewrite (cstep_same cfg c _ _ j k H1 (ends_changes _ _ _ H2) Hne).
  - rewrite H6; [done|]. intros ->. done.
Qed.
Lemma counting_stays (T : Text) (C : Crypto) (W : Wire) cfg c d tr w tr' w' k x : mrun cfg c (mstart d) tr w ->
  adding (m_stats w) (conn_id k) -> cw_conns (m_srv w) !! k = Some x ->
  mrun cfg c w tr' w' -> cw_conns (m_srv w') !! k = Some x /\ adding (m_stats w') (conn_id k).
Proof.
  intros H Ha Hx H'. induction H' as [|tr' w1 l w2 H' IH Hs]; [done|]. destruct IH as [IHx IHa]. split.
  - apply (busy_stays _ _ _ _ _ _ _ _ _ _ Hs); [done|]. intros Hf. destruct IHa as (y & Hy & _ & Hp). by apply Hp, (Hf y).
  - rewrite (mstep_stats cfg c _ _ _ Hs). apply adding_run; [|done]. eapply mrun_inv. eapply mrun_app; [exact H|exact H'].
Qed.
Theorem C88_add_unanswered (T : Text) (C : Crypto) (W : Wire) (cfg : server_cfg) (c : bolt_cfg) (d : db) tr w k ev p w1 tr' w' :
  mrun cfg c (mstart d) tr w -> mstep cfg c w (LRead k ev p) w1 -> request AddRequest p -> mrun cfg c w1 tr' w' ->
  exists b out, cw_conns (m_srv w) !! k = Some (mkConn b PIdle out) /\ cw_conns (m_srv w') !! k = Some (mkConn b (PAsked ev p) out).
Proof.
  intros H Hs Hp H'. pose proof Hs as Hs'. inversion Hs as [| |k' b out ev' p' Ha Hf Hk E1 E2| | | |]; subst.
  exists b, out. split; [done|]. eapply counting_stays; [eapply mrun_app; [exact H|apply mrun_one; exact Hs']| | |exact H'].
  - cbn [m_stats calls_of]. assert (counted p = Some Stats.CAdd) as ->. { apply counted_request. exists AddRequest. split; [done|]. cbn; tauto. }
    destruct (free_other (m_stats w) (conn_id k) Stats.CAdd Hf) as [_ E]. eexists. split; [exact E|]. done.
  - cbn [m_srv cw_conns put]. unfold put. by rewrite lookup_insert.
Qed.
Print Assumptions C88_add_unanswered.

(** And it stops the server.  Once it has been counted, and whatever happens then:
    no connection is accepted and handled any more; no request of the counted
    kinds that is read is answered; no reading of the metrics ends; the
    counters stand still. *)
Definition counted_add (w : mworld) (k : nat) : Prop :=
  exists x, Stats.ss_threads (m_stats w) !! conn_id k = Some (Stats.mkThr Stats.CAdd [Stats.ILock] x).
Lemma stuck_forever (T : Text) (C : Crypto) (W : Wire) cfg c d tr w k tr' w' : mrun cfg c (mstart d) tr w -> counted_add w k ->
  mrun cfg c w tr' w' ->
  counted_add w' k /\ Stats.ss_stats (m_stats w') = Stats.ss_stats (m_stats w) /\
  (forall j t, Stats.ss_threads (m_stats w) !! j = Some t -> Stats.th_prog t <> [] -> Stats.ss_threads (m_stats w') !! j = Some t).
Proof.
  intros H [x Hx] H'. rewrite (mrun_stats cfg c _ _ _ H').
  destruct (StatsProofs.stuck_run (m_stats w) (conn_id k) x (flat_map calls_of tr') (mrun_inv cfg c _ _ _ H) Hx) as (H1 & _ & H3).
  split; [|done]. exists x. rewrite (mrun_stats cfg c _ _ _ H'). by apply H3.
Qed.
Lemma stuck_conn (T : Text) (C : Crypto) (W : Wire) cfg c d tr w k tr' w' j t x : mrun cfg c (mstart d) tr w -> counted_add w k ->
  Stats.ss_threads (m_stats w) !! conn_id j = Some t -> Stats.th_prog t <> [] -> cw_conns (m_srv w) !! j = Some x ->
  mrun cfg c w tr' w' -> cw_conns (m_srv w') !! j = Some x.
Proof.
  intros H Hk Ht Hp Hx H'. induction H' as [|tr' w1 l w2 H' IH Hs]; [done|].
  apply (busy_stays _ _ _ _ _ _ _ _ _ _ Hs); [done|]. intros Hf. apply Hp, (Hf t).
  by apply (stuck_forever _ _ _ _ _ _ _ _ _ _ _ H Hk H').
Qed.
Lemma stuck_new (T : Text) (C : Crypto) (W : Wire) cfg c d tr w k tr' w' i j : mrun cfg c (mstart d) tr w -> counted_add w k ->
  mrun cfg c w tr' w' -> m_new w' !! i = Some j -> m_new w !! i = Some j \/ ~ free w' (listener_id i).
Proof.
  intros H Hk H'. induction H' as [|tr' w1 l w2 H' IH Hs]; [by left|]. intros Hj.
  destruct (stuck_forever _ _ _ _ _ _ _ _ _ _ _ H Hk H') as (Hk1 & _ & _).
  destruct (stuck_forever _ _ _ _ _ _ _ _ _ _ _ (mrun_app _ _ _ _ _ _ _ H H') Hk1 (mrun_one _ _ _ _ _ Hs)) as (_ & _ & Hst).
  assert (Hold : m_new w1 !! i = Some j -> m_new w !! i = Some j \/ ~ free w2 (listener_id i)).
  { intros Hi. destruct (IH Hi) as [?|Hn]; [by left|right]. intros Hf. apply Hn. intros t Ht.
    destruct (Stats.th_prog t) as [|q r] eqn:E; [done|]. rewrite <- E. apply Hf, Hst; [done|]. by rewrite E. }
  destruct Hs as [i' k' Ha Hfr Hi Hc Hn|i' k' Ha Hfr Hi Hc|k' b out ev p Ha Hfr Hi|k' s' H1 H2 H3|k' s' H1 H2 H3 H4 H5 H6|t|q]; cbn [m_new] in Hj; try (by apply Hold).
  - apply lookup_insert_Some in Hj as [[-> ->]|[_ Hj]]; [|by apply Hold]. right. intros Hf.
    destruct (free_other (m_stats w1) (listener_id i) Stats.COpen Hfr) as [_ E]. by specialize (Hf _ E).
  - apply lookup_delete_Some in Hj as [_ Hj]. by apply Hold.
Qed.
Theorem C88_add_stops (T : Text) (C : Crypto) (W : Wire) (cfg : server_cfg) (c : bolt_cfg) (d : db) tr w k tr1 w1 l w2 tr2 w' :
  mrun cfg c (mstart d) tr w -> counted_add w k ->
  mrun cfg c w tr1 w1 -> mstep cfg c w1 l w2 -> mrun cfg c w2 tr2 w' ->
  match l with
  | LStart i j => m_new w !! i = Some j
  | LRead j ev p =>
      forall tag, request tag p ->
      In tag [AddRequest; BindRequest; DelRequest; ModifyDNRequest; ModifyRequest; SearchRequest; UnbindRequest] ->
      exists b out, cw_conns (m_srv w1) !! j = Some (mkConn b PIdle out) /\ cw_conns (m_srv w') !! j = Some (mkConn b (PAsked ev p) out)
  | LMetrics j => ~ free w' (reader_id j)
  | _ => True
  end /\
  Stats.ss_stats (m_stats w') = Stats.ss_stats (m_stats w).
Proof.
  intros H Hk H1 Hs H2.
  assert (H1s : mrun cfg c w (tr1 ++ [l]) w2) by (by econstructor).
  destruct (stuck_forever _ _ _ _ _ _ _ _ _ _ _ H Hk H1) as (Hk1 & Es1 & _).
  destruct (stuck_forever _ _ _ _ _ _ _ _ _ _ _ H Hk H1s) as (Hk2 & Es2 & _).
  pose proof (mrun_app _ _ _ _ _ _ _ H H1s) as Hw2.
  destruct (stuck_forever _ _ _ _ _ _ _ _ _ _ _ Hw2 Hk2 H2) as (_ & Es3 & Hst).
  split; [|congruence].
  destruct Hs as [i j Ha Hfr Hi Hc Hn|i j Ha Hfr Hi Hc|j b out ev p Ha Hfr Hi|j s' G1 G2 G3|j s' G1 G2 G3 G4 G5 G6|t|j Ha Hfr]; try done.
  - destruct (stuck_new _ _ _ _ _ _ _ _ _ _ _ _ _ H Hk H1 Hi) as [?|Hn]; done.
  - intros tag Hr Hin. exists b, out. split; [done|].
    assert (Hx : exists x, counted p = Some x).
    { cbn [In] in Hin. destruct_or? Hin; subst tag; eexists; apply counted_request; eexists; (split; [exact Hr|]); cbn [In]; tauto. }
    destruct Hx as [x Hx]. cbn [calls_of] in *. rewrite Hx in *.
    destruct (free_other (m_stats w1) (conn_id j) x Hfr) as [_ E].
    eapply (stuck_conn _ _ _ _ _ _ _ _ _ _ _ j _ _ Hw2 Hk2); [exact E|by destruct x| |exact H2].
    cbn [m_srv cw_conns]. unfold put. by rewrite lookup_insert.
  - intros Hf. destruct (free_other (m_stats w1) (reader_id j) Stats.CClone Hfr) as [_ E].
    pose proof (Hst _ _ E ltac:(done)) as E'. by specialize (Hf _ E').
Qed.
Print Assumptions C88_add_stops.
(** Anybody can do it: whenever nobody holds the mutex, a connection that waits for
    a request, bound or not, needs to send one add request. *)
Theorem C88_anybody (T : Text) (C : Crypto) (W : Wire) (cfg : server_cfg) (c : bolt_cfg) (d : db) tr w k b out ev p :
  mrun cfg c (mstart d) tr w -> cw_alive (m_srv w) = true -> free w (conn_id k) ->
  cw_conns (m_srv w) !! k = Some (mkConn b PIdle out) -> P_Stats.at_rest (m_stats w) -> request AddRequest p ->
  exists tr' w', mrun cfg c w (LRead k ev p :: tr') w' /\ counted_add w' k.
Proof.
  intros H Ha Hf Hk Hr Hp. pose proof (ms_read cfg c w k b out ev p Ha Hf Hk) as Hs.
  assert (Hc : counted p = Some Stats.CAdd). { apply counted_request. exists AddRequest. split; [done|]. cbn; tauto. }
  match type of Hs with Counted.mstep _ _ _ _ ?x => set (w1 := x) in * end.
  assert (Ha1 : cw_alive (m_srv w1) = true) by done.
  pose proof (ms_count cfg c w1 (conn_id k) Ha1) as Hs1. match type of Hs1 with Counted.mstep _ _ _ _ ?x => set (w2 := x) in * end.
  pose proof (ms_count cfg c w2 (conn_id k) Ha1) as Hs2. match type of Hs2 with Counted.mstep _ _ _ _ ?x => set (w3 := x) in * end.
  pose proof (ms_count cfg c w3 (conn_id k) Ha1) as Hs3. match type of Hs3 with Counted.mstep _ _ _ _ ?x => set (w4 := x) in * end.
  exists [LCount (conn_id k); LCount (conn_id k); LCount (conn_id k)], w4. split.
  { do 4 (eapply mrun_cons; [eassumption|]). constructor. }
  assert (E : m_stats w4 = Stats.s_run (m_stats w1) [Stats.SRun (conn_id k); Stats.SRun (conn_id k); Stats.SRun (conn_id k)]) by done.
  eexists. rewrite E. destruct (mrun_inv cfg c _ _ _ H) as [_ _ Hw Hrd _].
  assert (Hq : forall A (f : Stats.thread -> option A), (forall t, Stats.th_prog t = [] -> f t = None) -> StatsProofs.collect f (Stats.ss_threads (m_stats w)) = []).
  { intros A f Hn. destruct (StatsProofs.collect f _) as [|y l] eqn:El; [done|].
    assert (Hy : y ∈ StatsProofs.collect f (Stats.ss_threads (m_stats w))) by (rewrite El; by left).
    apply StatsProofs.collect_elem in Hy as (q & t & Hq & Ht). rewrite (Hn t (Hr _ _ Hq)) in Ht. done. }
  rewrite Hq in Hw by (intros [? ? ?]; cbn; by intros ->). rewrite Hq in Hrd by (intros [? ? ?]; cbn; by intros ->).
  assert (E1 : m_stats w1 = Stats.s_run (m_stats w) [Stats.SCall (conn_id k) Stats.CAdd]) by (unfold w1; cbn [m_stats calls_of]; by rewrite Hc).
  destruct (free_other (m_stats w) (conn_id k) Stats.CAdd Hf) as [_ Et]. rewrite <- E1 in Et.
  assert (Ew : Stats.ss_writer (m_stats w1) = false /\ Stats.ss_nreaders (m_stats w1) = 0).
  { rewrite E1. cbn [Stats.s_run foldl Stats.s_step].
    destruct (Stats.ss_threads (m_stats w) !! conn_id k) as [[? [|? ?] ?]|]; cbn [Stats.ss_writer Stats.ss_nreaders];
      destruct (Stats.ss_writer (m_stats w)); cbn in Hw; try done; by split. }
  destruct Ew as [Ew1 Ew2]. exact (P_Stats.C54_add_gets_there (m_stats w1) (conn_id k) _ Et Ew1 Ew2).
Qed.
Print Assumptions C88_anybody.

(** One connection is taken; then one add request without any content stops the
    server for good. *)
Definition add88 : packet := msg 1 (app AddRequest [] []).
Example C88_case (d : db) : exists tr w,
  mrun (T:=ascii_text) (C:=toy) (W:=wire1) cfg1 c1 (mstart d) tr w /\ cw_alive (m_srv w) = true /\ free w (conn_id 0) /\
  cw_conns (m_srv w) !! 0 = Some (mkConn [] PIdle []) /\ P_Stats.at_rest (m_stats w) /\
  map snd (collected (Stats.ss_stats (m_stats w))) = [1; 1; 0; 0; 0; 0]%Z /\
  request (W:=wire1) AddRequest add88 /\
  exists tr' w', mrun (T:=ascii_text) (C:=toy) (W:=wire1) cfg1 c1 w tr' w' /\ counted_add w' 0.
Proof.
  pose (tr := [LAccept 0 0; LCount 0; LCount 0; LCount 0; LCount 0; LStart 0 0]).
  assert (H : exists w, mrun (T:=ascii_text) (C:=toy) (W:=wire1) cfg1 c1 (mstart d) tr w /\ cw_alive (m_srv w) = true /\
    cw_conns (m_srv w) = {[ 0 := mkConn [] PIdle [] ]} /\
    m_stats w = Stats.s_run Stats.s_init (flat_map (calls_of (W:=wire1)) tr)).
  { eexists. split; [|split; [|split]].
    - unfold tr. eapply mrun_cons; [apply (ms_accept cfg1 c1 (mstart d) 0 0); try done|].
      do 4 (eapply mrun_cons; [apply ms_count; reflexivity|]).
      eapply mrun_cons; [apply (ms_start cfg1 c1 _ 0 0); try reflexivity|constructor].
      intros x Hx. vm_compute in Hx. injection Hx as <-. reflexivity.
    - reflexivity.
    - reflexivity.
    - reflexivity. }
  destruct H as (w & H & Ha & Hc & Hs). exists tr, w. split; [done|]. split; [done|].
  assert (Hth : map_Forall (fun _ t => Stats.th_prog t = []) (Stats.ss_threads (m_stats w))).
  { rewrite Hs. apply (bool_decide_unpack _). vm_compute. exact I. }
  assert (Hr : P_Stats.at_rest (m_stats w)) by (intros k t Ht; exact (Hth k t Ht)).
  assert (Hf : free w (conn_id 0)) by (intros x Hx; by apply (Hr (conn_id 0))).
  assert (Hk : cw_conns (m_srv w) !! 0 = Some (mkConn [] PIdle [])) by (rewrite Hc; reflexivity).
  assert (Hp : request (W:=wire1) AddRequest add88) by (do 4 eexists; split; [reflexivity|]; repeat split).
  split; [done|]. split; [done|]. split; [done|]. split; [rewrite Hs; vm_compute; reflexivity|]. split; [done|].
  destruct (C88_anybody ascii_text toy wire1 cfg1 c1 d tr w 0 [] [] ev1 add88 H Ha Hf Hk Hr Hp) as (tr' & w' & H1 & H2).
  by exists (LRead 0 ev1 add88 :: tr'), w'.
Qed.
