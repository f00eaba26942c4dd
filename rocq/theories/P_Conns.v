(** Property C85: connections served at the same time. *)
From Verif Require Import Bytes Text Dn DnProofs Res Entry EntryProofs Password PasswordProofs P_Password
  Db DbSpec IdProofs DbProofs DbOps DbSearch DbFacts DbMore P_Db
  Packet Filter FilterProofs P_Filter Handler Server ServerProofs CrashProofs P_Server
  Encode EncodeProofs E2e E2eProofs P_E2e Conns ConnsProofs.

(** C85.  However the steps of the connections interleave, the database is what
    the sequential server makes of the requests taken one after the other in some
    order; a connection that waits for its next request or has ended has been
    sent exactly the answers of that run, and is bound as there ... *)
Theorem C85_serial (T : Text) (C : Crypto) (W : Wire) (cfg : server_cfg) (c : bolt_cfg) (d : db) (w : cworld) :
  csteps cfg c (cstart d) w ->
  let es := cw_log w in
  let w1 := run cfg (bolt_handler c) (start d) es in
  w_state w1 = cw_db w /\
  (cw_alive w = true -> w_alive w1 = true) /\
  (cw_alive w = true -> forall k x, cw_conns w !! k = Some x -> quiet_conn x ->
     cn_sent x = written cfg c k (start d) es /\
     w_conns w1 !! k = match cn_phase x with PClosed => None | _ => Some (cn_bound x) end).
Proof.
  intros H es w1. apply steps_cinv in H as Hw. split; [by apply (ci_state _ _ _ _ Hw)|]. split; [by apply (ci_alive _ _ _ _ Hw)|].
  intros Ha k x Hk Hq. pose proof (ci_out _ _ _ _ Hw Ha k x Hk) as Ho. pose proof (ci_conn _ _ _ _ Hw Ha k x Hk) as Hc.
  destruct x as [b ph out]. destruct Hq as [Hq|Hq]; cbn [cn_phase] in Hq; subst ph; done.
Qed.
Print Assumptions C85_serial.

(** ... one in the middle of an answer has been sent a part of what it gets there.
    The exception is a request that ends the process (C37): it is no part of the
    order, and what was sent of its answer before the end is what its handling
    at some point of the order would send. *)
Theorem C85_answers_so_far (T : Text) (C : Crypto) (W : Wire) (cfg : server_cfg) (c : bolt_cfg) (d : db) (w : cworld)
    (k : nat) (x : conn) :
  csteps cfg c (cstart d) w -> cw_conns w !! k = Some x ->
  let es := cw_log w in
  (exists rest, written cfg c k (start d) es = cn_sent x ++ rest) \/
  (exists i ev p early rest, i <= length es /\
     let w1 := run cfg (bolt_handler c) (start d) (take i es) in
     w_conns w1 !! k = Some (cn_bound x) /\
     r_next (handle cfg (bolt_handler c) ev (cn_bound x) p (w_state w1)) = Dead /\
     r_out (handle cfg (bolt_handler c) ev (cn_bound x) p (w_state w1)) = early ++ rest /\
     cn_sent x = written cfg c k (start d) es ++ early).
Proof.
  intros H Hk es. apply steps_cinv in H as Hw. destruct (cw_alive w) eqn:Ha.
  - pose proof (ci_out _ _ _ _ Hw Ha k x Hk) as Ho. unfold good_out in Ho.
    destruct (owed cfg c x) as [[rest [b'| |]]|].
    + left. by exists rest.
    + left. by exists rest.
    + right. destruct Ho as (early & i & ev & p & Ho). by exists i, ev, p, early, rest.
    + left. exists []. by rewrite app_nil_r.
  - destruct (ci_dead _ _ _ _ Hw Ha k x Hk) as [?|(early & rest & i & ev & p & Ho)]; [by left|].
    right. by exists i, ev, p, early, rest.
Qed.
Print Assumptions C85_answers_so_far.

(** ... the order contains the requests read from each connection, in the order
    sent, each once, except perhaps the last one read, if it has not been dealt
    with ... *)
Theorem C85_requests (T : Text) (C : Crypto) (W : Wire) (cfg : server_cfg) (c : bolt_cfg) (d : db) (w : cworld)
    (h : list (nat * (renv env * packet))) (k : nat) :
  served cfg c d w h ->
  csteps cfg c (cstart d) w /\
  exists last, read_on k h = asked_on k (cw_log w) ++ last /\ length last <= 1 /\
    (cw_alive w = true -> match cw_conns w !! k with Some x => quiet_conn x | None => True end -> last = []).
Proof.
  intros H. split; [by eapply served_steps|]. apply served_rinv in H. specialize (H k).
  destruct (cw_conns w !! k) as [x|].
  - destruct H as (pend & H1 & H2 & H3). exists pend. split; [done|]. split; [done|]. intros Ha Hq. specialize (H3 Ha).
    unfold pend_ok in H3. by destruct Hq as [Hq|Hq]; rewrite Hq in H3.
  - destruct H as [-> ->]. exists []. split; [done|]. split; [cbn; lia|done].
Qed.
Print Assumptions C85_requests.
(** ... (every run reads some packets in some order) ... *)
Theorem C85_runs (T : Text) (C : Crypto) (W : Wire) (cfg : server_cfg) (c : bolt_cfg) (d : db) (w : cworld) :
  csteps cfg c (cstart d) w -> exists h, served cfg c d w h.
Proof. apply steps_served. Qed.
Print Assumptions C85_runs.
(** ... and once a place in the order is taken it is kept: a request answered
    before another is sent comes before it. *)
Theorem C85_real_time (T : Text) (C : Crypto) (W : Wire) (cfg : server_cfg) (c : bolt_cfg) (w w' : cworld) :
  csteps cfg c w w' -> exists es, cw_log w' = cw_log w ++ es.
Proof. apply log_grows. Qed.
Print Assumptions C85_real_time.

(** So C72 and with it C12-C28 hold at every moment of a concurrent run. *)
Theorem C85_reachable (T : Text) (C : Crypto) (W : Wire) (HT : TextOK T) (cfg : server_cfg) (c : bolt_cfg)
    (b : dn) (h0 : list (env * op)) (w : cworld) (h : list (nat * (renv env * packet))) :
  base_ok b -> bc_base c = normalize b -> Forall (fun p => op_ok p.2) h0 ->
  served cfg c (run_ops (normalize b) h0 empty_db) w h ->
  (forall k ev p, In (k, (ev, p)) h -> clean p) ->
  (N.of_nat (length h0 + length (cw_log w)) + 1 < 2 ^ 64)%N ->
  reachable b (cw_db w) /\ consistent (cw_db w) /\ exists m, represents (cw_db w) m.
Proof.
  intros Hb Hc Hh0 Hsv Hcl Hlen. set (d0 := run_ops (normalize b) h0 empty_db) in *.
  destruct (C85_serial T C W cfg c d0 w (served_steps _ _ _ _ _ Hsv)) as [Hst _]. rewrite <- Hst.
  apply (C72_reachable T C W HT cfg c b h0 (cw_log w)); try done.
  intros k ev p Hin. apply (Hcl k ev p).
  destruct (C85_requests T C W cfg c d0 w h k Hsv) as [_ (last & Hr & _)].
  assert (Ha : In (ev, p) (asked_on k (cw_log w))).
  { clear -Hin. unfold asked_on. apply elem_of_list_In, elem_of_list_omap. exists (EPacket k ev p).
    split; [by apply elem_of_list_In|]. by rewrite Nat.eqb_refl. }
  assert (Hin' : (ev, p) ∈ read_on k h). { rewrite Hr. apply elem_of_list_In, in_or_app. by left. }
  apply elem_of_list_omap in Hin' as ((j & q) & Hj & Hq). cbn [fst snd] in Hq.
  destruct (j =? k) eqn:E; [|done]. apply Nat.eqb_eq in E as ->. injection Hq as ->. by apply elem_of_list_In.
Qed.
Print Assumptions C85_reachable.

(** Nobody waits for another's client.  A connection in the middle of a request
    can finish it by its own steps, preceded by at most the end of the one
    transaction under way; every other connection stays where it is. *)
Definition others_stay (w w' : cworld) (k : nat) : Prop :=
  forall j, j <> k -> cw_conns w' !! j = cw_conns w !! j \/
    (cw_lock w = Some j /\ exists b ev p e o snap out rest n,
       cw_conns w !! j = Some (mkConn b (PUpdate ev p e o snap) out) /\
       cw_conns w' !! j = Some (mkConn b (PSend rest n) out)).
Lemma others_put w w1 w2 k x : others_stay w w1 k -> cw_conns w2 = put w1 k x -> others_stay w w2 k.
Proof.
  intros H Hx j Hj. specialize (H j Hj). rewrite Hx. unfold put. by rewrite lookup_insert_ne by congruence.
Qed.
Theorem C85_progress (T : Text) (C : Crypto) (W : Wire) (cfg : server_cfg) (c : bolt_cfg) (d : db) (w : cworld)
    (k : nat) (x : conn) :
  csteps cfg c (cstart d) w -> cw_alive w = true -> cw_conns w !! k = Some x ->
  exists w', csteps cfg c w w' /\
    (cw_alive w' = false \/ exists x', cw_conns w' !! k = Some x' /\ quiet_conn x' /\ others_stay w w' k).
Proof.
  intros H Ha Hk. apply steps_cinv in H as Hw.
  set (Q := exists w', csteps cfg c w w' /\
    (cw_alive w' = false \/ exists x', cw_conns w' !! k = Some x' /\ quiet_conn x' /\ others_stay w w' k)).
  assert (Hself : others_stay w w k) by (intros j Hj; by left).
  assert (Hsend : forall w1 b rest n out, csteps cfg c w w1 -> cw_alive w1 = true ->
    cw_conns w1 !! k = Some (mkConn b (PSend rest n) out) -> others_stay w w1 k -> Q).
  { intros w1 b rest n out Hst Ha1 Hk1 Hoth. destruct (sends cfg c w1 k b rest n out Ha1 Hk1) as (w' & Hst' & Hc).
    exists w'. split; [by eapply csteps_app|]. destruct Hc as [Hc|(Hc & x' & Hq & Hx)]; [by left|]. right.
    exists x'. split; [rewrite Hx; apply lookup_insert|]. split; [done|]. by eapply others_put. }
  assert (Hupd : forall w1 b ev p e o snap out, csteps cfg c w w1 -> cw_alive w1 = true ->
    cw_conns w1 !! k = Some (mkConn b (PUpdate ev p e o snap) out) -> others_stay w w1 k -> Q).
  { intros w1 b ev p e o snap out Hst Ha1 Hk1 Hoth. destruct (end_update cfg c w1 k _ _ _ _ _ _ _ Ha1 Hk1) as (w2 & Hst2 & Hc).
    assert (Hs2 : csteps cfg c w w2) by by eapply cs_more.
    destruct Hc as [Hc|(Ha2 & _ & rest & n & Hx)]; [exists w2; split; [done|by left]|].
    apply (Hsend w2 b rest n out); try done; [by rewrite Hx; apply lookup_insert|]. by eapply others_put. }
  destruct x as [b ph out]. destruct ph as [|ev p|ev p e o snap|ev p base scope snap|rest n|].
  - exists w. split; [apply cs_refl|]. right. eexists. split; [exact Hk|]. split; [by left|done].
  - (* asked *)
    assert (Hbegin : forall w1 e o, csteps cfg c w w1 -> cw_alive w1 = true -> cw_lock w1 = None ->
      cw_conns w1 !! k = Some (mkConn b (PAsked ev p) out) -> wants cfg c ev b p = Some (CUpdate e o) ->
      others_stay w w1 k -> Q).
    { intros w1 e o Hst Ha1 Hl1 Hk1 Hwa Hoth.
      pose proof (cs_begin_update cfg c w1 k b out ev p e o Ha1 Hk1 Hwa Hl1) as Hs.
      eapply Hupd; [eapply cs_more; [exact Hst|exact Hs]|done|apply lookup_insert|]. by eapply others_put. }
    destruct (wants cfg c ev b p) as [[e o|base scope]|] eqn:Hwa.
    + destruct (cw_lock w) as [j|] eqn:Hl.
      * destruct (ci_held _ _ _ _ Hw Ha j Hl) as (b2 & ev2 & p2 & e2 & o2 & snap2 & out2 & Hj).
        destruct (end_update cfg c w j _ _ _ _ _ _ _ Ha Hj) as (w1 & Hst1 & Hc).
        assert (Hs1 : csteps cfg c w w1) by (eapply cs_more; [apply cs_refl|done]).
        destruct Hc as [Hc|(Ha1 & Hl1 & rest & n & Hx)]; [exists w1; split; [done|by left]|].
        assert (Hne : j <> k) by (intros ->; by rewrite Hk in Hj).
        eapply (Hbegin w1 e o); try done.
        -- rewrite Hx. unfold put. by rewrite lookup_insert_ne.
        -- intros i Hi. rewrite Hx. unfold put. destruct (decide (j = i)) as [<-|Hne'].
           ++ right. split; [done|]. rewrite lookup_insert. by exists b2, ev2, p2, e2, o2, snap2, out2, rest, n.
           ++ left. by apply lookup_insert_ne.
      * apply (Hbegin w e o); try done. apply cs_refl.
    + pose proof (cs_begin_view cfg c w k b out ev p base scope Ha Hk Hwa) as Hs1.
      destruct (continues cfg c ev b p (Some (RView (search (cw_db w) base scope)))) as [rest n] eqn:Hco. cbn [snd] in Hs1.
      set (w1 := mkCWorld _ _ _ _ _) in Hs1.
      assert (Hk1 : cw_conns w1 !! k = Some (mkConn b (PView ev p base scope (cw_db w)) out)) by apply lookup_insert.
      pose proof (cs_end_view cfg c w1 k b out ev p base scope (cw_db w) rest n eq_refl Hk1 Hco) as Hs2.
      eapply Hsend; [eapply cs_more; [eapply cs_more; [apply cs_refl|exact Hs1]|exact Hs2]|done|apply lookup_insert|].
      eapply (others_put w w1); [|done]. by eapply others_put.
    + destruct (continues cfg c ev b p None) as [rest n] eqn:Hco.
      pose proof (cs_plain cfg c w k b out ev p rest n Ha Hk Hwa Hco) as Hs.
      eapply Hsend; [eapply cs_more; [apply cs_refl|exact Hs]|done|apply lookup_insert|]. by eapply others_put.
  - apply (Hupd w b ev p e o snap out); try done. apply cs_refl.
  - destruct (continues cfg c ev b p (Some (RView (search snap base scope)))) as [rest n] eqn:Hco.
    pose proof (cs_end_view cfg c w k b out ev p base scope snap rest n Ha Hk Hco) as Hs.
    eapply Hsend; [eapply cs_more; [apply cs_refl|exact Hs]|done|apply lookup_insert|]. by eapply others_put.
  - apply (Hsend w b rest n out); try done. apply cs_refl.
  - exists w. split; [apply cs_refl|]. right. eexists. split; [exact Hk|]. split; [by right|done].
Qed.
Print Assumptions C85_progress.

(** Conversely, every sequential run in which connections are numbered anew and
    the process survives is one of the interleavings: nothing that can be asked of
    the sequential server is refused to the clients of this one. *)
Fixpoint orderly {T : Text} {C : Crypto} {W : Wire} (cfg : server_cfg) (c : bolt_cfg) (used : list nat)
    (w : world (S:=db)) (es : list (event (E:=env))) : Prop :=
  match es with
  | [] => True
  | e :: es' =>
      let w' := (step cfg (bolt_handler c) w e).1 in
      match e with EOpen k => ~ In k used | EPacket k _ _ | EClose k => is_Some (w_conns w !! k) end /\
      w_alive w' = true /\ orderly cfg c (match e with EOpen k => k :: used | _ => used end) w' es'
  end.
Lemma sends_on {T : Text} {C : Crypto} {W : Wire} cfg c w k b rest n out :
  n <> Dead -> cw_alive w = true -> cw_conns w !! k = Some (mkConn b (PSend rest n) out) ->
  exists x, quiet_conn x /\ csteps cfg c w (mkCWorld (cw_db w) (cw_lock w) (put w k x) true (cw_log w)).
Proof.
  intros Hn. revert w out. induction rest as [|r rest IH]; intros w out Ha Hk.
  - destruct n as [b'| |]; [..|done].
    + eexists. split; [|eapply cs_more; [apply cs_refl|by eapply cs_go]]. by left.
    + eexists. split; [|eapply cs_more; [apply cs_refl|by eapply cs_drop]]. by right.
  - pose proof (cs_send cfg c w k b out r rest n Ha Hk) as Hs.
    set (w1 := mkCWorld _ _ _ _ _) in Hs.
    destruct (IH w1 (out ++ [r])) as (x & Hq & Hx); [done|apply lookup_insert|].
    exists x. split; [done|]. eapply csteps_app; [eapply cs_more; [apply cs_refl|exact Hs]|].
    replace (put w k x) with (put w1 k x); [exact Hx|]. unfold put, w1. cbn [cw_conns]. unfold put. apply insert_insert.
Qed.
Definition rested (w : cworld) (used : list nat) : Prop :=
  cw_alive w = true /\ cw_lock w = None /\
  forall k x, cw_conns w !! k = Some x -> quiet_conn x /\ In k used.
Lemma rested_put w k x used used' d' l :
  rested w used -> quiet_conn x -> In k used' -> (forall j, In j used -> In j used') ->
  rested (mkCWorld d' None (put w k x) true l) used'.
Proof.
  intros (Ha & Hl & Hc) Hq Hk Hu. split; [done|]. split; [done|]. cbn [cw_conns]. unfold put. intros j y.
  intros [[<- <-]|[Hne Hy]]%lookup_insert_Some; [done|]. destruct (Hc j y Hy) as [? ?]. split; [done|]. by apply Hu.
Qed.
Theorem C85_realised (T : Text) (C : Crypto) (W : Wire) (cfg : server_cfg) (c : bolt_cfg) (d : db)
    (es : list (event (E:=env))) :
  orderly cfg c [] (start d) es ->
  exists w, csteps cfg c (cstart d) w /\ cw_log w = es /\ cw_alive w = true /\
    forall k x, cw_conns w !! k = Some x -> quiet_conn x.
Proof.
  assert (G : forall es w used, csteps cfg c (cstart d) w -> rested w used ->
    orderly cfg c used (run cfg (bolt_handler c) (start d) (cw_log w)) es ->
    exists w', csteps cfg c (cstart d) w' /\ cw_log w' = cw_log w ++ es /\ cw_alive w' = true /\
      forall k x, cw_conns w' !! k = Some x -> quiet_conn x).
  { clear es. induction es as [|e es IH]; intros w used Hw (Ha & Hl & Hc) Ho.
    { exists w. split; [done|]. rewrite app_nil_r. split; [done|]. split; [done|]. intros k x Hk. by apply (Hc k). }
    cbn [orderly] in Ho. destruct Ho as (Hp & Hal & Ho). pose proof (steps_cinv cfg c d w Hw) as Hi.
    set (w0 := run cfg (bolt_handler c) (start d) (cw_log w)) in *.
    assert (Hone : forall w' used', csteps cfg c w w' -> cw_log w' = cw_log w ++ [e] -> rested w' used' ->
      used' = match e with EOpen k => k :: used | _ => used end ->
      exists w', csteps cfg c (cstart d) w' /\ cw_log w' = cw_log w ++ e :: es /\ cw_alive w' = true /\
      forall k x, cw_conns w' !! k = Some x -> quiet_conn x).
    { intros w' used' Hst Hlog Hr ->. destruct (IH w' _ (csteps_app cfg c _ _ _ Hw Hst) Hr) as (w2 & H1 & H2 & H3).
      - rewrite Hlog, run_app'. exact Ho.
      - exists w2. split; [done|]. split; [|done]. rewrite H2, Hlog, <- app_assoc. done. }
    assert (Hidle : forall k, is_Some (w_conns w0 !! k) -> exists b out, cw_conns w !! k = Some (mkConn b PIdle out) /\ w_conns w0 !! k = Some b).
    { intros k [b Hb]. destruct (cw_conns w !! k) as [x|] eqn:Hk.
      - destruct (Hc k x Hk) as [Hq _]. pose proof (ci_conn _ _ _ _ Hi Ha k x Hk) as Hg. unfold good_conn in Hg. fold w0 in Hg.
        destruct x as [b1 ph out]. destruct Hq as [Hq|Hq]; cbn [cn_phase] in Hq; subst ph; cbn in Hg; [|congruence].
        exists b1, out. split; [done|]. done.
      - destruct (ci_none _ _ _ _ Hi k Hk) as [_ H]. specialize (H Ha). fold w0 in H. congruence. }
    destruct e as [k|k ev p|k].
    - assert (Hk : cw_conns w !! k = None).
      { destruct (cw_conns w !! k) as [x|] eqn:E; [|done]. by destruct (Hc k x E) as [_ ?]. }
      eapply Hone; [eapply cs_more; [apply cs_refl|by apply (cs_open cfg c w k)]|done| |done].
      rewrite Hl. apply (rested_put w k _ used); [by split|by left|by left|by right].
    - destruct (Hidle k Hp) as (b & out & Hk & Hb).
      assert (Hu : In k used) by by apply (Hc k _ Hk).
      pose proof (cs_packet cfg c w k b out ev p Ha Hk) as Hs0. set (wa := mkCWorld _ _ _ _ _) in Hs0.
      assert (Hka : cw_conns wa !! k = Some (mkConn b (PAsked ev p) out)) by apply lookup_insert.
      assert (Hn : r_next (handle cfg (bolt_handler c) ev b p (w_state w0)) <> Dead).
      { intros Hd. pose proof (ci_alive _ _ _ _ Hi Ha) as Hal0. change (w_alive w0 = true) in Hal0.
        unfold step in Hal. rewrite Hal0 in Hal. cbn [negb] in Hal. rewrite Hb in Hal. cbv zeta in Hal.
        rewrite Hd in Hal. done. }
      assert (Hst0 : w_state w0 = cw_db w) by apply (ci_state _ _ _ _ Hi). rewrite Hst0 in Hn.
      assert (Hput : forall w1 x, cw_conns w1 = put wa k x \/ cw_conns w1 = put w k x -> forall y, put w1 k y = put w k y).
      { intros w1 x H y. unfold put. destruct H as [H|H]; rewrite H; unfold put, wa; cbn [cw_conns]; unfold put; by rewrite !insert_insert. }
      assert (Hend : forall d' w1 rest n, csteps cfg c w w1 -> n <> Dead -> w1 = mkCWorld d' None (put w k (mkConn b (PSend rest n) out)) true (cw_log w ++ [EPacket k ev p]) ->
        exists w', csteps cfg c (cstart d) w' /\ cw_log w' = cw_log w ++ EPacket k ev p :: es /\ cw_alive w' = true /\
          forall k x, cw_conns w' !! k = Some x -> quiet_conn x).
      { intros d' w1 rest n Hst Hnn Hw1. destruct (sends_on cfg c w1 k b rest n out) as (x & Hq & Hx); [done|by rewrite Hw1|rewrite Hw1; apply lookup_insert|].
        eapply Hone; [eapply csteps_app; [exact Hst|exact Hx]|by rewrite Hw1| |reflexivity]. rewrite (Hput w1 (mkConn b (PSend rest n) out)) by (right; by rewrite Hw1).
        rewrite Hw1. cbn [cw_lock cw_db cw_log]. apply (rested_put w k _ used); by try split. }
      assert (Hnote : forall n, n <> Dead -> note ev p k n = [EPacket k ev p]) by by intros [].
      assert (Hs0' : csteps cfg c w wa) by (eapply cs_more; [apply cs_refl|exact Hs0]).
      destruct (wants cfg c ev b p) as [[e o|base scope]|] eqn:Hwa.
      + rewrite (asking_request cfg c ev b p (cw_db w) _ Hwa) in Hn. cbn [perform] in Hn.
        destruct (run_op (bc_base c) e o (cw_db w)) as [out1 d'] eqn:Er. cbn [fst r_next] in Hn.
        pose proof (cs_begin_update cfg c wa k b out ev p e o eq_refl Hka Hwa Hl) as Hs1. set (wb := mkCWorld _ _ _ _ _) in Hs1.
        destruct out1 as [r|]; [|by destruct Hn; eapply crash_dead].
        destruct (continues cfg c ev b p (Some (RUpdate (Done r)))) as [rest n] eqn:Hco. cbn [snd] in Hn.
        pose proof (cs_end_update cfg c wb k b out ev p e o (cw_db w) r d' rest n eq_refl (lookup_insert _ _ _) Er Hco) as Hs2.
        eapply (Hend d' _ rest n); [eapply cs_more; [eapply cs_more; [exact Hs0'|exact Hs1]|exact Hs2]|done|].
        rewrite Hnote by done. rewrite (Hput wb (mkConn b (PUpdate ev p e o (cw_db w)) out)) by by left. done.
      + rewrite (asking_request cfg c ev b p (cw_db w) _ Hwa) in Hn. cbn [perform fst r_next] in Hn.
        pose proof (cs_begin_view cfg c wa k b out ev p base scope eq_refl Hka Hwa) as Hs1. set (wb := mkCWorld _ _ _ _ _) in Hs1.
        destruct (continues cfg c ev b p (Some (RView (search (cw_db w) base scope)))) as [rest n] eqn:Hco. cbn [snd] in Hn.
        pose proof (cs_end_view cfg c wb k b out ev p base scope (cw_db w) rest n eq_refl (lookup_insert _ _ _) Hco) as Hs2.
        eapply (Hend (cw_db w) _ rest n); [eapply cs_more; [eapply cs_more; [exact Hs0'|exact Hs1]|exact Hs2]|done|].
        rewrite (Hput wb (mkConn b (PView ev p base scope (cw_db w)) out)) by by left.
        unfold wb, wa. cbn [cw_db cw_lock cw_log]. rewrite Hl, Hco. cbn [snd]. by rewrite Hnote.
      + rewrite (plain_request cfg c ev b p (cw_db w) Hwa) in Hn. cbn [r_next] in Hn.
        destruct (continues cfg c ev b p None) as [rest n] eqn:Hco. cbn [snd] in Hn.
        pose proof (cs_plain cfg c wa k b out ev p rest n eq_refl Hka Hwa Hco) as Hs1.
        eapply (Hend (cw_db w) _ rest n); [eapply cs_more; [exact Hs0'|exact Hs1]|done|].
        rewrite Hnote by done. rewrite (Hput wa (mkConn b (PAsked ev p) out)) by by right. unfold wa. cbn [cw_db cw_lock cw_log]. by rewrite Hl.
    - destruct (Hidle k Hp) as (b & out & Hk & _).
      eapply Hone; [eapply cs_more; [apply cs_refl|by eapply (cs_eof cfg c w k)]|done| |reflexivity].
      rewrite Hl. apply (rested_put w k _ used); [by split|by right|by apply (Hc k _ Hk)|done]. }
  intros Ho. apply (G es (cstart d) []); [apply cs_refl| |exact Ho].
  split; [done|]. split; [done|]. cbn [cstart cw_conns]. intros k x. by rewrite lookup_empty.
Qed.
Print Assumptions C85_realised.

(** For the example, a run from a schedule: whose turn it is, and what comes in. *)
Inductive turn := TOpen (k : nat) | TClose (k : nat) | TPacket (k : nat) (ev : renv env) (p : packet) | TMove (k : nat).
Section schedule.
Context {T : Text} {C : Crypto} {W : Wire}.
Variable (cfg : server_cfg) (c : bolt_cfg).
Definition take_turn (w : cworld) (t : turn) : option cworld :=
  let to k x d l es := Some (mkCWorld d l (put w k x) true (cw_log w ++ es)) in
  if cw_alive w then
    match t with
    | TOpen k => match cw_conns w !! k with None => to k (mkConn [] PIdle []) (cw_db w) (cw_lock w) [EOpen k] | _ => None end
    | TClose k => match cw_conns w !! k with
                  | Some (mkConn b PIdle out) => to k (mkConn b PClosed out) (cw_db w) (cw_lock w) [EClose k] | _ => None end
    | TPacket k ev p => match cw_conns w !! k with
                        | Some (mkConn b PIdle out) => to k (mkConn b (PAsked ev p) out) (cw_db w) (cw_lock w) [] | _ => None end
    | TMove k =>
        match cw_conns w !! k with
        | Some (mkConn b (PAsked ev p) out) =>
            match wants cfg c ev b p with
            | None => let '(rest, n) := continues cfg c ev b p None in
                      to k (mkConn b (PSend rest n) out) (cw_db w) (cw_lock w) (note ev p k n)
            | Some (CUpdate e o) =>
                match cw_lock w with
                | None => to k (mkConn b (PUpdate ev p e o (cw_db w)) out) (cw_db w) (Some k) []
                | Some _ => None
                end
            | Some (CView base scope) =>
                to k (mkConn b (PView ev p base scope (cw_db w)) out) (cw_db w) (cw_lock w)
                  (note ev p k (continues cfg c ev b p (Some (RView (search (cw_db w) base scope)))).2)
            end
        | Some (mkConn b (PUpdate ev p e o snap) out) =>
            match run_op (bc_base c) e o snap with
            | (Done r, d') => let '(rest, n) := continues cfg c ev b p (Some (RUpdate (Done r))) in
                              to k (mkConn b (PSend rest n) out) d' None (note ev p k n)
            | _ => None
            end
        | Some (mkConn b (PView ev p base scope snap) out) =>
            let '(rest, n) := continues cfg c ev b p (Some (RView (search snap base scope))) in
            to k (mkConn b (PSend rest n) out) (cw_db w) (cw_lock w) []
        | Some (mkConn b (PSend (r :: rest) n) out) =>
            to k (mkConn b (PSend rest n) (out ++ [r])) (cw_db w) (cw_lock w) []
        | Some (mkConn b (PSend [] (Go b')) out) => to k (mkConn b' PIdle out) (cw_db w) (cw_lock w) []
        | Some (mkConn b (PSend [] Drop) out) => to k (mkConn b PClosed out) (cw_db w) (cw_lock w) []
        | _ => None
        end
    end
  else None.
Fixpoint take_turns (w : cworld) (ts : list turn) : option cworld :=
  match ts with [] => Some w | t :: ts' => match take_turn w t with Some w' => take_turns w' ts' | None => None end end.
Lemma take_turn_step w t w' : take_turn w t = Some w' -> cstep cfg c w w'.
Proof using Type.
  unfold take_turn. destruct (cw_alive w) eqn:Ha; [|done]. destruct t as [k|k|k ev p|k].
  - destruct (cw_conns w !! k) eqn:Hk; [done|]. intros [= <-]. by apply cs_open.
  - destruct (cw_conns w !! k) as [[b [] out]|] eqn:Hk; try done. intros [= <-]. by apply cs_eof.
  - destruct (cw_conns w !! k) as [[b [] out]|] eqn:Hk; try done. intros [= <-]. rewrite app_nil_r. by apply cs_packet.
  - destruct (cw_conns w !! k) as [[b [|ev p|ev p e o snap|ev p base scope snap|[|r rest] [b'| |]|] out]|] eqn:Hk; try done.
    + destruct (wants cfg c ev b p) as [[e o|base scope]|] eqn:Hwa.
      * destruct (cw_lock w) eqn:Hl; [done|]. intros [= <-]. rewrite app_nil_r. by apply cs_begin_update.
      * intros [= <-]. by apply cs_begin_view.
      * destruct (continues cfg c ev b p None) as [rest n] eqn:Hco. intros [= <-]. by apply cs_plain.
    + destruct (run_op (bc_base c) e o snap) as [[r|] d'] eqn:Hr; [|done].
      destruct (continues cfg c ev b p (Some (RUpdate (Done r)))) as [rest n] eqn:Hco. intros [= <-]. by eapply cs_end_update.
    + destruct (continues cfg c ev b p (Some (RView (search snap base scope)))) as [rest n] eqn:Hco.
      intros [= <-]. rewrite app_nil_r. by eapply cs_end_view.
    + intros [= <-]. rewrite app_nil_r. by eapply cs_go.
    + intros [= <-]. rewrite app_nil_r. by eapply cs_drop.
    + intros [= <-]. rewrite app_nil_r. by eapply cs_send.
    + intros [= <-]. rewrite app_nil_r. by eapply cs_send.
    + intros [= <-]. rewrite app_nil_r. by eapply cs_send.
Qed.
Lemma take_turns_steps w ts w' : take_turns w ts = Some w' -> csteps cfg c w w'.
Proof using Type.
  revert w. induction ts as [|t ts IH]; intros w; cbn [take_turns]; [intros [= <-]; apply cs_refl|].
  destruct (take_turn w t) as [w1|] eqn:E; [|done]. intros H. eapply csteps_app; [|by apply IH].
  eapply cs_more; [apply cs_refl|by eapply take_turn_step].
Qed.
End schedule.

(** The administrator is bound on connection 0 and deletes Carl; while that
    transaction is under way, a search for Carl on connection 1 takes its
    snapshot, and both go on.  A second deletion, on connection 2, has to wait
    and finds nothing.  The search comes first in the order and is sent Carl. *)
Definition del85 : packet := p_msg 2 (enc_delete carl).
Definition bind85 : packet := p_msg 1 (enc_bind admin1 (B "secret")).
Definition find85 : packet :=
  p_msg 3 (enc_search (mkSearch carl 0 0 false (B "(uid=x)") []) 0 0 (filter_packet (FPres (B "uid")))).
Definition turns85 : list turn :=
  [TOpen 0; TOpen 1; TOpen 2; TPacket 0 ev1 bind85; TPacket 2 ev1 bind85; TMove 0; TMove 2; TMove 2; TMove 0; TMove 2; TMove 2; TMove 0; TMove 0;
   TPacket 0 ev1 del85; TPacket 2 ev1 del85; TMove 0; TPacket 1 ev1 find85; TMove 1; TMove 0; TMove 2; TMove 1; TMove 2; TMove 1; TMove 0;
   TMove 2; TMove 2; TMove 1; TMove 1].
Definition run85 (ts : list turn) : option cworld :=
  take_turns (T:=ascii_text) (C:=toy) (W:=wire1) cfg1 c1 (cstart d1) ts.
Definition sent85 (k : nat) (w : cworld) : option (list response) := cn_sent <$> cw_conns w !! k.
Definition order85 (w : cworld) : list (nat * Z) :=
  omap (fun e => match e with EPacket k _ p => match p_kids p with i :: _ => option_map (fun n => (k, n)) (as_int (p_val i)) | _ => None end
                 | _ => None end) (cw_log w).
Example C85_case :
  (* the second deletion cannot begin while the first is under way *)
  run85 (take 16 turns85 ++ [TMove 2]) = None /\
  exists w, run85 turns85 = Some w /\
    csteps (T:=ascii_text) (C:=toy) (W:=wire1) cfg1 c1 (cstart d1) w /\
    order85 w = [(0, 1%Z); (2, 1%Z); (1, 3%Z); (0, 2%Z); (2, 2%Z)] /\
    dn2id (cw_db w) !! carl = None /\
    sent85 0 w = Some [RFinal 1 BindResponse 0 None; RFinal 2 DelResponse 0 None] /\
    sent85 1 w = Some [REntry 3 e_carl; RFinal 3 SearchResultDone 0 None] /\
    sent85 2 w = Some [RFinal 1 BindResponse 0 None; RFinal 2 DelResponse 53 None].
Proof.
  split; [vm_compute; reflexivity|].
  destruct (run85 turns85) as [w|] eqn:E.
  2:{ exfalso. apply (f_equal (fun o => match o with Some _ => true | None => false end)) in E. revert E. vm_compute. done. }
  exists w. split; [done|]. split; [by eapply take_turns_steps|].
  assert (H : forall A (f : cworld -> A), f w = f (match run85 turns85 with Some w => w | None => cstart d1 end)) by by rewrite E.
  rewrite (H _ order85), (H _ (fun w => dn2id (cw_db w) !! carl)), (H _ (sent85 0)), (H _ (sent85 1)), (H _ (sent85 2)).
  clear E H. vm_compute. done.
Qed.
(** The order of that run is one that [C85_realised] speaks of. *)
Fixpoint orderlyb {T : Text} {C : Crypto} {W : Wire} (cfg : server_cfg) (c : bolt_cfg) (used : list nat)
    (w : world (S:=db)) (es : list (event (E:=env))) : bool :=
  match es with
  | [] => true
  | e :: es' =>
      let w' := (step cfg (bolt_handler c) w e).1 in
      match e with EOpen k => negb (existsb (Nat.eqb k) used) | EPacket k _ _ | EClose k => bool_decide (is_Some (w_conns w !! k)) end &&
      (w_alive w' && orderlyb cfg c (match e with EOpen k => k :: used | _ => used end) w' es')
  end.
Lemma orderlyb_ok {T : Text} {C : Crypto} {W : Wire} cfg c used w es : orderlyb cfg c used w es = true -> orderly cfg c used w es.
Proof.
  revert used w. induction es as [|e es IH]; intros used w; [done|]. cbn [orderlyb orderly].
  intros [H1 [H2 H3]%andb_prop]%andb_prop. split; [|split; [done|by apply IH]].
  destruct e as [k|k ev p|k]; [|by apply bool_decide_eq_true in H1..].
  intros Hk. apply negb_true_iff in H1. assert (existsb (Nat.eqb k) used = true); [|congruence].
  apply existsb_exists. exists k. split; [done|apply Nat.eqb_refl].
Qed.
Example C85_realised_case w : run85 turns85 = Some w ->
  length (cw_log w) = 8 /\ orderly (T:=ascii_text) (C:=toy) (W:=wire1) cfg1 c1 [] (start d1) (cw_log w).
Proof.
  intros E. assert (H : forall A (f : cworld -> A), f w = f (match run85 turns85 with Some w => w | None => cstart d1 end)) by by rewrite E.
  split; [rewrite (H _ (fun w => length (cw_log w))); clear E H; vm_compute; done|].
  apply orderlyb_ok. rewrite (H _ (fun w => orderlyb (T:=ascii_text) (C:=toy) (W:=wire1) cfg1 c1 [] (start d1) (cw_log w))).
  clear E H. vm_compute. done.
Qed.
