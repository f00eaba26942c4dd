(** Proofs about LdifConns.v. *)
From Verif Require Import Bytes Text Dn DnProofs Res Entry EntryProofs Password PasswordProofs Db Packet Filter
  FilterProofs Handler Server Ldif LdifProofs Paging PagingProofs LdifConns.

Section proofs.
Context {T : Text} {C : Crypto} {W : Wire} {Tr : Trees}.
Variable (cfg : server_cfg) (c : ldif_cfg).
Notation lstep := (lstep cfg c).
Notation lrun := (lrun cfg c).

(** * One request *)
Lemma handle_found f ev b p d :
  (forall r, calls_search cfg p = Some r -> ldif_search c (re_h ev) b r d = (f, d)) ->
  handle cfg (ldif_handler c) ev b p d = handle cfg (returned c f) ev b p d.
Proof using Type.
  unfold calls_search, handle. destruct (p_kids p) as [|i [|req rest]]; [done|done|].
  destruct (as_int (p_val i)) as [id|]; [|done]. destruct (negb (p_cls req =? ClassApplication)%N); [done|].
  destruct (match rest with x :: _ => decode_controls (p_kids x) | [] => true end); [|done]. cbn [negb].
  destruct (N.eqb_spec (p_tag req) SearchRequest) as [Ht|Ht]; cbn [negb].
  - intros H. unfold dispatch. rewrite Ht. cbn [N.eqb]. change (SearchRequest =? AddRequest)%N with false.
    change (SearchRequest =? BindRequest)%N with false. change (SearchRequest =? CompareRequest)%N with false.
    change (SearchRequest =? DelRequest)%N with false. change (SearchRequest =? ExtendedRequest)%N with false.
    change (SearchRequest =? ModifyDNRequest)%N with false. change (SearchRequest =? ModifyRequest)%N with false.
    change (SearchRequest =? SearchRequest)%N with true. cbn match.
    unfold handle_search. destruct (parse_search req) as [r| | |]; [|done..].
    destruct (sv_enforce cfg).
    + destruct (compile_filter (sr_filter r)); [|done]. cbn [h_search ldif_handler returned]. rewrite (H r eq_refl). done.
    + cbn [h_search ldif_handler returned]. rewrite (H r eq_refl). done.
  - intros _. unfold dispatch. apply N.eqb_neq in Ht. rewrite Ht. done.
Qed.
(** What a request does after Search does not depend on the data. *)
Lemma returned_data f ev b p d d' r : calls_search cfg p = Some r ->
  r_out (handle cfg (returned c f) ev b p d) = r_out (handle cfg (returned c f) ev b p d') /\
  r_next (handle cfg (returned c f) ev b p d) = r_next (handle cfg (returned c f) ev b p d').
Proof using Type.
  unfold calls_search, handle. destruct (p_kids p) as [|i [|req rest]]; [done|done|].
  destruct (as_int (p_val i)) as [id|]; [|done]. destruct (negb (p_cls req =? ClassApplication)%N); [done|].
  destruct (match rest with x :: _ => decode_controls (p_kids x) | [] => true end); [|done]. cbn [negb].
  destruct (N.eqb_spec (p_tag req) SearchRequest) as [Ht|Ht]; cbn [negb]; [|done].
  intros H. unfold dispatch. rewrite Ht. change (SearchRequest =? AddRequest)%N with false.
  change (SearchRequest =? BindRequest)%N with false. change (SearchRequest =? CompareRequest)%N with false.
  change (SearchRequest =? DelRequest)%N with false. change (SearchRequest =? ExtendedRequest)%N with false.
  change (SearchRequest =? ModifyDNRequest)%N with false. change (SearchRequest =? ModifyRequest)%N with false.
  change (SearchRequest =? SearchRequest)%N with true. cbn match.
  unfold handle_search. destruct (parse_search req) as [q| | |]; [|done..].
  destruct (sv_enforce cfg); [destruct (compile_filter (sr_filter q)); [|done]|]; cbn [h_search returned];
    (destruct f as [f| |]; [|done..]); (destruct (f_err f); [unfold send_final; by destruct (re_send ev _)|]);
    (destruct (search_loop _ _ _ _ _ _) as [es [|[]| |]]; try done; unfold send_final; by destruct (re_send ev _)).
Qed.

(** * Readers and connections *)
Lemma start_readers st k local b r p fresh : ps_readers st !! k = None ->
  let s := p_step c st (PStart k local b r p fresh) in
  (forall j, j <> k -> ps_readers s.1 !! j = ps_readers st !! j) /\
  match s.2 with
  | Some a => an_conn a = k /\ ps_readers s.1 !! k = None
  | None => is_Some (ps_readers s.1 !! k)
  end.
Proof using Type.
  intros Hk. cbn [p_step]. rewrite Hk. unfold p_start.
  assert (E : forall st' ch r' pg, ps_readers st' = ps_readers st -> let s := enter k ch r' pg st' in
    (forall j, j <> k -> ps_readers s.1 !! j = ps_readers st !! j) /\
    match s.2 with
    | Some a => an_conn a = k /\ ps_readers s.1 !! k = None
    | None => is_Some (ps_readers s.1 !! k)
    end).
  { intros st' ch r' pg Es. unfold enter. destruct (compile_filter _); cbn [fst snd say ps_readers an_conn]; rewrite Es.
    - split; [|rewrite lookup_insert; eauto]. intros j Hj. by rewrite lookup_insert_ne.
    - done. }
  destruct (negb (bind_dn_ok _ _ _)); [done|]. destruct (leaves_of r) as [fs| | |]; [|done..].
  destruct (negb _); [done|]. destruct (paging_of r p) as [pg|]; [|by apply E].
  destruct (is_empty _); [by apply E|]. destruct (ps_reg st !! pg_cookie pg); [|done].
  destruct (0 <? pg_size pg)%Z; by apply E.
Qed.
Lemma wait_readers st k e : is_Some (ps_readers st !! k) -> e = PRecv k \/ e = PEmpty k ->
  let s := p_step c st e in
  (forall j, j <> k -> ps_readers s.1 !! j = ps_readers st !! j) /\
  match s.2 with
  | Some a => an_conn a = k /\ ps_readers s.1 !! k = None
  | None => is_Some (ps_readers s.1 !! k)
  end.
Proof using Type.
  intros [rd Hk].
  assert (L : forall st' o, ps_readers st' = ps_readers st -> let s := p_leave k rd o st' in
    (forall j, j <> k -> ps_readers s.1 !! j = ps_readers st !! j) /\
    match s.2 with
    | Some a => an_conn a = k /\ ps_readers s.1 !! k = None
    | None => is_Some (ps_readers s.1 !! k)
    end).
  { intros st' o Es. cbn. rewrite Es. split; [|by rewrite lookup_delete]. intros j Hj. by rewrite lookup_delete_ne. }
  intros [-> | ->]; cbn [p_step]; rewrite Hk.
  - destruct (rd_chan rd) as [ch|]; [|cbn; eauto]. destruct (ps_pumps st !! ch) as [[full [|x todo] [] ck]|]; try (cbn; by eauto).
    unfold p_take. destruct (take_entry _ _ _) as [[e'|]|[]| |]; try (by apply L); [|cbn; by eauto].
    destruct (enough _ _ _); [by apply L|]. cbn. split; [|rewrite lookup_insert; eauto]. intros j Hj. by rewrite lookup_insert_ne.
  - destruct (rd_chan rd) as [ch|]; [|cbn; eauto]. destruct (ps_pumps st !! ch) as [[full todo [] ck]|]; try (cbn; by eauto). by apply L.
Qed.
Lemma pump_readers st e : pump_event e -> ps_readers (p_step c st e).1 = ps_readers st /\ (p_step c st e).2 = None.
Proof using Type.
  destruct e; try done; intros _; cbn [p_step].
  - destruct (ps_pumps st !! ch) as [[full [|x todo] [] ck]|]; try done. unfold unregister. cbn. by destruct ck.
  - destruct (ps_pumps st !! ch) as [[full todo [] ck]|]; done.
  - destruct (ps_pumps st !! ch) as [[full [|x todo] [] ck]|]; try done. unfold unregister. cbn. by destruct ck.
Qed.

Definition inside (w : lworld) (k : nat) : Prop :=
  exists b ev p out, lw_conns w !! k = Some (mkLC b (LSearch ev p) out).
Definition matched (w : lworld) : Prop := forall k, is_Some (ps_readers (lw_p w) !! k) <-> inside w k.
Lemma matched_none w k : matched w -> ~ inside w k -> ps_readers (lw_p w) !! k = None.
Proof using Type. intros H Hn. destruct (ps_readers (lw_p w) !! k) eqn:E; [|done]. destruct Hn. apply H. by rewrite E. Qed.
Lemma not_inside w k x : lw_conns w !! k = Some x -> (forall ev p, ln_phase x <> LSearch ev p) -> ~ inside w k.
Proof using Type. intros H Hn (b & ev & p & out & E). rewrite H in E. injection E as ->. by eapply Hn. Qed.
Lemma matched_put w k b ph out al log : matched w -> ~ inside w k -> (forall ev p, ph <> LSearch ev p) ->
  matched (mkLW (lw_p w) (lput w k (mkLC b ph out)) al log).
Proof using Type.
  intros H Hk Hn j. unfold inside, lput. cbn [lw_p lw_conns]. rewrite (H j). destruct (decide (j = k)) as [->|Hne].
  - rewrite lookup_insert. split; [done|]. intros (b' & ev & q & o & [= -> Hp ->]). by destruct (Hn ev q).
  - by rewrite lookup_insert_ne.
Qed.
Lemma step_matched w l w' : matched w -> lstep w l w' -> matched w'.
Proof using Type.
  intros H Hs.
  destruct Hs as [k Ha Hk|k b out Ha Hk|k b out ev p Ha Hk|k b out ev p Ha Hk Hc r|k b out ev p r fresh Ha Hk Hc e s|e Ha He
    |k b out ev p e Ha Hk He s|k b out m rest n Ha Hk|k b out b' Ha Hk|k b out Ha Hk|k b out Ha Hk]; cbn [lw_p].
  1: apply matched_put; [done| |done]; intros (? & ? & ? & ? & E); congruence.
  1,2,3,7,8,9: apply matched_put; [done|eapply not_inside; [exact Hk|done]|done].
  4: done.
  all: intros j; cbn [lw_p].
  - assert (Hn : ps_readers (lw_p w) !! k = None).
    { apply matched_none; [done|]. eapply not_inside; [exact Hk|]. done. }
    destruct (start_readers (lw_p w) k (re_h ev) b r (paging_control p) fresh Hn) as [Ho Hs].
    fold e in Ho, Hs. fold s in Ho, Hs. unfold inside, lput. cbn [lw_conns]. destruct (decide (j = k)) as [->|Hne].
    + rewrite lookup_insert. destruct s.2 as [a|]; cbn [after_step].
      * destruct Hs as [_ ->]. split; [by intros [? ?]|]. intros (? & ? & ? & ? & E). by injection E.
      * split; [|done]. intros _. eauto.
    + rewrite lookup_insert_ne by done. rewrite Ho by done. apply H.
  - destruct (pump_readers (lw_p w) e He) as [-> _]. apply H.
  - assert (Hn : is_Some (ps_readers (lw_p w) !! k)) by (apply H; unfold inside; eauto).
    destruct (wait_readers (lw_p w) k e Hn He) as [Ho Hs]. fold s in Ho, Hs.
    unfold inside, lput. cbn [lw_conns]. destruct (decide (j = k)) as [->|Hne].
    + rewrite lookup_insert. destruct s.2 as [a|]; cbn [after_step].
      * destruct Hs as [_ ->]. split; [by intros [? ?]|]. intros (? & ? & ? & ? & E). by injection E.
      * split; [|done]. intros _. eauto.
    + rewrite lookup_insert_ne by done. rewrite Ho by done. apply H.
Qed.
Lemma matched_start d : matched (lstart d).
Proof using Type.
  intros k. cbn. unfold inside. cbn. rewrite !lookup_empty. split; [by intros [? ?]|]. by intros (? & ? & ? & ? & ?).
Qed.
Lemma run_matched d tr w : lrun (lstart d) tr w -> matched w.
Proof using Type. induction 1; [apply matched_start|]. by eapply step_matched. Qed.

(** * The searches of the run *)
Definition pev (l : llabel) : list pevent :=
  match l with LbSearch _ _ e | LbPump e | LbWait _ e => [e] | _ => [] end.
Lemma step_p w l w' : lstep w l w' -> lw_p w' = p_run c (lw_p w) (pev l).
Proof using Type. by destruct 1. Qed.
Lemma run_p w tr w' : lrun w tr w' -> lw_p w' = p_run c (lw_p w) (flat_map pev tr).
Proof using Type.
  induction 1 as [|tr w1 l w2 _ IH Hs]; [done|]. rewrite flat_map_app, p_run_app, <- IH. cbn [flat_map]. rewrite app_nil_r.
  by apply step_p.
Qed.
Lemma step_log_data w l w' : lstep w l w' -> exists more, lw_log w' = lw_log w ++ more /\
  forall k x, so_data x = ps_data (lw_p w) -> so_data (foldl (solo_step cfg c k) x more) = ps_data (lw_p w').
Proof using Type.
  assert (N : forall k ev p x, so_data (solo_step cfg c k x (VTake k ev p)) = so_data x).
  { intros k ev p x. cbn [solo_step]. rewrite Nat.eqb_refl. by destruct (so_next x). }
  assert (M : forall j k ev p x, so_data (solo_step cfg c k x (VTake j ev p)) = so_data x).
  { intros j k ev p x. cbn [solo_step]. destruct (j =? k); [|done]. by destruct (so_next x). }
  destruct 1 as [k Ha Hk|k b out Ha Hk|k b out ev p Ha Hk|k b out ev p Ha Hk Hc r|k b out ev p r fresh Ha Hk Hc e s|e Ha He
    |k b out ev p e Ha Hk He s|k b out m rest n Ha Hk|k b out b' Ha Hk|k b out Ha Hk|k b out Ha Hk]; cbn [lw_p lw_log];
    try (exists []; rewrite app_nil_r; (split; [done|]); intros j x Hx; exact Hx).
  - eexists. split; [done|]. intros j x Hx. cbn [foldl]. by rewrite M.
  - eexists. split; [done|]. intros j x Hx. cbn [foldl]. rewrite M. unfold s. by rewrite step_data.
  - eexists. split; [done|]. intros j x Hx. rewrite step_data. destruct e; cbn [noted foldl]; try done.
    cbn [solo_step so_data]. by rewrite Hx.
  - exists []. rewrite app_nil_r. split; [done|]. intros j x Hx. cbn [foldl]. unfold s. rewrite step_data. by destruct He as [-> | ->].
Qed.

(** * One connection *)
Section one.
Variable (k : nat) (d : dataset).
Hypothesis (HTr : TreesOK Tr) (Hd : built d).
Definition bare (l : list message) : Prop := Forall (fun m => m.2 = None) l.
Definition kept (x : solo) (w : lworld) (tr : list llabel) : Prop :=
  so_data x = ps_data (lw_p w) /\
  match lw_conns w !! k with
  | None => so_next x = Go [] /\ so_out x = []
  | Some (mkLC b ph out) =>
      bare out /\
      match ph with
      | LIdle | LAsked _ _ => so_next x = Go b /\ so_out x = out.*1
      | LSend rest n => so_next x = n /\ so_out x = out.*1 ++ rest.*1 /\ bare rest
      | LSearch ev p =>
          exists r flt ch e res dd, calls_search cfg p = Some r /\ waiting k r flt ch res (lw_p w) /\ In (LbSearch k ch e) tr /\
            let R := handle cfg (returned c (ldif_found res)) ev b p dd in
            so_next x = r_next R /\ so_out x = out.*1 ++ r_out R
      | LClosed => so_out x = out.*1
      end
  end.
(** No paging in effect on the connection, and none of its pumps gives up. *)
Definition plain_on (tr : list llabel) : Prop :=
  (forall ev p r, In (LbRead k ev p) tr -> calls_search cfg p = Some r -> paging_of r (paging_control p) = None) /\
  (forall ch e, In (LbSearch k ch e) tr -> ~ In (LbPump (PGiveUp ch)) tr).
Lemma plain_on_app tr tr' : plain_on (tr ++ tr') -> plain_on tr.
Proof using Type.
  intros [H1 H2]. split.
  - intros ev p r H. apply (H1 ev p r). apply in_or_app. by left.
  - intros ch e H H'. eapply (H2 ch e); apply in_or_app; by left.
Qed.
Lemma bare_plain l : bare (plain_messages l).
Proof using Type. unfold bare, plain_messages. apply Forall_forall. intros m Hm. by apply elem_of_list_fmap in Hm as (y & -> & _). Qed.
Lemma fst_plain l : (plain_messages l).*1 = l.
Proof using Type. unfold plain_messages. induction l; [done|]. cbn. by f_equal. Qed.
Lemma bare_cookie l : bare (with_cookie None l).
Proof using Type. unfold bare, with_cookie. apply Forall_forall. intros m Hm. apply elem_of_list_fmap in Hm as (y & -> & _). by destruct y. Qed.
Lemma fst_cookie ck l : (with_cookie ck l).*1 = l.
Proof using Type. unfold with_cookie. induction l; [done|]. cbn. by f_equal. Qed.
Lemma found_no_page f : found_in (no_page f) = f.
Proof using Type. by destruct f. Qed.
Lemma cookie_no_page f : cookie_in (no_page f) = None.
Proof using Type. by destruct f. Qed.

(** What has been read and is not dealt with was read. *)
Lemma asked_read tr w b ev p out : lrun (lstart d) tr w -> lw_conns w !! k = Some (mkLC b (LAsked ev p) out) -> In (LbRead k ev p) tr.
Proof using Type.
  intros H. revert b ev p out. induction H as [|tr w1 l w2 H IH Hs]; intros b ev p out Hk; [cbn in Hk; by rewrite lookup_empty in Hk|].
  apply in_or_app.
  destruct Hs as [j Ha Hj|j b1 out1 Ha Hj|j b1 out1 ev1 p1 Ha Hj|j b1 out1 ev1 p1 Ha Hj Hc r|j b1 out1 ev1 p1 r fresh Ha Hj Hc e s|e Ha He
    |j b1 out1 ev1 p1 e Ha Hj He s|j b1 out1 m rest n Ha Hj|j b1 out1 b' Ha Hj|j b1 out1 Ha Hj|j b1 out1 Ha Hj]; cbn [lw_conns] in Hk;
    try (unfold lput in Hk; destruct (decide (j = k)) as [->|Hne]; [rewrite lookup_insert in Hk|rewrite lookup_insert_ne in Hk by done; left; by eapply IH]);
    try done; try (left; by eapply IH).
  - injection Hk as -> -> -> ->. right. by left.
  - injection Hk as _ E _. destruct (s.2); done.
  - injection Hk as _ E _. destruct (s.2); done.
Qed.
Lemma keep_other x x' w tr w' l : kept x w tr -> so_next x' = so_next x -> so_out x' = so_out x -> (forall ch e, In (LbSearch k ch e) tr -> l <> LbPump (PGiveUp ch)) ->
  lw_conns w' !! k = lw_conns w !! k -> so_data x' = ps_data (lw_p w') ->
  lw_p w' = lw_p w \/
  (exists e, lw_p w' = (p_step c (lw_p w) e).1 /\ (forall ch, e = PGiveUp ch -> l = LbPump e) /\ (forall a, (p_step c (lw_p w) e).2 = Some a -> an_conn a <> k)) ->
  kept x' w' (tr ++ [l]).
Proof using Type.
  intros [Hx Hk] Eb Eo Hg Ec Ed Ep. split; [done|]. rewrite Ec, Eb, Eo. destruct (lw_conns w !! k) as [[b ph out]|]; [|done].
  destruct Hk as [Hb Hk]. split; [done|]. destruct ph; try done.
  destruct Hk as (r & flt & ch & e & res & dd & H1 & H2 & H3 & H4). exists r, flt, ch, e, res, dd. split; [done|].
  split; [|split; [apply in_or_app; by left|done]].
  destruct Ep as [-> | (e' & -> & He & Ha)]; [done|].
  destruct (waiting_step c k r flt ch res (lw_p w) e' H2) as [[Hw _]|(a & E1 & E2 & _)]; [|done|by destruct (Ha a E1)].
  intros ->. by destruct (Hg ch e H3 (He ch eq_refl)).
Qed.
Lemma kept_snoc x w tr l : kept x w tr -> kept x w (tr ++ [l]).
Proof using Type.
  intros [Hx Hk]. split; [done|]. destruct (lw_conns w !! k) as [[b ph out]|]; [|done].
  destruct Hk as [Hb Hk]. split; [done|]. destruct ph; try done.
  destruct Hk as (r & flt & ch & e & res & dd & H1 & H2 & H3 & H4). exists r, flt, ch, e, res, dd.
  split; [done|]. split; [done|]. split; [apply in_or_app; by left|done].
Qed.
Lemma run_kept tr w : lrun (lstart d) tr w -> plain_on tr -> kept (alone cfg c k d (lw_log w)) w tr.
Proof using HTr Hd.
  intros H. induction H as [|tr w1 l w2 H IH Hs]; intros Hp.
  { split; [done|]. cbn. by rewrite lookup_empty. }
  specialize (IH (plain_on_app _ _ Hp)). destruct Hp as [Hp1 Hp2].
  pose proof (run_matched _ _ _ H) as Hm. pose proof (run_p _ _ _ H) as Hrp. cbn [lw_p lstart] in Hrp.
  assert (Hg : forall ch e, In (LbSearch k ch e) tr -> l <> LbPump (PGiveUp ch)).
  { intros ch e Hin ->. apply (Hp2 ch e); apply in_or_app; [by left|right; by left]. }
  assert (Hpg : forall b ev p out r, lw_conns w1 !! k = Some (mkLC b (LAsked ev p) out) -> calls_search cfg p = Some r ->
    paging_of r (paging_control p) = None).
  { intros b ev p out r Hk Hr. apply (Hp1 ev p r); [|done]. apply in_or_app. left. by eapply asked_read. }
  clear Hp1 Hp2.
  pose proof (step_log_data _ _ _ Hs) as (more & El & Edata). specialize (Edata k _ (proj1 IH)).
  unfold alone in Edata |- *. rewrite El, foldl_app. fold (alone cfg c k d (lw_log w1)) in Edata |- *.
  set (x := alone cfg c k d (lw_log w1)) in *.
  assert (Hsnoc : forall log l', log ++ [l'] = log ++ more -> more = [l']) by (intros log l' E; by apply app_inv_head in E).
  assert (Hnil : forall log : list levent, log = log ++ more -> more = []).
  { intros log E. apply (app_inv_head log). by rewrite app_nil_r. }
  destruct Hs as [j Ha Hj|j b out Ha Hj|j b out ev p Ha Hj|j b out ev p Ha Hj Hc r|j b out ev p r fresh Ha Hj Hc e s|e Ha He
    |j b out ev p e Ha Hj He s|j b out m rest n Ha Hj|j b out b' Ha Hj|j b out Ha Hj|j b out Ha Hj]; cbn [lw_log] in El;
    try (rewrite (Hnil _ El) in Edata |- *; cbn [foldl] in Edata |- *);
    try (destruct (decide (j = k)) as [->|Hne]; [|
      first [ apply (keep_other x x w1); [exact IH|done|done|exact Hg|cbn; unfold lput; by rewrite lookup_insert_ne|exact Edata|by left] ]]).
  - apply kept_snoc. destruct IH as [Hx Hk]. rewrite Hj in Hk. destruct Hk as [Hb Ho]. split; [done|].
    cbn [lw_conns]. unfold lput. rewrite lookup_insert. split; [constructor|]. done.
  - apply kept_snoc. destruct IH as [Hx Hk]. rewrite Hj in Hk. destruct Hk as [Hb [_ Ho]]. split; [done|].
    cbn [lw_conns]. unfold lput. rewrite lookup_insert. done.
  - apply kept_snoc. destruct IH as [Hx Hk]. rewrite Hj in Hk. split; [done|].
    cbn [lw_conns]. unfold lput. rewrite lookup_insert. done.
  - rewrite (Hsnoc _ _ El) in Edata |- *. cbn [foldl solo_step] in Edata |- *. destruct (Nat.eqb_spec j k) as [->|Hne].
    + apply kept_snoc. destruct IH as [Hx Hk]. rewrite Hj in Hk. destruct Hk as [Hb [Hsb Hso]]. rewrite Hsb in Edata |- *.
      split; [done|]. cbn [lw_conns so_next so_out]. unfold lput. rewrite lookup_insert. split; [done|].
      rewrite Hx, Hso, fst_plain. split; [reflexivity|]. split; [done|apply bare_plain].
    + apply (keep_other x x w1); [exact IH|done|done|exact Hg|cbn; unfold lput; by rewrite lookup_insert_ne|exact Edata|by left].
  - rewrite (Hsnoc _ _ El) in Edata |- *. cbn [foldl solo_step] in Edata |- *. destruct (Nat.eqb_spec j k) as [->|Hne].
    + destruct IH as [Hx Hk]. rewrite Hj in Hk. destruct Hk as [Hb [Hsb Hso]]. rewrite Hsb in Edata |- *.
      split; [done|]. cbn [lw_conns so_next so_out]. unfold lput. rewrite lookup_insert. split; [done|].
      assert (Hn : ps_readers (lw_p w1) !! k = None) by (apply matched_none; [done|]; eapply not_inside; [exact Hj|done]).
      pose proof (Hpg _ _ _ _ _ Hj Hc) as Hpgn.
      assert (Hf : handle cfg (ldif_handler c) ev b p (so_data x) =
        handle cfg (returned c (ldif_search c (re_h ev) b r (ps_data (lw_p w1))).1) ev b p (so_data x)).
      { apply handle_found. intros r' Hr'. assert (r' = r) as -> by congruence. rewrite Hx. unfold ldif_search. done. }
      rewrite Hf, Hso. unfold ldif_search. cbn [fst].
      destruct (search_checks c (re_h ev) b r) as [y|[flt fs]] eqn:Es.
      * destruct (refused_start c (lw_p w1) k (re_h ev) b r (paging_control p) fresh y Hn Hpgn Es) as (a & Ea & _ & Eo).
        unfold s, e. rewrite Ea. cbn [after_step]. unfold replies. rewrite Eo, found_no_page, cookie_no_page, fst_cookie, Hx.
        split; [reflexivity|]. split; [done|apply bare_cookie].
      * destruct (waiting_start c (lw_p w1) k (re_h ev) b r (paging_control p) fresh flt fs) as [En Hw];
          [rewrite Hrp; apply wf_true_run|done..|]. unfold s, e. rewrite En. cbn [after_step].
        exists r, flt, (ps_next (lw_p w1)), (PStart k (re_h ev) b r (paging_control p) fresh),
          (take_es flt r (sends (ps_data (lw_p w1)) (sr_base r) fs) 0), (so_data x).
        split; [done|]. split; [exact Hw|]. split; [apply in_or_app; right; by left|]. cbv zeta.
        rewrite take_es_all by (apply candidates_valid; [done|rewrite Hrp; by apply built_run]).
        split; [by destruct (r_next _)|done].
    + assert (Hn : ps_readers (lw_p w1) !! j = None) by (apply matched_none; [done|]; eapply not_inside; [exact Hj|done]).
      destruct (start_readers (lw_p w1) j (re_h ev) b r (paging_control p) fresh Hn) as [_ Hs].
      apply (keep_other x x w1); [exact IH|done|done|exact Hg|cbn; unfold lput; by rewrite lookup_insert_ne|exact Edata|].
      right. exists e. split; [done|]. split; [done|]. intros a Ea. fold e in Hs. rewrite Ea in Hs. by destruct Hs as [-> _].
  - apply (keep_other x _ w1); [exact IH|..|exact Hg|done|exact Edata|].
    + apply app_inv_head in El as <-. by destruct e.
    + apply app_inv_head in El as <-. by destruct e.
    + right. exists e. split; [done|]. split; [done|]. intros a Ea. destruct (pump_readers (lw_p w1) e He) as [_ E]. congruence.
  - destruct (decide (j = k)) as [->|Hne].
    + destruct IH as [Hx Hk]. rewrite Hj in Hk. destruct Hk as [Hb (r & flt & ch & e' & res & dd & Hc & Hw & Hin & Hsb & Hso)].
      split; [done|]. cbn [lw_conns]. unfold lput. rewrite lookup_insert. split; [done|].
      assert (Hns : is_Some (ps_readers (lw_p w1) !! k)) by (apply Hm; unfold inside; eauto).
      destruct (wait_readers (lw_p w1) k e Hns He) as [_ Hr]. fold s in Hr.
      destruct (waiting_step c k r flt ch res (lw_p w1) e Hw) as [[Hw' Ho]|(a & Ea & _ & Eo)].
      { destruct He as [-> | ->]; done. }
      * fold s in Ho, Hw'. destruct s.2 as [a|]; [destruct Hr as [Hr _]; by destruct (Ho a eq_refl)|]. cbn [after_step].
        exists r, flt, ch, e', res, dd. split; [done|]. split; [done|]. split; [apply in_or_app; by left|done].
      * fold s in Ea. rewrite Ea. cbn [after_step]. unfold replies. rewrite Eo, found_no_page, cookie_no_page, fst_cookie.
        destruct (returned_data (ldif_found res) ev b p (ps_data (lw_p w1)) dd r Hc) as [-> ->].
        split; [done|]. split; [done|apply bare_cookie].
    + assert (Hns : is_Some (ps_readers (lw_p w1) !! j)) by (apply Hm; unfold inside; eauto).
      destruct (wait_readers (lw_p w1) j e Hns He) as [_ Hr].
      apply (keep_other x x w1); [exact IH|done|done|exact Hg|cbn; unfold lput; by rewrite lookup_insert_ne|exact Edata|].
      right. exists e. split; [done|]. split; [intros ch ->; by destruct He|]. intros a Ea. rewrite Ea in Hr. by destruct Hr as [-> _].
  - apply kept_snoc. destruct IH as [Hx Hk]. rewrite Hj in Hk. destruct Hk as [Hb (Hsb & Hso & Hr)]. split; [done|].
    cbn [lw_conns]. unfold lput. rewrite lookup_insert. apply Forall_cons in Hr as [Hr1 Hr2].
    split; [apply Forall_app; split; [done|by constructor]|]. split; [done|]. split; [|done]. rewrite Hso, fmap_app, <- app_assoc. done.
  - apply kept_snoc. destruct IH as [Hx Hk]. rewrite Hj in Hk. destruct Hk as [Hb (Hsb & Hso & Hr)]. split; [done|].
    cbn [lw_conns]. unfold lput. rewrite lookup_insert. split; [done|]. split; [done|]. by rewrite Hso, app_nil_r.
  - apply kept_snoc. destruct IH as [Hx Hk]. rewrite Hj in Hk. destruct Hk as [Hb (Hsb & Hso & Hr)]. split; [done|].
    cbn [lw_conns]. unfold lput. rewrite lookup_insert. split; [done|]. by rewrite Hso, app_nil_r.
  - apply kept_snoc. exact IH.
Qed.
End one.

(** * The order *)
Lemma run_trans w tr1 w1 tr2 w2 : lrun w tr1 w1 -> lrun w1 tr2 w2 -> lrun w (tr1 ++ tr2) w2.
Proof using Type.
  intros H1. induction 1 as [|tr w1' l w2 _ IH Hs]; [by rewrite app_nil_r|]. rewrite app_assoc. by eapply lr_more.
Qed.
Lemma run_one w l w' : lstep w l w' -> lrun w [l] w'.
Proof using Type. intros H. change [l] with ([] ++ [l]). eapply lr_more; [apply lr_refl|done]. Qed.
Lemma taken_app k l1 l2 : taken_from k (l1 ++ l2) = taken_from k l1 ++ taken_from k l2.
Proof using Type. unfold taken_from. apply omap_app. Qed.
Lemma run_order k w0 tr w : lrun w0 tr w -> not_taken k w0 = [] ->
  exists more, lw_log w = lw_log w0 ++ more /\ read_from k tr = taken_from k more ++ not_taken k w.
Proof using Type.
  intros H H0. induction H as [|tr w1 l w2 H IH Hs]; [exists []; by rewrite app_nil_r, H0|].
  destruct IH as (more & El & Er). unfold read_from in Er |- *. rewrite omap_app, Er.
  destruct Hs as [j Ha Hj|j b out Ha Hj|j b out ev p Ha Hj|j b out ev p Ha Hj Hc r|j b out ev p r fresh Ha Hj Hc e s|e Ha He
    |j b out ev p e Ha Hj He s|j b out m rest n Ha Hj|j b out b' Ha Hj|j b out Ha Hj|j b out Ha Hj]; cbn [lw_log omap list_omap];
    try (exists more; rewrite app_nil_r; (split; [done|]); f_equal; unfold not_taken; cbn [lw_conns]; unfold lput;
         destruct (decide (j = k)) as [->|Hne]; [by rewrite Hj, lookup_insert|by rewrite lookup_insert_ne]).
  - exists more. split; [done|]. rewrite <- app_assoc. f_equal. unfold not_taken. cbn [lw_conns]. unfold lput.
    destruct (Nat.eqb_spec j k) as [->|Hne]; [by rewrite Hj, lookup_insert|]. rewrite lookup_insert_ne by done. by rewrite app_nil_r.
  - exists (more ++ [VTake j ev p]). rewrite El, app_assoc. split; [done|]. rewrite taken_app, app_nil_r, <- app_assoc. f_equal.
    unfold not_taken. cbn [lw_conns]. unfold lput, taken_from. cbn [omap list_omap].
    destruct (Nat.eqb_spec j k) as [->|Hne]; [by rewrite Hj, lookup_insert|by rewrite lookup_insert_ne].
  - exists (more ++ [VTake j ev p]). rewrite El, app_assoc. split; [done|]. rewrite taken_app, app_nil_r, <- app_assoc. f_equal.
    unfold not_taken. cbn [lw_conns]. unfold lput, taken_from. cbn [omap list_omap].
    destruct (Nat.eqb_spec j k) as [->|Hne]; [|by rewrite lookup_insert_ne]. rewrite Hj, lookup_insert. by destruct s.2.
  - exists (more ++ noted e). rewrite El, app_assoc. split; [done|]. rewrite taken_app, app_nil_r, <- app_assoc. f_equal.
    by destruct e.
  - exists more. rewrite app_nil_r. split; [done|]. f_equal. unfold not_taken. cbn [lw_conns]. unfold lput.
    destruct (decide (j = k)) as [->|Hne]; [|by rewrite lookup_insert_ne]. rewrite Hj, lookup_insert. by destruct s.2.
  - exists more. rewrite app_nil_r. done.
Qed.

(** * Progress *)
Lemma wait_chan st k e rd' : e = PRecv k \/ e = PEmpty k -> ps_readers (p_step c st e).1 !! k = Some rd' ->
  exists rd, ps_readers st !! k = Some rd /\ rd_chan rd' = rd_chan rd /\ rd_page rd' = rd_page rd.
Proof using Type.
  intros He. destruct (ps_readers st !! k) as [rd|] eqn:Hk.
  2:{ destruct He as [-> | ->]; cbn [p_step]; rewrite Hk; cbn [fst]; congruence. }
  intros H. exists rd. split; [done|]. revert H.
  assert (Hsame : forall st', ps_readers st' !! k = Some rd -> ps_readers st' !! k = Some rd' -> rd_chan rd' = rd_chan rd /\ rd_page rd' = rd_page rd) by (intros st' H1 H2; assert (rd' = rd) as -> by congruence; done).
  assert (L : forall o st', ps_readers (p_leave k rd o st').1 !! k = Some rd' -> rd_chan rd' = rd_chan rd /\ rd_page rd' = rd_page rd).
  { intros o st'. cbn. by rewrite lookup_delete. }
  destruct He as [-> | ->]; cbn [p_step]; rewrite Hk; destruct (rd_chan rd) as [ch|] eqn:Ech;  try (by apply Hsame).
  - destruct (ps_pumps st !! ch) as [[full [|x todo] [] ck]|]; try (by apply Hsame).
    unfold p_take. destruct (take_entry _ _ _) as [[e'|]|[]| |]; try (by apply L); [|by apply Hsame].
    destruct (enough _ _ _); [by apply L|]. cbn. rewrite lookup_insert. by intros [= <-].
  - destruct (ps_pumps st !! ch) as [[full todo [] ck]|]; try (by apply Hsame). by apply L.
Qed.
Lemma start_chan st k local b r p fresh rd : ps_readers st !! k = None ->
  ps_readers (p_step c st (PStart k local b r p fresh)).1 !! k = Some rd ->
  ~ (exists pg, paging_of r p = Some pg /\ pg_cookie pg <> [] /\ (pg_size pg <= 0)%Z) -> is_Some (rd_chan rd).
Proof using Type.
  intros Hk H Hn. revert H. cbn [p_step]. rewrite Hk. unfold p_start.
  assert (E : forall x pg st', ps_readers st' !! k = None -> ps_readers (enter k (Some x) r pg st').1 !! k = Some rd -> is_Some (rd_chan rd)).
  { intros x pg st' H'. unfold enter. destruct (compile_filter _); cbn; [|congruence]. rewrite lookup_insert. intros [= <-]. by eexists. }
  destruct (negb (bind_dn_ok _ _ _)); [cbn; congruence|]. destruct (leaves_of r) as [fs| | |]; try (cbn; congruence).
  destruct (negb _); [cbn; congruence|]. destruct (paging_of r p) as [pg|]; [|by apply E].
  destruct (is_empty (pg_cookie pg)) eqn:Ee; [by apply E|].
  destruct (ps_reg st !! pg_cookie pg); [|cbn; congruence]. destruct (Z.ltb_spec 0 (pg_size pg)); [by apply E|].
  destruct Hn. exists pg. split; [done|]. split; [|lia]. intros E'. by rewrite E' in Ee.
Qed.
Lemma run_chan k d tr w : lrun (lstart d) tr w -> (forall ev p, In (LbRead k ev p) tr -> ~ abandons cfg p) ->
  forall rd, ps_readers (lw_p w) !! k = Some rd -> is_Some (rd_chan rd).
Proof using Type.
  intros H. induction H as [|tr w1 l w2 H IH Hs]; intros Hn rd Hrd; [cbn in Hrd; by rewrite lookup_empty in Hrd|].
  assert (Hn' : forall ev p, In (LbRead k ev p) tr -> ~ abandons cfg p) by (intros ev p Hin; apply (Hn ev p), in_or_app; by left).
  specialize (IH Hn'). pose proof (run_matched _ _ _ H) as Hm.
  destruct Hs as [j Ha Hj|j b out Ha Hj|j b out ev p Ha Hj|j b out ev p Ha Hj Hc r|j b out ev p r fresh Ha Hj Hc e s|e Ha He
    |j b out ev p e Ha Hj He s|j b out m rest n Ha Hj|j b out b' Ha Hj|j b out Ha Hj|j b out Ha Hj]; cbn [lw_p] in Hrd; try (by apply IH).
  - assert (Hr : ps_readers (lw_p w1) !! j = None) by (apply matched_none; [done|]; eapply not_inside; [exact Hj|done]).
    destruct (decide (j = k)) as [->|Hne].
    + eapply start_chan; [exact Hr|exact Hrd|]. intros (pg & H1 & H2 & H3). apply (Hn' ev p); [by eapply asked_read|].
      exists r, pg. done.
    + destruct (start_readers (lw_p w1) j (re_h ev) b r (paging_control p) fresh Hr) as [Ho _].
      apply IH. rewrite <- Hrd. unfold s, e. symmetry. apply Ho. by intros ->.
  - apply IH. rewrite <- Hrd. by destruct (pump_readers (lw_p w1) e He) as [-> _].
  - destruct (decide (j = k)) as [->|Hne].
    + destruct (wait_chan _ _ _ _ He Hrd) as (rd0 & H0 & -> & _). by apply IH.
    + assert (Hr : is_Some (ps_readers (lw_p w1) !! j)) by (apply Hm; unfold inside; eauto).
      destruct (wait_readers (lw_p w1) j e Hr He) as [Ho _]. apply IH. rewrite <- Hrd. unfold s. symmetry. apply Ho. by intros ->.
Qed.
(** The steps of one connection and its pump. *)
Definition own (k ch : nat) (l : llabel) : Prop :=
  l = LbSend k \/ l = LbPlain k \/ (exists n e, l = LbSearch k n e) \/ l = LbWait k (PRecv k) \/ l = LbWait k (PEmpty k) \/
  l = LbPump (PDone ch) \/ l = LbPump (PShut ch).
Lemma finish_send k ch rest : forall w b n out, lw_alive w = true -> lw_conns w !! k = Some (mkLC b (LSend rest n) out) ->
  exists tr w', lrun w tr w' /\ over k w' /\ Forall (own k ch) tr.
Proof using Type.
  induction rest as [|m rest IH]; intros w b n out Ha Hk.
  - destruct n as [b'| |].
    + eexists [LbSend k], _. split; [apply run_one; by eapply ls_go|]. split; [|constructor; [by left|constructor]].
      right. exists b', out. left. cbn. unfold lput. by rewrite lookup_insert.
    + eexists [LbSend k], _. split; [apply run_one; by eapply ls_drop|]. split; [|constructor; [by left|constructor]].
      right. exists b, out. right. cbn. unfold lput. by rewrite lookup_insert.
    + eexists [LbSend k], _. split; [apply run_one; by eapply ls_die|]. split; [|constructor; [by left|constructor]].
      by left.
  - destruct (IH (mkLW (lw_p w) (lput w k (mkLC b (LSend rest n) (out ++ [m]))) true (lw_log w)) b n (out ++ [m]))
      as (tr & w' & H1 & H2 & H3); [done|cbn; unfold lput; by rewrite lookup_insert|].
    exists (LbSend k :: tr), w'. split; [|split; [done|constructor; [by left|done]]].
    change (LbSend k :: tr) with ([LbSend k] ++ tr). eapply run_trans; [apply run_one; by eapply ls_send|done].
Qed.
Lemma finish_search k ch es : Forall (fun e => e = PRecv k \/ e = PDone ch \/ e = PShut ch \/ e = PEmpty k) es ->
  forall w b ev p out a, lw_alive w = true -> lw_conns w !! k = Some (mkLC b (LSearch ev p) out) ->
  In a (p_outs c (lw_p w) es) -> exists tr w', lrun w tr w' /\ over k w' /\ Forall (own k ch) tr.
Proof using Type.
  induction 1 as [|e es He _ IH]; intros w b ev p out a Ha Hk Hin; [done|].
  rewrite p_outs_cons in Hin.
  assert (Hwait : e = PRecv k \/ e = PEmpty k -> exists tr w', lrun w tr w' /\ over k w' /\ Forall (own k ch) tr).
  { intros He'. pose proof (ls_wait cfg c w k b out ev p e Ha Hk He') as Hs. cbv zeta in Hs.
    assert (Hown : own k ch (LbWait k e)) by (destruct He' as [-> | ->]; unfold own; auto 10).
    destruct (p_step c (lw_p w) e).2 as [a'|]; cbn [after_step] in Hs.
    - destruct (finish_send k ch (with_cookie (cookie_in (an_out a')) (r_out (handle cfg (returned c (found_in (an_out a'))) ev b p (ps_data (lw_p w)))))
        (mkLW (p_step c (lw_p w) e).1 (lput w k (mkLC b (replies cfg c ev b p (ps_data (lw_p w)) (an_out a')) out)) true (lw_log w))
        b (r_next (handle cfg (returned c (found_in (an_out a'))) ev b p (ps_data (lw_p w)))) out) as (tr & w' & H1 & H2 & H3);
        [done|cbn; unfold lput; by rewrite lookup_insert|].
      exists (LbWait k e :: tr), w'. split; [|split; [done|by constructor]].
      change (LbWait k e :: tr) with ([LbWait k e] ++ tr). eapply run_trans; [by apply run_one|done].
    - destruct (IH (mkLW (p_step c (lw_p w) e).1 (lput w k (mkLC b (LSearch ev p) out)) true (lw_log w)) b ev p out a) as (tr & w' & H1 & H2 & H3);
        [done|cbn; unfold lput; by rewrite lookup_insert|exact Hin|].
      exists (LbWait k e :: tr), w'. split; [|split; [done|by constructor]].
      change (LbWait k e :: tr) with ([LbWait k e] ++ tr). eapply run_trans; [by apply run_one|done]. }
  assert (Hpump : e = PDone ch \/ e = PShut ch -> exists tr w', lrun w tr w' /\ over k w' /\ Forall (own k ch) tr).
  { intros He'. assert (Hpe : pump_event e) by (by destruct He' as [-> | ->]).
    pose proof (ls_pump cfg c w e Ha Hpe) as Hs. destruct (pump_readers (lw_p w) e Hpe) as [_ E2]. rewrite E2 in Hin.
    destruct (IH (mkLW (p_step c (lw_p w) e).1 (lw_conns w) true (lw_log w ++ noted e)) b ev p out a) as (tr & w' & H1 & H2 & H3);
      [done|done|exact Hin|].
    exists (LbPump e :: tr), w'. split; [|split; [done|constructor; [|done]]].
    - change (LbPump e :: tr) with ([LbPump e] ++ tr). eapply run_trans; [by apply run_one|done].
    - destruct He' as [-> | ->]; unfold own; auto 10. }
  destruct He as [He|[He|[He|He]]]; auto.
Qed.
Lemma run_finishes k d tr w x : lrun (lstart d) tr w -> (forall ev p, In (LbRead k ev p) tr -> ~ abandons cfg p) ->
  lw_alive w = true -> lw_conns w !! k = Some x ->
  exists ch tr' w', lrun w tr' w' /\ over k w' /\ Forall (own k ch) tr'.
Proof using Type.
  intros H Hn Ha Hk.
  assert (Hin : forall tr1 w1 b ev p out, lrun (lstart d) (tr ++ tr1) w1 -> (forall ev p, ~ In (LbRead k ev p) tr1) ->
    lw_alive w1 = true -> lw_conns w1 !! k = Some (mkLC b (LSearch ev p) out) ->
    exists rd ch, ps_readers (lw_p w1) !! k = Some rd /\ rd_chan rd = Some ch /\ exists tr' w', lrun w1 tr' w' /\ over k w' /\ Forall (own k ch) tr').
  { intros tr1 w1 b ev p out Hr Hno Ha1 Hk1.
    assert (Hrd : is_Some (ps_readers (lw_p w1) !! k)) by (apply (run_matched _ _ _ Hr); unfold inside; eauto).
    destruct Hrd as [rd Hrd]. destruct (run_chan k d _ w1 Hr) with (rd := rd) as [ch Hch]; [|done|].
    { intros ev' p' Hi. apply in_app_or in Hi as [Hi|Hi]; [by eapply Hn|by destruct (Hno ev' p')]. }
    exists rd, ch. split; [done|]. split; [done|].
    pose proof (run_p _ _ _ Hr) as Hp. cbn [lw_p lstart] in Hp.
    destruct (can_answer c (lw_p w1) k rd ch) as (es & a & Hi & _ & Hes); [rewrite Hp; apply wf_true_run|done..|].
    by eapply finish_search. }
  destruct x as [b ph out]. destruct ph as [|ev p|ev p|rest n|].
  - exists 0, [], w. split; [apply lr_refl|]. split; [|constructor]. right. eauto.
  - destruct (calls_search cfg p) as [r|] eqn:Hc.
    + pose proof (ls_search cfg c w k b out ev p r [] Ha Hk Hc) as Hs. cbv zeta in Hs.
      set (e := PStart k (re_h ev) b r (paging_control p) []) in *.
      destruct (p_step c (lw_p w) e).2 as [a|] eqn:E2; cbn [after_step] in Hs.
      * destruct (finish_send k 0 (with_cookie (cookie_in (an_out a)) (r_out (handle cfg (returned c (found_in (an_out a))) ev b p (ps_data (lw_p w)))))
          _ b (r_next (handle cfg (returned c (found_in (an_out a))) ev b p (ps_data (lw_p w)))) out (eq_refl (lw_alive (mkLW
            (p_step c (lw_p w) e).1 (lput w k (mkLC b (replies cfg c ev b p (ps_data (lw_p w)) (an_out a)) out)) true (lw_log w ++ [VTake k ev p])))))
          as (tr' & w' & H1 & H2 & H3); [cbn; unfold lput; by rewrite lookup_insert|].
        exists 0, (LbSearch k (ps_next (lw_p w)) e :: tr'), w'. split; [|split; [done|constructor; [unfold own; eauto 10|done]]].
        change (?l :: tr') with ([l] ++ tr'). eapply run_trans; [by apply run_one|done].
      * destruct (Hin [LbSearch k (ps_next (lw_p w)) e] _ b ev p out (lr_more _ _ _ _ _ _ _ H Hs)) as (rd & ch & _ & _ & tr' & w' & H1 & H2 & H3);
          [by intros ? ? [|[]]|done|cbn; unfold lput; by rewrite lookup_insert|].
        exists ch, (LbSearch k (ps_next (lw_p w)) e :: tr'), w'. split; [|split; [done|constructor; [unfold own; eauto 10|done]]].
        change (?l :: tr') with ([l] ++ tr'). eapply run_trans; [by apply run_one|done].
    + pose proof (ls_plain cfg c w k b out ev p Ha Hk Hc) as Hs. cbv zeta in Hs.
      set (R := handle _ _ _ _ _ _) in *.
      destruct (finish_send k 0 (plain_messages (r_out R)) _ b (r_next R) out (eq_refl (lw_alive (mkLW
            (lw_p w) (lput w k (mkLC b (LSend (plain_messages (r_out R)) (r_next R)) out)) true (lw_log w ++ [VTake k ev p])))))
          as (tr' & w' & H1 & H2 & H3); [cbn; unfold lput; by rewrite lookup_insert|].
      exists 0, (LbPlain k :: tr'), w'. split; [|split; [done|constructor; [unfold own; auto|done]]].
      change (?l :: tr') with ([l] ++ tr'). eapply run_trans; [by apply run_one|done].
  - destruct (Hin [] w b ev p out) as (rd & ch & _ & _ & tr' & w' & H1); [by rewrite app_nil_r|intros ? ? []|done|done|].
    exists ch, tr', w'. done.
  - destruct (finish_send k 0 rest w b n out Ha Hk) as (tr' & w' & H1). exists 0, tr', w'. done.
  - exists 0, [], w. split; [apply lr_refl|]. split; [|constructor]. right. eauto.
Qed.
(** * The end of the process and the steps of one connection *)
Lemma run_dies w tr w' : lrun w tr w' -> lw_alive w = true -> lw_alive w' = false ->
  exists k tr0 b out, tr = tr0 ++ [LbSend k] /\ lw_conns w' !! k = Some (mkLC b (LSend [] Dead) out).
Proof using Type.
  destruct 1 as [|tr w1 l w2 _ Hs]; [congruence|]. intros _ Hd. destruct Hs; try done. eauto 10.
Qed.
Lemma own_run k ch w tr w' : lrun w tr w' -> Forall (own k ch) tr ->
  (forall j, j <> k -> lw_conns w' !! j = lw_conns w !! j) /\
  exists more, lw_log w' = lw_log w ++ more /\ forall e, In e more -> exists ev p, e = VTake k ev p.
Proof using Type.
  induction 1 as [|tr w1 l w2 _ IH Hs]; intros Hf; [split; [done|]; exists []; by rewrite app_nil_r|].
  apply Forall_app in Hf as [Hf Hl]. apply Forall_inv in Hl. destruct (IH Hf) as (IH1 & more & IH2 & IH3).
  assert (E : (forall j, j <> k -> lw_conns w2 !! j = lw_conns w1 !! j) /\
    exists m, lw_log w2 = lw_log w1 ++ m /\ forall e, In e m -> exists ev p, e = VTake k ev p).
  { unfold own in Hl. destruct Hs as [j Ha Hj|j b out Ha Hj|j b out ev p Ha Hj|j b out ev p Ha Hj Hc r|j b out ev p r fresh Ha Hj Hc e s|e Ha He
      |j b out ev p e Ha Hj He s|j b out m rest n Ha Hj|j b out b' Ha Hj|j b out Ha Hj|j b out Ha Hj]; cbn [lw_conns lw_log]; unfold lput;
      try (assert (j = k) as -> by (destruct Hl as [H|[H|[(? & ? & H)|[H|[H|[H|H]]]]]]; congruence));
      (split; [intros i Hi; try done; by rewrite lookup_insert_ne|]);
      try (exists []; rewrite app_nil_r; (split; [done|]); by intros ? []).
    1,2: eexists; (split; [done|]); intros e' [<-|[]]; eauto.
    destruct Hl as [H|[H|[(? & ? & H)|[H|[H|[H|H]]]]]]; try discriminate H; injection H as ->; cbn [noted]; exists []; (split; [done|]); by intros ? []. }
  destruct E as (E1 & m & E2 & E3). split; [intros j Hj; rewrite E1, IH1; done|].
  exists (more ++ m). split; [by rewrite E2, IH2, app_assoc|]. intros e [H|H]%in_app_or; auto.
Qed.
Lemma own_closed k ch w tr w' : lrun w tr w' -> Forall (own k ch) tr ->
  (forall b out, lw_conns w !! k <> Some (mkLC b LClosed out)) -> forall b out, lw_conns w' !! k = Some (mkLC b LClosed out) ->
  exists tr0 tr1 w0, tr = tr0 ++ tr1 /\ lrun w tr0 w0 /\ lw_log w0 = lw_log w' /\ lw_conns w0 !! k = Some (mkLC b (LSend [] Drop) out).
Proof using Type.
  induction 1 as [|tr w1 l w2 Hr IH Hs]; intros Hf Hn b out Hk; [by destruct (Hn b out)|].
  apply Forall_app in Hf as [Hf Hl]. apply Forall_inv in Hl. specialize (IH Hf Hn b out).
  assert (Hold : lw_conns w1 !! k = Some (mkLC b LClosed out) -> lw_log w1 = lw_log w2 ->
    exists tr0 tr1 w0, tr ++ [l] = tr0 ++ tr1 /\ lrun w tr0 w0 /\ lw_log w0 = lw_log w2 /\ lw_conns w0 !! k = Some (mkLC b (LSend [] Drop) out)).
  { intros Hk1 El. destruct (IH Hk1) as (tr0 & tr1 & w0 & -> & H1 & H2 & H3). exists tr0, (tr1 ++ [l]), w0.
    split; [by rewrite app_assoc|]. split; [done|]. split; [by rewrite H2|done]. }
  unfold own in Hl. destruct Hs as [j Ha Hj|j b1 out1 Ha Hj|j b1 out1 ev p Ha Hj|j b1 out1 ev p Ha Hj Hc r|j b1 out1 ev p r fresh Ha Hj Hc e s|e Ha He
      |j b1 out1 ev p e Ha Hj He s|j b1 out1 m rest n Ha Hj|j b1 out1 b' Ha Hj|j b1 out1 Ha Hj|j b1 out1 Ha Hj]; cbn [lw_conns lw_log] in *; unfold lput in Hk;
      try (assert (j = k) as -> by (destruct Hl as [H|[H|[(? & ? & H)|[H|[H|[H|H]]]]]]; congruence); rewrite lookup_insert in Hk; try discriminate Hk).
  - by destruct Hl as [H|[H|[(? & ? & H)|[H|[H|[H|H]]]]]].
  - injection Hk as -> Hk ->. unfold s in Hk. destruct (p_step _ _ _).2; cbn in Hk; discriminate Hk.
  - apply Hold; [done|]. destruct Hl as [H|[H|[(? & ? & H)|[H|[H|[H|H]]]]]]; try discriminate H; injection H as ->; cbn; by rewrite app_nil_r.
  - injection Hk as -> Hk ->. unfold s in Hk. destruct (p_step _ _ _).2; cbn in Hk; discriminate Hk.
  - injection Hk as -> ->. exists tr, [LbSend k], w1. done.
  - exfalso. assert (j = k) as -> by (destruct Hl as [H|[H|[(? & ? & H)|[H|[H|[H|H]]]]]]; congruence). congruence.
Qed.
(** * Hanging *)
Lemma step_stuck k rd b ev p out w l w' : lstep w l w' -> ps_readers (lw_p w) !! k = Some rd -> rd_chan rd = None ->
  lw_conns w !! k = Some (mkLC b (LSearch ev p) out) ->
  ps_readers (lw_p w') !! k = Some rd /\ lw_conns w' !! k = Some (mkLC b (LSearch ev p) out).
Proof using Type.
  intros Hs Hrd Hch Hk.
  destruct Hs as [j Ha Hj|j b1 out1 Ha Hj|j b1 out1 ev1 p1 Ha Hj|j b1 out1 ev1 p1 Ha Hj Hc r|j b1 out1 ev1 p1 r fresh Ha Hj Hc e s|e Ha He
    |j b1 out1 ev1 p1 e Ha Hj He s|j b1 out1 m rest n Ha Hj|j b1 out1 b' Ha Hj|j b1 out1 Ha Hj|j b1 out1 Ha Hj]; cbn [lw_p lw_conns]; try done;
    try (split; [done|]; unfold lput; rewrite lookup_insert_ne; [done|]; intros ->; congruence).
  - destruct (stuck_step c (lw_p w) e k rd Hrd Hch) as [H1 H2]. split; [done|].
    unfold lput. rewrite lookup_insert_ne; [done|]. intros ->. congruence.
  - destruct (stuck_step c (lw_p w) e k rd Hrd Hch) as [H1 H2]. done.
  - destruct (stuck_step c (lw_p w) e k rd Hrd Hch) as [H1 H2]. split; [done|].
    unfold lput. destruct (decide (j = k)) as [->|Hne]; [|by rewrite lookup_insert_ne].
    rewrite lookup_insert. assert (E : s.2 = None).
    { unfold s. destruct He as [-> | ->]; cbn [p_step]; by rewrite Hrd, Hch. }
    rewrite E. cbn [after_step]. congruence.
Qed.
Lemma run_stuck k rd b ev p out w tr w' : lrun w tr w' -> ps_readers (lw_p w) !! k = Some rd -> rd_chan rd = None ->
  lw_conns w !! k = Some (mkLC b (LSearch ev p) out) ->
  ps_readers (lw_p w') !! k = Some rd /\ lw_conns w' !! k = Some (mkLC b (LSearch ev p) out).
Proof using Type. induction 1 as [|tr w1 l w2 H IH Hs]; intros; [done|]. destruct IH; [done..|]. by eapply step_stuck. Qed.

(** * Pages *)
Lemma wait_answer st k e rd a : e = PRecv k \/ e = PEmpty k -> ps_readers st !! k = Some rd -> (p_step c st e).2 = Some a ->
  an_chan a = rd_chan rd /\ an_page a = rd_page rd.
Proof using Type.
  intros He Hk.
  destruct He as [-> | ->]; cbn [p_step]; rewrite Hk; destruct (rd_chan rd) as [ch|] eqn:Ech; try done.
  - destruct (ps_pumps st !! ch) as [[full [|x todo] [] ck]|]; try done.
    unfold p_take. destruct (take_entry _ _ _) as [[e'|]|[]| |]; try (by intros [= <-]; cbn).
    destruct (enough _ _ _); by intros [= <-].
  - destruct (ps_pumps st !! ch) as [[full todo [] ck]|]; try done. by intros [= <-].
Qed.
Lemma loop_all flt r ok es : (forall i, ok i = true) -> forall i, search_loop false flt r ok es i = (es, Ok tt).
Proof using Type.
  intros Hok. induction es as [|e es IH]; intros i; [done|]. cbn [search_loop]. rewrite Hok, IH. done.
Qed.
Lemma search_reply f ev b p d r : calls_search cfg p = Some r -> sv_enforce cfg = false -> (forall i, re_send ev i = true) ->
  exists id, message_id p = Some id /\
    let R := handle cfg (returned c (HRet f)) ev b p d in
    r_out R = map (REntry id) (if f_err f then [] else f_entries f) ++
      [RFinal id SearchResultDone (if f_err f then f_code f else Success) None] /\
    r_next R = if f_err f then Drop else Go b.
Proof using Type.
  unfold calls_search, handle, message_id. intros H He Hs. destruct (p_kids p) as [|i [|req rest]]; [done|done|].
  destruct (as_int (p_val i)) as [id|]; [|done]. exists id. split; [done|]. destruct (negb (p_cls req =? ClassApplication)%N); [done|].
  destruct (match rest with x :: _ => decode_controls (p_kids x) | [] => true end); [|done]. cbn [negb] in H.
  destruct (N.eqb_spec (p_tag req) SearchRequest) as [Ht|Ht]; cbn [negb] in H; [|done].
  unfold dispatch. rewrite Ht. change (SearchRequest =? AddRequest)%N with false.
  change (SearchRequest =? BindRequest)%N with false. change (SearchRequest =? CompareRequest)%N with false.
  change (SearchRequest =? DelRequest)%N with false. change (SearchRequest =? ExtendedRequest)%N with false.
  change (SearchRequest =? ModifyDNRequest)%N with false. change (SearchRequest =? ModifyRequest)%N with false.
  change (SearchRequest =? SearchRequest)%N with true. cbn match.
  unfold handle_search. destruct (parse_search req) as [q| | |]; [|done..]. rewrite He in H |- *. injection H as ->.
  cbn [h_search returned]. destruct (f_err f).
  - unfold send_final. by rewrite Hs.
  - rewrite loop_all by done. unfold send_final. by rewrite Hs.
Qed.
Lemma written_cookie id es code ck :
  with_cookie ck (map (REntry id) es ++ [RFinal id SearchResultDone code None]) = written (mkReply id 0 es code ck).
Proof using Type.
  unfold with_cookie, written. rewrite map_app, map_map. done.
Qed.

Section pages.
Variable (k ch : nat) (r : search_req) (flt : packet) (fs : list leaf) (ck b : str) (local : bool) (all : list entry)
  (out : list message).
Hypothesis (Henf : sv_enforce cfg = false) (Hck : ck <> []) (Hchecks : search_checks c local b r = inr (flt, fs)).
Notation session := (session k r flt ck ch all).
Definition answered_all (reqs : list (renv bool * packet)) (xs : list reply) : Prop := Forall2 answers_to reqs xs.
Record pages (w : lworld) (reqs : list (renv bool * packet)) (xs : list reply) (ph : lphase) (new : list message) : Prop := {
  pg_session : session (lw_p w) (concat (map rp_entries xs));
  pg_conn : lw_conns w !! k = Some (mkLC b ph (out ++ new));
  pg_good : Forall (page_reply ck all (concat (map rp_entries xs))) xs;
  pg_phase : match ph with
    | LIdle | LClosed => answered_all reqs xs /\ new = concat (map written xs)
    | LAsked ev p => exists done, reqs = done ++ [(ev, p)] /\ answered_all done xs /\ new = concat (map written xs) /\
        continues cfg r ck local ev p
    | LSearch ev p => exists done, reqs = done ++ [(ev, p)] /\ answered_all done xs /\ new = concat (map written xs) /\
        calls_search cfg p = Some r /\ (forall i, re_send ev i = true) /\
        exists rd m ck0, ps_readers (lw_p w) !! k = Some rd /\ rd_chan rd = Some ch /\
          paging_control p = Some (mkPaging m ck0) /\ rd_page rd = Some (mkPaging m ck)
    | LSend rest n => (n = Go b \/ n = Drop) /\ answered_all reqs xs /\ new ++ rest = concat (map written xs)
    end
}.
Lemma session_done st log l : session st (log ++ l) -> log = all -> l = [].
Proof using Type.
  clear Henf Hck Hchecks.
  intros H E. destruct (ss_pump _ _ _ _ _ _ _ _ H) as (full & todo & ph & _ & _ & Hx & _). rewrite <- app_assoc in Hx.
  apply (f_equal length) in Hx. rewrite !app_length in Hx. rewrite E in Hx. destruct l; [done|]. cbn in Hx. lia.
Qed.
Lemma good_more st log l xs : session st (log ++ l) -> Forall (page_reply ck all log) xs -> Forall (page_reply ck all (log ++ l)) xs.
Proof using Type.
  intros H Hall. eapply Forall_impl; [exact Hall|]. intros x [Hx|[(H1 & H2 & H3 & E)|(H1 & H2 & H3 & E)]].
  - by left.
  - right; left. rewrite (session_done _ _ _ H E), app_nil_r. done.
  - right; right. rewrite (session_done _ _ _ H E), app_nil_r. done.
Qed.
(** Steps of others. *)
Lemma pages_other w reqs xs ph new w' : pages w reqs xs ph new ->
  session (lw_p w') (concat (map rp_entries xs)) -> lw_conns w' !! k = lw_conns w !! k ->
  ps_readers (lw_p w') !! k = ps_readers (lw_p w) !! k -> pages w' reqs xs ph new.
Proof using Type.
  intros [H1 H2 H3 H4] Hs Hc Hr. constructor; [done|by rewrite Hc|done|]. by rewrite Hr.
Qed.
(** An answer of Search. *)
Lemma pages_answer w reqs done xs ev p new st' log' conns al lg f ck' m ck0 :
  pages w reqs xs (LSearch ev p) new \/ pages w reqs xs (LAsked ev p) new ->
  reqs = done ++ [(ev, p)] -> answered_all done xs -> new = concat (map written xs) ->
  calls_search cfg p = Some r -> (forall i, re_send ev i = true) -> paging_control p = Some (mkPaging m ck0) ->
  let es := if f_err f then [] else f_entries f in
  let code := if f_err f then f_code f else Success in
  log' = concat (map rp_entries xs) ++ es -> session st' log' ->
  (forall id, page_reply ck all log' (mkReply id m es code ck')) ->
  conns !! k = Some (mkLC b (replies cfg c ev b p (ps_data (lw_p w)) (HRet (mkPage f ck'))) (out ++ new)) ->
  exists xs' ph' new', pages (mkLW st' conns al lg) reqs xs' ph' new'.
Proof using Henf.
  intros Hp Hreq Hdone Hnew Hc Hsend Hm es code Hlog Hs Hgood Hconn.
  destruct (search_reply f ev b p (ps_data (lw_p w)) r Hc Henf Hsend) as (id & Hid & Ho & Hn). fold es code in Ho.
  set (x := mkReply id m es code ck').
  exists (xs ++ [x]). eexists (LSend (written x) (if f_err f then Drop else Go b)), new.
  assert (Hlx : concat (map rp_entries (xs ++ [x])) = log').
  { rewrite map_app, concat_app. cbn. by rewrite app_nil_r, Hlog. }
  assert (Hgx : Forall (page_reply ck all (concat (map rp_entries xs))) xs) by (by destruct Hp as [[]|[]]).
  constructor.
  - by rewrite Hlx.
  - cbn [lw_conns]. rewrite Hconn. unfold replies. cbn [found_in cookie_in pa_found pa_cookie]. rewrite Ho, Hn, written_cookie. done.
  - rewrite Hlx. apply Forall_app. split; [|constructor; [apply Hgood|constructor]]. rewrite Hlog in Hs |- *. by eapply good_more.
  - split; [destruct (f_err f); auto|]. split.
    + rewrite Hreq. apply Forall2_app; [done|]. constructor; [|constructor]. split; [done|]. by exists ck0.
    + rewrite map_app, concat_app, Hnew. cbn. by rewrite app_nil_r.
Qed.
Lemma pages_step w reqs xs ph new l w' : pages w reqs xs ph new -> matched w -> lstep w l w' -> leaves_alone k ch ck l ->
  (forall ev p, l = LbRead k ev p -> continues cfg r ck local ev p) ->
  exists xs' ph' new', pages w' (reqs ++ read_from k [l]) xs' ph' new'.
Proof using Henf Hck Hchecks.
  intros Hp Hm Hs Hl Hr.
  pose proof (start_checks c _ _ _ _ _ Hchecks) as (Hbok & Hflt & Hleaves & Hbase).
  pose proof (pg_session _ _ _ _ _ Hp) as Hses. pose proof (pg_conn _ _ _ _ _ Hp) as Hcon.
  assert (Hother : forall j x, j <> k -> lput w j x !! k = lw_conns w !! k) by (intros j x Hne; unfold lput; by rewrite lookup_insert_ne).
  assert (Hput : forall x, lput w k x !! k = Some x) by (intros x; unfold lput; by rewrite lookup_insert).
  destruct Hs as [j Ha Hj|j b1 out1 Ha Hj|j b1 out1 ev1 p1 Ha Hj|j b1 out1 ev1 p1 Ha Hj Hc R|j b1 out1 ev1 p1 r1 fresh Ha Hj Hc e s|e Ha He
    |j b1 out1 ev1 p1 e Ha Hj He s|j b1 out1 m rest n Ha Hj|j b1 out1 b' Ha Hj|j b1 out1 Ha Hj|j b1 out1 Ha Hj];
    cbn [read_from omap list_omap]; rewrite ?app_nil_r.
  - exists xs, ph, new. eapply pages_other; [exact Hp|done| |done]. cbn. apply Hother. intros ->. congruence.
  - destruct (decide (j = k)) as [->|Hne]; [|exists xs, ph, new; eapply pages_other; [exact Hp|done|by apply Hother|done]].
    rewrite Hcon in Hj. injection Hj as <- -> <-. exists xs, LClosed, new. destruct Hp as [H1 H2 H3 H4]. constructor; [done| |done|done].
    cbn. by rewrite Hput.
  - destruct (Nat.eqb_spec j k) as [->|Hne]; [|rewrite app_nil_r; exists xs, ph, new; eapply pages_other; [exact Hp|done|by apply Hother|done]].
    rewrite Hcon in Hj. injection Hj as <- -> <-. exists xs, (LAsked ev1 p1), new. destruct Hp as [H1 H2 H3 H4]. constructor; [done| |done|].
    + cbn. by rewrite Hput.
    + exists reqs. destruct H4 as [H4 H5]. split; [done|]. split; [done|]. split; [done|]. by apply Hr.
  - destruct (decide (j = k)) as [->|Hne]; [|exists xs, ph, new; eapply pages_other; [exact Hp|done|by apply Hother|done]].
    rewrite Hcon in Hj. injection Hj as <- -> <-. destruct (pg_phase _ _ _ _ _ Hp) as (? & _ & _ & _ & H & _). congruence.
  - assert (Hn : ps_readers (lw_p w) !! j = None) by (apply matched_none; [done|]; eapply not_inside; [exact Hj|done]).
    destruct (start_readers (lw_p w) j (re_h ev1) b1 r1 (paging_control p1) fresh Hn) as [Hro Hrs]. cbn [leaves_alone] in Hl. destruct Hl as [Hfr Hl].
    fold e in Hro, Hrs. fold s in Hro, Hrs.
    destruct (decide (j = k)) as [->|Hne].
    + rewrite Hcon in Hj. injection Hj as <- -> <-.
      destruct (pg_phase _ _ _ _ _ Hp) as (dn & Hreq & Hdone & Hnew & Hcs & Hloc & Hsend & m & Hpc & Hm0 & Hkept).
      assert (r1 = r) as -> by congruence.
      assert (Hpol : polite k r ck ch e).
      { unfold e. cbn. split; [done|]. intros pg Epg _. rewrite Hpc in Epg. injection Epg as <-. done. }
      destruct (session_step c k r flt ck ch all Hck Hflt _ _ e Hses Hpol) as (log' & Hs' & Hok). fold s in Hs', Hok.
      assert (Hstep : s = match ps_reg (lw_p w) !! ck with
          | Some ch' => enter k (Some ch') r (Some (mkPaging m ck)) (lw_p w)
          | None => (lw_p w, say k (no_page (refused UnwillingToPerform)))
          end).
      { unfold s, e. cbn [p_step]. rewrite Hn. unfold p_start. rewrite Hloc, Hbok, Hleaves, Hbase. cbn [negb]. rewrite Hpc.
        assert (Hpg : paging_of r (Some (mkPaging m ck)) = Some (mkPaging m ck)).
        { unfold paging_of. cbn [pg_size]. destruct (Z.ltb_spec 0 (sr_size r)); [|done].
          destruct (Z.leb_spec (u32 (sr_size r)) m); [lia|done]. }
        rewrite Hpg. cbn [pg_cookie pg_size]. destruct (is_empty ck) eqn:Ee; [by destruct ck|].
        destruct (Z.ltb_spec 0 m); [|lia]. done. }
      destruct (ss_pump _ _ _ _ _ _ _ _ Hses) as (full & todo & phs & Hpp & _ & Hall & Hph).
      assert (Hnil : phs <> Sending -> concat (map rp_entries xs) = all /\ ps_reg (lw_p w) !! ck = None).
      { intros Hns. unfold pending in Hall. rewrite Hn in Hall. destruct phs; [done|..]; destruct Hph as [-> Hreg]; cbn in Hall;
          by rewrite app_nil_r in Hall. }
      destruct (ps_reg (lw_p w) !! ck) as [ch'|] eqn:Ereg.
      * assert (phs = Sending) as -> by (destruct phs; [done|by destruct Hnil as [_ ?]..]). injection Hph as ->.
        unfold enter in Hstep. rewrite Hflt in Hstep. rewrite Hstep in Hs', Hok |- *. cbn [fst snd after_step out_ok] in Hs', Hok |- *. subst log'.
        exists xs, (LSearch ev1 p1), new. destruct Hp as [H1 H2 H3 H4]. constructor; [done|cbn; by rewrite Hput|done|].
        exists dn. do 3 (split; [done|]). split; [done|]. split; [done|]. eexists _, m, ck. cbn. rewrite lookup_insert. done.
      * rewrite Hstep in Hs', Hok |- *. cbn [fst snd after_step say an_out] in Hs', Hok |- *.
        unfold out_ok, say in Hok. rewrite on_say in Hok. subst log'.
        destruct phs; [done|..]; destruct Hnil as [Hla _]; try done;
          (eapply (pages_answer w reqs dn xs ev1 p1 new _ (concat (map rp_entries xs)) _ _ _ (mkFound [] UnwillingToPerform true) None m ck);
            [by right|done..|by rewrite app_nil_r|done| |by apply Hput]; intros id; right; right; done).
    + assert (Hpol : polite k r ck ch e).
      { unfold e. cbn. split; [done|]. intros pg Epg Ec. by destruct (Hl Hne pg Epg). }
      destruct (session_step c k r flt ck ch all Hck Hflt _ _ e Hses Hpol) as (log' & Hs' & Hok). fold s in Hs', Hok.
      assert (log' = concat (map rp_entries xs)) as ->.
      { destruct s.2 as [a|]; [|done]. cbn [out_ok] in Hok. destruct (on_chan ch a); [|done]. destruct Hok as [[Hk _] _], Hrs as [Hrs _]. congruence. }
      exists xs, ph, new. eapply pages_other; [exact Hp|done|by apply Hother|]. cbn. apply Hro. done.
  - assert (Hpol : polite k r ck ch e) by (by destruct e).
    destruct (session_step c k r flt ck ch all Hck Hflt _ _ e Hses Hpol) as (log' & Hs' & Hok).
    destruct (pump_readers (lw_p w) e He) as [E1 E2]. rewrite E2 in Hok. cbn [out_ok] in Hok. subst log'.
    exists xs, ph, new. eapply pages_other; [exact Hp|done|done|]. cbn. by rewrite E1.
  - assert (Hpol : polite k r ck ch e) by (by destruct He as [-> | ->]).
    destruct (session_step c k r flt ck ch all Hck Hflt _ _ e Hses Hpol) as (log' & Hs' & Hok). fold s in Hs', Hok.
    assert (Hns : is_Some (ps_readers (lw_p w) !! j)) by (apply Hm; unfold inside; eauto).
    destruct (wait_readers (lw_p w) j e Hns He) as [Hro Hrs]. fold s in Hro, Hrs.
    destruct (decide (j = k)) as [->|Hne].
    + rewrite Hcon in Hj. injection Hj as <- -> <-.
      destruct (pg_phase _ _ _ _ _ Hp) as (dn & Hreq & Hdone & Hnew & Hcs & Hsend & rd & m & ck0 & Hrd & Hch & Hpc & Hpg).
      destruct s.2 as [a|] eqn:E2.
      * destruct (wait_answer _ _ _ _ _ He Hrd E2) as [Hac Hap]. cbn [out_ok] in Hok. unfold on_chan in Hok.
        rewrite bool_decide_true in Hok by congruence. destruct Hok as [(_ & n & es & ck' & Hap' & Hao & Hkind) ->].
        assert (n = m) as -> by congruence. unfold ans_entries in Hs'. rewrite Hao in Hs'. cbn [pa_found f_entries] in Hs'.
        cbn [after_step]. rewrite Hao.
        eapply (pages_answer w reqs dn xs ev1 p1 new _ _ _ _ _ (mkFound es Success false) (Some ck') m ck0);
          [by left|done..|exact Hs'| |by apply Hput].
        intros id. destruct Hkind as [[-> Hlen]|(-> & Hlen & Hla)]; [left|right; left]; cbn; by rewrite ?Hao.
      * cbn [out_ok] in Hok. subst log'. destruct Hrs as [rd' Hrd']. destruct (wait_chan _ _ _ _ He Hrd') as (rd0 & H0 & H1' & H2').
        assert (rd0 = rd) as -> by congruence.
        exists xs, (LSearch ev1 p1), new. destruct Hp as [H1 H2 H3 H4]. constructor; [done|cbn; by rewrite Hput|done|].
        exists dn. do 5 (split; [done|]). exists rd', m, ck0. cbn. split; [done|]. split; [congruence|]. split; [done|congruence].
    + assert (log' = concat (map rp_entries xs)) as ->.
      { destruct s.2 as [a|]; [|done]. cbn [out_ok] in Hok. destruct (on_chan ch a); [|done]. destruct Hok as [[Hk _] _], Hrs as [Hrs _]. congruence. }
      exists xs, ph, new. eapply pages_other; [exact Hp|done|by apply Hother|]. cbn. apply Hro. done.
  - destruct (decide (j = k)) as [->|Hne]; [|exists xs, ph, new; eapply pages_other; [exact Hp|done|by apply Hother|done]].
    rewrite Hcon in Hj. injection Hj as <- -> <-. exists xs, (LSend rest n), (new ++ [m]). destruct Hp as [H1 H2 H3 (H4 & H5 & H6)].
    constructor; [done|cbn; by rewrite Hput, app_assoc|done|]. split; [done|]. split; [done|]. by rewrite <- app_assoc.
  - destruct (decide (j = k)) as [->|Hne]; [|exists xs, ph, new; eapply pages_other; [exact Hp|done|by apply Hother|done]].
    rewrite Hcon in Hj. injection Hj as <- -> <-. exists xs, LIdle, new. destruct Hp as [H1 H2 H3 (H4 & H5 & H6)].
    destruct H4 as [[= ->]|?]; [|done]. rewrite app_nil_r in H6. constructor; [done|cbn; by rewrite Hput|done|done].
  - destruct (decide (j = k)) as [->|Hne]; [|exists xs, ph, new; eapply pages_other; [exact Hp|done|by apply Hother|done]].
    rewrite Hcon in Hj. injection Hj as <- -> <-. exists xs, LClosed, new. destruct Hp as [H1 H2 H3 (H4 & H5 & H6)].
    rewrite app_nil_r in H6. constructor; [done|cbn; by rewrite Hput|done|done].
  - exists xs, ph, new. by eapply pages_other.
Qed.
Lemma pages_run w tr w' reqs xs ph new : pages w reqs xs ph new -> matched w -> lrun w tr w' -> Forall (leaves_alone k ch ck) tr ->
  (forall ev p, In (LbRead k ev p) tr -> continues cfg r ck local ev p) ->
  exists xs' ph' new', pages w' (reqs ++ read_from k tr) xs' ph' new'.
Proof using Henf Hck Hchecks.
  intros Hp Hm H. assert (H' : matched w' /\ (Forall (leaves_alone k ch ck) tr -> (forall ev p, In (LbRead k ev p) tr -> continues cfg r ck local ev p) ->
    exists xs' ph' new', pages w' (reqs ++ read_from k tr) xs' ph' new')); [|apply H'].
  induction H as [|tr w1 l w2 _ [IHm IH] Hs].
  - split; [done|]. intros _ _. exists xs, ph, new. cbn. by rewrite app_nil_r.
  - split; [by eapply step_matched|]. intros Hl Hr. apply Forall_app in Hl as [Hl1 Hl2]. apply Forall_cons in Hl2 as [Hl2 _].
    destruct IH as (xs1 & ph1 & new1 & Hp1); [done|intros ev p Hin; apply Hr, in_or_app; by left|].
    destruct (pages_step _ _ _ _ _ _ _ Hp1 IHm Hs Hl2) as (xs2 & ph2 & new2 & Hp2).
    { intros ev p ->. apply Hr, in_or_app. right. by left. }
    exists xs2, ph2, new2. unfold read_from in Hp2 |- *. by rewrite omap_app, app_assoc.
Qed.
End pages.
End proofs.
