(** Properties C97 and C98: what can be learnt about passwords from a server on
    the LDIF backend, and what the identity of a connection is good for there. *)
From Verif Require Import Bytes Text Dn DnProofs Res Entry EntryProofs Password PasswordProofs P_Password Db Packet
  Filter FilterProofs Handler Server ServerProofs P_Db P_Server Ldif LdifProofs LdifMore P_Ldif Encode EncodeProofs
  Paging PagingProofs P_Paging LdifConns LdifConnsProofs P_LdifConns.

(** * Vocabulary *)
(** The same file, or the same but for passwords, or none at all. *)
Definition parsed_alike {T : Text} (x y : option (list (option entry))) : Prop :=
  match x, y with
  | Some r1, Some r2 => same_but_passwords r1 r2
  | None, None => True
  | _, _ => False
  end.
(** The same step on both sides; what a reload finds may differ in passwords. *)
Definition alike {T : Text} (l1 l2 : llabel) : Prop :=
  l1 = l2 \/ exists x y, l1 = LbPump (PReload x) /\ l2 = LbPump (PReload y) /\ parsed_alike x y.
(** The data served after some steps. *)
Definition data_after {T : Text} (c : ldif_cfg) (d : dataset) (tr : list llabel) : dataset :=
  foldl (fun d l => match l with LbPump (PReload x) => (ldif_reload c x d).2 | _ => d end) d tr.
(** Every bind attempt in the steps has the same outcome on both sides. *)
Definition agree_on_binds {T : Text} {C : Crypto} {W : Wire} {Tr : Trees} (cfg : server_cfg) (c : ldif_cfg)
    (d1 d2 : dataset) (tr1 tr2 : list llabel) : Prop :=
  forall n k w b ev p out dn pw, tr1 !! n = Some (LbPlain k) -> lrun cfg c (lstart d1) (take n tr1) w ->
    lw_conns w !! k = Some (mkLC b (LAsked ev p) out) -> simple_bind p dn pw ->
    (ldif_bind c (re_h ev) dn pw (data_after c d1 (take n tr1))).1 =
    (ldif_bind c (re_h ev) dn pw (data_after c d2 (take n tr2))).1.

(** * Proofs *)
Section proofs.
Context {T : Text} {C : Crypto} {W : Wire} {Tr : Trees}.
Variable (cfg : server_cfg) (c : ldif_cfg).
Notation lstep := (lstep cfg c).
Notation lrun := (lrun cfg c).

(** ** One request *)
Definition next_alike (b b' : str) (n n' : next) : Prop := n = n' \/ (n = Go b /\ n' = Go b').
Lemma finish_alike (ev : renv bool) id tag b b' (x x' : hout answer * dataset) : x.1 = x'.1 ->
  r_out (finish ev id tag b x) = r_out (finish ev id tag b' x') /\
  next_alike b b' (r_next (finish ev id tag b x)) (r_next (finish ev id tag b' x')).
Proof using Type.
  destruct x as [o s], x' as [o' s']. cbn [fst]. intros <-. unfold finish, send_final, next_alike.
  destruct o as [[code er]| |]; [|by auto..]. destruct (re_send ev 0); cbn; auto.
Qed.
Lemma lift_alike {A} (r : res A) (f f' : A -> hout answer * dataset) d d' : (forall a, (f a).1 = (f' a).1) ->
  (lift_res r f d).1 = (lift_res r f' d').1.
Proof using Type. intros H. destruct r as [a|[]| |]; cbn; auto. Qed.
Lemma extended_alike (ev : renv bool) b b' req d d' : is_empty b = is_empty b' ->
  (handle_extended cfg (ldif_handler c) ev b req d).1 = (handle_extended cfg (ldif_handler c) ev b' req d').1.
Proof using Type.
  intros He. unfold handle_extended. destruct (parse_extended req) as [[oid body]| | |]; [|done..].
  destruct (seqb oid pwmod_oid); [|done]. unfold handle_pwmod. rewrite <- He. destruct (is_empty b); [done|].
  destruct (parse_pwmod body) as [r|[]| |]; try done; [|by destruct (_ && _)].
  destruct (if is_empty (pw_new r) then _ else _) as [pw|[]| |]; try done.
  destruct (hash_password pw _ _) as [hash|[]| |]; done.
Qed.
Lemma bind_alike (ev : renv bool) req d d' :
  (forall v x a dn, p_kids req = [v; x; a] -> p_val v = VInt 3 -> p_val x = VStr dn -> p_tag a = 0%N ->
     (ldif_bind c (re_h ev) dn (p_data a) d).1 = (ldif_bind c (re_h ev) dn (p_data a) d').1) ->
  (handle_bind (ldif_handler c) ev req d).1 = (handle_bind (ldif_handler c) ev req d').1.
Proof using Type.
  intros H. unfold handle_bind. destruct (p_kids req) as [|v [|x [|a rest]]]; [done| | |];
    (destruct (as_int (p_val v)) as [n|] eqn:Ev; [|done]); (destruct (Z.eqb_spec n 3) as [->|]; [|done]); cbn [negb]; [done| |];
    (destruct (as_str (p_val x)) as [dn|] eqn:Ex; [|done]); [done|].
  destruct (N.eqb_spec (p_tag a) 0) as [Ha|]; [|done]. destruct rest as [|]; [|done]. cbn [negb is_empty].
  assert (p_val v = VInt 3) as Ev' by (destruct (p_val v); cbn in Ev; congruence).
  assert (p_val x = VStr dn) as Ex' by (destruct (p_val x); cbn in Ex; congruence).
  pose proof (H v x a dn eq_refl Ev' Ex' Ha) as H1.
  cbn [h_bind ldif_handler].
  destruct (ldif_bind c (re_h ev) dn (p_data a) d) as [o s], (ldif_bind c (re_h ev) dn (p_data a) d') as [o' s']. cbn [fst] in H1.
  subst o'. destruct o as [[code []]| |]; done.
Qed.
Lemma handle_alike ev b b' p d d' : is_empty b = is_empty b' ->
  (forall dn pw, simple_bind p dn pw -> (ldif_bind c (re_h ev) dn pw d).1 = (ldif_bind c (re_h ev) dn pw d').1) ->
  (forall r, calls_search cfg p = Some r -> (ldif_search c (re_h ev) b r d).1 = (ldif_search c (re_h ev) b' r d').1) ->
  r_out (handle cfg (ldif_handler c) ev b p d) = r_out (handle cfg (ldif_handler c) ev b' p d') /\
  next_alike b b' (r_next (handle cfg (ldif_handler c) ev b p d)) (r_next (handle cfg (ldif_handler c) ev b' p d')).
Proof using Type.
  intros He Hb Hs.
  assert (Hrefl : forall n : next, next_alike b b' n n) by (intros n; by left).
  unfold calls_search, handle in *. destruct (p_kids p) as [|i [|req rest]] eqn:Ep; [by auto..|].
  destruct (as_int (p_val i)) as [id|] eqn:Ei; [|by auto]. destruct (N.eqb_spec (p_cls req) ClassApplication) as [Ecl|]; [|by auto].
  cbn [negb] in *. destruct (match rest with x :: _ => decode_controls (p_kids x) | [] => true end) eqn:Ec; [|by auto].
  cbn [negb] in *. unfold dispatch.
  destruct (p_tag req =? AddRequest)%N.
  { apply finish_alike. unfold handle_add. rewrite <- He. destruct (is_empty b); [done|]. by apply lift_alike. }
  destruct (N.eqb_spec (p_tag req) BindRequest) as [Et|].
  { pose proof (bind_alike ev req d d') as H. 
    destruct (handle_bind (ldif_handler c) ev req d) as [o s], (handle_bind (ldif_handler c) ev req d') as [o' s'].
    cbn [fst] in H. rewrite <- H.
    2:{ intros v x a dn Hk Hv Hx Ha. apply Hb. exists id, req, v, x, a. split; [|done]. exists i, rest.
        repeat split; try done. destruct (p_val i); cbn in Ei; congruence. }
    destruct o as [code| |]; [|by auto..]. unfold send_final. destruct (code =? Success)%N.
    - destruct (p_kids req) as [|? [|y ?]]; [by auto..|]. destruct (as_str (p_val y)); [|by auto].
      destruct (parse_normalize _); [|by auto]. destruct (re_send ev 0); by auto.
    - destruct (re_send ev 0); cbn; unfold next_alike; auto. }
  destruct (p_tag req =? CompareRequest)%N; [unfold send_final; destruct (re_send ev 0); by auto|].
  destruct (p_tag req =? DelRequest)%N.
  { apply finish_alike. unfold handle_delete. rewrite <- He. destruct (is_empty b); [done|]. by apply lift_alike. }
  destruct (p_tag req =? ExtendedRequest)%N.
  { pose proof (extended_alike ev b b' req d d' He) as H.
    destruct (handle_extended cfg (ldif_handler c) ev b req d) as [o s], (handle_extended cfg (ldif_handler c) ev b' req d') as [o' s'].
    cbn [fst] in H. subst o'. destruct o as [[code v]| |]; [|by auto..]. unfold send_final.
    destruct (re_send ev 0); cbn; unfold next_alike; auto. }
  destruct (p_tag req =? ModifyDNRequest)%N.
  { apply finish_alike. unfold handle_moddn. rewrite <- He. destruct (is_empty b); [done|]. by apply lift_alike. }
  destruct (p_tag req =? ModifyRequest)%N.
  { apply finish_alike. unfold handle_modify. rewrite <- He. destruct (is_empty b); [done|]. by apply lift_alike. }
  destruct (N.eqb_spec (p_tag req) SearchRequest) as [Et|]; [|by auto]. cbn [negb] in Hs.
  assert (H : (handle_search cfg (ldif_handler c) ev b req d).1 = (handle_search cfg (ldif_handler c) ev b' req d').1).
  { unfold handle_search. destruct (parse_search req) as [r| | |]; [|done..].
    assert (Hr : forall flt, (sv_enforce cfg = true -> compile_filter (sr_filter r) = Some flt) ->
      (ldif_search c (re_h ev) b r d).1 = (ldif_search c (re_h ev) b' r d').1).
    { intros flt Hf. apply Hs. destruct (sv_enforce cfg); [by rewrite Hf|done]. }
    cbn [h_search ldif_handler].
    destruct (sv_enforce cfg); [destruct (compile_filter (sr_filter r)) as [flt|]; [|done]; specialize (Hr flt (fun _ => eq_refl))
      |specialize (Hr (Pkt 0 false 0 VNil [] []) ltac:(done))];
      destruct (ldif_search c (re_h ev) b r d) as [o s], (ldif_search c (re_h ev) b' r d') as [o' s']; cbn [fst] in Hr; subst o';
      (destruct o as [f| |]; [|done..]); (destruct (f_err f); [done|]);
      destruct (search_loop _ _ _ _ _ _) as [es [|[]| |]]; done. }
  destruct (handle_search cfg (ldif_handler c) ev b req d) as [[es o] s], (handle_search cfg (ldif_handler c) ev b' req d') as [[es' o'] s'].
  cbn [fst] in H. injection H as <- <-. destruct o as [o| |]; [|by auto..]. unfold send_final.
  destruct (re_send ev _); cbn; [|by auto]. destruct o; cbn; unfold next_alike; auto.
Qed.

(** ** Data sets that differ in passwords *)
Definition veiled (d d' : dataset) : Prop :=
  d_index d = d_index d' /\ d_tree d = d_tree d' /\ map l_entry (d_heap d) = map l_entry (d_heap d').
Lemma strip_low l l' : map strip l = map strip l' -> map low_dn l = map low_dn l'.
Proof using Type.
  intros H. assert (Hl : forall l, map low_dn l = map low_dn (map strip l)) by (intros x; by rewrite map_map).
  by rewrite Hl, (Hl l'), H.
Qed.
Lemma build_veiled attrs r1 r2 : unindexed attrs -> same_but_passwords r1 r2 ->
  match build attrs r1, build attrs r2 with
  | Some d1, Some d2 => veiled d1 d2
  | None, None => True
  | _, _ => False
  end.
Proof using Type.
  intros Hu Hs. pose proof (build_spec attrs r1) as H1. pose proof (build_spec attrs r2) as H2.
  pose proof (strip_low _ _ Hs) as Hl.
  destruct (build attrs r1) as [d1|], (build attrs r2) as [d2|]; [|destruct H1; congruence|destruct H2; congruence|done].
  exact (data_same attrs _ _ d1 d2 Hu Hs H1 H2).
Qed.
Lemma reload_veiled x y d d' : unindexed (lc_attrs c) -> parsed_alike x y -> veiled d d' ->
  veiled (ldif_reload c x d).2 (ldif_reload c y d').2.
Proof using Type.
  intros Hu Hp Hv. unfold ldif_reload. destruct x as [r1|], y as [r2|]; try done.
  pose proof (build_veiled (lc_attrs c) r1 r2 Hu Hp) as H.
  by destruct (build (lc_attrs c) r1), (build (lc_attrs c) r2).
Qed.
Lemma sends_veiled d d' base fs : veiled d d' -> sends d base fs = sends d' base fs.
Proof using Type.
  intros (Hi & Ht & Hh). unfold sends. rewrite (candidates_same d d' _ _ Hi Ht Hh). apply list_omap_ext, Forall_Forall2_diag.
  apply Forall_forall. intros p _. exact (heap_same _ _ p Hh).
Qed.
Definition setd (d : dataset) (st : pstate) : pstate := mkP d (ps_next st) (ps_pumps st) (ps_reg st) (ps_readers st).
Lemma enter_veiled k ch r pg st d : enter k ch r pg (setd d st) = (setd d (enter k ch r pg st).1, (enter k ch r pg st).2).
Proof using Type. unfold enter. by destruct (compile_filter _). Qed.
Lemma spawn_veiled fs r ck st d : veiled (ps_data st) d -> spawn fs r ck (setd d st) = setd d (spawn fs r ck st).
Proof using Type. intros Hv. unfold spawn, setd. cbn. by rewrite (sends_veiled _ _ _ _ Hv). Qed.
Lemma take_veiled k rd e st d : p_take k rd e (setd d st) = (setd d (p_take k rd e st).1, (p_take k rd e st).2).
Proof using Type.
  unfold p_take. destruct (take_entry _ _ _) as [[e'|]|[]| |]; try done. destruct (enough _ _ _); done.
Qed.
Lemma step_veiled st e d : veiled (ps_data st) d -> (forall x, e <> PReload x) ->
  p_step c (setd d st) e = (setd d (p_step c st e).1, (p_step c st e).2).
Proof using Type.
  intros Hv Hr. destruct e as [k local b r p fresh|k|ch|ch|k|ch|x]; [| | | | | |by destruct (Hr x)]; cbn [p_step setd ps_readers ps_pumps].
  - destruct (ps_readers st !! k); [done|]. unfold p_start. destruct (bind_dn_ok _ _ _); [|done]. cbn [negb].
    destruct (leaves_of r) as [fs| | |]; [|done..]. destruct (has_suffix _ _); [|done]. cbn [negb].
    destruct (paging_of r p) as [pg|].
    + destruct (is_empty (pg_cookie pg)).
      * change (mkP d (ps_next st) (ps_pumps st) (ps_reg st) (ps_readers st)) with (setd d st).
        rewrite spawn_veiled by done. apply enter_veiled.
      * change (ps_reg (setd d st)) with (ps_reg st). destruct (ps_reg st !! pg_cookie pg) as [ch|]; [|done].
        destruct (0 <? pg_size pg)%Z; [apply enter_veiled|]. apply (enter_veiled k None r (Some pg) (forget (pg_cookie pg) st) d).
    + change (mkP d (ps_next st) (ps_pumps st) (ps_reg st) (ps_readers st)) with (setd d st).
      rewrite spawn_veiled by done. apply enter_veiled.
  - destruct (ps_readers st !! k) as [rd|]; [|done]. destruct (rd_chan rd) as [ch|]; [|done].
    destruct (ps_pumps st !! ch) as [[full [|e todo] [] ck]|]; try done.
    apply (take_veiled k rd e (set_pump ch (mkPump full todo Sending ck) st) d).
  - destruct (ps_pumps st !! ch) as [[full [|e todo] [] ck]|]; try done. by destruct ck.
  - destruct (ps_pumps st !! ch) as [[full todo [] ck]|]; done.
  - destruct (ps_readers st !! k) as [rd|]; [|done]. destruct (rd_chan rd) as [ch|]; [|done].
    destruct (ps_pumps st !! ch) as [[full todo [] ck]|]; done.
  - destruct (ps_pumps st !! ch) as [[full [|e todo] [] ck]|]; try done. by destruct ck.
Qed.

(** ** The two servers side by side *)
Definition searching (w : lworld) : Prop :=
  forall k b ev p out, lw_conns w !! k = Some (mkLC b (LSearch ev p) out) -> exists r, calls_search cfg p = Some r.
Lemma step_searching w l w' : searching w -> lstep w l w' -> searching w'.
Proof using Type.
  intros Hs Hst. intros k0 b0 ev0 p0 out0.
  assert (Hput : forall k x, lput w k x !! k0 = Some (mkLC b0 (LSearch ev0 p0) out0) ->
    (forall ev p, ln_phase x = LSearch ev p -> exists r, calls_search cfg p = Some r) -> exists r, calls_search cfg p0 = Some r).
  { intros k x Hk Hx. unfold lput in Hk. destruct (decide (k0 = k)) as [->|Hn].
    - rewrite lookup_insert in Hk. injection Hk as ->. by apply (Hx ev0 p0).
    - rewrite lookup_insert_ne in Hk by done. by eapply Hs. }
  destruct Hst; cbn [lw_conns]; intros Hk; try (eapply Hput; [exact Hk|]; cbn [ln_phase]; intros ? ? H'; discriminate H');
    try (by eapply Hs).
  - eapply Hput; [exact Hk|]. cbn [ln_phase]. intros ev1 p1 H'. unfold after_step, replies in H'. destruct s.2; [discriminate H'|].
    assert (p1 = p) as -> by congruence. by exists r.
  - eapply Hput; [exact Hk|]. cbn [ln_phase]. intros ev1 p1 H'. unfold after_step, replies in H'. destruct s.2; [discriminate H'|].
    assert (p1 = p) as -> by congruence. by eapply Hs.
Qed.
Definition twins (w1 w2 : lworld) : Prop :=
  lw_conns w2 = lw_conns w1 /\ lw_alive w2 = lw_alive w1 /\
  exists d, veiled (ps_data (lw_p w1)) d /\ lw_p w2 = setd d (lw_p w1).
Lemma after_veiled ev b p r d d' o : calls_search cfg p = Some r -> after_step cfg c ev b p d o = after_step cfg c ev b p d' o.
Proof using Type.
  intros Hr. destruct o as [a|]; [|done]. unfold after_step, replies.
  destruct (returned_data cfg c (found_in (an_out a)) ev b p d d' r Hr) as [-> ->]. done.
Qed.
Lemma sim_step w1 w2 l1 l2 w1' : unindexed (lc_attrs c) -> twins w1 w2 -> searching w1 -> alike l1 l2 -> lstep w1 l1 w1' ->
  (forall k b ev p out dn pw, l1 = LbPlain k -> lw_conns w1 !! k = Some (mkLC b (LAsked ev p) out) -> simple_bind p dn pw ->
     (ldif_bind c (re_h ev) dn pw (ps_data (lw_p w1))).1 = (ldif_bind c (re_h ev) dn pw (ps_data (lw_p w2))).1) ->
  exists w2', lstep w2 l2 w2' /\ twins w1' w2'.
Proof using Type.
  intros Hu (Hc & Ha & d & Hv & Hp) Hsr Hl Hst Hag.
  destruct w2 as [p2 c2 a2 g2]. cbn [lw_conns lw_alive lw_p] in *. subst c2 a2 p2.
  assert (Hw : forall x y z, twins (mkLW (lw_p w1) x true y) (mkLW (setd d (lw_p w1)) x true z)).
  { intros x y z. split; [done|]. split; [done|]. by exists d. }
  destruct Hl as [<-|(x & y & Hx & -> & Hxy)].
  2:{ subst l1. inversion Hst as [| | | | |e Hal He E1| | | | |]; subst e. eexists. split; [by apply ls_pump|].
      split; [done|]. split; [done|]. exists (ldif_reload c y d).2. split; [|done]. cbn. by apply reload_veiled. }
  destruct Hst as [k Hal Hk|k b out Hal Hk|k b out ev p Hal Hk|k b out ev p Hal Hk Hcs r|k b out ev p r fresh Hal Hk Hcs e s
    |e Hal He|k b out ev p e Hal Hk He s|k b out m rest n Hal Hk|k b out b' Hal Hk|k b out Hal Hk|k b out Hal Hk].
  - eexists. split; [by apply ls_open|]. apply Hw.
  - eexists. split; [by eapply ls_eof|]. apply Hw.
  - eexists. split; [by eapply ls_read|]. apply Hw.
  - eexists. split; [by eapply ls_plain|]. cbn [lw_p lw_conns lw_log lw_alive].
    destruct (handle_alike ev b b p (ps_data (lw_p w1)) d eq_refl) as [Ho Hn].
    { intros dn pw Hb. exact (Hag k b ev p out dn pw eq_refl Hk Hb). }
    { intros r' Hr'. congruence. }
    assert (Hn' : r_next (handle cfg (ldif_handler c) ev b p (ps_data (lw_p w1))) = r_next (handle cfg (ldif_handler c) ev b p d)).
    { destruct Hn as [Hn|[-> ->]]; done. }
    unfold r. rewrite Ho, Hn'. apply Hw.
  - eexists. split; [exact (ls_search cfg c (mkLW (setd d (lw_p w1)) (lw_conns w1) (lw_alive w1) g2) k b out ev p r fresh Hal Hk Hcs)|]. cbn [lw_p lw_conns lw_log lw_alive].
    assert (Hne : forall x, e <> PReload x) by done.
    pose proof (step_veiled (lw_p w1) e d Hv Hne) as Hse. fold e. change (ps_data (setd d (lw_p w1))) with d.
    rewrite Hse. cbn [fst snd]. split; [|split].
    + cbn. unfold lput. cbn [lw_conns]. f_equal. f_equal. exact (after_veiled ev b p r d _ _ Hcs).
    + done.
    + exists d. split; [|done]. cbn [lw_p]. unfold s. by rewrite step_data.
  - destruct (match e with PReload x => true | _ => false end) eqn:Er.
    + destruct e as [| | | | | |x]; try done. eexists. split; [by apply ls_pump|]. split; [done|]. split; [done|].
      exists (ldif_reload c x d).2. split; [|done]. cbn. apply reload_veiled; [done| |done]. by destruct x.
    + assert (Hne : forall x, e <> PReload x) by (by intros x ->).
      eexists. split; [by apply ls_pump|]. cbn [lw_p lw_conns lw_log lw_alive].
      rewrite (step_veiled (lw_p w1) e d Hv Hne). split; [done|]. split; [done|]. exists d. split; [|done]. cbn [lw_p].
      rewrite step_data. by destruct e.
  - assert (Hne : forall x, e <> PReload x) by (by destruct He as [-> | ->]).
    eexists. split; [by eapply ls_wait|]. cbn [lw_p lw_conns lw_log lw_alive].
    rewrite (step_veiled (lw_p w1) e d Hv Hne). change (ps_data (setd d (lw_p w1))) with d. cbn [fst snd].
    destruct (Hsr k b ev p out Hk) as [r Hr]. split; [|split].
    + cbn. unfold lput. cbn [lw_conns]. f_equal. f_equal. exact (after_veiled ev b p r d _ _ Hr).
    + done.
    + exists d. split; [|done]. cbn [lw_p]. unfold s. rewrite step_data. by destruct He as [-> | ->].
  - eexists. split; [by eapply ls_send|]. apply Hw.
  - eexists. split; [by eapply ls_go|]. apply Hw.
  - eexists. split; [by eapply ls_drop|]. apply Hw.
  - eexists. split; [by eapply ls_die|]. split; [done|]. split; [done|]. by exists d.
Qed.
Lemma step_after w l w' d tr : lstep w l w' -> ps_data (lw_p w) = data_after c d tr -> ps_data (lw_p w') = data_after c d (tr ++ [l]).
Proof using Type.
  intros Hst Hd. unfold data_after in *. rewrite foldl_app. cbn [foldl]. rewrite <- Hd.
  destruct Hst; cbn [lw_p]; try done; try (unfold s; rewrite step_data; unfold e; done).
  - rewrite step_data. by destruct e.
  - unfold s. rewrite step_data. destruct H1 as [-> | ->]; done.
Qed.
Lemma sim_run d1 d2 tr1 w1 : unindexed (lc_attrs c) -> veiled d1 d2 -> lrun (lstart d1) tr1 w1 ->
  forall tr2, Forall2 alike tr1 tr2 -> agree_on_binds cfg c d1 d2 tr1 tr2 ->
  exists w2, lrun (lstart d2) tr2 w2 /\ twins w1 w2 /\ searching w1 /\
    ps_data (lw_p w1) = data_after c d1 tr1 /\ ps_data (lw_p w2) = data_after c d2 tr2.
Proof using Type.
  intros Hu Hv Hr. induction Hr as [|tr w l w' Hr IH Hst]; intros tr2 Hl Hag.
  { inversion Hl; subst. exists (lstart d2). split; [apply lr_refl|]. split; [|split; [|done]].
    - split; [done|]. split; [done|]. by exists d2.
    - intros k b ev p out H. cbn in H. by rewrite lookup_empty in H. }
  apply Forall2_app_inv_l in Hl as (tra & trb & Hla & Hlb & ->). inversion Hlb as [|? l2 ? ? Hll Hnil]; subst. inversion Hnil; subst.
  assert (Hlen : length tr = length tra) by by eapply Forall2_length.
  destruct (IH tra Hla) as (w2 & Hr2 & Htw & Hse & He1 & He2).
  { intros n k w0 b ev p out dn pw Hn Hr0 Hk Hb.
    assert (Hn' : n < length tr) by (by eapply lookup_lt_Some).
    pose proof (Hag n k w0 b ev p out dn pw) as H. rewrite lookup_app_l in H by done.
    rewrite !take_app_le in H by lia. by apply H. }
  destruct (sim_step w w2 l l2 w' Hu Htw Hse Hll Hst) as (w2' & Hst2 & Htw').
  { intros k b ev p out dn pw -> Hk Hb. rewrite He1, He2.
    pose proof (Hag (length tr) k w b ev p out dn pw) as H. rewrite lookup_app_r, Nat.sub_diag in H by lia.
    rewrite take_app in H. rewrite Hlen, take_app in H. by apply H. }
  exists w2'. split; [by eapply lr_more|]. split; [done|]. split; [by eapply step_searching|].
  split; by eapply step_after.
Qed.
End proofs.

(** * C97 *)
(** Two servers start on files, and reload files, that differ in the values of
    userPassword at most, which is not an indexed attribute.  If every attempt to
    bind has the same outcome on both, then whatever the one can do with any
    number of connections, the other can do too, step by step, and every
    connection is written the same messages: searches, pages, errors and refusals
    of any kind tell nothing about passwords. *)
Theorem C97_only_binds_tell (T : Text) (C : Crypto) (W : Wire) (Tr : Trees) (cfg : server_cfg) (c : ldif_cfg)
    (r1 r2 : list (option entry)) (d1 d2 : dataset) (tr1 tr2 : list llabel) (w1 : lworld) :
  unindexed (lc_attrs c) -> same_but_passwords r1 r2 ->
  build (lc_attrs c) r1 = Some d1 -> build (lc_attrs c) r2 = Some d2 ->
  Forall2 alike tr1 tr2 -> agree_on_binds cfg c d1 d2 tr1 tr2 -> lrun cfg c (lstart d1) tr1 w1 ->
  exists w2, lrun cfg c (lstart d2) tr2 w2 /\ lw_conns w2 = lw_conns w1 /\ lw_alive w2 = lw_alive w1.
Proof.
  intros Hu Hs Hb1 Hb2 Hl Hag Hr. pose proof (build_veiled (lc_attrs c) r1 r2 Hu Hs) as Hv. rewrite Hb1, Hb2 in Hv.
  destruct (sim_run cfg c d1 d2 tr1 w1 Hu Hv Hr tr2 Hl Hag) as (w2 & Hr2 & (Hc & Ha & _) & _). by exists w2.
Qed.
Print Assumptions C97_only_binds_tell.
(** The outcome of a bind depends on the one value it is compared with: that of
    the entry named, if there is one. *)
Theorem C97_bind (T : Text) (C : Crypto) (c : ldif_cfg) (local : bool) (dn pw : str) (d1 d2 : dataset) :
  (x ← tree_get d1 (to_lower dn); Some (h ← l_pw x; head h)) =
  (x ← tree_get d2 (to_lower dn); Some (h ← l_pw x; head h)) ->
  (ldif_bind c local dn pw d1).1 = (ldif_bind c local dn pw d2).1.
Proof.
  intros H. unfold ldif_bind. cbn [fst]. destruct (bind_dn_ok c local (to_lower dn)); [|done]. cbn [negb].
  destruct (is_empty pw); [done|]. destruct (tree_get d1 (to_lower dn)) as [x|], (tree_get d2 (to_lower dn)) as [y|]; cbn in H; try done.
  assert (Hh : (h ← l_pw x; head h) = (h ← l_pw y; head h)) by congruence.
  unfold check_password, validate_entry. destruct (l_pw x) as [[|]|], (l_pw y) as [[|]|]; cbn in Hh; try done.
  injection Hh as ->. done.
Qed.
Print Assumptions C97_bind.
(** The attribute must not be indexed: with an index for equality on it (index.go:42-44
    AddIndexAttribute) a search for the entries whose userPassword is x or which
    have no cn finds an entry without cn if x is its stored value and not otherwise, although the password is not among the attributes
    the filter is checked on. *)
Theorem C97_indexed_refuted : exists (T : Text) (W : Wire) (Tr : Trees) (attrs : list (str * str))
    (r1 r2 : list (option entry)) (d1 d2 : dataset) (c : ldif_cfg) (local : bool) (bound : str) (r : search_req),
  same_but_passwords r1 r2 /\ build attrs r1 = Some d1 /\ build attrs r2 = Some d2 /\
  dns (ldif_search c local bound r d1).1 = Some [B "o=base"] /\ dns (ldif_search c local bound r d2).1 = Some [].
Proof.
  set (at97 := [(B "userPassword", B "eq")]).
  set (rec := fun pw : string => [Some (mkEntry (B "o=base") [mkAttr (B "userPassword") [B pw]])]).
  set (ds := fun pw : string => default (mkData [] ∅ ∅) (build (T:=ascii_text) at97 (rec pw))).
  assert (Hb : forall pw, build (T:=ascii_text) at97 (rec pw) = Some (ds pw)) by (intros pw; reflexivity).
  exists ascii_text, (wire_f (FOr [FEq (B "userPassword") (B "x"); FNot (FPres (B "cn"))])), plain_trees, at97,
    (rec "x"%string), (rec "y"%string), (ds "x"%string), (ds "y"%string), (mkLdif (B "o=base") true at97), true, [], (lreq [] 0).
  split; [reflexivity|]. split; [apply Hb|]. split; [apply Hb|]. split; vm_compute; reflexivity.
Qed.
Print Assumptions C97_indexed_refuted.
(** So what the clients see is the same for all passwords of the users nobody
    tries to bind as. *)
Definition same_at {T : Text} (dn : str) (r1 r2 : list (option entry)) : Prop :=
  forall i e1 e2, records_of r1 !! i = Some e1 -> records_of r2 !! i = Some e2 -> low_dn e1 = to_lower dn -> e1 = e2.
Definition alike_at {T : Text} (dn : str) (l1 l2 : llabel) : Prop :=
  match l1, l2 with LbPump (PReload (Some r1)), LbPump (PReload (Some r2)) => same_at dn r1 r2 | _, _ => True end.
Section others.
Context {T : Text} {C : Crypto} {W : Wire} {Tr : Trees}.
Variable (cfg : server_cfg) (c : ldif_cfg).
Lemma build_same_at attrs r1 r2 d1 d2 dn : same_but_passwords r1 r2 -> same_at dn r1 r2 ->
  build attrs r1 = Some d1 -> build attrs r2 = Some d2 -> tree_get d1 (to_lower dn) = tree_get d2 (to_lower dn).
Proof using Type.
  intros Hs Hat Hb1 Hb2. apply build_ok in Hb1. apply build_ok in Hb2.
  set (es1 := records_of r1) in *. set (es2 := records_of r2) in *.
  assert (Heq : map strip es1 = map strip es2) by exact Hs.
  assert (Hpair : forall i e1, es1 !! i = Some e1 -> exists e2, es2 !! i = Some e2 /\ low_dn e2 = low_dn e1).
  { intros i e1 H1. assert (Hm : map strip es1 !! i = Some (strip e1)) by by rewrite list_lookup_fmap, H1.
    rewrite Heq, list_lookup_fmap in Hm. destruct (es2 !! i) as [e2|]; [|done]. exists e2. split; [done|].
    assert (Hst : strip e2 = strip e1) by (cbn in Hm; congruence). unfold low_dn.
    by replace (e_dn e2) with (e_dn (strip e2)) by done; rewrite Hst. }
  assert (Hpair' : forall i e2, es2 !! i = Some e2 -> exists e1, es1 !! i = Some e1 /\ low_dn e1 = low_dn e2).
  { intros i e2 H2. assert (Hm : map strip es2 !! i = Some (strip e2)) by by rewrite list_lookup_fmap, H2.
    rewrite <- Heq, list_lookup_fmap in Hm. destruct (es1 !! i) as [e1|]; [|done]. exists e1. split; [done|].
    assert (Hst : strip e1 = strip e2) by (cbn in Hm; congruence). unfold low_dn.
    by replace (e_dn e1) with (e_dn (strip e1)) by done; rewrite Hst. }
  unfold tree_get.
  destruct (d_tree d1 !! to_lower dn) as [i|] eqn:E1.
  - apply (id_tree _ _ _ Hb1) in E1 as (e1 & Hi & Hl). destruct (Hpair i e1 Hi) as (e2 & Hi2 & Hl2).
    assert (E2 : d_tree d2 !! to_lower dn = Some i) by (apply (id_tree _ _ _ Hb2); exists e2; split; [done|congruence]).
    rewrite E2, (id_heap _ _ _ Hb1), (id_heap _ _ _ Hb2).
    pose proof (list_lookup_fmap split_entry es1 i) as H1. pose proof (list_lookup_fmap split_entry es2 i) as H2.
    rewrite Hi in H1. rewrite Hi2 in H2. rewrite (Hat i e1 e2 Hi Hi2 Hl) in H1.
    exact (eq_trans H1 (eq_sym H2)).
  - destruct (d_tree d2 !! to_lower dn) as [i|] eqn:E2; [|done].
    apply (id_tree _ _ _ Hb2) in E2 as (e2 & Hi & Hl). destruct (Hpair' i e2 Hi) as (e1 & Hi1 & Hl1).
    assert (E1' : d_tree d1 !! to_lower dn = Some i) by (apply (id_tree _ _ _ Hb1); exists e1; split; [done|congruence]).
    congruence.
Qed.
Lemma after_same_at dn tr1 tr2 d1 d2 : unindexed (lc_attrs c) -> Forall2 alike tr1 tr2 -> Forall2 (alike_at dn) tr1 tr2 ->
  tree_get d1 (to_lower dn) = tree_get d2 (to_lower dn) ->
  tree_get (data_after c d1 tr1) (to_lower dn) = tree_get (data_after c d2 tr2) (to_lower dn).
Proof using Type.
  intros Hu Hl. revert d1 d2. induction Hl as [|l1 l2 tr1 tr2 Hll Hl IH]; intros d1 d2 Hat Heq; [done|].
  inversion Hat as [|? ? ? ? Ha Hat']; subst. unfold data_after. cbn [foldl]. apply IH; [done|].
  destruct Hll as [<-|(x & y & -> & -> & Hxy)].
  - destruct l1 as [| | | | |e| |]; try done. destruct e as [| | | | | |x]; try done. unfold ldif_reload.
    destruct x as [r|]; [|done]. by destruct (build (lc_attrs c) r).
  - unfold ldif_reload. destruct x as [r1|], y as [r2|]; try done. cbn in Ha, Hxy.
    pose proof (build_veiled (lc_attrs c) r1 r2 Hu Hxy) as Hv.
    destruct (build (lc_attrs c) r1) as [e1|] eqn:E1, (build (lc_attrs c) r2) as [e2|] eqn:E2; try done. cbn [snd].
    by eapply build_same_at.
Qed.
End others.
Theorem C97_others (T : Text) (C : Crypto) (W : Wire) (Tr : Trees) (cfg : server_cfg) (c : ldif_cfg)
    (r1 r2 : list (option entry)) (d1 d2 : dataset) (tr1 tr2 : list llabel) (w1 : lworld) :
  unindexed (lc_attrs c) -> same_but_passwords r1 r2 ->
  build (lc_attrs c) r1 = Some d1 -> build (lc_attrs c) r2 = Some d2 ->
  Forall2 alike tr1 tr2 ->
  (forall k ev p dn pw, In (LbRead k ev p) tr1 -> simple_bind p dn pw ->
     same_at dn r1 r2 /\ Forall2 (alike_at dn) tr1 tr2) ->
  lrun cfg c (lstart d1) tr1 w1 ->
  exists w2, lrun cfg c (lstart d2) tr2 w2 /\ lw_conns w2 = lw_conns w1 /\ lw_alive w2 = lw_alive w1.
Proof.
  intros Hu Hs Hb1 Hb2 Hl Hat Hr. apply (C97_only_binds_tell T C W Tr cfg c r1 r2 d1 d2 tr1 tr2 w1); try done.
  intros n k w b ev p out dn pw Hn Hrn Hk Hbd. apply C97_bind.
  apply (asked_read cfg c k d1 (take n tr1)) in Hk; [|exact Hrn].
  assert (Hin : In (LbRead k ev p) tr1).
  { rewrite <- (take_drop n tr1). apply in_or_app. by left. }
  destruct (Hat k ev p dn pw Hin Hbd) as [Ha Hf].
  rewrite (after_same_at c dn (take n tr1) (take n tr2) d1 d2 Hu); [done|by apply Forall2_take..|].
  by eapply build_same_at.
Qed.
Print Assumptions C97_others.

(** * C98 *)
(** On the LDIF backend the identity of a connection counts for nothing but its
    suffix: two authenticated connections, whose names end with the base or do
    not, are answered alike, whatever they ask for and whatever the data - in
    particular when one of them belongs to a user who is not in the data any
    more. *)
Theorem C98_same_rights (T : Text) (C : Crypto) (W : Wire) (Tr : Trees) (cfg : server_cfg) (c : ldif_cfg)
    (ev : renv bool) (b1 b2 : str) (p : packet) (d : dataset) :
  b1 <> [] -> b2 <> [] -> to_lower b1 <> [] -> to_lower b2 <> [] ->
  (lc_base c `suffix_of` to_lower b1 <-> lc_base c `suffix_of` to_lower b2) ->
  let x1 := handle cfg (ldif_handler c) ev b1 p d in
  let x2 := handle cfg (ldif_handler c) ev b2 p d in
  r_out x1 = r_out x2 /\ (r_next x1 = r_next x2 \/ r_next x1 = Go b1 /\ r_next x2 = Go b2).
Proof.
  intros H1 H2 H3 H4 Hs. cbn zeta. apply handle_alike; [by destruct b1, b2|done|]. intros r _.
  unfold ldif_search. cbn [fst]. unfold search_checks.
  assert (Hb : bind_dn_ok c (re_h ev) (to_lower b1) = bind_dn_ok c (re_h ev) (to_lower b2)).
  { unfold bind_dn_ok. destruct (to_lower b1) as [|x1 l1], (to_lower b2) as [|x2 l2]; try done. cbn [is_empty].
    apply eq_true_iff_eq. rewrite !has_suffix_spec. exact Hs. }
  by rewrite Hb.
Qed.
Print Assumptions C98_same_rights.
(** And a connection stays what it is, whatever other connections, pumps and
    reloads do. *)
Definition step_of (l : llabel) : option nat :=
  match l with
  | LbOpen k | LbEof k | LbRead k _ _ | LbPlain k | LbSearch k _ _ | LbWait k _ | LbSend k => Some k
  | LbPump _ => None
  end.
Theorem C98_session (T : Text) (C : Crypto) (W : Wire) (Tr : Trees) (cfg : server_cfg) (c : ldif_cfg)
    (w w' : lworld) (tr : list llabel) (k : nat) :
  lrun cfg c w tr w' -> (forall l, In l tr -> step_of l <> Some k) -> lw_conns w' !! k = lw_conns w !! k.
Proof.
  intros Hr. induction Hr as [|tr w1 l w2 Hr IH Hst]; intros Hno; [done|].
  rewrite <- IH by (intros l' Hl'; apply Hno, in_or_app; by left).
  assert (Hl : step_of l <> Some k) by (apply Hno, in_or_app; right; by left).
  destruct Hst; cbn [lw_conns step_of] in *; try done; unfold lput; (rewrite lookup_insert_ne; [done|congruence]).
Qed.
Print Assumptions C98_session.

(** * A case *)
Section case.
#[local] Existing Instances ascii_text toy wire90 plain_trees.
(** The same people; Sam has got a password, and so has the base. *)
Definition records97 : list (option entry) :=
  [Some (mkEntry (e_dn e_base) (e_attrs e_base ++ [mkAttr (B "userPassword") [B "root"]])); Some e_people; Some e_dora;
   Some (mkEntry (e_dn e_sam) (mkAttr (B "UserPassword") [B "sesame"] :: e_attrs e_sam))].
Definition ld97 : dataset := default (mkData [] ∅ ∅) (build index_attributes records97).
Lemma ld97_build : build index_attributes records97 = Some ld97.
Proof.
  assert (H : match build index_attributes records97 with Some _ => true | None => false end = true) by (vm_compute; reflexivity).
  unfold ld97. by destruct (build _ _).
Qed.
Lemma records97_same : same_but_passwords records1 records97.
Proof. vm_compute. reflexivity. Qed.
Definition bind97 (dn pw : string) : packet := p_bind 1 dn pw.
Arguments bind97 (dn pw)%string.
Lemma bind97_asks dn pw dn' pw' : simple_bind (bind97 dn pw) dn' pw' -> dn' = B dn /\ pw' = B pw.
Proof.
  intros (id & req & v & d & a & (i & rest & Hk & _ & _) & _ & Hk' & _ & Hd & _ & Ha).
  unfold bind97, p_bind, msg, app in Hk. cbn [p_kids] in Hk. injection Hk as _ <- _. cbn [p_kids] in Hk'. injection Hk' as _ <- <-.
  unfold pstr in Hd. cbn [p_val] in Hd. cbn [p_data] in Ha. split; congruence.
Qed.
(** Dora binds, the file is reloaded, with other passwords on the other side, and
    Dora lists the entries in pages; the second server has other passwords for
    everybody but Dora. *)
Definition ls97 (records : list (option entry)) : list llabel :=
  [LbOpen 0; LbRead 0 ev90 (bind97 "uid=Dora,ou=people,o=base" "pw"); LbPlain 0; LbSend 0; LbSend 0; LbPump (PReload (Some records));
   LbRead 0 ev90 (page90 2 3 ""); go_ck 0 "ck"; recv 0; recv 0; recv 0; LbSend 0; LbSend 0; LbSend 0; LbSend 0; LbSend 0].
Example C97_case :
  unindexed (lc_attrs lc1) /\ same_but_passwords records1 records97 /\
  build (lc_attrs lc1) records1 = Some ld1 /\ build (lc_attrs lc1) records97 = Some ld97 /\
  Forall2 alike (ls97 records1) (ls97 records97) /\
  (forall k ev p dn pw, In (LbRead k ev p) (ls97 records1) -> simple_bind p dn pw ->
     same_at dn records1 records97 /\ Forall2 (alike_at dn) (ls97 records1) (ls97 records97)) /\
  (fun x => (shown x.2 0, idle x.2 0)) <$> play cfg90 lc1 (lstart ld1) (ls97 records1) =
    Some (Some [fin 0 None; en dn1; en dn2; en dn3; fin 0 (Some "ck")]%string, true) /\
  (fun x => (shown x.2 0, idle x.2 0)) <$> play cfg90 lc1 (lstart ld97) (ls97 records97) =
    Some (Some [fin 0 None; en dn1; en dn2; en dn3; fin 0 (Some "ck")]%string, true) /\
  (ldif_bind lc1 true (B "uid=sam,ou=people,o=base") (B "sesame") ld1).1 <>
    (ldif_bind lc1 true (B "uid=sam,ou=people,o=base") (B "sesame") ld97).1.
Proof.
  split; [exact index_attributes_unindexed|]. split; [exact records97_same|]. split; [exact ld1_build|]. split; [exact ld97_build|].
  assert (Hre : alike (LbPump (PReload (Some records1))) (LbPump (PReload (Some records97)))).
  { right. exists (Some records1), (Some records97). split; [done|]. split; [done|]. exact records97_same. }
  split; [unfold ls97; repeat (constructor; [first [exact Hre|by left]|]); constructor|].
  split; [|split; [vm_compute; reflexivity|split; [vm_compute; reflexivity|vm_compute; discriminate]]].
  intros k ev p dn pw Hin Hb.
  assert (Hp : p = bind97 "uid=Dora,ou=people,o=base" "pw" \/ p = page90 2 3 "").
  { unfold ls97 in Hin. repeat (destruct Hin as [Hin|Hin]; [try discriminate Hin; injection Hin as _ _ <-; auto|]). by destruct Hin. }
  destruct Hp as [-> | ->].
  2:{ exfalso. destruct Hb as (id & req & v & d & a & (i & rest & Hk & _ & _) & Ht & _). unfold page90 in Hk. cbn [p_kids] in Hk.
      injection Hk as _ <- _. discriminate Ht. }
  apply bind97_asks in Hb as [-> _].
  assert (Hat : same_at (B "uid=Dora,ou=people,o=base") records1 records97).
  { intros i e1 e2 H1 H2 Hl. destruct i as [|[|[|[|i]]]]; cbn in H1, H2; try discriminate; injection H1 as <-; injection H2 as <-;
      try done; exfalso; revert Hl; vm_compute; discriminate. }
  split; [done|]. unfold ls97. repeat (constructor; [first [exact Hat|exact I]|]). constructor.
Qed.
(** A wrong password is refused on both sides; the hypothesis of
    C97_only_binds_tell. *)
Definition ls97w : list llabel :=
  [LbOpen 0; LbRead 0 ev90 (bind97 "o=base" "wrong"); LbPlain 0; LbSend 0; LbSend 0].
Definition ld97b : dataset := default (mkData [] ∅ ∅) (build index_attributes
  [Some (mkEntry (e_dn e_base) [mkAttr (B "userPassword") [B "other"]])]).
Definition ld97a : dataset := default (mkData [] ∅ ∅) (build index_attributes
  [Some (mkEntry (e_dn e_base) [mkAttr (B "userPassword") [B "root"]])]).
Example C97_agree_case :
  agree_on_binds cfg90 lc1 ld97a ld97b ls97w ls97w /\
  (fun x => shown x.2 0) <$> play cfg90 lc1 (lstart ld97a) ls97w = Some (Some [fin 49 None]) /\
  (fun x => shown x.2 0) <$> play cfg90 lc1 (lstart ld97b) ls97w = Some (Some [fin 49 None]).
Proof.
  split; [|split; vm_compute; reflexivity]. intros n k w b ev p out dn pw Hn Hr Hk Hb.
  apply (asked_read cfg90 lc1 k ld97a (take n ls97w)) in Hk; [|exact Hr].
  assert (Hp : p = bind97 "o=base" "wrong").
  { assert (Hin : In (LbRead k ev p) ls97w) by (rewrite <- (take_drop n ls97w); apply in_or_app; by left).
    unfold ls97w in Hin. repeat (destruct Hin as [Hin|Hin]; [try discriminate Hin; injection Hin as _ _ <-; auto|]). by destruct Hin. }
  subst p. apply bind97_asks in Hb as [-> ->]. destruct n as [|[|[|[|[|n]]]]]; try discriminate Hn.
  destruct (re_h ev); vm_compute; reflexivity.
Qed.
(** Dora binds, then the file is reloaded without Dora: Dora can go on searching, as can
    Sam, but can not bind any more. *)
Definition ls98 : list llabel :=
  [LbOpen 0; LbRead 0 ev90 (bind97 "uid=Dora,ou=people,o=base" "pw"); LbPlain 0; LbSend 0; LbSend 0; LbPump (PReload (Some [Some e_new]));
   LbOpen 1; LbRead 1 ev90 (bind97 "uid=Dora,ou=people,o=base" "pw"); LbPlain 1; LbSend 1; LbSend 1;
   LbRead 0 ev90 (find90 2); go 0; recv 0; LbPump (PDone 0); LbPump (PShut 0); LbWait 0 (PEmpty 0); LbSend 0; LbSend 0; LbSend 0].
Example C98_case :
  (fun x => (shown x.2 0, shown x.2 1)) <$> play cfg90 lc1 (lstart ld1) ls98 =
    Some (Some [fin 0 None; en "o=base"; fin 0 None], Some [fin 49 None]) /\
  (let b1 := B "uid=dora,ou=people,o=base" in let b2 := B "uid=sam,ou=people,o=base" in
   b1 <> [] /\ b2 <> [] /\ to_lower b1 <> [] /\ to_lower b2 <> [] /\
   (lc_base lc1 `suffix_of` to_lower b1 <-> lc_base lc1 `suffix_of` to_lower b2)).
Proof.
  split; [vm_compute; reflexivity|]. cbn zeta. repeat split; try (vm_compute; discriminate); intros _;
    [exists (B "uid=sam,ou=people,")|exists (B "uid=dora,ou=people,")]; vm_compute; reflexivity.
Qed.
End case.
