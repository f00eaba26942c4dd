(** Property C90, and the part of C60 about connections: connections served at
    the same time by the LDIF backend, while its file is reloaded. *)
From Verif Require Import Bytes Text Dn DnProofs Res Entry EntryProofs Password PasswordProofs P_Password Db Packet
  Filter FilterProofs Handler Server ServerProofs P_Db P_Server Ldif LdifProofs LdifMore P_Ldif Encode EncodeProofs
  Paging PagingProofs P_Paging LdifConns LdifConnsProofs.

(** ** The setting of the examples *)
(** A paging control is a pair of page size and cookie; every filter is that of
    P_Paging. *)
Definition wire90 : Wire := {|
  decompile_filter _ := Some (B "f");
  compile_filter _ := Some (filter_packet f_all);
  decode_inner _ := None;
  decode_control p :=
    match p_kids p with
    | [n; ck] => match as_int (p_val n) with Some n => Ok (KPaging (mkPaging n (p_data ck))) | None => Err EOther end
    | _ => Ok KOther
    end
|}.
Definition cfg90 : server_cfg := mkServer false 16.
Definition ev90 : renv bool := mkREnv true (B "salt") [] (fun _ => true).
Definition req90 : packet := app SearchRequest []
  [pstr "o=base"; pint 2; pint 0; pint 0; pint 0; Pkt 0 false 1 (VBool false) [] []; filter_packet f_all;
   Pkt ClassUniversal true TagSequence VNil [] []].
Definition find90 (id : Z) : packet := msg id req90.
Definition page90 (id n : Z) (ck : string) : packet :=
  Pkt ClassUniversal true TagSequence VNil []
    [pint id; req90; Pkt ClassContext true 0 VNil [] [Pkt ClassUniversal true TagSequence VNil [] [pint n; pstr ck]]].
Arguments find90 id%Z.
Arguments page90 id%Z n%Z ck%string.

(** A run from the steps to be made; for the examples. *)
Section play.
Context {T : Text} {C : Crypto} {W : Wire} {Tr : Trees}.
Variable (cfg : server_cfg) (c : ldif_cfg).
Definition play1 (w : lworld) (l : llabel) : option (llabel * lworld) :=
  if negb (lw_alive w) then None else
  match l with
  | LbOpen k => match lw_conns w !! k with
                | None => Some (l, mkLW (lw_p w) (lput w k (mkLC [] LIdle [])) true (lw_log w))
                | Some _ => None
                end
  | LbEof k => match lw_conns w !! k with
               | Some (mkLC b LIdle out) => Some (l, mkLW (lw_p w) (lput w k (mkLC b LClosed out)) true (lw_log w))
               | _ => None
               end
  | LbRead k ev p => match lw_conns w !! k with
               | Some (mkLC b LIdle out) => Some (l, mkLW (lw_p w) (lput w k (mkLC b (LAsked ev p) out)) true (lw_log w))
               | _ => None
               end
  | LbPlain k =>
      match lw_conns w !! k with
      | Some (mkLC b (LAsked ev p) out) =>
          match calls_search cfg p with
          | None =>
              let r := handle cfg (ldif_handler c) ev b p (ps_data (lw_p w)) in
              Some (l, mkLW (lw_p w) (lput w k (mkLC b (LSend (plain_messages (r_out r)) (r_next r)) out)) true (lw_log w ++ [VTake k ev p]))
          | Some _ => None
          end
      | _ => None
      end
  | LbSearch k _ (PStart _ _ _ _ _ fresh) =>
      match lw_conns w !! k with
      | Some (mkLC b (LAsked ev p) out) =>
          match calls_search cfg p with
          | Some r =>
              let e := PStart k (re_h ev) b r (paging_control p) fresh in
              let s := p_step c (lw_p w) e in
              Some (LbSearch k (ps_next (lw_p w)) e,
                mkLW s.1 (lput w k (mkLC b (after_step cfg c ev b p (ps_data (lw_p w)) s.2) out)) true (lw_log w ++ [VTake k ev p]))
          | None => None
          end
      | _ => None
      end
  | LbSearch _ _ _ => None
  | LbPump e =>
      match e with
      | PDone _ | PShut _ | PGiveUp _ | PReload _ => Some (l, mkLW (p_step c (lw_p w) e).1 (lw_conns w) true (lw_log w ++ noted e))
      | _ => None
      end
  | LbWait k e =>
      match lw_conns w !! k with
      | Some (mkLC b (LSearch ev p) out) =>
          if match e with PRecv j | PEmpty j => j =? k | _ => false end then
            let s := p_step c (lw_p w) e in
            Some (l, mkLW s.1 (lput w k (mkLC b (after_step cfg c ev b p (ps_data (lw_p w)) s.2) out)) true (lw_log w))
          else None
      | _ => None
      end
  | LbSend k =>
      match lw_conns w !! k with
      | Some (mkLC b (LSend (m :: rest) n) out) =>
          Some (l, mkLW (lw_p w) (lput w k (mkLC b (LSend rest n) (out ++ [m]))) true (lw_log w))
      | Some (mkLC b (LSend [] (Go b')) out) => Some (l, mkLW (lw_p w) (lput w k (mkLC b' LIdle out)) true (lw_log w))
      | Some (mkLC b (LSend [] Drop) out) => Some (l, mkLW (lw_p w) (lput w k (mkLC b LClosed out)) true (lw_log w))
      | Some (mkLC b (LSend [] Dead) out) => Some (l, mkLW (lw_p w) (lw_conns w) false (lw_log w))
      | _ => None
      end
  end.
Lemma play1_step w l l' w' : play1 w l = Some (l', w') -> lstep cfg c w l' w'.
Proof using Type.
  unfold play1. destruct (lw_alive w) eqn:Ha; cbn [negb]; [|done]. destruct l as [k|k|k ev p|k|k ch e|e|k e|k].
  - destruct (lw_conns w !! k) eqn:Hk; [done|]. intros [= <- <-]. by apply ls_open.
  - destruct (lw_conns w !! k) as [[b [] out]|] eqn:Hk; try done. intros [= <- <-]. by eapply ls_eof.
  - destruct (lw_conns w !! k) as [[b [] out]|] eqn:Hk; try done. intros [= <- <-]. by eapply ls_read.
  - destruct (lw_conns w !! k) as [[b [] out]|] eqn:Hk; try done. destruct (calls_search cfg p) eqn:Hc; [done|].
    intros [= <- <-]. by eapply ls_plain.
  - destruct e; try done. destruct (lw_conns w !! k) as [[b [] out]|] eqn:Hk; try done. destruct (calls_search cfg p0) eqn:Hc; [|done].
    intros [= <- <-]. by eapply ls_search.
  - destruct e; try done; intros [= <- <-]; match goal with |- lstep _ _ _ (LbPump ?e) _ => exact (ls_pump cfg c w e Ha I) end.
  - destruct (lw_conns w !! k) as [[b [] out]|] eqn:Hk; try done.
    destruct (match e with PRecv j | PEmpty j => j =? k | _ => false end) eqn:He; [|done]. intros [= <- <-]. eapply ls_wait; [done..|].
    destruct e; try done; apply Nat.eqb_eq in He as ->; auto.
  - destruct (lw_conns w !! k) as [[b [| | |[|m rest] [b'| |]|] out]|] eqn:Hk; try done; intros [= <- <-].
    + by eapply ls_go.
    + by eapply ls_drop.
    + by eapply ls_die.
    + by eapply ls_send.
    + by eapply ls_send.
    + by eapply ls_send.
Qed.
Fixpoint play (w : lworld) (ls : list llabel) : option (list llabel * lworld) :=
  match ls with
  | [] => Some ([], w)
  | l :: ls' =>
      match play1 w l with
      | Some (l', w') => match play w' ls' with Some (tr, w2) => Some (l' :: tr, w2) | None => None end
      | None => None
      end
  end.
Lemma play_run ls : forall w tr w', play w ls = Some (tr, w') -> lrun cfg c w tr w'.
Proof using Type.
  induction ls as [|l ls IH]; intros w tr w'; cbn [play]; [intros [= <- <-]; apply lr_refl|].
  destruct (play1 w l) as [[l' w1]|] eqn:E; [|done]. destruct (play w1 ls) as [[tr' w2]|] eqn:E'; [|done].
  intros [= <- <-]. change (l' :: tr') with ([l'] ++ tr'). eapply run_trans; [apply run_one; eapply play1_step; exact E|by apply IH].
Qed.
End play.

(** * C90 *)
(** Whatever the other connections, the pumps and the reloads do meanwhile, a
    connection is served as if it were alone: its requests as a whole one after
    the other, each from the data in force at its place in the order [lw_log].
    Required is that its requests have no paging in effect and that its pumps do
    not give up. *)
Theorem C90_alone (T : Text) (C : Crypto) (W : Wire) (Tr : Trees) (HTr : TreesOK Tr) (cfg : server_cfg) (c : ldif_cfg)
    (d : dataset) (tr : list llabel) (w : lworld) (k : nat) (b : str) (ph : lphase) (out : list message) :
  built d -> lrun cfg c (lstart d) tr w ->
  (forall ev p r, In (LbRead k ev p) tr -> calls_search cfg p = Some r -> paging_of r (paging_control p) = None) ->
  (forall ch e, In (LbSearch k ch e) tr -> ~ In (LbPump (PGiveUp ch)) tr) ->
  lw_conns w !! k = Some (mkLC b ph out) ->
  let x := alone cfg c k d (lw_log w) in
  so_data x = ps_data (lw_p w) /\
  (forall m, In m out -> m.2 = None) /\ (exists rest, so_out x = map fst out ++ rest) /\
  (ph = LIdle -> so_next x = Go b /\ so_out x = map fst out) /\
  (ph = LClosed -> so_out x = map fst out).
Proof.
  intros Hd H Hp1 Hp2 Hk x. destruct (run_kept cfg c k d HTr Hd tr w H (conj Hp1 Hp2)) as [Hx Hb]. fold x in Hx, Hb. rewrite Hk in Hb.
  destruct Hb as [Hb Hph]. split; [done|]. split.
  { intros m Hm. unfold bare in Hb. rewrite List.Forall_forall in Hb. by apply Hb. }
  change (list_fmap _ _ fst out) with (map fst out) in Hph.
  destruct ph as [|ev p|ev p|rest n|].
  - destruct Hph as [H1 H2]. split; [exists []; by rewrite app_nil_r|]. done.
  - destruct Hph as [H1 H2]. split; [exists []; by rewrite app_nil_r|]. done.
  - destruct Hph as (r & flt & ch & e & res & dd & _ & _ & _ & H1 & H2). split; [by eexists|]. done.
  - destruct Hph as (H1 & H2 & _). split; [by eexists|]. done.
  - split; [exists []; by rewrite app_nil_r|]. done.
Qed.
Print Assumptions C90_alone.
(** The process ends only if a request ends it that would do so alone. *)
Theorem C90_survives (T : Text) (C : Crypto) (W : Wire) (Tr : Trees) (HTr : TreesOK Tr) (cfg : server_cfg) (c : ldif_cfg)
    (d : dataset) (tr : list llabel) (w : lworld) :
  built d -> lrun cfg c (lstart d) tr w ->
  (forall k ev p r, In (LbRead k ev p) tr -> calls_search cfg p = Some r -> paging_of r (paging_control p) = None) ->
  (forall ch, ~ In (LbPump (PGiveUp ch)) tr) ->
  lw_alive w = false -> exists k, so_next (alone cfg c k d (lw_log w)) = Dead.
Proof.
  intros Hd H Hp Hg Ha. destruct (run_dies cfg c _ _ _ H eq_refl Ha) as (k & tr0 & b & out & -> & Hk). exists k.
  destruct (run_kept cfg c k d HTr Hd _ w H) as [_ Hb]; [split; [by eauto|intros ch e _; apply Hg]|].
  rewrite Hk in Hb. by destruct Hb as (_ & Hb & _).
Qed.
Print Assumptions C90_survives.
(** Conversely, every order of requests and reloads in which connections go on and
    the process survives is that of a run: nothing a client alone could ask is
    refused to it here. *)
Theorem C90_realised (T : Text) (C : Crypto) (W : Wire) (Tr : Trees) (HTr : TreesOK Tr) (cfg : server_cfg) (c : ldif_cfg)
    (d : dataset) (log : list levent) :
  built d ->
  (forall before k ev p after, log = before ++ VTake k ev p :: after ->
     (exists b, so_next (alone cfg c k d before) = Go b) /\ so_next (alone cfg c k d (before ++ [VTake k ev p])) <> Dead /\
     forall r, calls_search cfg p = Some r -> paging_of r (paging_control p) = None) ->
  exists tr w, lrun cfg c (lstart d) tr w /\ lw_log w = log /\ lw_alive w = true /\
    forall k,
      match lw_conns w !! k with
      | Some x => (ln_phase x = LIdle \/ ln_phase x = LClosed) /\ map fst (ln_sent x) = so_out (alone cfg c k d log)
      | None => so_out (alone cfg c k d log) = []
      end.
Proof.
  intros Hd Hlog.
  assert (G : exists tr w, lrun cfg c (lstart d) tr w /\ lw_log w = log /\ lw_alive w = true /\
    (forall k x, lw_conns w !! k = Some x -> ln_phase x = LIdle \/ ln_phase x = LClosed /\ forall b, so_next (alone cfg c k d log) <> Go b) /\
    (forall k ev p r, In (LbRead k ev p) tr -> calls_search cfg p = Some r -> paging_of r (paging_control p) = None) /\
    (forall ch, ~ In (LbPump (PGiveUp ch)) tr)).
  { induction log as [|e log IH] using rev_ind.
    { exists [], (lstart d). split; [apply lr_refl|]. split; [done|]. split; [done|]. split; [|by split; [intros ? ? ? ? []|intros ? []]].
      intros k x Hk. cbn in Hk. by rewrite lookup_empty in Hk. }
    destruct IH as (tr & w & Hr & Hl & Ha & Hrest & Hp & Hg).
    { intros before k ev p after E. apply (Hlog before k ev p (after ++ [e])). rewrite E, <- app_assoc. done. }
    destruct e as [parsed|k ev p].
    - pose proof (ls_pump cfg c w (PReload parsed) Ha I) as Hs. eexists _, _. split; [eapply lr_more; [exact Hr|exact Hs]|].
      cbn [lw_log lw_alive lw_conns noted]. split; [by rewrite Hl|]. split; [done|]. split.
      { intros k x Hk. destruct (Hrest k x Hk) as [?|[? Hx]]; [by left|right]. split; [done|]. unfold alone in *. rewrite foldl_snoc. exact Hx. }
      split; [intros k ev p r [Hi|[Hi|[]]]%in_app_or; [by eauto|done]|]. intros ch [Hi|[Hi|[]]]%in_app_or; [by eapply Hg|done].
    - destruct (Hlog log k ev p [] eq_refl) as ((b0 & Hb0) & Hnd & Hpl).
      (* the connection is open and idle *)
      assert (Hopen : exists tr1 w1 b out, lrun cfg c (lstart d) tr1 w1 /\ lw_log w1 = log /\ lw_alive w1 = true /\
        (forall j, j <> k -> lw_conns w1 !! j = lw_conns w !! j) /\ lw_conns w1 !! k = Some (mkLC b LIdle out) /\
        (forall k ev p r, In (LbRead k ev p) tr1 -> calls_search cfg p = Some r -> paging_of r (paging_control p) = None) /\
        (forall ch, ~ In (LbPump (PGiveUp ch)) tr1)).
      { destruct (lw_conns w !! k) as [[b ph out]|] eqn:Hk.
        - exists tr, w, b, out. split; [done|]. split; [done|]. split; [done|]. split; [done|]. split; [|done].
          destruct (Hrest k _ Hk) as [E|[_ Hx]]; [cbn in E; by subst ph|by destruct (Hx b0)].
        - pose proof (ls_open cfg c w k Ha Hk) as Hs. eexists _, _, [], []. split; [eapply lr_more; [exact Hr|exact Hs]|].
          cbn [lw_log lw_alive lw_conns]. unfold lput. split; [done|]. split; [done|].
          split; [intros j Hj; by rewrite lookup_insert_ne|]. split; [by rewrite lookup_insert|].
          split; [intros j ev' p' r [Hi|[Hi|[]]]%in_app_or; [by eauto|done]|]. intros ch [Hi|[Hi|[]]]%in_app_or; [by eapply Hg|done]. }
      destruct Hopen as (tr1 & w1 & b & out & Hr1 & Hl1 & Ha1 & Hc1 & Hk1 & Hp1 & Hg1).
      pose proof (ls_read cfg c w1 k b out ev p Ha1 Hk1) as Hs. set (w2 := mkLW _ _ _ _) in Hs.
      assert (Hr2 : lrun cfg c (lstart d) (tr1 ++ [LbRead k ev p]) w2) by (eapply lr_more; [exact Hr1|exact Hs]).
      assert (Hp2 : forall j ev' p' r, In (LbRead j ev' p') (tr1 ++ [LbRead k ev p]) -> calls_search cfg p' = Some r -> paging_of r (paging_control p') = None).
      { intros j ev' p' r [Hi|[Hi|[]]]%in_app_or; [by eauto|]. injection Hi as <- <- <-. apply Hpl. }
      assert (Hk2 : lw_conns w2 !! k = Some (mkLC b (LAsked ev p) out)) by (cbn; unfold lput; by rewrite lookup_insert).
      destruct (run_finishes cfg c k d _ w2 (mkLC b (LAsked ev p) out) Hr2) as (ch & tr' & w' & H1 & H2 & H3); [|done|exact Hk2|].
      { intros ev' p' Hi (r & pg & Hc & Hpg & _). rewrite (Hp2 k ev' p' r Hi Hc) in Hpg. done. }
      pose proof (run_trans cfg c _ _ _ _ _ Hr2 H1) as Hr3. destruct (own_run cfg c k ch _ _ _ H1 H3) as (Ho & more & Hm & Hmk).
      assert (Hp3 : forall j ev' p' r, In (LbRead j ev' p') ((tr1 ++ [LbRead k ev p]) ++ tr') -> calls_search cfg p' = Some r -> paging_of r (paging_control p') = None).
      { intros j ev' p' r [Hi|Hi]%in_app_or; [by eauto|]. rewrite List.Forall_forall in H3. apply H3 in Hi. exfalso.
        by destruct Hi as [H|[H|[(? & ? & H)|[H|[H|[H|H]]]]]]. }
      assert (Hg3 : forall ch', ~ In (LbPump (PGiveUp ch')) ((tr1 ++ [LbRead k ev p]) ++ tr')).
      { intros ch' [[Hi|[Hi|[]]]%in_app_or|Hi]%in_app_or; [by eapply Hg1|done|]. rewrite List.Forall_forall in H3. apply H3 in Hi.
        by destruct Hi as [H|[H|[(? & ? & H)|[H|[H|[H|H]]]]]]. }
      assert (Hkept : forall tr w, (exists t, (tr1 ++ [LbRead k ev p]) ++ tr' = tr ++ t) -> lrun cfg c (lstart d) tr w -> kept cfg c k (alone cfg c k d (lw_log w)) w tr).
      { intros tr0 w0 [t Ht] H0. apply (run_kept cfg c k d HTr Hd _ _ H0). split.
        - intros ev' p' r Hi. apply (Hp3 k ev' p' r). rewrite Ht. apply in_or_app. by left.
        - intros ch' e _ Hi. apply (Hg3 ch'). rewrite Ht. apply in_or_app. by left. }
      assert (Hmore : more = [VTake k ev p]).
      { destruct (run_order cfg c k w1 ([LbRead k ev p] ++ tr') w') as (more' & El & Er); [|unfold not_taken; by rewrite Hk1|].
        { eapply run_trans; [apply run_one; exact Hs|exact H1]. }
        assert (more' = more) as ->. { rewrite Hm in El. cbn [lw_log w2] in El. by apply app_inv_head in El. }
        assert (Hn : not_taken k w' = []).
        { unfold not_taken. destruct H2 as [H2|(b' & out' & [H2|H2])]; [|by rewrite H2..].
          destruct (run_dies cfg c _ _ _ H1 eq_refl H2) as (k' & t0 & b' & out' & -> & Hk').
          apply Forall_app in H3 as [_ H3]. apply Forall_inv in H3.
          assert (k' = k) as -> by (destruct H3 as [H|[H|[(? & ? & H)|[H|[H|[H|H]]]]]]; congruence). by rewrite Hk'. }
        rewrite Hn, app_nil_r in Er. unfold read_from in Er. rewrite omap_app in Er. cbn [omap list_omap] in Er. rewrite Nat.eqb_refl in Er.
        assert (Ht : omap (fun l => match l with LbRead j ev p => if j =? k then Some (ev, p) else None | _ => None end) tr' = []).
        { clear -H3. induction H3 as [|l tr' H _ IH]; [done|]. cbn [omap list_omap]. rewrite IH.
          by destruct H as [->|[->|[(? & ? & ->)|[->|[->|[->| ->]]]]]]. }
        rewrite Ht in Er. cbn in Er. clear -Er Hmk. destruct more as [|e1 more]; [done|].
        destruct (Hmk e1 (or_introl eq_refl)) as (ev1 & p1 & ->). cbn in Er. rewrite Nat.eqb_refl in Er. injection Er as <- <- Er. f_equal.
        destruct more as [|e2 more]; [done|]. destruct (Hmk e2 (or_intror (or_introl eq_refl))) as (ev2 & p2 & ->). cbn in Er.
        by rewrite Nat.eqb_refl in Er. }
      subst more. cbn [lw_log w2] in Hm. rewrite Hl1 in Hm.
      assert (Hal : lw_alive w' = true).
      { destruct (lw_alive w') eqn:Hal; [done|]. exfalso. destruct (run_dies cfg c _ _ _ H1 eq_refl Hal) as (k' & t0 & b' & out' & -> & Hk').
        apply Forall_app in H3 as [_ H3]. apply Forall_inv in H3.
        assert (k' = k) as -> by (destruct H3 as [H|[H|[(? & ? & H)|[H|[H|[H|H]]]]]]; congruence).
        destruct (Hkept _ _ (ex_intro _ [] (eq_sym (app_nil_r _))) Hr3) as [_ Hb]. rewrite Hk', Hm in Hb. destruct Hb as (_ & Hb & _). by apply Hnd. }
      exists ((tr1 ++ [LbRead k ev p]) ++ tr'), w'. split; [done|]. split; [done|]. split; [done|]. split; [|done].
      intros j x Hj. destruct (decide (j = k)) as [->|Hne].
      + destruct H2 as [H2|(b' & out' & [H2|H2])]; [congruence|left; rewrite H2 in Hj; by injection Hj as <-|].
        right. rewrite H2 in Hj. injection Hj as <-. split; [done|].
        destruct (own_closed cfg c k ch _ _ _ H1 H3) with (2 := H2) as (t0 & t1 & w0 & -> & Hr0 & Hl0 & Hk0); [intros; rewrite Hk2; discriminate|].
        destruct (Hkept ((tr1 ++ [LbRead k ev p]) ++ t0) w0) as [_ Hb]; [exists t1; by rewrite !app_assoc|by eapply run_trans|].
        rewrite Hk0, Hl0, Hm in Hb. destruct Hb as (_ & Hb & _). intros b''. rewrite Hb. done.
      + rewrite Ho in Hj by done. cbn [lw_conns w2] in Hj. unfold lput in Hj. rewrite lookup_insert_ne in Hj by done.
        rewrite Hc1 in Hj by done. destruct (Hrest j x Hj) as [?|[? Hx]]; [by left|right]. split; [done|].
        unfold alone in *. rewrite foldl_snoc. cbn [solo_step]. destruct (k =? j) eqn:E; [by apply Nat.eqb_eq in E; subst j|done]. }
  destruct G as (tr & w & Hr & Hl & Ha & Hrest & Hp & Hg). exists tr, w. split; [done|]. split; [done|]. split; [done|].
  intros k. destruct (run_kept cfg c k d HTr Hd _ w Hr) as [_ Hb]; [split; [by eauto|intros ch e _; apply Hg]|]. rewrite Hl in Hb.
  destruct (lw_conns w !! k) as [[b ph out]|] eqn:Hk; [|by destruct Hb].
  destruct (Hrest k _ Hk) as [E|[E _]]; cbn [ln_phase ln_sent] in *; subst ph; destruct Hb as [_ Hb].
  - split; [by left|]. by destruct Hb as [_ ->].
  - split; [by right|]. by rewrite Hb.
Qed.
Print Assumptions C90_realised.
(** The order has the requests of a connection in the order they were read, each
    at a place between its reading and the end of its answer: from a moment on at
    which the connection has nothing undone, what is added to the order contains
    exactly the requests read since, except the one not dealt with yet.  So a
    request read after a reload is answered from the data of that reload or a
    later one, and a reload after the answer has no part in it. *)
Theorem C90_order (T : Text) (C : Crypto) (W : Wire) (Tr : Trees) (cfg : server_cfg) (c : ldif_cfg)
    (w0 w : lworld) (tr : list llabel) (k : nat) :
  lrun cfg c w0 tr w -> (forall b ev p out, lw_conns w0 !! k <> Some (mkLC b (LAsked ev p) out)) ->
  exists more, lw_log w = lw_log w0 ++ more /\
    read_from k tr = taken_from k more ++
      match lw_conns w !! k with Some (mkLC _ (LAsked ev p) _) => [(ev, p)] | _ => [] end.
Proof.
  intros H Hk. apply (run_order cfg c); [done|]. unfold not_taken. destruct (lw_conns w0 !! k) as [[b [] out]|] eqn:E; try done.
  by destruct (Hk b ev p out).
Qed.
Print Assumptions C90_order.
(** A request can always be brought to its end by steps of its connection and of
    its pump alone: no other connection and no reload has to do anything.
    Required is that no request on the connection abandons a paged search (C60). *)
Theorem C90_finishes (T : Text) (C : Crypto) (W : Wire) (Tr : Trees) (cfg : server_cfg) (c : ldif_cfg)
    (d : dataset) (tr : list llabel) (w : lworld) (k : nat) (x : lconn) :
  lrun cfg c (lstart d) tr w ->
  (forall ev p r pg, In (LbRead k ev p) tr -> calls_search cfg p = Some r -> paging_of r (paging_control p) = Some pg ->
     pg_cookie pg = [] \/ (0 < pg_size pg)%Z) ->
  lw_alive w = true -> lw_conns w !! k = Some x ->
  exists ch tr' w', lrun cfg c w tr' w' /\
    (lw_alive w' = false \/ exists b out, lw_conns w' !! k = Some (mkLC b LIdle out) \/ lw_conns w' !! k = Some (mkLC b LClosed out)) /\
    forall l, In l tr' -> l = LbSend k \/ l = LbPlain k \/ (exists n e, l = LbSearch k n e) \/ l = LbWait k (PRecv k) \/
      l = LbWait k (PEmpty k) \/ l = LbPump (PDone ch) \/ l = LbPump (PShut ch).
Proof.
  intros H Hn Ha Hk. destruct (run_finishes cfg c k d tr w x H) as (ch & tr' & w' & H1 & H2 & H3); [|done|done|].
  { intros ev p Hin (r & pg & Hc & Hp & Hne & Hle). destruct (Hn ev p r pg Hin Hc Hp) as [?|?]; [done|lia]. }
  exists ch, tr', w'. split; [done|]. split; [exact H2|]. by apply List.Forall_forall.
Qed.
Print Assumptions C90_finishes.
Lemma search_inv {T : Text} {C : Crypto} {W : Wire} {Tr : Trees} cfg c w k ch e w' : lstep cfg c w (LbSearch k ch e) w' ->
  exists b out ev p r fresh, lw_conns w !! k = Some (mkLC b (LAsked ev p) out) /\ calls_search cfg p = Some r /\
    ch = ps_next (lw_p w) /\ e = PStart k (re_h ev) b r (paging_control p) fresh /\
    w' = mkLW (p_step c (lw_p w) e).1
      (lput w k (mkLC b (after_step cfg c ev b p (ps_data (lw_p w)) (p_step c (lw_p w) e).2) out)) true (lw_log w ++ [VTake k ev p]).
Proof.
  intros H. remember (LbSearch k ch e) as l eqn:El. destruct H; try done. injection El as <- <- <-.
  exists b, out, ev, p, r, fresh. done.
Qed.
(** The messages of a paged search.  A client asks for the first page and goes on
    with the cookie; the others leave this cookie alone, and the pump does not
    give up.  Then every request is answered by a page under its message number
    whose size is the one asked for, the entries of all pages are the beginning
    of what the search without paging would have found in the data in force when
    the first page was asked for, whatever was reloaded since, and the end is told
    when, and only when, all of them have been sent. *)
Theorem C90_pages (T : Text) (C : Crypto) (W : Wire) (Tr : Trees) (HTr : TreesOK Tr) (cfg : server_cfg) (c : ldif_cfg)
    (d : dataset) (before after : list llabel) (w0 w1 w : lworld) (k ch : nat) (b : str) (out : list message)
    (ev : renv bool) (p : packet) (r : search_req) (n : Z) (ck : str) (flt : packet) (fs : list leaf) :
  built d -> sv_enforce cfg = false -> lrun cfg c (lstart d) before w0 ->
  lw_conns w0 !! k = Some (mkLC b (LAsked ev p) out) -> calls_search cfg p = Some r ->
  paging_control p = Some (mkPaging n []) -> ((0 < sr_size r)%Z -> (n < u32 (sr_size r))%Z) ->
  search_checks c (re_h ev) b r = inr (flt, fs) -> (forall i, re_send ev i = true) ->
  (forall e, In e (sends (ps_data (lw_p w0)) (sr_base r) fs) -> exists o, take_entry flt r e = Ok o) ->
  ck <> [] -> (forall j ch' j' local b' r' p', ~ In (LbSearch j ch' (PStart j' local b' r' p' ck)) before) ->
  lstep cfg c w0 (LbSearch k ch (PStart k (re_h ev) b r (paging_control p) ck)) w1 ->
  lrun cfg c w1 after w ->
  (forall l, In l after -> leaves_alone k ch ck l) ->
  (forall ev' p', In (LbRead k ev' p') after -> continues cfg r ck (re_h ev) ev' p') ->
  exists all xs ph new rest,
    (ldif_search c (re_h ev) b (unlimited r) (ps_data (lw_p w0))).1 = HRet (mkFound all Success false) /\
    lw_conns w !! k = Some (mkLC b ph (out ++ new)) /\ new ++ rest = concat (map written xs) /\
    (exists more, concat (map rp_entries xs) ++ more = all) /\
    Forall (page_reply ck all (concat (map rp_entries xs))) xs /\
    (exists open, Forall2 answers_to (take (length xs) ((ev, p) :: read_from k after)) xs /\
       (ev, p) :: read_from k after = take (length xs) ((ev, p) :: read_from k after) ++ open /\ length open <= 1 /\
       (ph = LIdle \/ ph = LClosed -> open = [] /\ rest = [])).
Proof.
  intros Hd Henf H0 Hk Hc Hpc Hn Hs Hsend Hdec Hck Hfr Hstep Hrun Hl Hr.
  pose proof (run_p cfg c _ _ _ H0) as Hp0. cbn [lw_p lstart] in Hp0.
  pose proof (run_matched cfg c _ _ _ H0) as Hm0.
  assert (Hdec' : PagingProofs.decided flt r (sends (ps_data (lw_p w0)) (sr_base r) fs)) by (by apply List.Forall_forall).
  assert (Hnr : ps_readers (lw_p w0) !! k = None) by (apply matched_none; [done|]; eapply not_inside; [exact Hk|done]).
  assert (Hun : unused ck (lw_p w0)).
  { rewrite Hp0. apply unused_run. apply List.Forall_forall. intros e He. apply in_flat_map in He as (l & Hl' & He).
    destruct l as [| | | |j ch' e'|e'|j e'|]; cbn in He; try done; destruct He as [<-|[]]; (destruct e' as [k' lo bo rr pp fr| | | | | |]; try done).
    - cbn. intros ->. by eapply Hfr.
    - exfalso. clear - H0 Hl'. induction H0 as [|tr w1 l w2 H0 IH Hs]; [done|]. apply in_app_or in Hl' as [?|[-> |[]]]; [by apply IH|].
      by inversion Hs.
    - exfalso. clear - H0 Hl'. induction H0 as [|tr w1 l w2 H0 IH Hs]; [done|]. apply in_app_or in Hl' as [?|[-> |[]]]; [by apply IH|].
      inversion Hs as [| | | | | |? ? ? ? ? ? H1 H2 He s| | | |]. by destruct He. }
  destruct (session_start c (lw_p w0) k (re_h ev) b r n ck flt fs) as [E2 Hses]; [rewrite Hp0; apply wf_true_run|done..|].
  set (all := omap (decide_entry flt r) (sends (ps_data (lw_p w0)) (sr_base r) fs)) in *.
  rewrite <- Hpc in E2, Hses.
  assert (Hw1 : ch = ps_next (lw_p w0) /\ lw_p w1 = (p_step c (lw_p w0) (PStart k (re_h ev) b r (paging_control p) ck)).1 /\
    lw_conns w1 !! k = Some (mkLC b (LSearch ev p) out)).
  { destruct (search_inv cfg c _ _ _ _ _ Hstep) as (b1 & out1 & ev1 & p1 & r1 & fresh1 & Hk1 & Hc1 & Eck & Ee & ->).
    assert (mkLC b1 (LAsked ev1 p1) out1 = mkLC b (LAsked ev p) out) as [= -> -> -> ->] by congruence.
    split; [done|]. cbn [lw_p lw_conns]. split; [done|]. unfold lput. rewrite lookup_insert, E2. done. }
  destruct Hw1 as (-> & Ep1 & Ek1).
  assert (Hm1 : matched w1) by (by eapply step_matched).
  destruct (start_checks c _ _ _ _ _ Hs) as (Hbo & Hf & Hlv & Hba).
  assert (Hrd : exists rd, ps_readers (lw_p w1) !! k = Some rd /\ rd_chan rd = Some (ps_next (lw_p w0)) /\ rd_page rd = Some (mkPaging n ck)).
  { rewrite Ep1. cbn [p_step]. rewrite Hnr. unfold p_start. rewrite Hbo, Hlv, Hba. cbn [negb]. rewrite Hpc.
    assert (Hpg : paging_of r (Some (mkPaging n [])) = Some (mkPaging n [])).
    { unfold paging_of. cbn [pg_size]. destruct (Z.ltb_spec 0 (sr_size r)); [|done].
      destruct (Z.leb_spec (u32 (sr_size r)) n); [lia|done]. }
    rewrite Hpg. cbn [pg_cookie pg_size is_empty]. unfold enter. rewrite Hf. cbn. rewrite lookup_insert. by eexists. }
  destruct Hrd as (rd & Hrd & Hch & Hpg).
  assert (Hstart : pages cfg k (ps_next (lw_p w0)) r flt ck b (re_h ev) all out w1 [(ev, p)] [] (LSearch ev p) []).
  { constructor.
    - cbn [map concat]. by rewrite Ep1.
    - by rewrite app_nil_r.
    - constructor.
    - exists []. split; [done|]. split; [constructor|]. split; [done|]. split; [done|]. split; [done|]. exists rd, n, []. done. }
  destruct (pages_run cfg c k (ps_next (lw_p w0)) r flt fs ck b (re_h ev) all out Henf Hck Hs w1 after w [(ev, p)] [] _ [] Hstart Hm1 Hrun)
    as (xs & ph & new & [Hx1 Hx2 Hx3 Hx4]); [by apply List.Forall_forall|done|].
  cbn [Datatypes.app] in Hx4.
  destruct (ss_pump _ _ _ _ _ _ _ _ Hx1) as (full & todo & phs & _ & _ & Hall & _).
  assert (Hreq : exists open dn rest, (ev, p) :: read_from k after = dn ++ open /\ Forall2 answers_to dn xs /\ length open <= 1 /\
    new ++ rest = concat (map written xs) /\ (ph = LIdle \/ ph = LClosed -> open = [] /\ rest = [])).
  { destruct ph as [|ev1 p1|ev1 p1|rest n1|].
    - destruct Hx4 as [H1 H2]. exists [], ((ev, p) :: read_from k after), []. rewrite !app_nil_r. repeat split; try done. cbn. lia.
    - destruct Hx4 as (dn & H1 & H2 & H3 & _). exists [(ev1, p1)], dn, []. rewrite app_nil_r. repeat split; try done; by destruct H as [|].
    - destruct Hx4 as (dn & H1 & H2 & H3 & _). exists [(ev1, p1)], dn, []. rewrite app_nil_r. repeat split; try done; by destruct H as [|].
    - destruct Hx4 as (_ & H1 & H2). exists [], ((ev, p) :: read_from k after), rest. rewrite app_nil_r. repeat split; try done; [cbn; lia|by destruct H as [|]].
    - destruct Hx4 as [H1 H2]. exists [], ((ev, p) :: read_from k after), []. rewrite !app_nil_r. repeat split; try done. cbn. lia. }
  destruct Hreq as (open & dn & rest & Hreq & Hf2 & Hlen & Hnew & Hend).
  exists all, xs, ph, new, rest. split; [apply unlimited_search; [done|rewrite Hp0; by apply built_run|done..]|].
  split; [done|]. split; [done|]. split; [by eexists|]. split; [done|].
  exists open. rewrite <- (Forall2_length _ _ _ Hf2), Hreq, take_app. done.
Qed.
Print Assumptions C90_pages.
(** Which messages call Search and with what, and which paging control is found. *)
Theorem C90_asks (W : Wire) (cfg : server_cfg) (p : packet) (r : search_req) (pg : paging) :
  (sv_enforce cfg = false ->
   (calls_search cfg p = Some r <->
    exists i id req rest, p_kids p = i :: req :: rest /\ p_val i = VInt id /\ p_cls req = 64%N /\ p_tag req = 3%N /\ says_search req r /\
      forall x q, head rest = Some x -> In q (p_kids x) -> (exists k, decode_control q = Ok k) \/ (exists e, decode_control q = Err e))) /\
  (paging_control p = Some pg <->
   exists i req x rest pre q post, p_kids p = i :: req :: x :: rest /\ p_kids x = pre ++ q :: post /\
     decode_control q = Ok (KPaging pg) /\ forall q' pg', In q' pre -> decode_control q' <> Ok (KPaging pg')).
Proof.
  assert (Hdc : forall l, decode_controls l = true <-> forall q, In q l -> (exists k, decode_control q = Ok k) \/ (exists e, decode_control q = Err e)).
  { induction l as [|a l IH]; [done|]. cbn [decode_controls]. split.
    - intros H q [<-|Hq]; destruct (decode_control a) eqn:E; try done; eauto; by apply IH.
    - intros H. destruct (H a (or_introl eq_refl)) as [[x ->]|[x ->]]; apply IH; intros q Hq; apply H; by right. }
  split.
  - intros He. unfold calls_search. rewrite He. split.
    + destruct (p_kids p) as [|i [|req rest]] eqn:Ek; [done|done|]. destruct (p_val i) as [| |id| |] eqn:Ei; try done. cbn [as_int].
      destruct (N.eqb_spec (p_cls req) ClassApplication) as [Hc|]; [|done]. cbn [negb].
      destruct (match rest with x :: _ => decode_controls (p_kids x) | [] => true end) eqn:Ed; [|done]. cbn [negb].
      destruct (N.eqb_spec (p_tag req) SearchRequest) as [Ht|]; [|done]. cbn [negb].
      destruct (parse_search req) as [r'| | |] eqn:Er; try done. intros [= ->].
      exists i, id, req, rest. split; [done|]. split; [done|]. split; [done|]. split; [done|]. split; [by apply search_iff|].
      intros x q Hx Hq. destruct rest as [|y rest]; [done|]. injection Hx as ->. by eapply Hdc.
    + intros (i & id & req & rest & -> & -> & Hc & Ht & Hs & Hd). cbn [as_int]. rewrite Hc. change (negb (64 =? ClassApplication)%N) with false.
      cbn match. assert (Ed : match rest with x :: _ => decode_controls (p_kids x) | [] => true end = true).
      { destruct rest as [|x rest]; [done|]. apply Hdc. intros q Hq. by apply (Hd x). }
      rewrite Ed, Ht. apply search_iff in Hs. by rewrite Hs.
  - unfold paging_control. assert (Hf : forall l, find_paging l = Some pg <-> exists pre q post, l = pre ++ q :: post /\
      decode_control q = Ok (KPaging pg) /\ forall q' pg', In q' pre -> decode_control q' <> Ok (KPaging pg')).
    { induction l as [|a l IH].
      - split; [done|]. intros (pre & q & post & E & _). by destruct pre.
      - assert (Hno : (forall pg', decode_control a <> Ok (KPaging pg')) -> find_paging (a :: l) = find_paging l).
        { intros H. unfold find_paging. cbn [omap list_omap]. destruct (decode_control a) as [[pg'|]| | |]; try done. by destruct (H pg'). }
        split.
        + intros H. assert (Hcase : (exists pg', decode_control a = Ok (KPaging pg')) \/ (forall pg', decode_control a <> Ok (KPaging pg'))).
          { destruct (decode_control a) as [[pg'|]| | |]; [left; eauto|right; done..]. }
          destruct Hcase as [[pg' Ha]|Ha].
          * exists [], a, l. split; [done|]. split; [|done]. unfold find_paging in H. cbn [omap list_omap] in H. rewrite Ha in H. by injection H as ->.
          * rewrite (Hno Ha) in H. apply IH in H as (pre & q & post & -> & Hq & Hpre). exists (a :: pre), q, post. split; [done|]. split; [done|].
            intros q' pg' [<-|Hin]; [apply Ha|by apply Hpre].
        + intros (pre & q & post & E & Hq & Hpre). destruct pre as [|a' pre].
          * injection E as -> ->. unfold find_paging. cbn [omap list_omap]. by rewrite Hq.
          * injection E as -> ->. rewrite Hno; [apply IH; exists pre, q, post; split; [done|]; split; [done|]; intros q' pg' Hin; apply Hpre; by right|].
            intros pg'. apply Hpre. by left. }
    split.
    + destruct (p_kids p) as [|i [|req [|x rest]]]; try done. intros H. apply Hf in H as (pre & q & post & H1 & H2 & H3).
      exists i, req, x, rest, pre, q, post. done.
    + intros (i & req & x & rest & pre & q & post & -> & H1 & H2 & H3). apply Hf. exists pre, q, post. done.
Qed.
Print Assumptions C90_asks.

(** * C60 *)
(** The message that abandons a paged search is never answered, and nothing sent
    on its connection afterwards is read. *)
Theorem C60_connection (T : Text) (C : Crypto) (W : Wire) (Tr : Trees) (cfg : server_cfg) (c : ldif_cfg)
    (d : dataset) (before after : list llabel) (w0 w1 w : lworld) (k ch : nat) (e : pevent) (b : str) (out : list message)
    (ev : renv bool) (p : packet) (r : search_req) (n : Z) (ck : str) (flt : packet) (fs : list leaf) :
  lrun cfg c (lstart d) before w0 ->
  lw_conns w0 !! k = Some (mkLC b (LAsked ev p) out) -> calls_search cfg p = Some r ->
  search_checks c (re_h ev) b r = inr (flt, fs) -> (sr_size r <= 0)%Z ->
  paging_control p = Some (mkPaging n ck) -> (n <= 0)%Z -> ck <> [] -> is_Some (ps_reg (lw_p w0) !! ck) ->
  lstep cfg c w0 (LbSearch k ch e) w1 -> lrun cfg c w1 after w ->
  lw_conns w !! k = Some (mkLC b (LSearch ev p) out) /\ (forall ev' p', ~ In (LbRead k ev' p') after).
Proof.
  intros H0 Hk Hc Hs Hsz Hpc Hn Hck [ch' Hreg] Hstep Hrun.
  assert (Hnr : ps_readers (lw_p w0) !! k = None).
  { apply matched_none; [by eapply run_matched|]; eapply not_inside; [exact Hk|done]. }
  destruct (start_checks c _ _ _ _ _ Hs) as (Hbo & Hf & Hlv & Hba).
  destruct (search_inv cfg c _ _ _ _ _ Hstep) as (b1 & out1 & ev1 & p1 & r1 & fresh1 & Hk1 & Hc1 & _ & Ee & ->).
  assert (mkLC b1 (LAsked ev1 p1) out1 = mkLC b (LAsked ev p) out) as [= -> -> -> ->] by congruence.
  assert (r1 = r) as -> by congruence.
  assert (He : p_step c (lw_p w0) e = enter k None r (Some (mkPaging n ck)) (forget ck (lw_p w0))).
  { rewrite Ee, Hpc. cbn [p_step]. rewrite Hnr. unfold p_start. rewrite Hbo, Hlv, Hba. cbn [negb]. unfold paging_of.
    destruct (Z.ltb_spec 0 (sr_size r)); [lia|]. cbn [andb pg_cookie pg_size]. destruct ck; [done|]. cbn [is_empty].
    rewrite Hreg. destruct (Z.ltb_spec 0 n); [lia|done]. }
  unfold enter in He. rewrite Hf in He.
  set (w1 := mkLW _ _ _ _) in Hrun.
  set (rd := mkReader None flt r (Some (mkPaging n ck)) []) in He.
  assert (H1 : ps_readers (lw_p w1) !! k = Some rd /\ lw_conns w1 !! k = Some (mkLC b (LSearch ev p) out)).
  { unfold w1. cbn [lw_p lw_conns]. rewrite He. cbn. unfold lput. by rewrite !lookup_insert. }
  clearbody w1. destruct H1 as [H1 H2].
  split; [by apply (run_stuck cfg c k rd b ev p out w1 after w Hrun H1 eq_refl H2)|].
  induction Hrun as [|tr wa l wb Hrun IH Hs']; [by intros ? ? []|]. intros ev' p' Hin.
  apply in_app_or in Hin as [Hin|[-> |[]]]; [by eapply IH|].
  destruct (run_stuck cfg c k rd b ev p out w1 tr wa Hrun H1 eq_refl H2) as [_ Hx].
  inversion Hs' as [| |k1 b2 out2 ev2 p2 Ha2 Hk2 Eq| | | | | | | |]. congruence.
Qed.
Print Assumptions C60_connection.

(** ** Cases *)
Section case.
#[local] Existing Instances ascii_text toy wire90 plain_trees.
Definition shown (w : lworld) (k : nat) : option (list (option str * option (N * option str))) :=
  (fun x => map (fun m => match m.1 with REntry _ e => (Some (e_dn e), None) | RFinal _ _ code _ => (None, Some (code, m.2)) end) (ln_sent x))
    <$> lw_conns w !! k.
Definition idle (w : lworld) (k : nat) : bool :=
  match lw_conns w !! k with Some (mkLC _ LIdle _) => true | _ => false end.
Definition go (k : nat) : llabel := LbSearch k 0 (PStart 0 true [] (lreq [] 0) None (B "none")).
Definition go_ck (k : nat) (ck : string) : llabel := LbSearch k 0 (PStart 0 true [] (lreq [] 0) None (B ck)).
Definition recv (k : nat) : llabel := LbWait k (PRecv k).
(** Connection 0 searches; after the first entry the file is reloaded, a second
    connection searches, and both are served alternately.  Then 0 searches again. *)
Definition ls90 : list llabel :=
  [LbOpen 0; LbOpen 1; LbRead 0 ev90 (find90 1); go 0; recv 0; LbRead 1 ev90 (find90 5);
   LbPump (PReload (Some [Some e_new])); go 1; recv 1; recv 0; recv 0; LbPump (PDone 1); recv 0; LbPump (PShut 1);
   LbWait 1 (PEmpty 1); LbPump (PDone 0); LbSend 1; LbPump (PShut 0); LbWait 0 (PEmpty 0); LbSend 0; LbSend 1; LbSend 1;
   LbSend 0; LbSend 0; LbSend 0; LbSend 0; LbSend 0; LbRead 0 ev90 (find90 2); go 0; recv 0; LbPump (PDone 2); LbPump (PShut 2);
   LbWait 0 (PEmpty 0); LbSend 0; LbSend 0; LbSend 0].
Definition en (s : string) : option str * option (N * option str) := (Some (B s), None).
Arguments en s%string.
Definition fin (code : N) (ck : option string) : option str * option (N * option str) := (None, Some (code, B <$> ck)).
Example C90_case :
  exists tr w, lrun cfg90 lc1 (lstart ld1) tr w /\
    shown w 0 = Some [en dn1; en dn2; en dn3; en dn4; fin 0 None; en "o=base"; fin 0 None] /\
    shown w 1 = Some [en "o=base"; fin 0 None] /\ idle w 0 = true /\ idle w 1 = true /\ lw_alive w = true /\
    length (taken_from 0 (lw_log w)) = 2 /\ length (lw_log w) = 4.
Proof.
  assert (H : (fun x => (shown x.2 0, shown x.2 1, idle x.2 0, idle x.2 1, lw_alive x.2, length (taken_from 0 (lw_log x.2)), length (lw_log x.2)))
    <$> play cfg90 lc1 (lstart ld1) ls90 = Some (Some [en dn1; en dn2; en dn3; en dn4; fin 0 None; en "o=base"; fin 0 None],
      Some [en "o=base"; fin 0 None], true, true, true, 2, 4)) by (vm_compute; reflexivity).
  destruct (play cfg90 lc1 (lstart ld1) ls90) as [[tr w]|] eqn:E; [|done]. exists tr, w. split; [exact (play_run cfg90 lc1 ls90 _ _ _ E)|]. clear E. cbn in H. by injection H as -> -> -> -> -> -> ->.
Qed.
(** An order meeting the hypotheses of C90_realised: after every request the
    connection can go on. *)
Definition log90 : list levent :=
  [VTake 0 ev90 (find90 1); VReload (Some [Some e_new]); VTake 1 ev90 (find90 5); VTake 0 ev90 (find90 2)].
Example C90_realised_case :
  forallb (fun n =>
    match skipn n log90 with
    | VTake k ev p :: _ =>
        match so_next (alone cfg90 lc1 k ld1 (take n log90)), so_next (alone cfg90 lc1 k ld1 (take (S n) log90)) with
        | Go _, Go _ => true
        | _, _ => false
        end &&
        match calls_search cfg90 p with Some r => match paging_of r (paging_control p) with None => true | Some _ => false end | None => true end
    | _ => true
    end) (seq 0 4) = true /\
  length (so_out (alone cfg90 lc1 0 ld1 log90)) = 7 /\ length (so_out (alone cfg90 lc1 1 ld1 log90)) = 2.
Proof. repeat split; vm_compute; reflexivity. Qed.
(** A paged search in pages of three and two, with a reload after the first page;
    then pages of two, where the end is told only by the refusal of a third. *)
Definition ls91 : list llabel :=
  [LbOpen 0; LbRead 0 ev90 (page90 1 3 ""); go_ck 0 "ck"; recv 0; recv 0; recv 0; LbSend 0; LbSend 0; LbSend 0; LbSend 0; LbSend 0;
   LbPump (PReload (Some [Some e_new])); LbRead 0 ev90 (page90 2 2 "ck"); go_ck 0 "x"; recv 0; LbPump (PDone 0); LbPump (PShut 0);
   LbWait 0 (PEmpty 0); LbSend 0; LbSend 0; LbSend 0].
Definition ls92 : list llabel :=
  [LbOpen 0; LbRead 0 ev90 (page90 1 2 ""); go_ck 0 "ck"; recv 0; recv 0; LbSend 0; LbSend 0; LbSend 0; LbSend 0;
   LbRead 0 ev90 (page90 2 2 "ck"); go_ck 0 "x"; recv 0; recv 0; LbSend 0; LbSend 0; LbPump (PDone 0); LbSend 0; LbSend 0;
   LbRead 0 ev90 (page90 3 2 "ck"); go_ck 0 "y"; LbSend 0; LbSend 0].
Definition ls93 : list llabel :=
  [LbOpen 0; LbRead 0 ev90 (page90 1 2 ""); go_ck 0 "ck"; recv 0; recv 0; LbSend 0; LbSend 0; LbSend 0; LbSend 0;
   LbRead 0 ev90 (page90 2 0 "ck"); go_ck 0 "x"; LbPump (PGiveUp 0); LbPump (PShut 0); recv 0; LbWait 0 (PEmpty 0)].
Example C90_pages_case :
  (fun x => (shown x.2 0, idle x.2 0)) <$> play cfg90 lc1 (lstart ld1) ls91 =
    Some (Some [en dn1; en dn2; en dn3; fin 0 (Some "ck"); en dn4; fin 0 (Some "")]%string, true) /\
  (fun x => (shown x.2 0, idle x.2 0)) <$> play cfg90 lc1 (lstart ld1) ls92 =
    Some (Some [en dn1; en dn2; fin 0 (Some "ck"); en dn3; en dn4; fin 0 (Some "ck"); fin 53 None]%string, false).
Proof. split; vm_compute; reflexivity. Qed.
Example C60_connection_case :
  (fun x => (shown x.2 0, idle x.2 0, match lw_conns x.2 !! 0 with Some (mkLC _ (LSearch _ _) _) => true | _ => false end))
    <$> play cfg90 lc1 (lstart ld1) ls93 = Some (Some [en dn1; en dn2; fin 0 (Some "ck")]%string, false, true).
Proof. vm_compute. reflexivity. Qed.
(** The requests of these runs meet the hypotheses. *)
Example C90_asks_case :
  calls_search cfg90 (find90 1) = Some (lreq [] 0) /\ paging_control (find90 1) = None /\
  calls_search cfg90 (page90 2 2 "ck") = Some (lreq [] 0) /\ paging_control (page90 2 2 "ck") = Some (mkPaging 2 (B "ck")) /\
  continues cfg90 (lreq [] 0) (B "ck") true ev90 (page90 2 2 "ck") /\
  (exists flt fs, search_checks lc1 true [] (lreq [] 0) = inr (flt, fs) /\
     length (sends ld1 (B "o=base") fs) = 4 /\ forall e, In e (sends ld1 (B "o=base") fs) -> exists o, take_entry flt (lreq [] 0) e = Ok o).
Proof.
  split; [vm_compute; reflexivity|]. split; [vm_compute; reflexivity|]. split; [vm_compute; reflexivity|]. split; [vm_compute; reflexivity|].
  split.
  { split; [vm_compute; reflexivity|]. split; [done|]. split; [done|]. exists 2%Z. split; [vm_compute; reflexivity|]. split; [lia|]. cbn. lia. }
  assert (H : match search_checks lc1 true [] (lreq [] 0) with
    | inr (flt, fs) => (length (sends ld1 (B "o=base") fs) =? 4) && forallb (fun e => match take_entry flt (lreq [] 0) e with Ok _ => true | _ => false end) (sends ld1 (B "o=base") fs)
    | inl _ => false end = true) by (vm_compute; reflexivity).
  destruct (search_checks lc1 true [] (lreq [] 0)) as [|[flt fs]]; [done|]. exists flt, fs. apply andb_true_iff in H as [H1 H2].
  split; [done|]. split; [by apply Nat.eqb_eq|]. intros e He. rewrite forallb_forall in H2. specialize (H2 e He).
  destruct (take_entry flt (lreq [] 0) e) as [o| | |]; try done. by eexists.
Qed.
End case.
