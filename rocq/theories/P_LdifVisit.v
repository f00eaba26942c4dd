(** Property C103: a connection to the LDIF server among others, with reloads of
    the file, is a visit to the abstract read-only server; C104: so is a session
    in bytes. *)
From Verif Require Import Bytes Text Dn DnProofs Res Entry EntryProofs Password PasswordProofs P_Password Db DbSpec Packet
  Filter FilterProofs ScopeProofs P_Filter Handler Server ServerProofs P_Db P_Server Ldif LdifProofs LdifMore P_Ldif
  Encode EncodeProofs E2e E2eProofs SessionProofs P_E2e P_Session P_Bind P_LdifMsg P_Malformed P_Refine P_LdifRefine
  Paging PagingProofs P_Paging LdifConns LdifConnsProofs P_LdifConns Ber BerProofs Reply.
From Verif Require P_Wire.

(** What the abstract server makes of new content of the file: it is taken over if
    it could be read and no two names in it agree up to case. *)
Definition renew {T : Text} (parsed : option (list (option entry))) (old : list (option entry)) : list (option entry) :=
  match parsed with
  | Some l => if bool_decide (NoDup (map (fun e => to_lower (e_dn e)) (records_of l))) then l else old
  | None => old
  end.
(** Connection [k] at the abstract server: new content of the file and the requests
    of all connections in some order; what is sent on [k], and how it goes on. *)
Inductive visit {T : Text} {C : Crypto} {W : Wire} (cfg : server_cfg) (c : ldif_cfg) (k : nat) (r0 : list (option entry))
    : list levent -> list (option entry) -> next -> list response -> Prop :=
| vi_start : visit cfg c k r0 [] r0 (Go []) []
| vi_file log r n out parsed : visit cfg c k r0 log r n out ->
    visit cfg c k r0 (log ++ [VReload parsed]) (renew parsed r) n out
| vi_other log r n out j ev p : visit cfg c k r0 log r n out -> j <> k ->
    visit cfg c k r0 (log ++ [VTake j ev p]) r n out
| vi_over log r n out ev p : visit cfg c k r0 log r n out -> (forall b, n <> Go b) ->
    visit cfg c k r0 (log ++ [VTake k ev p]) r n out
| vi_request log r b out ev id req o n : visit cfg c k r0 log r (Go b) out ->
    reads cfg c r None ev id b req o n ->
    visit cfg c k r0 (log ++ [VTake k ev (p_msg id req)]) r n (out ++ o).

Section proofs.
Context {T : Text} {C : Crypto} {W : Wire} {Tr : Trees}.

(** The content of the file after these events. *)
Let content (r0 : list (option entry)) (log : list levent) : list (option entry) :=
  foldl (fun r e => match e with VReload parsed => renew parsed r | _ => r end) r0 log.
(** The data served is that of the last reload, whatever the connections. *)
Lemma run_data cfg c k d tr w : lrun cfg c (lstart d) tr w -> so_data (alone cfg c k d (lw_log w)) = ps_data (lw_p w).
Proof using Type.
  unfold alone. induction 1 as [|tr w1 l w2 _ IH Hs]; [done|].
  destruct (step_log_data cfg c w1 l w2 Hs) as (more & -> & Hm). rewrite foldl_app. by apply Hm.
Qed.
Lemma content_data cfg c k attrs r0 d log : build attrs r0 = Some d ->
  exists attrs', build attrs' (content r0 log) = Some (so_data (alone cfg c k d log)).
Proof using Type.
  intros Hb. unfold alone, content. induction log as [|e log IH] using rev_ind; [by exists attrs|].
  destruct IH as (attrs' & Hd). rewrite !foldl_app. cbn [foldl]. set (x := foldl (solo_step cfg c k) _ log) in *. set (r := foldl _ r0 log) in *.
  destruct e as [parsed|j ev p]; cbn [solo_step].
  - cbn [so_data]. unfold ldif_reload, renew. destruct parsed as [l|]; [|by exists attrs'].
    pose proof (C53_build_iff T (lc_attrs c) l) as Hiff. unfold low_dn in Hiff. destruct (build (lc_attrs c) l) as [d'|] eqn:Eb.
    + rewrite bool_decide_true; [by exists (lc_attrs c)|]. apply Hiff. eauto.
    + rewrite bool_decide_false; [by exists attrs'|]. intros Hn. apply Hiff in Hn as [d' ?]. done.
  - exists attrs'. destruct (j =? k); [|done]. by destruct (so_next x).
Qed.
Lemma alone_visits (HT : TextOK T) (HTr : TreesOK Tr) cfg c k attrs r0 d log :
  build attrs r0 = Some d -> sv_enforce cfg = false ->
  (forall ev p, In (VTake k ev p) log -> plain_message ev p) ->
  let x := alone cfg c k d log in
  visit cfg c k r0 log (content r0 log) (so_next x) (so_out x).
Proof using Type.
  intros Hb Hen. induction log as [|e log IH] using rev_ind; intros Hp; cbv zeta; [constructor|].
  specialize (IH (fun ev p Hin => Hp ev p (in_or_app _ _ _ (or_introl Hin)))). rename IH into Hv.
  destruct (content_data cfg c k attrs r0 d log Hb) as (attrs' & Hd).
  unfold alone, content in *. rewrite !foldl_app. cbn [foldl]. set (x := foldl (solo_step cfg c k) _ log) in *. set (r := foldl _ r0 log) in *.
  destruct e as [parsed|j ev p]; cbn [solo_step so_data so_next so_out]; [by apply vi_file|].
  destruct (Nat.eqb_spec j k) as [->|Hj]; [|by apply vi_other].
  destruct (so_next x) as [b| |] eqn:En; [|rewrite En; by apply vi_over..].
  destruct (Hp ev p) as (Hs & id & req & ->). { apply in_or_app. right. by left. }
  destruct (C102_request T C W Tr HT HTr attrs' r (so_data x) cfg c ev id b req Hd Hen Hs) as [Hr _].
  eapply vi_request; [exact Hv|exact Hr].
Qed.
Lemma logged_reads cfg c d tr w k ev p : lrun cfg c (lstart d) tr w -> In (VTake k ev p) (lw_log w) -> In (LbRead k ev p) tr.
Proof using Type.
  intros Hrun Hin. destruct (C90_order T C W Tr cfg c (lstart d) w tr k Hrun) as (more & Hlog & Hread).
  { intros b' ev' p' out'. cbn [lstart lw_conns]. by rewrite lookup_empty. }
  cbn [lstart lw_log Datatypes.app] in Hlog. subst more.
  assert (Ht : (ev, p) ∈ read_from k tr).
  { rewrite Hread. apply elem_of_app. left. apply elem_of_list_omap. exists (VTake k ev p).
    split; [by apply elem_of_list_In|]. by rewrite Nat.eqb_refl. }
  apply elem_of_list_omap in Ht as (l & Hl & He). destruct l; try discriminate He.
  destruct (Nat.eqb_spec k0 k) as [->|]; [|discriminate He]. injection He as -> ->. by apply elem_of_list_In.
Qed.
End proofs.

(** C103.  The server on the LDIF backend serves any number of connections at the
    same time while the file is reloaded.  There is one order of the requests of
    all connections and the reloads such that what was sent on a connection that is
    between requests is what the abstract server sends on it in this order, and the
    connection is bound as it is there; the requests of each connection stand in it
    as they were read.  Required is that the messages have no controls and can be
    answered, and that the pumps of the connection do not give up (C60). *)
Theorem C103_concurrent (T : Text) (C : Crypto) (W : Wire) (Tr : Trees) (HT : TextOK T) (HTr : TreesOK Tr)
    (attrs : list (str * str)) (r0 : list (option entry)) (d : dataset) (cfg : server_cfg) (c : ldif_cfg)
    (tr : list llabel) (w : lworld) :
  build attrs r0 = Some d -> sv_enforce cfg = false -> lrun cfg c (lstart d) tr w ->
  exists log r,
    (exists attrs', build attrs' r = Some (ps_data (lw_p w))) /\
    forall k b ph out,
      (forall ev p, In (LbRead k ev p) tr -> plain_message ev p) ->
      (forall ch e, In (LbSearch k ch e) tr -> ~ In (LbPump (PGiveUp ch)) tr) ->
      lw_conns w !! k = Some (mkLC b ph out) ->
      exists n o, visit cfg c k r0 log r n o /\
        read_from k tr = taken_from k log ++ match ph with LAsked ev p => [(ev, p)] | _ => [] end /\
        (forall m, In m out -> m.2 = None) /\ (exists rest, o = map fst out ++ rest) /\
        (ph = LIdle -> n = Go b /\ o = map fst out) /\
        (ph = LClosed -> o = map fst out).
Proof.
  intros Hb Hen Hrun. eexists (lw_log w), _. split; cycle 1.
  { intros k b ph out Hp Hg Hk.
    destruct (C90_order T C W Tr cfg c (lstart d) w tr k Hrun) as (more & Hlog & Hread).
    { intros b' ev p out'. cbn [lstart lw_conns]. by rewrite lookup_empty. }
    cbn [lstart lw_log Datatypes.app] in Hlog. subst more. rewrite Hk in Hread.
    assert (Hv := alone_visits HT HTr cfg c k attrs r0 d (lw_log w) Hb Hen). cbv zeta in Hv. 
    specialize (Hv (fun ev p Hin => Hp ev p (logged_reads cfg c d tr w k ev p Hrun Hin))).
    destruct (C90_alone T C W Tr HTr cfg c d tr w k b ph out) as (_ & H1 & H2 & H3 & H4); try done.
    { by exists attrs, r0. }
    { intros ev p sr Hin _. destruct (Hp ev p Hin) as (_ & id & req & ->). done. }
    eexists _, _. split; [exact Hv|]. split; [exact Hread|]. split; [exact H1|]. split; [exact H2|]. split; [exact H3|exact H4]. }
  rewrite <- (run_data cfg c 0 d tr w Hrun). by eapply content_data.
Qed.
Print Assumptions C103_concurrent.

(** The run of C90 with two connections and a reload between two entries of a
    search: in the order found, connection 0 sees the old file and then the new. *)
Section case.
#[local] Existing Instances ascii_text toy wire90 plain_trees.
Definition gives_up (l : llabel) : bool := match l with LbPump (PGiveUp _) => true | _ => false end.
Example C103_case :
  build index_attributes records1 = Some ld1 /\ sv_enforce cfg90 = false /\
  exists tr w, lrun cfg90 lc1 (lstart ld1) tr w /\
    (forall k ev p, In (LbRead k ev p) tr -> k < 2 -> plain_message ev p) /\
    (forall ch, ~ In (LbPump (PGiveUp ch)) tr) /\
    exists log r o0 o1,
      visit cfg90 lc1 0 records1 log r (Go []) o0 /\ visit cfg90 lc1 1 records1 log r (Go []) o1 /\
      length o0 = 7 /\ length o1 = 2 /\ length (taken_from 0 log) = 2 /\ length (taken_from 1 log) = 1 /\
      exists attrs', build attrs' r = Some (ps_data (lw_p w)).
Proof.
  split; [apply ld1_build|]. split; [reflexivity|].
  set (q0 := [(ev90, find90 1); (ev90, find90 2)]). set (q1 := [(ev90, find90 5)]).
  assert (H : (fun x => (read_from 0 x.1, read_from 1 x.1, existsb gives_up x.1,
      (fun y => (ln_bound y, match ln_phase y with LIdle => true | _ => false end, length (ln_sent y))) <$> lw_conns x.2 !! 0,
      (fun y => (ln_bound y, match ln_phase y with LIdle => true | _ => false end, length (ln_sent y))) <$> lw_conns x.2 !! 1))
    <$> play cfg90 lc1 (lstart ld1) ls90 = Some (q0, q1, false, Some ([], true, 7), Some ([], true, 2))) by (vm_compute; reflexivity).
  destruct (play cfg90 lc1 (lstart ld1) ls90) as [[tr w]|] eqn:E; [|discriminate H].
  apply (play_run cfg90 lc1) in E. exists tr, w. split; [exact E|].
  cbn [fmap option_fmap option_map fst snd] in H.
  assert (H0 : read_from 0 tr = q0) by congruence. assert (H1 : read_from 1 tr = q1) by congruence.
  assert (Hg : existsb gives_up tr = false) by congruence.
  assert (K0 : (fun y => (ln_bound y, match ln_phase y with LIdle => true | _ => false end, length (ln_sent y))) <$> lw_conns w !! 0 = Some ([], true, 7)) by congruence.
  assert (K1 : (fun y => (ln_bound y, match ln_phase y with LIdle => true | _ => false end, length (ln_sent y))) <$> lw_conns w !! 1 = Some ([], true, 2)) by congruence.
  clear H.
  assert (Hplain : forall k ev p, In (LbRead k ev p) tr -> k < 2 -> plain_message ev p).
  { intros k ev p Hin Hk. assert (Hr : (ev, p) ∈ read_from k tr).
    { apply elem_of_list_omap. exists (LbRead k ev p). split; [by apply elem_of_list_In|]. by rewrite Nat.eqb_refl. }
    assert (Hq : In (ev, p) (q0 ++ q1)).
    { destruct k as [|[|k]]; [rewrite H0 in Hr|rewrite H1 in Hr|lia]; apply elem_of_list_In in Hr; apply in_or_app; auto. }
    assert (Hf : forall id, plain_message ev90 (find90 id)) by (intros id; split; [done|]; exists id, req90; reflexivity).
    destruct Hq as [Hq|[Hq|[Hq|[]]]]; injection Hq as <- <-; apply Hf. }
  assert (Hno : forall ch, ~ In (LbPump (PGiveUp ch)) tr).
  { intros ch Hin. assert (existsb gives_up tr = true); [|congruence]. apply existsb_exists. by exists (LbPump (PGiveUp ch)). }
  split; [exact Hplain|]. split; [exact Hno|].
  destruct (C103_concurrent ascii_text toy wire90 plain_trees ascii_text_ok plain_trees_ok index_attributes records1 ld1 cfg90 lc1 tr w
    ld1_build eq_refl E) as (log & r & Hd & Hv).
  destruct (lw_conns w !! 0) as [[b0 ph0 out0]|] eqn:E0; [|discriminate K0].
  destruct (lw_conns w !! 1) as [[b1 ph1 out1]|] eqn:E1; [|discriminate K1].
  cbn [fmap option_fmap option_map ln_bound ln_phase ln_sent] in K0, K1.
  assert (b0 = [] /\ ph0 = LIdle /\ length out0 = 7) as (-> & -> & L0) by (destruct ph0; try discriminate K0; repeat split; congruence).
  assert (b1 = [] /\ ph1 = LIdle /\ length out1 = 2) as (-> & -> & L1) by (destruct ph1; try discriminate K1; repeat split; congruence).
  destruct (Hv 0 [] LIdle out0) as (n0 & o0 & V0 & R0 & _ & _ & I0 & _); [intros ev p Hin; apply (Hplain 0 ev p Hin); lia|intros ch e _; apply Hno|exact E0|].
  destruct (Hv 1 [] LIdle out1) as (n1 & o1 & V1 & R1 & _ & _ & I1 & _); [intros ev p Hin; apply (Hplain 1 ev p Hin); lia|intros ch e _; apply Hno|exact E1|].
  destruct (I0 eq_refl) as [-> ->], (I1 eq_refl) as [-> ->]. rewrite app_nil_r in R0, R1.
  exists log, r, (map fst out0), (map fst out1). rewrite !map_length, <- R0, <- R1, H0, H1. done.
Qed.
End case.

(** * C104: sessions in bytes *)
(** The events of a client that sends these messages on connection 0, and their
    bytes. *)
Definition reader_events (reqs : list (renv bool * (Z * packet))) : list (event (E:=bool)) :=
  EOpen 0 :: map (fun q => EPacket 0 q.1 (p_msg q.2.1 q.2.2)) reqs.
Definition reader_bytes (reqs : list (renv bool * (Z * packet))) : str :=
  List.concat (map (fun q => p_bytes (full (p_msg q.2.1 q.2.2))) reqs).

Section bytes.
Context {T : Text} {C : Crypto} {W : Wire} {S E : Type}.
Variables (cfg : server_cfg) (h : handler S E).

Lemma silent_any reqs : forall w, w_alive w = false \/ w_conns w !! 0 = None ->
  let es := map (fun q : renv E * packet => EPacket 0 q.1 q.2) reqs in
  run cfg h w es = w /\ List.concat (said cfg h w es) = [].
Proof using Type.
  induction reqs as [|q reqs IH]; intros w Hw; [done|]. cbn [map]. cbv zeta. cbn [run said].
  assert (step cfg h w (EPacket 0 q.1 q.2) = (w, [])) as Es.
  { unfold step. destruct (w_alive w); cbn [negb]; [|done]. destruct Hw as [?| ->]; done. }
  rewrite Es. cbn [fst snd List.concat]. by apply IH.
Qed.
Lemma each_any reqs : forall bound w, w_alive w = true -> w_conns w !! 0 = Some bound ->
  let es := map (fun q : renv E * packet => EPacket 0 q.1 q.2) reqs in
  P_Wire.each cfg h reqs bound (w_state w) =
    (List.concat (said cfg h w es), w_state (run cfg h w es), w_conns (run cfg h w es) !! 0).
Proof using Type.
  induction reqs as [|[ev p] reqs IH]; intros bound w Ha Hk; cbv zeta; cbn [map P_Wire.each fst snd]; [cbn [run said List.concat]; by rewrite Hk|].
  cbn [run said].
  assert (Es : step cfg h w (EPacket 0 ev p) =
    let r := handle cfg h ev bound p (w_state w) in
    (match r_next r with
     | Go b => mkWorld (<[0 := b]> (w_conns w)) (r_state r) true
     | Drop => mkWorld (delete 0 (w_conns w)) (r_state r) true
     | Dead => mkWorld ∅ (r_state r) false
     end, r_out r)).
  { unfold step. rewrite Ha, Hk. done. }
  rewrite Es. cbv zeta. cbn [fst snd List.concat]. set (r := handle cfg h ev bound p (w_state w)) in *.
  destruct (r_next r) as [b| |].
  - assert (Hi := IH b (mkWorld (<[0 := b]> (w_conns w)) (r_state r) true) eq_refl (lookup_insert _ _ _)).
    cbv zeta in Hi. cbn [w_state] in Hi. by rewrite Hi.
  - destruct (silent_any reqs (mkWorld (delete 0 (w_conns w)) (r_state r) true)) as [-> ->].
    { right. apply lookup_delete. }
    cbn [w_state w_conns]. by rewrite app_nil_r, lookup_delete.
  - destruct (silent_any reqs (mkWorld ∅ (r_state r) false)) as [-> ->]; [by left|].
    cbn [w_state w_conns]. by rewrite app_nil_r, lookup_empty.
Qed.
Lemma full_any reqs : forall bound s,
  Forall (fun q : renv E * (Z * packet) => P_Wire.request q.2.2) reqs ->
  P_Wire.each cfg h (map (fun q => (q.1, full (p_msg q.2.1 q.2.2))) reqs) bound s =
  P_Wire.each cfg h (map (fun q => (q.1, p_msg q.2.1 q.2.2)) reqs) bound s.
Proof using Type.
  intros bound s Hq. revert bound s. induction Hq as [|[ev [id o]] reqs Ho _ IH]; intros bound s; [done|].
  cbn [map P_Wire.each fst snd] in *. rewrite (P_Wire.C79_same T C W S E cfg h ev bound id o s Ho).
  destruct (r_next _) as [b'| |]; [|done|done]. by rewrite IH.
Qed.
Lemma talk_any evs : forall bound input s,
  Forall (fun r => match r with
    | REntry id _ => (- 2 ^ 63 <= id < 2 ^ 63)%Z
    | RFinal id tag _ _ => (- 2 ^ 63 <= id < 2 ^ 63)%Z /\ (tag < 31)%N /\ tag <> 4%N
    end) (talk cfg h evs bound input s).1.1.
Proof using Type.
  induction evs as [|ev evs IH]; intros bound input s; cbn [talk]; [constructor|].
  destruct (read_packet input) as [[p rest]|] eqn:Er; [|constructor].
  match goal with |- Forall ?P _ => assert (Hone : Forall P (r_out (handle cfg h ev bound p s))) end.
  { apply List.Forall_forall. intros r Hin.
    destruct (P_Wire.C78_written T C W S E cfg h ev bound input rest p s r Er Hin) as (i & _ & Hr).
    destruct r as [id e|id tag code v]; [apply Hr|]. destruct Hr as (_ & Hid & Htag). split; [done|].
    repeat (destruct Htag as [<-|Htag]; [done|]). by destruct Htag. }
  destruct (r_next _) as [b| |]; [|exact Hone|exact Hone].
  specialize (IH b rest (r_state (handle cfg h ev bound p s))). destruct (talk cfg h evs b rest _) as [[out s'] o].
  apply Forall_app. done.
Qed.
(** The bytes of any requests, answered by any handler. *)
Lemma session_any (reqs : list (renv E * (Z * packet))) (rest : str) (s : S) :
  Forall (fun q => P_Wire.request q.2.2 /\ sendable (p_msg q.2.1 q.2.2) /\
    (N.of_nat (length (p_bytes (full (p_msg q.2.1 q.2.2)))) < 2 ^ 64)%N) reqs ->
  let es := EOpen 0 :: map (fun q => EPacket 0 q.1 (p_msg q.2.1 q.2.2)) reqs in
  let w := run cfg h (start s) es in
  exists outs, said cfg h (start s) es = [] :: outs /\
    talk cfg h (map fst reqs) [] (List.concat (map (fun q => p_bytes (full (p_msg q.2.1 q.2.2))) reqs) ++ rest) s =
      (List.concat outs, w_state w, (fun bound => (bound, rest)) <$> w_conns w !! 0) /\
    (forall xs : list extras, length xs = length (List.concat outs) ->
       Forall (fun xr => P_Wire.controls_ok xr.1 /\ (N.of_nat (length (p_bytes (reply_packet xr.1 xr.2))) < 2 ^ 64)%N)
         (combine xs (List.concat outs)) ->
       exists ps, P_Wire.reads (List.concat (map (fun xr => p_bytes (reply_packet xr.1 xr.2)) (combine xs (List.concat outs)))) ps [] /\
         map P_Wire.client ps = map (fun xr => Some (P_Wire.meaning xr.1 xr.2)) (combine xs (List.concat outs))).
Proof using Type.
  intros Hq es w. unfold w, es. clear w es. cbn [run said].
  set (w0 := mkWorld (S:=S) (<[0 := []]> ∅) s true).
  assert (Ew : (step cfg h (start s) (EOpen 0)) = (w0, [])) by done. rewrite Ew. cbn [fst snd].
  set (es := map (fun q : renv E * (Z * packet) => EPacket 0 q.1 (p_msg q.2.1 q.2.2)) reqs) in *.
  exists (said cfg h w0 es). split; [done|].
  assert (Htalk : talk cfg h (map fst reqs) [] (List.concat (map (fun q => p_bytes (full (p_msg q.2.1 q.2.2))) reqs) ++ rest) s =
    (List.concat (said cfg h w0 es), w_state (run cfg h w0 es), (fun bound => (bound, rest)) <$> w_conns (run cfg h w0 es) !! 0)).
  { pose proof (P_Wire.C79_stream T C W S E cfg h (map (fun q => (q.1, p_msg q.2.1 q.2.2)) reqs) [] rest s) as Hst.
    rewrite !map_map in Hst. cbn [fst snd] in Hst.
    assert (map (fun x : renv E * (Z * packet) => x.1) reqs = map fst reqs) as E1 by done. rewrite E1 in Hst. rewrite Hst.
    2:{ apply Forall_map. eapply Forall_impl; [exact Hq|]. intros q (_ & H1 & H2). done. }
    rewrite full_any.
    2:{ eapply Forall_impl; [exact Hq|]. intros q (H1 & _). done. }
    pose proof (each_any (map (fun q => (q.1, p_msg q.2.1 q.2.2)) reqs) [] w0 eq_refl (lookup_insert _ _ _)) as He.
    cbv zeta in He. rewrite map_map in He. cbn [fst snd] in He. fold es in He. change (w_state w0) with s in He. by rewrite He. }
  split; [exact Htalk|].
  intros xs Hl Hx. pose proof (talk_any (map fst reqs) [] (List.concat (map (fun q => p_bytes (full (p_msg q.2.1 q.2.2))) reqs) ++ rest) s) as Hok.
  rewrite Htalk in Hok. cbn [fst] in Hok. rewrite <- (app_nil_r (List.concat (map _ (combine _ _)))).
  apply P_Wire.C78_replies. apply List.Forall_forall. intros [x r] Hin.
  eapply List.Forall_forall in Hx; [|exact Hin]. destruct Hx as [H1 H2]. split; [exact H1|]. split; [exact H2|].
  apply in_combine_r in Hin. eapply List.Forall_forall in Hok; [|exact Hin]. exact Hok.
Qed.
End bytes.

(** C104.  A client sends the bytes of any requests, one after the other, to a
    server on the LDIF backend.  What the server writes are the responses of the
    abstract read-only server (C102); the connection is open exactly if it is there,
    bound to the same name, with the bytes left that follow the requests.  The
    client that reads the bytes of the responses finds exactly these responses. *)
Theorem C104_session (T : Text) (C : Crypto) (W : Wire) (Tr : Trees) (HT : TextOK T) (HTr : TreesOK Tr)
    (attrs : list (str * str)) (records : list (option entry)) (d : dataset) (cfg : server_cfg) (c : ldif_cfg)
    (reqs : list (renv bool * (Z * packet))) (rest : str) :
  build attrs records = Some d -> sv_enforce cfg = false ->
  Forall (fun q => (forall i, re_send q.1 i = true) /\ P_Wire.request q.2.2 /\ sendable (p_msg q.2.1 q.2.2) /\
    (N.of_nat (length (p_bytes (full (p_msg q.2.1 q.2.2)))) < 2 ^ 64)%N) reqs ->
  exists (outs : list (list response)) (s : desk),
    desk_run cfg c records None (mkDesk ∅ true) (reader_events reqs) ([] :: outs) s /\
    talk cfg (ldif_handler c) (map fst reqs) [] (reader_bytes reqs ++ rest) d =
      (List.concat outs, d, (fun bound => (bound, rest)) <$> k_conns s !! 0) /\
    (forall xs : list extras, length xs = length (List.concat outs) ->
       Forall (fun xr => P_Wire.controls_ok xr.1 /\ (N.of_nat (length (p_bytes (reply_packet xr.1 xr.2))) < 2 ^ 64)%N)
         (combine xs (List.concat outs)) ->
       exists ps, P_Wire.reads (List.concat (map (fun xr => p_bytes (reply_packet xr.1 xr.2)) (combine xs (List.concat outs)))) ps [] /\
         map P_Wire.client ps = map (fun xr => Some (P_Wire.meaning xr.1 xr.2)) (combine xs (List.concat outs))).
Proof.
  intros Hb Hen Hq.
  destruct (C102_refines T C W Tr HT HTr attrs records d cfg c (reader_events reqs) Hb Hen) as [Hrun Hd].
  { intros k ev p [?|Hin]; [done|]. apply in_map_iff in Hin as ([ev' [id o]] & [= <- <- <-] & Hin).
    eapply List.Forall_forall in Hq; [|exact Hin]. cbn [fst snd] in Hq. split; [apply Hq|]. by exists id, o. }
  destruct (session_any cfg (ldif_handler c) reqs rest d) as (outs & Hs & Ht & Hr).
  { eapply Forall_impl; [exact Hq|]. intros q (_ & H). exact H. }
  fold (reader_events reqs) in Hs, Ht. fold (reader_bytes reqs) in Ht. rewrite Hs in Hrun. rewrite Hd in Ht.
  exists outs, (mkDesk (w_conns (run cfg (ldif_handler c) (start d) (reader_events reqs)))
    (w_alive (run cfg (ldif_handler c) (start d) (reader_events reqs)))). split; [exact Hrun|]. split; [exact Ht|exact Hr].
Qed.
Print Assumptions C104_session.
(** With an overlay. *)
Theorem C104_overlay (T : Text) (C : Crypto) (W : Wire) (Tr : Trees) (HT : TextOK T) (HTr : TreesOK Tr)
    (oattrs attrs : list (str * str)) (orecords records : list (option entry)) (o d : dataset)
    (cfg : server_cfg) (c : ldif_cfg) (base : str) (reqs : list (renv bool * (Z * packet))) (rest : str) :
  build oattrs orecords = Some o -> build attrs records = Some d -> sv_enforce cfg = false ->
  Forall (fun q => (forall i, re_send q.1 i = true) /\ P_Wire.request q.2.2 /\ sendable (p_msg q.2.1 q.2.2) /\
    (N.of_nat (length (p_bytes (full (p_msg q.2.1 q.2.2)))) < 2 ^ 64)%N /\
    forall dn pw, says_bind q.2.2 dn pw -> to_lower (to_lower dn) = to_lower dn) reqs ->
  exists (outs : list (list response)) (s : desk),
    desk_run cfg c records (Some (base, orecords)) (mkDesk ∅ true) (reader_events reqs) ([] :: outs) s /\
    talk cfg (overlay base (ldif_handler c)) (map fst reqs) [] (reader_bytes reqs ++ rest) (o, d) =
      (List.concat outs, (o, d), (fun bound => (bound, rest)) <$> k_conns s !! 0) /\
    (forall xs : list extras, length xs = length (List.concat outs) ->
       Forall (fun xr => P_Wire.controls_ok xr.1 /\ (N.of_nat (length (p_bytes (reply_packet xr.1 xr.2))) < 2 ^ 64)%N)
         (combine xs (List.concat outs)) ->
       exists ps, P_Wire.reads (List.concat (map (fun xr => p_bytes (reply_packet xr.1 xr.2)) (combine xs (List.concat outs)))) ps [] /\
         map P_Wire.client ps = map (fun xr => Some (P_Wire.meaning xr.1 xr.2)) (combine xs (List.concat outs))).
Proof.
  intros Ho Hb Hen Hq. set (h := overlay base (ldif_handler c)).
  destruct (C102_overlay_refines T C W Tr HT HTr oattrs attrs orecords records o d cfg c base (reader_events reqs) Ho Hb Hen) as [Hrun Hd].
  { intros k ev p [?|Hin]; [done|]. apply in_map_iff in Hin as ([ev' [id q]] & [= <- <- <-] & Hin).
    eapply List.Forall_forall in Hq; [|exact Hin]. cbn [fst snd] in Hq. split; [split; [apply Hq|]; by exists id, q|].
    intros id' req' dn pw Hp Hsay. assert (q = req') as -> by by injection Hp. by apply (proj2 (proj2 (proj2 (proj2 Hq))) dn pw). }
  fold h in Hrun, Hd.
  destruct (session_any cfg h reqs rest (o, d)) as (outs & Hs & Ht & Hr).
  { eapply Forall_impl; [exact Hq|]. intros q (_ & H1 & H2 & H3 & _). done. }
  fold (reader_events reqs) in Hs, Ht. fold (reader_bytes reqs) in Ht. rewrite Hs in Hrun. rewrite Hd in Ht.
  exists outs, (mkDesk (w_conns (run cfg h (start (o, d)) (reader_events reqs)))
    (w_alive (run cfg h (start (o, d)) (reader_events reqs)))). split; [exact Hrun|]. split; [exact Ht|exact Hr].
Qed.
Print Assumptions C104_overlay.

(** Dora binds with the password of the overlay, tries to delete Sam, and binds
    with the password of the file, all sent at once; part of a message follows. *)
Section case.
#[local] Existing Instances ascii_text toy wire102 plain_trees.
Definition reqs104 : list (renv bool * (Z * packet)) :=
  let dora := B "UID=Dora,ou=people,o=base" in
  [(ev102 false, (1%Z, enc_bind dora (B "over"))); (ev102 false, (2%Z, enc_delete (B "uid=sam,ou=people,o=base")));
   (ev102 false, (300%Z, enc_bind dora (B "pw")))].
Definition plain104 : extras := mkExtras [] None true.
Example C104_case :
  Forall (fun q => (forall i, re_send q.1 i = true) /\ P_Wire.request q.2.2 /\ sendable (p_msg q.2.1 q.2.2) /\
    (N.of_nat (length (p_bytes (full (p_msg q.2.1 q.2.2)))) < 2 ^ 64)%N /\
    forall dn pw, says_bind q.2.2 dn pw -> to_lower (to_lower dn) = to_lower dn) reqs104 /\
  exists outs s, desk_run (mkServer false 16) lc1 records1 (Some (B "o=base", orecords102)) (mkDesk ∅ true)
      (reader_events reqs104) ([] :: outs) s /\
    List.concat outs = [RFinal 1 BindResponse 0 None; RFinal 2 DelResponse 53 None; RFinal 300 BindResponse 49 None] /\
    k_conns s !! 0 = Some (B "uid=dora,ou=people,o=base") /\
    exists ps, P_Wire.reads (List.concat (map (fun r => p_bytes (reply_packet plain104 r)) (List.concat outs))) ps [] /\
      map P_Wire.client ps = map (fun r => Some (P_Wire.meaning plain104 r)) (List.concat outs).
Proof.
  assert (Ho : build [] orecords102 = Some od102) by apply C102_case.
  destruct P_Wire.C79_sendable as (_ & Sdel & _ & _ & Sbind & _ & _ & Smsg).
  assert (Hbind : forall dn0 pw0 dn pw, says_bind (enc_bind dn0 pw0) dn pw -> dn = dn0).
  { intros dn0 pw0 dn pw (_ & _ & v & x & a & Hk & _ & Hx & _).
    change (p_kids (enc_bind dn0 pw0)) with [p_int 3; p_octets dn0; p_ctx 0 pw0] in Hk.
    assert (x = p_octets dn0) as -> by congruence. cbn [p_val p_octets] in Hx. congruence. }
  assert (H2 : Forall (fun q => (forall i, re_send q.1 i = true) /\ P_Wire.request q.2.2 /\ sendable (p_msg q.2.1 q.2.2) /\
    (N.of_nat (length (p_bytes (full (p_msg q.2.1 q.2.2)))) < 2 ^ 64)%N /\
    forall dn pw, says_bind q.2.2 dn pw -> to_lower (to_lower dn) = to_lower dn) reqs104).
  { unfold reqs104. constructor; [|constructor; [|constructor; [|constructor]]]; cbn [fst snd].
    - split; [done|]. split; [constructor|]. split; [apply Smsg; [lia|apply Sbind]|]. split; [vm_compute; reflexivity|].
      intros dn pw Hs. apply Hbind in Hs as ->. vm_compute. reflexivity.
    - split; [done|]. split; [constructor|]. split; [apply Smsg; [lia|apply Sdel]|]. split; [vm_compute; reflexivity|].
      intros dn pw (_ & Ht & _). discriminate Ht.
    - split; [done|]. split; [constructor|]. split; [apply Smsg; [lia|apply Sbind]|]. split; [vm_compute; reflexivity|].
      intros dn pw Hs. apply Hbind in Hs as ->. vm_compute. reflexivity. }
  split; [exact H2|].
  destruct (C104_overlay ascii_text toy wire102 plain_trees ascii_text_ok plain_trees_ok [] index_attributes orecords102 records1
    od102 ld1 (mkServer false 16) lc1 (B "o=base") reqs104 (take 5 (reader_bytes reqs104)) Ho ld1_build eq_refl H2)
    as (outs & s & Hrun & Ht & Hr).
  exists outs, s. split; [exact Hrun|].
  assert (Hout : List.concat outs = [RFinal 1 BindResponse 0 None; RFinal 2 DelResponse 53 None; RFinal 300 BindResponse 49 None] /\
    ((fun bound => (bound, take 5 (reader_bytes reqs104))) <$> k_conns s !! 0) =
      Some (B "uid=dora,ou=people,o=base", take 5 (reader_bytes reqs104))).
  { apply (f_equal (fun x => (x.1.1, x.2))) in Ht. cbn [fst snd] in Ht. rewrite (pair_equal_spec _ _ _ _) in Ht.
    destruct Ht as [E1 E2]. rewrite <- E1, <- E2. split; vm_compute; reflexivity. }
  destruct Hout as [Hout Hb]. rewrite Hout in Hr |- *. split; [reflexivity|]. split.
  { destruct (k_conns s !! 0) as [bd|]; [|discriminate Hb]. injection Hb as ->. reflexivity. }
  destruct (Hr [plain104; plain104; plain104] eq_refl) as (ps & Hps & Hcl).
  { constructor; [|constructor; [|constructor; [|constructor]]]; cbn [fst snd]; (split; [constructor|vm_compute; reflexivity]). }
  exists ps. split; [exact Hps|exact Hcl].
Qed.
End case.
