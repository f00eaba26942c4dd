(** Property C100: a session in bytes is a session with the abstract server. *)
From Verif Require Import Bytes Text Dn DnProofs Res Entry EntryProofs Password PasswordProofs
  Db DbSpec DbFacts P_Password P_Db Packet Filter Handler Server ServerProofs P_Server
  Encode EncodeProofs E2e E2eProofs P_E2e P_Session AccountProofs P_Account TwinProofs P_Twin P_Refine Ber BerProofs Reply.
From Verif Require P_Wire.

(** The events of a client that sends these messages on connection 0. *)
Definition client_events (reqs : list (renv env * (Z * packet))) : list (event (E:=env)) :=
  EOpen 0 :: map (fun q => EPacket 0 q.1 (p_msg q.2.1 q.2.2)) reqs.
(** The bytes of these messages. *)
Definition client_bytes (reqs : list (renv env * (Z * packet))) : str :=
  List.concat (map (fun q => p_bytes (full (p_msg q.2.1 q.2.2))) reqs).

Section proofs.
Context {T : Text} {C : Crypto} {W : Wire}.
Variables (cfg : server_cfg) (c : bolt_cfg).
Let h := bolt_handler c.

Lemma silent_none reqs : forall w, w_alive w = false \/ w_conns w !! 0 = None ->
  let es := map (fun q : renv env * packet => EPacket 0 q.1 q.2) reqs in
  run cfg h w es = w /\ List.concat (outputs cfg c w es) = [].
Proof using Type.
  induction reqs as [|q reqs IH]; intros w Hw; [done|]. cbn [map]. cbv zeta. cbn [run outputs List.concat].
  assert (step cfg h w (EPacket 0 q.1 q.2) = (w, [])) as E.
  { unfold step. destruct (w_alive w); cbn [negb]; [|done]. destruct Hw as [?| ->]; done. }
  fold h. rewrite E. cbn [fst snd]. by apply IH.
Qed.
Lemma each_run reqs : forall bound w, w_alive w = true -> w_conns w !! 0 = Some bound ->
  let es := map (fun q : renv env * packet => EPacket 0 q.1 q.2) reqs in
  P_Wire.each cfg h reqs bound (w_state w) =
    (List.concat (outputs cfg c w es), w_state (run cfg h w es), w_conns (run cfg h w es) !! 0).
Proof using Type.
  induction reqs as [|[ev p] reqs IH]; intros bound w Ha Hk; cbv zeta; cbn [map P_Wire.each fst snd]; [cbn [run outputs List.concat]; by rewrite Hk|].
  cbn [run outputs List.concat]. fold h.
  assert (E : step cfg h w (EPacket 0 ev p) =
    let r := handle cfg h ev bound p (w_state w) in
    (match r_next r with
     | Go b => mkWorld (<[0 := b]> (w_conns w)) (r_state r) true
     | Drop => mkWorld (delete 0 (w_conns w)) (r_state r) true
     | Dead => mkWorld ∅ (r_state r) false
     end, r_out r)).
  { unfold step. rewrite Ha, Hk. done. }
  rewrite E. cbv zeta. cbn [fst snd]. set (r := handle cfg h ev bound p (w_state w)) in *.
  destruct (r_next r) as [b| |].
  - assert (Hi := IH b (mkWorld (<[0 := b]> (w_conns w)) (r_state r) true) eq_refl (lookup_insert _ _ _)).
    cbv zeta in Hi. cbn [w_state] in Hi. by rewrite Hi.
  - destruct (silent_none reqs (mkWorld (delete 0 (w_conns w)) (r_state r) true)) as [-> ->].
    { right. apply lookup_delete. }
    cbn [w_state w_conns]. by rewrite app_nil_r, lookup_delete.
  - destruct (silent_none reqs (mkWorld ∅ (r_state r) false)) as [-> ->]; [by left|].
    cbn [w_state w_conns]. by rewrite app_nil_r, lookup_empty.
Qed.
Lemma each_full reqs : forall bound s,
  Forall (fun q : renv env * (Z * packet) => P_Wire.request q.2.2) reqs ->
  P_Wire.each cfg h (map (fun q => (q.1, full (p_msg q.2.1 q.2.2))) reqs) bound s =
  P_Wire.each cfg h (map (fun q => (q.1, p_msg q.2.1 q.2.2)) reqs) bound s.
Proof using Type.
  intros bound s Hq. revert bound s. induction Hq as [|[ev [id o]] reqs Ho _ IH]; intros bound s; [done|].
  cbn [map P_Wire.each fst snd] in *. rewrite (P_Wire.C79_same T C W db env cfg h ev bound id o s Ho).
  destruct (r_next _) as [b'| |]; [|done|done]. by rewrite IH.
Qed.
(** What is written in reply to messages that were read has numbers that can be sent. *)
Definition sent_ok (r : response) : Prop :=
  match r with
  | REntry id _ => (- 2 ^ 63 <= id < 2 ^ 63)%Z
  | RFinal id tag _ _ => (- 2 ^ 63 <= id < 2 ^ 63)%Z /\ (tag < 31)%N /\ tag <> 4%N
  end.
Lemma talk_sent evs : forall bound input s,
  Forall sent_ok (talk cfg h evs bound input s).1.1.
Proof using Type.
  induction evs as [|ev evs IH]; intros bound input s; cbn [talk]; [constructor|].
  destruct (read_packet input) as [[p rest]|] eqn:Er; [|constructor].
  assert (Hone : Forall sent_ok (r_out (handle cfg h ev bound p s))).
  { apply List.Forall_forall. intros r Hin.
    destruct (P_Wire.C78_written T C W db env cfg h ev bound input rest p s r Er Hin) as (i & _ & Hr).
    destruct r as [id e|id tag code v]; [apply Hr|]. destruct Hr as (_ & Hid & Htag). split; [done|].
    repeat (destruct Htag as [<-|Htag]; [done|]). by destruct Htag. }
  destruct (r_next _) as [b| |]; [|exact Hone|exact Hone].
  specialize (IH b rest (r_state (handle cfg h ev bound p s))). destruct (talk cfg h evs b rest _) as [[out s'] o].
  apply Forall_app. done.
Qed.
End proofs.

(** C100.  A client sends the bytes of any requests, one after the other, on a
    connection to a server on any database.  What the server writes are the
    responses of the abstract server (C99) to these requests; the directory in the
    database afterwards is that of the abstract server, and the connection is open
    exactly if it is there, with the bytes left that follow the requests.  The
    client that reads the bytes of the responses finds exactly these responses. *)
Theorem C100_session (T : Text) (C : Crypto) (W : Wire) (HT : TextOK T) (HC : CryptoOK C) (cfg : server_cfg) (c : bolt_cfg)
    (b : dn) (h0 : list (env * op)) (m0 : dir) (reqs : list (renv env * (Z * packet))) (rest : str) :
  sound c b h0 (client_events reqs) -> bc_admin c <> [] -> sv_enforce cfg = true ->
  represents (run_ops (normalize b) h0 empty_db) m0 ->
  Forall (fun q => calm q.1 /\ P_Wire.request q.2.2 /\ sendable (p_msg q.2.1 q.2.2) /\
    (N.of_nat (length (p_bytes (full (p_msg q.2.1 q.2.2)))) < 2 ^ 64)%N) reqs ->
  exists (outs : list (list response)) (s : site) (d' : db),
    site_run cfg c b (mkSite ∅ m0 true) (client_events reqs) ([] :: outs) s /\
    represents d' (s_dir s) /\
    talk cfg (bolt_handler c) (map fst reqs) [] (client_bytes reqs ++ rest) (run_ops (normalize b) h0 empty_db) =
      (List.concat outs, d', (fun bound => (bound, rest)) <$> s_conns s !! 0) /\
    (forall xs : list extras, length xs = length (List.concat outs) ->
       Forall (fun xr => P_Wire.controls_ok xr.1 /\ (N.of_nat (length (p_bytes (reply_packet xr.1 xr.2))) < 2 ^ 64)%N)
         (combine xs (List.concat outs)) ->
       exists ps, P_Wire.reads (List.concat (map (fun xr => p_bytes (reply_packet xr.1 xr.2)) (combine xs (List.concat outs)))) ps [] /\
         map P_Wire.client ps = map (fun xr => Some (P_Wire.meaning xr.1 xr.2)) (combine xs (List.concat outs))).
Proof.
  intros Hs Hadm Hen Hm0 Hq. set (d0 := run_ops (normalize b) h0 empty_db) in *.
  destruct (C99_refines T C W HT HC cfg c b h0 m0 (client_events reqs)) as (s & Hrun & Hcs & Ha & Hd); [done..| |done|].
  { intros k ev p [?|Hin]; [done|]. apply in_map_iff in Hin as ([ev' [id o]] & [= <- <- <-] & Hin).
    eapply List.Forall_forall in Hq; [|exact Hin]. cbn [fst snd] in Hq. split; [apply Hq|]. by exists id, o. }
  fold d0 in Hrun, Hcs, Ha, Hd. unfold client_events in Hrun. cbn [outputs] in Hrun.
  set (w0 := mkWorld (S:=db) (<[0 := []]> ∅) d0 true).
  assert (Ew : (step cfg (bolt_handler c) (start d0) (EOpen 0)) = (w0, [])) by done.
  rewrite Ew in Hrun. cbn [fst snd] in Hrun.
  unfold client_events in Hcs, Ha, Hd. cbn [run] in Hcs, Ha, Hd. rewrite Ew in Hcs, Ha, Hd. cbn [fst] in Hcs, Ha, Hd.
  set (es := map (fun q : renv env * (Z * packet) => EPacket 0 q.1 (p_msg q.2.1 q.2.2)) reqs) in *.
  assert (Htalk : talk cfg (bolt_handler c) (map fst reqs) [] (client_bytes reqs ++ rest) d0 =
    (List.concat (outputs cfg c w0 es), w_state (run cfg (bolt_handler c) w0 es), (fun bound => (bound, rest)) <$> s_conns s !! 0)).
  { pose proof (P_Wire.C79_stream T C W db env cfg (bolt_handler c) (map (fun q => (q.1, p_msg q.2.1 q.2.2)) reqs) [] rest d0) as Hst.
    rewrite !map_map in Hst. cbn [fst snd] in Hst. unfold client_bytes.
    assert (map (fun x : renv env * (Z * packet) => x.1) reqs = map fst reqs) as E1 by done. rewrite E1 in Hst. rewrite Hst.
    2:{ apply Forall_map. eapply Forall_impl; [exact Hq|]. intros q (_ & _ & H1 & H2). done. }
    rewrite each_full.
    2:{ eapply Forall_impl; [exact Hq|]. intros q (_ & H1 & _). done. }
    pose proof (each_run cfg c (map (fun q => (q.1, p_msg q.2.1 q.2.2)) reqs) [] w0 eq_refl (lookup_insert _ _ _)) as He.
    cbv zeta in He. rewrite map_map in He. cbn [fst snd] in He. fold es in He. change (w_state w0) with d0 in He. rewrite He.
    by rewrite Hcs. }
  exists (outputs cfg c w0 es), s, (w_state (run cfg (bolt_handler c) w0 es)).
  split; [exact Hrun|]. split; [exact Hd|]. split; [exact Htalk|].
  intros xs Hl Hx. pose proof (talk_sent cfg c (map fst reqs) [] (client_bytes reqs ++ rest) d0) as Hok.
  rewrite Htalk in Hok. cbn [fst] in Hok. rewrite <- (app_nil_r (List.concat (map _ _))).
  apply P_Wire.C78_replies. apply List.Forall_forall. intros [x r] Hin.
  eapply List.Forall_forall in Hx; [|exact Hin]. destruct Hx as [H1 H2]. split; [exact H1|]. split; [exact H2|].
  apply in_combine_r in Hin. eapply List.Forall_forall in Hok; [|exact Hin]. exact Hok.
Qed.
Print Assumptions C100_session.

Section case.
#[local] Existing Instances ascii_text toy wire1.
(** The administrator binds, deletes Carl, and tries to bind as Carl, all sent at
    once; half a message follows. *)
Definition reqs100 : list (renv env * (Z * packet)) :=
  [(ev1, (1%Z, enc_bind admin1 (B "secret"))); (ev1, (2%Z, enc_delete carl)); (ev1, (300%Z, enc_bind carl (B "pw")))].
Definition plain100 : extras := mkExtras [] None true.
Example C100_case :
  sound c1 b0 h1 (client_events reqs100) /\
  Forall (fun q => calm q.1 /\ P_Wire.request q.2.2 /\ sendable (p_msg q.2.1 q.2.2) /\
    (N.of_nat (length (p_bytes (full (p_msg q.2.1 q.2.2)))) < 2 ^ 64)%N) reqs100 /\
  length (client_bytes reqs100) = 118 /\
  exists outs s d', site_run cfg1 c1 b0 (mkSite ∅ m1 true) (client_events reqs100) ([] :: outs) s /\ represents d' (s_dir s) /\
    List.concat outs = [RFinal 1 BindResponse 0 None; RFinal 2 DelResponse 0 None; RFinal 300 BindResponse 49 None] /\
    s_conns s !! 0 = Some admin1 /\
    exists ps, P_Wire.reads (List.concat (map (fun r => p_bytes (reply_packet plain100 r)) (List.concat outs))) ps [] /\
      map P_Wire.client ps = map (fun r => Some (P_Wire.meaning plain100 r)) (List.concat outs).
Proof.
  assert (H1 : sound c1 b0 h1 (client_events reqs100)).
  { split; [exact b0_ok|]. split; [reflexivity|]. split; [apply ops_okb_ok; vm_compute; reflexivity|]. split; [|vm_compute; reflexivity].
    intros conn ev p Hin. unfold client_events, reqs100 in Hin. cbn [map In fst snd] in Hin.
    destruct Hin as [Hin|[Hin|[Hin|[Hin|[]]]]]; [discriminate Hin|injection Hin as _ _ <-..].
    - eapply bind_clean; [vm_compute; reflexivity|]. intros dd. vm_compute. by intros [= <-].
    - apply clean_delete, carl_ok.
    - eapply bind_clean; [vm_compute; reflexivity|]. intros dd. vm_compute. by intros [= <-]. }
  assert (Hc : calm ev1) by (split; [reflexivity|intros n; reflexivity]).
  destruct P_Wire.C79_sendable as (_ & Sdel & _ & _ & Sbind & _ & _ & Smsg).
  assert (H2 : Forall (fun q => calm q.1 /\ P_Wire.request q.2.2 /\ sendable (p_msg q.2.1 q.2.2) /\
    (N.of_nat (length (p_bytes (full (p_msg q.2.1 q.2.2)))) < 2 ^ 64)%N) reqs100).
  { unfold reqs100. constructor; [|constructor; [|constructor; [|constructor]]]; cbn [fst snd].
    - split; [exact Hc|]. split; [constructor|]. split; [apply Smsg; [lia|apply Sbind]|]. vm_compute. reflexivity.
    - split; [exact Hc|]. split; [constructor|]. split; [apply Smsg; [lia|apply Sdel]|]. vm_compute. reflexivity.
    - split; [exact Hc|]. split; [constructor|]. split; [apply Smsg; [lia|apply Sbind]|]. vm_compute. reflexivity. }
  split; [exact H1|]. split; [exact H2|]. split; [vm_compute; reflexivity|].
  destruct (C100_session ascii_text toy wire1 ascii_text_ok toy_ok cfg1 c1 b0 h1 m1 reqs100 (take 5 (client_bytes reqs100)))
    as (outs & s & d' & Hrun & Hd & Ht & Hr); [exact H1|vm_compute; discriminate|reflexivity|exact d1_m1|exact H2|].
  exists outs, s, d'. split; [exact Hrun|]. split; [exact Hd|].
  assert (Hout : List.concat outs = [RFinal 1 BindResponse 0 None; RFinal 2 DelResponse 0 None; RFinal 300 BindResponse 49 None] /\
    ((fun bound => (bound, take 5 (client_bytes reqs100))) <$> s_conns s !! 0) = Some (admin1, take 5 (client_bytes reqs100))).
  { apply (f_equal (fun x => (x.1.1, x.2))) in Ht. cbn [fst snd] in Ht. rewrite (pair_equal_spec _ _ _ _) in Ht.
    destruct Ht as [E1 E2]. rewrite <- E1, <- E2. split; vm_compute; reflexivity. }
  destruct Hout as [Ho Hb]. rewrite Ho in Hr |- *. split; [reflexivity|]. split.
  { destruct (s_conns s !! 0) as [bd|]; [|discriminate Hb]. injection Hb as ->. reflexivity. }
  destruct (Hr [plain100; plain100; plain100] eq_refl) as (ps & Hps & Hcl).
  { constructor; [|constructor; [|constructor; [|constructor]]]; cbn [fst snd]; (split; [constructor|vm_compute; reflexivity]). }
  exists ps. split; [exact Hps|exact Hcl].
Qed.
End case.
