(** Property C89: processes sharing the database file. *)
From Verif Require Import Bytes Text Dn DnProofs Res Entry EntryProofs Password PasswordProofs P_Password
  Db DbSpec IdProofs DbProofs DbOps DbSearch DbFacts DbMore P_Db
  Packet Filter FilterProofs P_Filter Handler Server ServerProofs CrashProofs P_Server
  Encode EncodeProofs E2e E2eProofs P_E2e Conns ConnsProofs P_Conns Startup Procs ProcsProofs.

(** C89.  However servers, loads and exports of one file are started, killed and
    interleaved, the file holds what they make of it one after the other, in the
    order in which they got it; an export prints what those before it left ... *)
Theorem C89_serial (T : Text) (C : Crypto) (W : Wire) (d : db) (w : fworld) :
  fsteps (fstart d) w ->
  serially (fw_procs w) (fw_log w) d (fw_db w) /\ NoDup (fw_log w) /\
  forall i, i ∈ fw_log w <-> exists j p, fw_procs w !! i = Some (j, p) /\ got p.
Proof. intros H. apply steps_finv in H as []. done. Qed.
Print Assumptions C89_serial.
(** ... (an order that, once there, is kept) ... *)
Theorem C89_order (T : Text) (C : Crypto) (W : Wire) (w w' : fworld) :
  fsteps w w' -> exists l, fw_log w' = fw_log w ++ l.
Proof.
  induction 1 as [|w1 w2 _ [l IH] Hs]; [exists []; by rewrite app_nil_r|].
  destruct Hs; cbn [fw_log]; rewrite IH; try (by exists l); eexists; by rewrite <- app_assoc.
Qed.
Print Assumptions C89_order.

(** ... since nobody but several exports ever have it at the same time. *)
Theorem C89_exclusive (T : Text) (C : Crypto) (W : Wire) (d : db) (w : fworld) (i k : nat) (ji jk : job) (pi pk : progress) :
  fsteps (fstart d) w -> i <> k ->
  fw_procs w !! i = Some (ji, pi) -> fw_procs w !! k = Some (jk, pk) -> holds pi -> holds pk ->
  pi = Exporting /\ pk = Exporting.
Proof.
  intros H. apply steps_finv in H as [Hs Hn Hm He]. revert i k ji jk pi pk.
  assert (G : forall i k ji jk pi pk l1 l2, fw_log w = l1 ++ i :: l2 -> k ∈ l2 ->
    fw_procs w !! i = Some (ji, pi) -> fw_procs w !! k = Some (jk, pk) -> holds pi -> holds pk ->
    pi = Exporting /\ pk = Exporting).
  { intros i k ji jk pi pk l1 l2 El Hk Hi Hk' Hhi Hhk. destruct (He _ _ _ _ _ El Hi Hhi) as [Hx Hw]. split.
    - destruct pi; try done; cbn in Hw; rewrite (Hw I) in Hk; inversion Hk.
    - rewrite Forall_forall in Hx. destruct (Hx k Hk) as (base & q & Hq). rewrite Hk' in Hq. injection Hq as -> <-.
      apply elem_of_list_split in Hk as (l3 & l4 & ->).
      rewrite El in Hs. apply ser_app in Hs as (d1 & _ & Hs). cbn in Hs. destruct Hs as (_ & _ & d2 & _ & _ & Hs).
      apply ser_app in Hs as (d3 & _ & Hs). cbn in Hs. destruct Hs as (j & p & d4 & E & Hr & _).
      rewrite Hk' in E. injection E as <- <-. by destruct pk. }
  intros i k ji jk pi pk Hne Hi Hk Hhi Hhk.
  assert (Hil : i ∈ fw_log w) by (apply Hm; eauto using holds_got).
  assert (Hkl : k ∈ fw_log w) by (apply Hm; eauto using holds_got).
  apply elem_of_list_split in Hil as (l1 & l2 & El). rewrite El in Hkl.
  apply elem_of_app in Hkl as [Hkl|Hkl].
  - apply elem_of_list_split in Hkl as (l3 & l4 & ->). rewrite <- app_assoc in El. cbn in El.
    apply and_comm. eapply (G k i); [exact El| |done..]. apply elem_of_app. right. left.
  - apply elem_of_cons in Hkl as [->|Hkl]; [done|]. by eapply (G i k).
Qed.
Print Assumptions C89_exclusive.

(** As long as a server or a load has the file, no other process gets on, however
    long that is: no export of a file being served, and a second server on it
    neither serves nor reports anything. *)
Lemma step_got {T : Text} {C : Crypto} {W : Wire} (w w' : fworld) i j p :
  fstep w w' -> fw_procs w !! i = Some (j, p) -> got p ->
  exists p', fw_procs w' !! i = Some (j, p') /\ got p' /\ (holds p' -> holds p /\ (writer p <-> writer p')).
Proof.
  intros Hs Hi Hg. destruct Hs; cbn [fw_procs]; unfold upd;
    match goal with |- context [<[?x := _]> _] => destruct (decide (x = i)) as [->|Hne] end;
    try (rewrite lookup_insert_ne by done; exists p; done);
    rewrite Hi in *; repeat match goal with H : Some _ = Some _ |- _ => injection H; clear H; intros; subst end;
    try done; eexists; (split; [apply lookup_insert|]); (split; [done|]); cbn; tauto.
Qed.
Theorem C89_waits (T : Text) (C : Crypto) (W : Wire) (w w' : fworld) (i k : nat) (j : job) (p p' : progress) :
  fsteps w w' -> fw_procs w !! i = Some (j, p) -> writer p -> fw_procs w' !! i = Some (j, p') -> holds p' ->
  (forall jk pk, fw_procs w !! k = Some (jk, pk) -> ~ got pk) ->
  forall jk pk, fw_procs w' !! k = Some (jk, pk) -> ~ got pk.
Proof.
  intros Hst Hi Hw. revert p'.
  assert (Hgi : forall w1, fsteps w w1 -> exists p1, fw_procs w1 !! i = Some (j, p1) /\ got p1 /\ (holds p1 -> writer p1)).
  { clear -Hi Hw. induction 1 as [|w1 w2 _ (p1 & IH & Hg & Hx) Hs]; [exists p; by destruct p|].
    destruct (step_got _ _ _ _ _ Hs IH Hg) as (p2 & H2 & Hg2 & Hh2). exists p2. split; [done|]. split; [done|].
    intros Hh. destruct (Hh2 Hh) as [Hh1 Hiff]. apply Hiff, Hx, Hh1. }
  induction Hst as [|w1 w2 H1 IH Hs]; intros p' Hi' Hh Hk; [done|].
  destruct (Hgi w1 H1) as (p1 & E1 & Hg1 & Hx).
  destruct (step_got _ _ _ _ _ Hs E1 Hg1) as (p2 & E2 & _ & Hh2). rewrite Hi' in E2. injection E2 as <-.
  destruct (Hh2 Hh) as [Hh1 _]. specialize (Hx Hh1). specialize (IH p1 E1 Hh1 Hk).
  clear -E1 Hx Hh1 IH Hs.
  assert (Nu : ~ unheld w1) by (intros Hu; by apply (Hu _ _ _ E1)).
  assert (Nw : ~ unwritten w1) by (intros Hu; by apply (Hu _ _ _ E1)).
  intros jk pk. destruct Hs; try done; cbn [fw_procs]; unfold upd;
    match goal with |- context [<[?x := _]> _] => destruct (decide (x = k)) as [->|Hne] end;
    try (rewrite lookup_insert_ne by done; apply IH);
    rewrite lookup_insert; intros [= <- <-]; cbn; try tauto;
    exfalso; match goal with H : fw_procs w1 !! k = Some _ |- _ => apply IH in H; apply H end;
    eauto using holds_got; done.
Qed.
Print Assumptions C89_waits.

(** When nobody has it, each of those waiting can get it, and an export already
    when nobody has it but exports ... *)
Theorem C89_gets (T : Text) (C : Crypto) (W : Wire) (w : fworld) (i : nat) (j : job) :
  fw_procs w !! i = Some (j, Opening) ->
  (unheld w \/ unwritten w /\ exists base, j = JExport base) ->
  exists w' p, fstep w w' /\ fw_procs w' !! i = Some (j, p) /\ holds p /\ fw_db w' = fw_db w /\
    (forall k, k <> i -> fw_procs w' !! k = fw_procs w !! k).
Proof.
  intros Hi Hu.
  assert (G : forall p, fstep w (mkFW (fw_db w) (upd w i j p) (fw_log w ++ [i])) -> holds p -> exists w' p, fstep w w' /\ fw_procs w' !! i = Some (j, p) /\ holds p /\ fw_db w' = fw_db w /\
    (forall k, k <> i -> fw_procs w' !! k = fw_procs w !! k)).
  { intros p Hs Hp. eexists _, p. split; [exact Hs|]. cbn. unfold upd. rewrite lookup_insert. split; [done|]. split; [done|].
    split; [done|]. intros k Hk. by rewrite lookup_insert_ne. }
  destruct j as [cfg c|base parsed|base].
  - eapply G; [apply fs_get_serve|]; [done| |done]. by destruct Hu as [?|[_ [? ?]]].
  - eapply G; [apply fs_get_load|]; [done| |done]. by destruct Hu as [?|[_ [? ?]]].
  - eapply G; [apply fs_get_export|]; [done| |done]. destruct Hu as [Hu|[? _]]; [|done].
    intros k jk pk Hk Hw. by apply (Hu _ _ _ Hk), writer_holds.
Qed.
Print Assumptions C89_gets.
(** ... and a load or an export that has it can always come to its end by its own
    steps (a server goes on until it is stopped). *)
Theorem C89_ends (T : Text) (C : Crypto) (W : Wire) (w : fworld) (i : nat) (j : job) (p : progress) :
  fw_procs w !! i = Some (j, p) ->
  match j, p with
  | JLoad base parsed, Loading rest => exists w', fsteps w w' /\
      fw_procs w' = upd w i j (Ended (Exited (load_cmd base rest (fw_db w)).1)) /\
      fw_db w' = (load_cmd base rest (fw_db w)).2
  | JExport base, Exporting => exists w', fsteps w w' /\
      fw_procs w' = upd w i j (Ended (Printed (export_db (fw_db w) base))) /\ fw_db w' = fw_db w
  | _, _ => True
  end.
Proof.
  intros Hi. destruct j as [| base parsed|base]; [done| |]; destruct p as [| |rest| |]; try done.
  - destruct rest as [rest|].
    2: { eexists. split; [eapply fr_more; [apply fr_refl|by eapply fs_unreadable]|]. done. }
    revert w Hi. induction rest as [|e rest IH]; intros w Hi.
    { eexists. split; [eapply fr_more; [apply fr_refl|by eapply fs_loaded]|]. done. }
    destruct (run_op (db_base base) no_faults (OpPut e) (fw_db w)) as [out d'] eqn:E.
    assert (Hdec : out = Done (Ok tt) \/ out <> Done (Ok tt)) by (destruct out as [[[]| | |]|]; auto; by right).
    unfold load_cmd. cbn [load_db]. rewrite E. destruct Hdec as [->|Hne].
    + destruct (IH (mkFW d' (upd w i (JLoad base parsed) (Loading (Some rest))) (fw_log w))) as (w' & Hs & Hp & Hd).
      { apply lookup_insert. }
      exists w'. split.
      { eapply fsteps_trans; [|exact Hs]. eapply fr_more; [apply fr_refl|by eapply fs_put]. }
      unfold load_cmd, upd in *. cbn [fw_db fw_procs] in *. rewrite insert_insert in Hp. done.
    + eexists. split; [eapply fr_more; [apply fr_refl|by eapply fs_put_fails]|]. cbn [fw_procs fw_db].
      destruct out as [[[]| | |]|]; done.
  - eexists. split; [eapply fr_more; [apply fr_refl|by eapply fs_export]|]. done.
Qed.
Print Assumptions C89_ends.

(** So the life of a file: starting empty, through any sequence of loads, servers
    and exports with the same base, killed at any moment, it always holds a
    consistent database that is a directory, and C12-C28 apply to it. *)
Definition tidy {T : Text} {C : Crypto} {W : Wire} (b : dn) (w : fworld) : Prop :=
  forall i j p, fw_procs w !! i = Some (j, p) ->
  match j with
  | JServe cfg c => bc_base c = normalize b /\
      match p with Serving s => forall conn ev q, In (EPacket conn ev q) (cw_log s) -> clean q | _ => True end
  | JLoad base parsed => db_base base = normalize b /\
      match parsed with Some es => forall e, In e es -> dn_text_ok (e_dn e) | None => True end
  | JExport _ => True
  end.
(** [n] steps from an empty file. *)
Inductive life {T : Text} {C : Crypto} {W : Wire} (b : dn) : nat -> fworld -> Prop :=
| life_start : life b 0 (fstart empty_db)
| life_step n w w' : life b n w -> fstep w w' -> tidy b w' -> life b (S n) w'.

Lemma cstep_log {T : Text} {C : Crypto} {W : Wire} cfg c s s' : cstep cfg c s s' -> length (cw_log s') <= S (length (cw_log s)).
Proof.
  assert (Hn : forall ev p k n, length (note ev p k n) <= 1) by (intros ? ? ? []; cbn; lia).
  destruct 1; cbn [cw_log]; rewrite ?app_length; cbn [length]; try lia;
    match goal with |- context [note ?a ?b ?c ?d] => specialize (Hn a b c d); lia end.
Qed.
Theorem C89_life (T : Text) (C : Crypto) (W : Wire) (HT : TextOK T) (b : dn) (n : nat) (w : fworld) :
  base_ok b -> life b n w -> (N.of_nat n + 1 < 2 ^ 64)%N ->
  fsteps (fstart empty_db) w /\ reachable b (fw_db w) /\ consistent (fw_db w) /\ exists m, represents (fw_db w) m.
Proof.
  intros Hb Hl Hn.
  set (made := fun n d => exists h, Forall (fun p : env * op => op_ok p.2) h /\ length h <= n /\ d = run_ops (normalize b) h empty_db).
  assert (Hmono : forall n d, made n d -> made (S n) d) by (intros ? ? (h & ? & ? & ?); exists h; split; [done|]; split; [lia|done]).
  assert (G : finv empty_db w /\ fsteps (fstart empty_db) w /\ made n (fw_db w) /\
    (forall i cfg c s, fw_procs w !! i = Some (JServe cfg c, Serving s) ->
       exists na da, made na da /\ csteps cfg c (cstart da) s /\ na + length (cw_log s) <= n) /\
    (forall i base parsed rest, fw_procs w !! i = Some (JLoad base parsed, Loading (Some rest)) ->
       exists es, parsed = Some (es ++ rest))).
  { clear Hn. induction Hl as [|n w w' Hl (Hf & IH0 & IH1 & IH2 & IH3) Hs Ht].
    { split; [apply steps_finv; apply fr_refl|]. split; [apply fr_refl|]. split; [by exists []|].
      split; intros ? ? ? ?; cbn; by rewrite lookup_empty. }
    split; [by eapply step_finv|]. split; [by eapply fr_more|].
    assert (Hput : forall i base parsed e rest out d', fw_procs w !! i = Some (JLoad base parsed, Loading (Some (e :: rest))) ->
      (exists p, fw_procs w' !! i = Some (JLoad base parsed, p)) ->
      run_op (db_base base) no_faults (OpPut e) (fw_db w) = (out, d') -> made (S n) d').
    { intros i base parsed e rest out d' Hi [p' Hi'] Hr. destruct (Ht _ _ _ Hi') as [Hbase Hes].
      destruct (IH3 _ _ _ _ Hi) as [es ->]. destruct IH1 as (h & Hh1 & Hh2 & Hh3).
      exists (h ++ [(no_faults, OpPut e)]). split; [|split].
      - apply Forall_app. split; [done|]. constructor; [|done]. cbn. apply Hes. apply in_or_app. right. by left.
      - rewrite app_length. cbn. lia.
      - rewrite run_ops_app, <- Hh3. cbn [run_ops]. rewrite <- Hbase, Hr. done. }
    assert (Hsame : fw_db w' = fw_db w -> made (S n) (fw_db w')) by (intros ->; by apply Hmono).
    assert (Hserve : forall i cfg c s s', fw_procs w !! i = Some (JServe cfg c, Serving s) -> cstep cfg c s s' ->
      (fw_procs w' !! i = Some (JServe cfg c, Serving s')) ->
      made (S n) (cw_db s') /\ exists na da, made na da /\ csteps cfg c (cstart da) s' /\ na + length (cw_log s') <= S n).
    { intros i cfg c s s' Hi Hc Hi'. destruct (IH2 _ _ _ _ Hi) as (na & da & Hda & Hcs & Hlen).
      pose proof (cs_more _ _ _ _ _ Hcs Hc) as Hcs'. pose proof (cstep_log _ _ _ _ Hc) as Hlog.
      split; [|exists na, da; split; [done|]; split; [done|lia]].
      destruct (Ht _ _ _ Hi') as [Hbase Hcl].
      destruct (C85_serial T C W cfg c da s' Hcs') as [Hst _]. rewrite <- Hst.
      destruct (clean_history HT cfg c da (cw_log s') Hcl) as (h & Hok & Hle & ->).
      destruct Hda as (h0 & Hok0 & Hle0 & ->). exists (h0 ++ h). split; [by apply Forall_app|]. split; [rewrite app_length; lia|].
      by rewrite Hbase, run_ops_app. }
    split; [|split].
    - destruct Hs; try (by apply Hsame); cbn [fw_db].
      + eapply Hserve; [done..|]. apply lookup_insert.
      + eapply Hput; [done| |done]. eexists. apply lookup_insert.
      + eapply Hput; [done| |done]. eexists. apply lookup_insert.
    - intros k cfg c s Hk.
      assert (Hkeep : fw_procs w !! k = Some (JServe cfg c, Serving s) ->
        exists na da, made na da /\ csteps cfg c (cstart da) s /\ na + length (cw_log s) <= S n).
      { intros Hk'. destruct (IH2 _ _ _ _ Hk') as (na & da & ? & ? & ?). exists na, da. split; [done|]. split; [done|lia]. }
      destruct Hs as [i j Hi|i cfg' c' Hi Hu|i base parsed Hi Hu|i base Hi Hu|i cfg' c' s0 s' Hi Hc|i base parsed e rest d' Hi Hp
        |i base parsed e rest out d' Hi Hp Ho|i base parsed Hi|i base parsed Hi|i base Hi|i j p Hi Hh|i j Hi];
        cbn [fw_procs] in Hk, Hserve; unfold upd in Hk, Hserve;
        (destruct (decide (i = k)) as [->|Hne]; [rewrite lookup_insert in Hk|rewrite lookup_insert_ne in Hk by done; by apply Hkeep]);
        try done.
      + injection Hk as <- <- <-. exists n, (fw_db w). split; [done|]. split; [apply cs_refl|cbn; lia].
      + injection Hk as <- <- <-. eapply Hserve; [done..|]. apply lookup_insert.
    - intros k base parsed rest Hk.
      destruct Hs as [i j Hi|i cfg' c' Hi Hu|i base' parsed' Hi Hu|i base' Hi Hu|i cfg' c' s0 s' Hi Hc|i base' parsed' e rest' d' Hi Hp
        |i base' parsed' e rest' out d' Hi Hp Ho|i base' parsed' Hi|i base' parsed' Hi|i base' Hi|i j p Hi Hh|i j Hi];
        cbn [fw_procs] in Hk; unfold upd in Hk;
        (destruct (decide (i = k)) as [->|Hne]; [rewrite lookup_insert in Hk|rewrite lookup_insert_ne in Hk by done; by eapply IH3]);
        try done.
      + injection Hk as <- <- ->. by exists [].
      + injection Hk as <- <- <-. destruct (IH3 _ _ _ _ Hi) as [es ->]. exists (es ++ [e]). by rewrite <- app_assoc. }
  destruct G as (_ & Hfs & (h & Hok & Hle & Hd) & _). split; [done|].
  assert (Hr : reachable b (fw_db w)) by (exists h; split; [done|]; split; [lia|done]). split; [done|]. split.
  - destruct Hr as (h' & Hok' & Hlh & ->). by apply (C12_indexes_consistent T C HT).
  - destruct (C13_every_state_is_a_directory T C HT b (fw_db w) Hb Hr) as (m & Hm & _). by exists m.
Qed.
Print Assumptions C89_life.

(** A load, an export and a server are started; the load gets the file and the
    others wait; then the export prints what was loaded, and the server begins and
    accepts a connection while a second export waits. *)
Definition load89 : job := JLoad (B "o=base") (Some [e_base]).
Definition serve89 : job := JServe cfg1 c1.
Definition export89 : job := JExport (B "o=base").
Lemma tidy_upd {T : Text} {C : Crypto} {W : Wire} (b : dn) (w : fworld) d i j p l :
  tidy b w ->
  match j with
  | JServe cfg c => bc_base c = normalize b /\
      match p with Serving s => forall conn ev q, In (EPacket conn ev q) (cw_log s) -> clean q | _ => True end
  | JLoad base parsed => db_base base = normalize b /\
      match parsed with Some es => forall e, In e es -> dn_text_ok (e_dn e) | None => True end
  | JExport _ => True
  end -> tidy b (mkFW d (upd w i j p) l).
Proof.
  intros Hw Hx k jk pk. cbn [fw_procs]. unfold upd. destruct (decide (i = k)) as [->|Hne].
  - rewrite lookup_insert. intros [= <- <-]. exact Hx.
  - rewrite lookup_insert_ne by done. apply Hw.
Qed.
Section case.
#[local] Existing Instances ascii_text toy wire1.
Example C89_case :
  exists w1 w2, life b0 4 w1 /\ life b0 11 w2 /\
    fw_log w1 = [0] /\ fw_procs w1 !! 0 = Some (load89, Loading (Some [e_base])) /\
    fw_procs w1 !! 1 = Some (serve89, Opening) /\ fw_procs w1 !! 2 = Some (export89, Opening) /\
    fw_log w2 = [0; 2; 1] /\ fw_procs w2 !! 0 = Some (load89, Ended (Exited true)) /\
    fw_procs w2 !! 2 = Some (export89, Ended (Printed (Ok ([e_base], None)))) /\
    (exists s, fw_procs w2 !! 1 = Some (serve89, Serving s) /\ cw_log s = [EOpen 7]) /\
    fw_procs w2 !! 3 = Some (export89, Opening).
Proof.
  assert (Hl : db_base (B "o=base") = normalize b0 /\ forall e, In e [e_base] -> dn_text_ok (e_dn e)).
  { split; [by vm_compute|]. intros e [<-|[]]. apply text_okb_ok. by vm_compute. }
  assert (Hs : bc_base c1 = normalize b0) by by vm_compute.
  assert (H0 : tidy b0 (fstart empty_db)).
  { intros i j p. cbn. by rewrite lookup_empty. }
  destruct (run_op (db_base (B "o=base")) no_faults (OpPut e_base) empty_db) as [out d'] eqn:E.
  assert (Hout : out = Done (Ok tt)) by (revert E; vm_compute; by intros [= <- <-]).
  assert (Hex : export_db d' (B "o=base") = Ok ([e_base], None)) by (revert E; vm_compute; by intros [= <- <-]).
  subst out.
  assert (step : forall n w d i j p l, tidy b0 w /\ life b0 n w ->
      fstep w (mkFW d (upd w i j p) l) ->
      (match j with
       | JServe cfg c => bc_base c = normalize b0 /\
           match p with Serving s => forall conn ev q, In (EPacket conn ev q) (cw_log s) -> clean q | _ => True end
       | JLoad base parsed => db_base base = normalize b0 /\
           match parsed with Some es => forall e, In e es -> dn_text_ok (e_dn e) | None => True end
       | JExport _ => True
       end) ->
      tidy b0 (mkFW d (upd w i j p) l) /\ life b0 (S n) (mkFW d (upd w i j p) l)).
    { intros n w d i j p l [Ht Hli] Hst Hx. assert (Ht' : tidy b0 (mkFW d (upd w i j p) l)) by by apply tidy_upd.
      split; [done|]. by eapply life_step. }
  pose proof (conj H0 (life_start b0)) as G.
  eapply step in G; [|eapply (fs_start _ 0 load89); reflexivity|exact Hl].
  eapply step in G; [|eapply (fs_start _ 1 serve89); reflexivity|exact (conj Hs I)].
  eapply step in G; [|eapply (fs_start _ 2 export89); reflexivity|exact I].
  eapply step in G; [|eapply (fs_get_load _ 0 (B "o=base")); [reflexivity|]|exact Hl].
  2: { intros i j p. cbn [fw_procs]. unfold upd. cbn [fw_procs]. intros Hi.
      repeat (apply lookup_insert_Some in Hi as [[<- [= <- <-]]|[? Hi]]; [by intros []|]). by destruct (lookup_empty_Some _ _ Hi). }
  eexists _, _. split; [exact (proj2 G)|]. split.
  - eapply step in G; [|eapply (fs_put _ 0 (B "o=base")); [reflexivity|exact E]|exact Hl].
    eapply step in G; [|eapply (fs_loaded _ 0 (B "o=base")); reflexivity|exact Hl].
    eapply step in G; [|eapply (fs_get_export _ 2 (B "o=base")); [reflexivity|]|exact I].
    2: { intros i j p. cbn [fw_procs]. unfold upd. cbn [fw_procs]. intros Hi.
      repeat (apply lookup_insert_Some in Hi as [[<- [= <- <-]]|[? Hi]]; [first [done|by intros []]|]). by destruct (lookup_empty_Some _ _ Hi). }
    eapply step in G; [|eapply (fs_start _ 3 export89); reflexivity|exact I].
    eapply step in G; [|eapply (fs_export _ 2 (B "o=base")); reflexivity|exact I].
    cbn [fw_db] in G. rewrite Hex in G.
    eapply step in G; [|eapply (fs_get_serve _ 1 cfg1 c1); [reflexivity|]|split; [exact Hs|cbn; intros ? ? ? []]].
    2: { intros i j p. cbn [fw_procs]. unfold upd. cbn [fw_procs]. intros Hi.
      repeat (apply lookup_insert_Some in Hi as [[<- [= <- <-]]|[? Hi]]; [first [done|by intros []]|]). by destruct (lookup_empty_Some _ _ Hi). }
    eapply step in G; [|eapply (fs_serve _ 1 cfg1 c1); [reflexivity|apply (cs_open cfg1 c1 _ 7); done]|split; [exact Hs|cbn; intros ? ? ? [H|[]]; done]].
    apply G.
  - repeat split. eexists. split; reflexivity.
Qed.
End case.
