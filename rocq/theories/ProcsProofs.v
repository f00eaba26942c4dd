(** Proofs about Procs.v. *)
From Verif Require Import Bytes Text Dn Res Entry Password Db Packet Filter Handler Server Conns Startup Procs.

Section proofs.
Context {T : Text} {C : Crypto} {W : Wire}.
Local Notation procs := (gmap nat (job * progress)).

(** What a process with job [j] that got the file with [d] in it and is now at [p]
    has made of it: a server what the steps of Conns.v make; load what loading all
    of it, or a first part of it, makes; export nothing, and what it prints is
    what the file held when it got it. *)
Definition ran (j : job) (p : progress) (d d' : db) : Prop :=
  match j, p with
  | JServe cfg c, Serving w => csteps cfg c (cstart d) w /\ d' = cw_db w
  | JServe cfg c, Ended Stopped => exists w, csteps cfg c (cstart d) w /\ d' = cw_db w
  | JLoad base parsed, Loading (Some rest) =>
      exists es, parsed = Some (es ++ rest) /\ load_cmd base (Some es) d = (true, d')
  | JLoad base parsed, Loading None => parsed = None /\ d' = d
  | JLoad base parsed, Ended (Exited ok) => load_cmd base parsed d = (ok, d')
  | JLoad base parsed, Ended Stopped =>
      d' = d \/ exists es rest, parsed = Some (es ++ rest) /\ load_cmd base (Some es) d = (true, d')
  | JExport base, Exporting | JExport base, Ended Stopped => d' = d
  | JExport base, Ended (Printed r) => d' = d /\ r = export_db d base
  | _, _ => False
  end.
(** The processes of [l], one after the other, take [d] to [d']. *)
Fixpoint serially (ps : procs) (l : list nat) (d d' : db) : Prop :=
  match l with
  | [] => d' = d
  | i :: l' => exists j p d1, ps !! i = Some (j, p) /\ ran j p d d1 /\ serially ps l' d1 d'
  end.
(** It got the file at some time. *)
Definition got (p : progress) : Prop := match p with Opening | Ended GaveUp => False | _ => True end.

Lemma ser_app ps l1 l2 d d2 : serially ps (l1 ++ l2) d d2 <-> exists d1, serially ps l1 d d1 /\ serially ps l2 d1 d2.
Proof.
  revert d. induction l1 as [|i l1 IH]; intros d; cbn.
  - split; [by exists d|]. by intros (? & -> & ?).
  - split.
    + intros (j & p & d1 & H1 & H2 & H3). apply IH in H3 as (d3 & H3 & H4). exists d3. split; [|done]. by exists j, p, d1.
    + intros (d3 & (j & p & d1 & H1 & H2 & H3) & H4). exists j, p, d1. split; [done|]. split; [done|]. apply IH. by exists d3.
Qed.
Lemma ser_other ps i x l d d' : i ∉ l -> serially ps l d d' -> serially (<[i := x]> ps) l d d'.
Proof.
  revert d. induction l as [|k l IH]; intros d Hi; cbn; [done|].
  apply not_elem_of_cons in Hi as [Hne Hi].
  intros (j & p & d1 & H1 & H2 & H3). exists j, p, d1. rewrite lookup_insert_ne by done. eauto.
Qed.
Definition exporter (ps : procs) (k : nat) : Prop := exists base p, ps !! k = Some (JExport base, p).
Lemma ser_export ps l d d' : Forall (exporter ps) l -> serially ps l d d' -> d' = d.
Proof.
  intros Hf. revert d. induction Hf as [|k l (base & p & Hk) Hf IH]; intros d; cbn; [done|].
  intros (j & p' & d1 & H1 & H2 & H3). rewrite Hk in H1. injection H1 as <- <-.
  apply IH in H3 as ->. unfold ran in H2. destruct p as [| | | |[]]; try done. by destruct H2.
Qed.

Record finv (d0 : db) (w : fworld) : Prop := {
  fi_ser : serially (fw_procs w) (fw_log w) d0 (fw_db w);
  fi_nodup : NoDup (fw_log w);
  fi_mem : forall i, i ∈ fw_log w <-> exists j p, fw_procs w !! i = Some (j, p) /\ got p;
  fi_excl : forall l1 i l2 j p, fw_log w = l1 ++ i :: l2 -> fw_procs w !! i = Some (j, p) -> holds p ->
    Forall (exporter (fw_procs w)) l2 /\ (writer p -> l2 = [])
}.
Lemma holds_got p : holds p -> got p.
Proof. by destruct p. Qed.
Lemma writer_holds p : writer p -> holds p.
Proof. by destruct p. Qed.

Lemma exporter_upd ps i j p p' k : ps !! i = Some (j, p) -> exporter ps k -> exporter (<[i := (j, p')]> ps) k.
Proof.
  intros Hi (base & q & Hk). unfold exporter. destruct (decide (i = k)) as [<-|Hne].
  - rewrite Hi in Hk. injection Hk as -> ->. exists base, p'. apply lookup_insert.
  - exists base, q. by rewrite lookup_insert_ne.
Qed.
(** A process that holds the file moves on. *)
Lemma advance d0 w i j p p' d' :
  finv d0 w -> fw_procs w !! i = Some (j, p) -> holds p ->
  (forall da, ran j p da (fw_db w) -> ran j p' da d') -> got p' -> (writer p' -> writer p) -> (d' = fw_db w \/ writer p) ->
  finv d0 (mkFW d' (upd w i j p') (fw_log w)).
Proof.
  intros [Hs Hn Hm He] Hi Hh Hr Hg Hw Hd.
  assert (Hin : i ∈ fw_log w) by (apply Hm; exists j, p; eauto using holds_got).
  constructor; cbn [fw_db fw_procs fw_log]; unfold upd.
  - apply elem_of_list_split in Hin as (l1 & l2 & El). destruct (He l1 i l2 j p El Hi Hh) as [Hx Hwl].
    rewrite El in Hs, Hn |- *. apply NoDup_app in Hn as (_ & Hn1 & Hn2). apply NoDup_cons in Hn2 as [Hn2 _].
    apply ser_app in Hs as (da & Hs1 & Hs2). cbn in Hs2. destruct Hs2 as (j' & q & d1 & Hi' & Hr1 & Hs2).
    rewrite Hi in Hi'. injection Hi' as <- <-. pose proof (ser_export _ _ _ _ Hx Hs2) as Hd1. subst d1.
    apply ser_app. exists da. split.
    { apply ser_other; [|done]. intros Hl. apply (Hn1 i Hl). left. }
    cbn. exists j, p', d'. rewrite lookup_insert. split; [done|]. split; [by apply Hr|].
    destruct Hd as [->|Hd]; [by apply ser_other|]. by rewrite (Hwl Hd).
  - done.
  - intros k. rewrite Hm. destruct (decide (i = k)) as [<-|Hne].
    + rewrite lookup_insert. split; intros _; [by exists j, p'|]. exists j, p. eauto using holds_got.
    + by rewrite lookup_insert_ne.
  - intros l1 k l2 jk pk El Hk Hhk. destruct (decide (i = k)) as [<-|Hne].
    + rewrite lookup_insert in Hk. injection Hk as <- <-. destruct (He l1 i l2 j p El Hi Hh) as [Hx Hwl]. split; [|eauto].
      eapply Forall_impl; [exact Hx|]. intros. by eapply exporter_upd.
    + rewrite lookup_insert_ne in Hk by done. destruct (He l1 k l2 jk pk El Hk Hhk) as [Hx Hwl]. split; [|done].
      eapply Forall_impl; [exact Hx|]. intros. by eapply exporter_upd.
Qed.
(** One that waits gets it. *)
Lemma acquire d0 w i j p' :
  finv d0 w -> fw_procs w !! i = Some (j, Opening) ->
  ran j p' (fw_db w) (fw_db w) -> got p' ->
  (unheld w \/ (unwritten w /\ exists base, j = JExport base)) ->
  finv d0 (mkFW (fw_db w) (upd w i j p') (fw_log w ++ [i])).
Proof.
  intros [Hs Hn Hm He] Hi Hr Hg Hu.
  assert (Hin : i ∉ fw_log w) by (rewrite Hm; intros (j1 & p1 & H1 & H2); rewrite Hi in H1; by injection H1 as <- <-).
  constructor; cbn [fw_db fw_procs fw_log]; unfold upd.
  - apply ser_app. exists (fw_db w). split; [by apply ser_other|]. exists j, p', (fw_db w). rewrite lookup_insert. done.
  - apply NoDup_app. split; [done|]. split; [|apply NoDup_singleton]. intros k Hk ->%elem_of_list_singleton. done.
  - intros k. rewrite elem_of_app, elem_of_list_singleton. destruct (decide (i = k)) as [<-|Hne].
    + rewrite lookup_insert. split; intros _; [by exists j, p'|by right].
    + rewrite lookup_insert_ne, <- Hm by done. split; [by intros [?|?]|by left].
  - intros l1 k l2 jk pk El Hk Hhk.
    destruct (decide (i = k)) as [<-|Hne].
    + assert (l2 = []) as ->; [|by split].
      destruct l2 as [|x l2 _] using rev_ind; [done|]. exfalso. apply Hin.
      rewrite app_comm_cons, app_assoc in El. apply app_inj_tail in El as [-> _].
      apply elem_of_app. right. left.
    + rewrite lookup_insert_ne in Hk by done. destruct Hu as [Hu|(Hu & base & ->)]; [by destruct (Hu _ _ _ Hk)|].
      destruct l2 as [|x l2 _] using rev_ind.
      { apply app_inj_tail in El as [_ E]. done. }
      rewrite app_comm_cons, app_assoc in El. apply app_inj_tail in El as [El <-].
      destruct (He l1 k l2 jk pk El Hk Hhk) as [Hx _]. split.
      * apply Forall_app. split; [|apply Forall_singleton; exists base, p'; apply lookup_insert].
        eapply Forall_impl; [exact Hx|]. intros. by eapply exporter_upd.
      * intros Hw. by destruct (Hu _ _ _ Hk).
Qed.
(** One that never had it starts or gives up. *)
Lemma outside d0 w i j p' :
  finv d0 w -> (fw_procs w !! i = None \/ fw_procs w !! i = Some (j, Opening)) -> ~ got p' ->
  finv d0 (mkFW (fw_db w) (upd w i j p') (fw_log w)).
Proof.
  intros [Hs Hn Hm He] Hi Hg.
  assert (Hin : i ∉ fw_log w).
  { rewrite Hm. intros (j1 & p1 & H1 & H2). destruct Hi as [Hi|Hi]; rewrite Hi in H1; [done|]. by injection H1 as <- <-. }
  constructor; cbn [fw_db fw_procs fw_log]; unfold upd.
  - by apply ser_other.
  - done.
  - intros k. destruct (decide (i = k)) as [<-|Hne].
    + rewrite lookup_insert. split; [done|]. by intros (? & ? & [= <- <-] & ?).
    + by rewrite lookup_insert_ne.
  - intros l1 k l2 jk pk El Hk Hhk.
    assert (i <> k) by (intros ->; apply Hin; rewrite El; apply elem_of_app; right; left).
    rewrite lookup_insert_ne in Hk by done. destruct (He l1 k l2 jk pk El Hk Hhk) as [Hx Hw]. split; [|done].
    assert (Hl2 : i ∉ l2) by (intros Hl; apply Hin; rewrite El; apply elem_of_app; right; by right).
    apply Forall_forall. intros x Hxi. rewrite Forall_forall in Hx. destruct (Hx x Hxi) as (base & q & Hq).
    exists base, q. rewrite lookup_insert_ne; [done|]. by intros ->.
Qed.

Lemma load_snoc base es e d d1 :
  load_cmd base (Some es) d = (true, d1) ->
  load_cmd base (Some (es ++ [e])) d =
  match run_op (db_base base) no_faults (OpPut e) d1 with (Done (Ok _), d') => (true, d') | (_, d') => (false, d') end.
Proof.
  unfold load_cmd. revert d. induction es as [|x es IH]; intros d.
  - cbn [load_db Datatypes.app]. intros [= ->]. by destruct run_op as [[[[]| | |]|] ?].
  - cbn [load_db Datatypes.app]. destruct (run_op (db_base base) no_faults (OpPut x) d) as [[[[]| | |]|] ?]; try done. apply IH.
Qed.
Lemma load_more base es e rest d out d' d1 :
  load_cmd base (Some es) d = (true, d1) -> run_op (db_base base) no_faults (OpPut e) d1 = (out, d') -> out <> Done (Ok tt) ->
  load_cmd base (Some (es ++ e :: rest)) d = (false, d').
Proof.
  intros H1 H2 H3. unfold load_cmd in *. revert d H1. induction es as [|x es IH]; intros d.
  - cbn [load_db Datatypes.app]. intros [= ->]. rewrite H2. destruct out as [[[]| | |]|]; done.
  - cbn [load_db Datatypes.app]. destruct (run_op (db_base base) no_faults (OpPut x) d) as [[[[]| | |]|] ?]; try done. apply IH.
Qed.
Lemma step_finv d0 w w' : finv d0 w -> fstep w w' -> finv d0 w'.
Proof.
  intros Hw Hst. destruct Hst as [i j Hi|i cfg c Hi Hu|i base parsed Hi Hu|i base Hi Hu|i cfg c s s' Hi Hc|i base parsed e rest d' Hi Hp
    |i base parsed e rest out d' Hi Hp Ho|i base parsed Hi|i base parsed Hi|i base Hi|i j p Hi Hh|i j Hi].
  - apply outside; auto.
  - apply acquire; [done..| | |by left]; [|done]. cbn. split; [apply cs_refl|done].
  - apply acquire; [done..| | |by left]; [|done]. cbn. destruct parsed as [es|]; [|done]. by exists [].
  - apply acquire; [done..|]. right. eauto.
  - eapply advance; [done..| | | |]; [|done|done|by right]. intros da. cbn [ran]. intros [H1 _]. split; [|done]. exact (cs_more _ _ _ _ _ H1 Hc).
  - eapply advance; [done..| | | |]; [|done|done|by right]. intros da. cbn [ran]. intros (es & -> & Hl). exists (es ++ [e]). split; [by rewrite <- app_assoc|].
    rewrite (load_snoc _ _ _ _ _ Hl), Hp. done.
  - eapply advance; [done..| | | |]; [|done|done|by right]. intros da. cbn [ran]. intros (es & -> & Hl). by eapply load_more.
  - eapply advance; [done..| | | |]; [|done|done|by left]. intros da. cbn [ran]. intros (es & -> & Hl). by rewrite app_nil_r.
  - eapply advance; [done..| | | |]; [|done|done|by left]. intros da. cbn. by intros [-> ->].
  - eapply advance; [done..| | | |]; [|done|done|by left]. intros da. cbn. by intros ->.
  - eapply advance; [done..| | | |]; [|done|done|by left]. intros da. destruct j, p as [| |[]| |]; cbn [ran holds]; try done.
    + intros [? ?]. eauto.
    + intros (es & ? & ?). right. eauto.
    + intros [_ ?]. by left.
  - apply outside; auto.
Qed.
Lemma steps_finv d w : fsteps (fstart d) w -> finv d w.
Proof.
  intros H. remember (fstart d) as s. induction H; subst; [|by eapply step_finv; eauto].
  constructor; cbn; [done|constructor| |].
  - intros i. split; [intros H; inversion H|]. intros (j & p & H & _). by rewrite lookup_empty in H.
  - intros l1 i l2 j p H. by destruct l1.
Qed.
Lemma fsteps_trans w1 w2 w3 : fsteps w1 w2 -> fsteps w2 w3 -> fsteps w1 w3.
Proof. intros H1 H2. induction H2; [done|]. by eapply fr_more. Qed.
End proofs.
