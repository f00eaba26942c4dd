(** Databases that differ only in the numbers of the entries. *)
From Verif Require Import Bytes Text Dn DnProofs Res Entry EntryProofs Password PasswordProofs
  Db DbSpec IdProofs DbProofs DbOps DbSearch DbFacts DbMore P_Db
  Packet Filter FilterProofs P_Filter Handler Server ServerProofs CrashProofs P_Server
  Encode EncodeProofs E2e E2eProofs P_E2e TwinProofs.

Section iso.
Context {T : Text} {C : Crypto}.
Implicit Types r : N -> N -> Prop.

(** The child list with the given numbers. *)
Definition ids (l : list N) : str := concat (map id_bytes l).
(** [r] renumbers the entries of [d1] to those of [d2]; at least [k] numbers are
    left on both sides. *)
Record iso (k : N) (r : N -> N -> Prop) (d1 d2 : db) : Prop := {
  io_fun : forall i j j', r i j -> r i j' -> j = j';
  io_inj : forall i i' j, r i j -> r i' j -> i = i';
  io_pos : forall i j, r i j -> (0 < i <= idseq d1 /\ 0 < j <= idseq d2)%N;
  io_seq : (idseq d1 + k < 2 ^ 64 /\ idseq d2 + k < 2 ^ 64)%N;
  io_dn : forall s, match dn2id d1 !! s, dn2id d2 !! s with
    | Some v, Some w => exists i j, r i j /\ v = id_bytes i /\ w = id_bytes j
    | None, None => True
    | _, _ => False
    end;
  io_ent : forall i j, r i j -> id2ent d1 !! id_bytes i = id2ent d2 !! id_bytes j;
  io_ch : forall i j, r i j -> exists l1 l2, raw_children i d1 = ids l1 /\ raw_children j d2 = ids l2 /\ Forall2 r l1 l2;
  io_new1 : forall i, (idseq d1 < i < 2 ^ 64)%N -> raw_children i d1 = [] /\ id2ent d1 !! id_bytes i = None;
  io_new2 : forall i, (idseq d2 < i < 2 ^ 64)%N -> raw_children i d2 = [] /\ id2ent d2 !! id_bytes i = None
}.
Lemma io_lt k r d1 d2 i j : iso k r d1 d2 -> r i j -> (0 < i < 2 ^ 64 /\ 0 < j < 2 ^ 64)%N.
Proof using Type. intros H Hr. pose proof (io_pos _ _ _ _ H _ _ Hr). pose proof (io_seq _ _ _ _ H). lia. Qed.
Lemma iso_weak k k' r d1 d2 : (k' <= k)%N -> iso k r d1 d2 -> iso k' r d1 d2.
Proof using Type. intros Hk []. split; try done. lia. Qed.

(** Results of a transaction. *)
Definition rres {A B} (k : N) (r : N -> N -> Prop) (RA : (N -> N -> Prop) -> A -> B -> Prop)
    (x : res (A * (db * nat))) (y : res (B * (db * nat))) : Prop :=
  match x, y with
  | Ok (a, (d1, n1)), Ok (b, (d2, n2)) =>
      n1 = n2 /\ exists r' : N -> N -> Prop, (forall i j, r i j -> r' i j) /\ iso k r' d1 d2 /\ RA r' a b
  | Err e, Err e' => e = e'
  | Panic, Panic | Diverge, Diverge => True
  | _, _ => False
  end.
Definition trel {A B} (k k' : N) (r : N -> N -> Prop) (RA : (N -> N -> Prop) -> A -> B -> Prop) (m1 : tx A) (m2 : tx B) : Prop :=
  forall f d1 d2 n, iso k r d1 d2 -> rres k' r RA (m1 f d1 n) (m2 f d2 n).
Definition same {A} (_ : N -> N -> Prop) (a b : A) : Prop := a = b.
(** Two numbers as found under a name, 0 if none is. *)
Definition rid (r : N -> N -> Prop) (a b : N) : Prop := (a = 0 /\ b = 0)%N \/ (r a b /\ 0 < a < 2 ^ 64 /\ 0 < b < 2 ^ 64)%N.

Lemma rel_ret {A B} k r (RA : (N -> N -> Prop) -> A -> B -> Prop) a b : RA r a b -> trel k k r RA (t_ret a) (t_ret b).
Proof using Type. intros Ha f d1 d2 n H. split; [done|]. by exists r. Qed.
Lemma rel_err {A B} k k' r (RA : (N -> N -> Prop) -> A -> B -> Prop) e : trel k k' r RA (t_err e) (t_err e).
Proof using Type. by intros f d1 d2 n H. Qed.
Lemma rel_bind {A B A' B'} k k1 k2 r (RA : (N -> N -> Prop) -> A -> B -> Prop) (RB : (N -> N -> Prop) -> A' -> B' -> Prop) m1 m2 f1 f2 :
  trel k k1 r RA m1 m2 ->
  (forall (r' : N -> N -> Prop) a b, (forall i j, r i j -> r' i j) -> RA r' a b -> trel k1 k2 r' RB (f1 a) (f2 b)) ->
  trel k k2 r RB (t_bind m1 f1) (t_bind m2 f2).
Proof using Type.
  intros Hm Hf f d1 d2 n H. specialize (Hm f d1 d2 n H). unfold t_bind.
  destruct (m1 f d1 n) as [[a [d1' n1]]| | |], (m2 f d2 n) as [[b [d2' n2]]| | |]; try done.
  destruct Hm as (-> & r' & Hr & Hi & Ha). specialize (Hf r' a b Hr Ha f d1' d2' n2 Hi).
  destruct (f1 a f d1' n2) as [[a' [x1 y1]]| | |], (f2 b f d2' n2) as [[b' [x2 y2]]| | |]; try done.
  destruct Hf as (-> & r2 & Hr2 & Hi2 & Hb). split; [done|]. exists r2. auto 10.
Qed.
Lemma rel_read {A B} k r (RA : (N -> N -> Prop) -> A -> B -> Prop) (g1 : db -> res A) (g2 : db -> res B) :
  (forall d1 d2, iso k r d1 d2 -> match g1 d1, g2 d2 with
     | Ok a, Ok b => RA r a b | Err e, Err e' => e = e' | Panic, Panic | Diverge, Diverge => True | _, _ => False end) ->
  trel k k r RA (t_read g1) (t_read g2).
Proof using Type.
  intros Hg f d1 d2 n H. specialize (Hg d1 d2 H). unfold t_read.
  destruct (g1 d1), (g2 d2); try done. split; [done|]. by exists r.
Qed.
Lemma rel_lift {A} k r (x : res A) : trel k k r same (t_lift x) (t_lift x).
Proof using Type. apply rel_read. intros d1 d2 _. by destruct x. Qed.
Lemma rel_maperr {A B} k k' r (RA : (N -> N -> Prop) -> A -> B -> Prop) e m1 m2 : trel k k' r RA m1 m2 -> trel k k' r RA (t_maperr e m1) (t_maperr e m2).
Proof using Type.
  intros Hm f d1 d2 n H. specialize (Hm f d1 d2 n H). unfold t_maperr.
  destruct (m1 f d1 n) as [[a [d1' n1]]| | |], (m2 f d2 n) as [[b [d2' n2]]| | |]; done.
Qed.
Lemma rel_if {A B} k k' r (RA : (N -> N -> Prop) -> A -> B -> Prop) (c1 c2 : bool) m1 m2 m1' m2' : c1 = c2 ->
  (c1 = true -> trel k k' r RA m1 m2) -> (c1 = false -> trel k k' r RA m1' m2') ->
  trel k k' r RA (if c1 then m1 else m1') (if c2 then m2 else m2').
Proof using Type. intros <-. destruct c1; auto 10. Qed.
Lemma rel_weak {A B} k k1 k2 r (RA : (N -> N -> Prop) -> A -> B -> Prop) m1 m2 : (k2 <= k1)%N -> trel k k1 r RA m1 m2 -> trel k k2 r RA m1 m2.
Proof using Type.
  intros Hk Hm f d1 d2 n H. specialize (Hm f d1 d2 n H).
  destruct (m1 f d1 n) as [[a [d1' n1]]| | |], (m2 f d2 n) as [[b [d2' n2]]| | |]; try done.
  destruct Hm as (-> & r' & Hr & Hi & Ha). split; [done|]. exists r'. split; [done|]. split; [|done]. by eapply iso_weak.
Qed.

(** ** Reading *)
Lemma iso_get_id k r d1 d2 s : iso k r d1 d2 -> exists a b, get_id s d1 = Ok a /\ get_id s d2 = Ok b /\ rid r a b.
Proof using Type.
  intros H. pose proof (io_dn _ _ _ _ H s) as Hs. unfold get_id.
  destruct (dn2id d1 !! s) as [v|], (dn2id d2 !! s) as [w|]; try done; [|exists 0%N, 0%N; by repeat split; left].
  destruct Hs as (i & j & Hr & -> & ->). rewrite !id_bytes_length. cbn [Nat.ltb Nat.leb].
  pose proof (io_lt _ _ _ _ _ _ H Hr) as [H1 H2].
  rewrite !take_ge by by rewrite id_bytes_length. rewrite !id_val by lia. exists i, j. split; [done|]. split; [done|]. by right.
Qed.
Lemma rel_get_id k r s : trel k k r rid (t_read (get_id s)) (t_read (get_id s)).
Proof using Type. apply rel_read. intros d1 d2 H. by destruct (iso_get_id k r d1 d2 s H) as (a & b & -> & -> & Hr). Qed.
Lemma rid_zero r a b : rid r a b -> (a =? 0)%N = (b =? 0)%N.
Proof using Type. intros [[-> ->]|(_ & H1 & H2)]; [done|]. by rewrite !(proj2 (N.eqb_neq _ _)) by lia. Qed.
Lemma rid_some r a b : rid r a b -> (a =? 0)%N = false -> r a b.
Proof using Type. intros [[-> ->]|[H _]]; done. Qed.
Definition rentry (r : N -> N -> Prop) (p q : entry * N) : Prop := p.1 = q.1 /\ r p.2 q.2.
Lemma iso_get_entry k r d1 d2 i j : iso k r d1 d2 -> r i j -> get_entry i d1 = get_entry j d2.
Proof using Type. intros H Hr. unfold get_entry. by rewrite (io_ent _ _ _ _ H _ _ Hr). Qed.
Lemma rel_by_dn k r s : trel k k r rentry (t_read (get_entry_by_dn s)) (t_read (get_entry_by_dn s)).
Proof using Type.
  apply rel_read. intros d1 d2 H. destruct (iso_get_id k r d1 d2 s H) as (a & b & E1 & E2 & Hr).
  unfold get_entry_by_dn. rewrite E1, E2. cbn [rbind]. rewrite <- (rid_zero _ _ _ Hr).
  destruct (a =? 0)%N eqn:Ea; [done|]. rewrite (iso_get_entry _ _ _ _ a b H) by by apply rid_some.
  unfold get_entry. destruct (id2ent d2 !! id_bytes b); [|done]. split; [done|]. by apply rid_some.
Qed.
Definition rraw (r : N -> N -> Prop) (x y : str) : Prop := exists l1 l2, x = ids l1 /\ y = ids l2 /\ Forall2 r l1 l2.
Lemma rel_raw k r i j : r i j ->
  trel k k r rraw (t_read (fun d => Ok (raw_children i d))) (t_read (fun d => Ok (raw_children j d))).
Proof using Type. intros Hr. apply rel_read. intros d1 d2 H. by apply (io_ch _ _ _ _ H). Qed.
Lemma children_ids i d l : raw_children i d = ids l -> Forall (fun j => (j < 2 ^ 64)%N) l -> get_children d i = l.
Proof using Type. intros E H. unfold get_children. rewrite E. unfold ids. rewrite chunks8_ids. by apply ids_vals. Qed.
Lemma iso_lt_l k r d1 d2 l1 l2 : iso k r d1 d2 -> Forall2 r l1 l2 -> Forall (fun j => (j < 2 ^ 64)%N) l1 /\ Forall (fun j => (j < 2 ^ 64)%N) l2.
Proof using Type.
  intros H. induction 1 as [|i j l1 l2 Hr _ [IH1 IH2]]; [by split|]. pose proof (io_lt _ _ _ _ _ _ H Hr). split; constructor; try done; lia.
Qed.
Lemma iso_children k r d1 d2 i j : iso k r d1 d2 -> r i j -> Forall2 r (get_children d1 i) (get_children d2 j).
Proof using Type.
  intros H Hr. destruct (io_ch _ _ _ _ H _ _ Hr) as (l1 & l2 & E1 & E2 & HF). destruct (iso_lt_l _ _ _ _ _ _ H HF) as [L1 L2].
  by rewrite (children_ids _ _ _ E1 L1), (children_ids _ _ _ E2 L2).
Qed.

(** ** Writing *)
Lemma id_key i : key_ok (id_bytes i) = true.
Proof using Type. unfold key_ok. rewrite id_bytes_length. pose proof (id_bytes_length i). by destruct (id_bytes i). Qed.
Lemma rel_write {A B} k k' r (RA : (N -> N -> Prop) -> A -> B -> Prop) g1 g2 :
  (forall d1 d2, iso k r d1 d2 -> match g1 d1, g2 d2 with
     | Ok (a, d1'), Ok (b, d2') => exists r' : N -> N -> Prop, (forall i j, r i j -> r' i j) /\ iso k' r' d1' d2' /\ RA r' a b
     | Err e, Err e' => e = e' | Panic, Panic | Diverge, Diverge => True | _, _ => False end) ->
  trel k k' r RA (t_write g1) (t_write g2).
Proof using Type.
  intros Hg f d1 d2 n H. specialize (Hg d1 d2 H). unfold t_write. destruct (f n); [done|].
  destruct (g1 d1) as [[a d1']| | |], (g2 d2) as [[b d2']| | |]; try done.
Qed.
Lemma rel_put_ent k r i j e : r i j -> trel k k r same (put_id2ent (id_bytes i) e) (put_id2ent (id_bytes j) e).
Proof using Type.
  intros Hr. apply rel_write. intros d1 d2 H. rewrite !id_key. exists r. split; [done|]. split; [|done].
  destruct (io_lt _ _ _ _ _ _ H Hr). pose proof (io_pos _ _ _ _ H _ _ Hr). pose proof H as []. split; try done; cbn.
  - intros i' j' Hr'. destruct (io_lt _ _ _ _ _ _ H Hr').
    destruct (decide (i = i')) as [<-|Hne].
    + assert (j' = j) as -> by by eapply io_fun0. by rewrite !lookup_insert.
    + rewrite !lookup_insert_ne; [by apply io_ent0| |].
      * intros E. apply id_bytes_inj in E; [|lia..]. subst j'. apply Hne. by eapply io_inj0.
      * intros E. apply id_bytes_inj in E; [|lia..]. done.
  - intros i' Hi'. rewrite lookup_insert_ne by (intros E; apply id_bytes_inj in E; lia). by apply io_new3.
  - intros i' Hi'. rewrite lookup_insert_ne by (intros E; apply id_bytes_inj in E; lia). by apply io_new4.
Qed.
Lemma rel_del_ent k r i j : r i j -> trel k k r same (del_id2ent (id_bytes i)) (del_id2ent (id_bytes j)).
Proof using Type.
  intros Hr. apply rel_write. intros d1 d2 H. exists r. split; [done|]. split; [|done].
  destruct (io_lt _ _ _ _ _ _ H Hr). pose proof (io_pos _ _ _ _ H _ _ Hr). pose proof H as []. split; try done; cbn.
  - intros i' j' Hr'. destruct (io_lt _ _ _ _ _ _ H Hr').
    destruct (decide (i = i')) as [<-|Hne].
    + assert (j' = j) as -> by by eapply io_fun0. by rewrite !lookup_delete.
    + rewrite !lookup_delete_ne; [by apply io_ent0| |].
      * intros E. apply id_bytes_inj in E; [|lia..]. subst j'. apply Hne. by eapply io_inj0.
      * intros E. apply id_bytes_inj in E; [|lia..]. done.
  - intros i' Hi'. rewrite lookup_delete_ne by (intros E; apply id_bytes_inj in E; lia). by apply io_new3.
  - intros i' Hi'. rewrite lookup_delete_ne by (intros E; apply id_bytes_inj in E; lia). by apply io_new4.
Qed.
Lemma raw_put (i' i : N) (v : str) (x : db) ch en q : (i < 2 ^ 64)%N -> (i' < 2 ^ 64)%N ->
  raw_children i' (mkDb (dn2id x) (<[id_bytes i := v]> ch) en q) = if decide (i = i') then v else default [] (ch !! id_bytes i').
Proof using Type.
  intros H1 H2. unfold raw_children. cbn. destruct (decide (i = i')) as [<-|Hne]; [by rewrite lookup_insert|].
  rewrite lookup_insert_ne; [done|]. intros E. by apply id_bytes_inj in E.
Qed.
Lemma rel_put_ch k r i j v w : r i j -> rraw r v w -> trel k k r same (put_id2ch (id_bytes i) v) (put_id2ch (id_bytes j) w).
Proof using Type.
  intros Hr (l1 & l2 & -> & -> & HF). apply rel_write. intros d1 d2 H. rewrite !id_key. exists r. split; [done|]. split; [|done].
  destruct (io_lt _ _ _ _ _ _ H Hr). pose proof (io_pos _ _ _ _ H _ _ Hr). pose proof H as []. split; try done.
  - intros i' j' Hr'. destruct (io_lt _ _ _ _ _ _ H Hr'). rewrite !raw_put by lia.
    destruct (decide (i = i')) as [<-|Hne].
    + assert (j' = j) as -> by by eapply io_fun0. rewrite decide_True by done. by exists l1, l2.
    + rewrite decide_False; [by apply io_ch0|]. intros <-. apply Hne. by eapply io_inj0.
  - cbn [idseq id2ent]. intros i' Hi'. rewrite raw_put by lia. rewrite decide_False by lia. by apply io_new3.
  - cbn [idseq id2ent]. intros i' Hi'. rewrite raw_put by lia. rewrite decide_False by lia. by apply io_new4.
Qed.
Lemma rel_put_dn k r s i j : r i j -> trel k k r same (put_dn2id s (id_bytes i)) (put_dn2id s (id_bytes j)).
Proof using Type.
  intros Hr. apply rel_write. intros d1 d2 H. destruct (key_ok s); [|done]. exists r. split; [done|]. split; [|done].
  pose proof H as []. split; try done. cbn. intros s'. destruct (decide (s = s')) as [<-|Hne].
  - rewrite !lookup_insert. by exists i, j.
  - rewrite !lookup_insert_ne by done. apply io_dn0.
Qed.
Lemma rel_del_dn k r s : trel k k r same (del_dn2id s) (del_dn2id s).
Proof using Type.
  apply rel_write. intros d1 d2 H. exists r. split; [done|]. split; [|done].
  pose proof H as []. split; try done. cbn. intros s'. destruct (decide (s = s')) as [<-|Hne].
  - by rewrite !lookup_delete.
  - rewrite !lookup_delete_ne by done. apply io_dn0.
Qed.
Lemma rel_next k r : trel (k + 1) k r (fun r' => r') next_seq next_seq.
Proof using Type.
  apply rel_write. intros d1 d2 H. pose proof (io_seq _ _ _ _ H) as [Q1 Q2].
  rewrite !N.mod_small by lia. set (s1 := (idseq d1 + 1)%N). set (s2 := (idseq d2 + 1)%N).
  exists (fun i j => r i j \/ (i = s1 /\ j = s2)). split; [by left|]. split; [|by right].
  pose proof H as []. split; cbn [idseq dn2id id2ent id2ch].
  - intros i j j' [H1|[-> ->]] [H2|[E ->]]; try done; [by eapply io_fun0| |].
    + apply io_pos0 in H1. unfold s1 in *. lia.
    + apply io_pos0 in H2. unfold s1 in *. lia.
  - intros i i' j [H1|[-> ->]] [H2|[-> E]]; try done; [by eapply io_inj0| |].
    + apply io_pos0 in H1. unfold s2 in *. lia.
    + apply io_pos0 in H2. unfold s2 in *. lia.
  - intros i j [H1|[-> ->]]; [apply io_pos0 in H1|]; unfold s1, s2; lia.
  - unfold s1, s2. lia.
  - intros s. specialize (io_dn0 s). destruct (dn2id d1 !! s), (dn2id d2 !! s); try done.
    destruct io_dn0 as (i & j & ? & ? & ?). exists i, j. auto 10.
  - intros i j [H1|[-> ->]]; [by apply io_ent0|].
    destruct (io_new3 s1) as [_ E1]; [unfold s1; lia|]. destruct (io_new4 s2) as [_ E2]; [unfold s2; lia|].
    rewrite E1. symmetry. exact E2.
  - intros i j [H1|[-> ->]].
    + destruct (io_ch0 _ _ H1) as (l1 & l2 & E1 & E2 & HF). exists l1, l2. split; [done|]. split; [done|].
      eapply Forall2_impl; [exact HF|]. by left.
    + exists [], []. split; [apply (io_new3 s1); unfold s1; lia|]. split; [apply (io_new4 s2); unfold s2; lia|]. constructor.
  - intros i Hi. apply (io_new3 i). unfold s1 in Hi. lia.
  - intros i Hi. apply (io_new4 i). unfold s2 in Hi. lia.
Qed.

(** ** The operations *)
Lemma rraw_empty r v w : rraw r v w -> is_empty v = is_empty w.
Proof using Type.
  intros (l1 & l2 & -> & -> & HF). destruct HF as [|i j l1 l2]; [done|]. unfold ids. cbn [map concat].
  pose proof (id_bytes_length i). pose proof (id_bytes_length j). by destruct (id_bytes i), (id_bytes j).
Qed.
Lemma rel_put base e s ps k r : trel (k + 1) k r same (entry_put_tx base e s ps) (entry_put_tx base e s ps).
Proof using Type.
  unfold entry_put_tx. eapply rel_bind; [apply rel_get_id|]. intros r1 a b _ Hab.
  apply rel_if; [by rewrite (rid_zero _ _ _ Hab)|intros _; apply rel_err|intros _].
  eapply rel_bind; [apply rel_next|]. cbn beta. intros r2 i j Hr2 Hij.
  eapply rel_bind; [by apply rel_put_ent|]. intros r3 [] [] Hr3 _.
  eapply (rel_bind _ _ _ _ same).
  { apply rel_if; [done|intros _; by apply rel_ret|intros _]. unfold add_child.
    eapply rel_bind; [apply rel_get_id|]. intros r4 p q Hr4 Hpq.
    apply rel_if; [by rewrite (rid_zero _ _ _ Hpq)|intros _; apply rel_err|intros Ep].
    apply rid_some in Hpq; [|done].
    eapply rel_bind; [by apply rel_raw|]. intros r5 v w Hr5 (l1 & l2 & -> & -> & HF).
    apply rel_put_ch; [by apply Hr5|]. exists (l1 ++ [i]), (l2 ++ [j]). unfold ids. rewrite !map_app, !concat_app. cbn [map concat].
    rewrite !app_nil_r. split; [done|]. split; [done|]. apply Forall2_app; [done|]. constructor; [|constructor]. auto 10. }
  intros r4 [] [] Hr4 _. apply rel_put_dn. auto 10.
Qed.
Lemma rel_delete s ps k r : trel k k r same (entry_delete_tx s ps) (entry_delete_tx s ps).
Proof using Type.
  unfold entry_delete_tx. eapply rel_bind; [apply rel_get_id|]. intros r1 a b _ Hab.
  apply rel_if; [by rewrite (rid_zero _ _ _ Hab)|intros _; apply rel_err|intros Ea]. apply rid_some in Hab; [|done].
  eapply rel_bind; [by apply rel_raw|]. intros r2 v w Hr2 Hvw.
  apply rel_if; [by rewrite (rraw_empty _ _ _ Hvw)|intros _; apply rel_err|intros _].
  eapply rel_bind; [apply rel_get_id|]. intros r3 p q Hr3 Hpq.
  apply rel_if; [by rewrite (rid_zero _ _ _ Hpq)|intros _; apply rel_err|intros Ep]. apply rid_some in Hpq; [|done].
  eapply rel_bind; [by apply rel_raw|]. intros r4 v' w' Hr4 (l1 & l2 & -> & -> & HF).
  eapply (rel_bind _ _ _ _ same).
  { intros f d1 d2 n Hd. revert f d1 d2 n Hd.
    intros f d1 d2 n Hd. destruct (iso_lt_l _ _ _ _ _ _ Hd HF) as [L1 L2].
    apply rel_put_ch; [by apply Hr4| |done]. unfold ids. rewrite !chunks8_ids, !ids_filter by done.
    exists (bfilter (fun x => negb (x =? a)%N) l1), (bfilter (fun x => negb (x =? b)%N) l2). split; [done|]. split; [done|].
    assert (Hab' : r4 a b) by auto 10. clear -HF Hab' Hd. induction HF as [|i j l1 l2 Hij HF IH]; [constructor|]. cbn [List.filter].
    assert ((i =? a)%N = (j =? b)%N) as ->.
    { destruct (N.eqb_spec i a) as [->|Hne].
      - symmetry. apply N.eqb_eq. by eapply (io_fun _ _ _ _ Hd).
      - symmetry. apply N.eqb_neq. intros ->. apply Hne. by eapply (io_inj _ _ _ _ Hd). }
    destruct (j =? b)%N; [done|]. by constructor. }
  intros r5 [] [] Hr5 _. eapply (rel_bind _ _ _ _ same); [apply rel_del_dn|]. intros r6 [] [] Hr6 _.
  apply rel_del_ent. auto 10.
Qed.
Lemma rel_modify_with i j e q k r : r i j -> trel k k r same (entry_modify_with i e q) (entry_modify_with j e q).
Proof using Type.
  intros Hr. unfold entry_modify_with. eapply rel_bind; [apply rel_lift|]. intros r1 a b Hr1 <-. apply rel_put_ent. auto 10.
Qed.
Lemma rel_moddn so sn x ro rn k r : trel k k r same (entry_moddn_tx so sn x ro rn) (entry_moddn_tx so sn x ro rn).
Proof using Type.
  unfold entry_moddn_tx. eapply rel_bind; [apply rel_get_id|]. intros r1 a b _ Hab.
  apply rel_if; [by rewrite (rid_zero _ _ _ Hab)|intros _; apply rel_err|intros _].
  eapply rel_bind; [apply rel_by_dn|]. intros r2 p q Hr2 [Hp Hq].
  eapply (rel_bind _ _ _ _ (fun r0 => Forall2 r0)).
  { apply rel_read. intros d1 d2 Hd. by eapply iso_children. }
  intros r3 l1 l2 Hr3 HF.
  apply rel_if; [by destruct HF|intros _; apply rel_err|intros _].
  rewrite <- Hp. eapply (rel_bind _ _ _ _ same); [apply rel_modify_with; auto 10|]. intros r4 [] [] Hr4 _.
  eapply (rel_bind _ _ _ _ same); [apply rel_put_dn; auto 10|]. intros r5 [] [] Hr5 _. apply rel_del_dn.
Qed.
Lemma rel_op base o k r m : op_body base o = Ok m -> trel (k + 1) k r same m m.
Proof using Type.
  assert (Hw : trel (k + 1) (k + 1) r same m m -> trel (k + 1) k r same m m) by (apply rel_weak; lia).
  destruct o as [e|s|q|q|q]; cbn [op_body].
  - unfold entry_put. destruct (parse_dn (e_dn e)) as [[|? ?]|]; try done. destruct (negb _); [done|]. intros [= <-]. apply rel_put.
  - unfold entry_delete. destruct (parse_dn s) as [[|? ?]|]; try done. intros [= <-]. apply Hw, rel_delete.
  - unfold entry_modify. destruct (parse_normalize (m_dn q)); try done. intros [= <-]. apply Hw.
    eapply rel_bind; [apply rel_by_dn|]. intros r2 p p' Hr2 [Hp Hq]. rewrite Hp. by apply rel_modify_with.
  - unfold entry_moddn. destruct (parse_dn (md_dn q)) as [[|? ?]|], (parse_dn (md_newrdn q)) as [[|? ?]|]; try done.
    intros [= <-]. apply Hw, rel_moddn.
  - unfold update_password. destruct (parse_normalize (pw_user q)); try done. intros [= <-]. apply Hw.
    eapply rel_bind; [apply rel_by_dn|]. intros r2 p p' Hr2 [Hp Hq]. rewrite Hp.
    eapply rel_bind; [apply rel_lift|]. intros r3 [] [] Hr3 _. apply rel_maperr, rel_modify_with. auto 10.
Qed.
(** An operation in any environment ends alike on both. *)
Lemma iso_op base ev o k r d1 d2 : iso (k + 1) r d1 d2 ->
  (run_op base ev o d1).1 = (run_op base ev o d2).1 /\ exists r', iso k r' (run_op base ev o d1).2 (run_op base ev o d2).2.
Proof using Type.
  intros H. assert (Hw : iso k r d1 d2) by (eapply iso_weak; [|exact H]; lia).
  unfold run_op. destruct (op_body base o) as [m|e| |] eqn:E; try by (split; [done|]; exists r).
  pose proof (rel_op base o k r m E (e_fault ev) d1 d2 0 H) as Hm. unfold update.
  destruct (m (e_fault ev) d1 0) as [[[] [d1' n1]]| | |], (m (e_fault ev) d2 0) as [[[] [d2' n2]]| | |]; try done;
    try (by cbn in Hm; subst; split; [done|]; exists r).
  destruct Hm as (_ & r' & _ & Hi & _). destruct (e_commit ev); (split; [done|]); by eexists.
Qed.

(** ** Searching *)
Lemma subtree_mono d fuel : forall fuel' i l, fuel <= fuel' -> subtree fuel d i = Ok l -> subtree fuel' d i = Ok l.
Proof using Type.
  induction fuel as [|fuel IH]; intros fuel' i l Hle; [done|]. destruct fuel' as [|fuel']; [lia|]. cbn [subtree].
  generalize (get_children d i) at 2 4. generalize (get_children d i).
  intros cs. induction cs as [|c cs IHc]; intros acc; [done|].
  destruct (subtree fuel d c) as [sub|e| |] eqn:E; try done. rewrite (IH fuel' c sub) by (lia || done). cbn [rbind]. apply IHc.
Qed.
Lemma subtree_rel k r d1 d2 fuel : iso k r d1 d2 -> forall i j, r i j ->
  match subtree fuel d1 i, subtree fuel d2 j with
  | Ok l1, Ok l2 => Forall2 r l1 l2
  | Diverge, Diverge => True
  | _, _ => False
  end.
Proof using Type.
  intros H. induction fuel as [|fuel IH]; intros i j Hr; [done|]. cbn [subtree].
  pose proof (iso_children _ _ _ _ _ _ H Hr) as HF.
  assert (Hg : forall a1 a2 c1 c2, Forall2 r a1 a2 -> Forall2 r c1 c2 ->
    match (fix each (l acc : list N) : res (list N) :=
      match l with [] => Ok acc | c :: l' => sub <-- subtree fuel d1 c ;; each l' (acc ++ sub) end) c1 a1,
     (fix each (l acc : list N) : res (list N) :=
      match l with [] => Ok acc | c :: l' => sub <-- subtree fuel d2 c ;; each l' (acc ++ sub) end) c2 a2 with
    | Ok l1, Ok l2 => Forall2 r l1 l2 | Diverge, Diverge => True | _, _ => False end).
  { intros a1 a2 c1 c2 Ha Hc. revert a1 a2 Ha. induction Hc as [|x y c1 c2 Hxy Hc IHc]; intros a1 a2 Ha; [done|].
    specialize (IH x y Hxy). destruct (subtree fuel d1 x), (subtree fuel d2 y); try done. cbn [rbind].
    apply IHc. by apply Forall2_app. }
  by apply Hg.
Qed.
Lemma fetch_rel k r d1 d2 l1 l2 : iso k r d1 d2 -> Forall2 r l1 l2 -> fetch d1 l1 = fetch d2 l2.
Proof using Type.
  intros H. induction 1 as [|i j l1 l2 Hr _ IH]; [done|]. cbn [fetch]. by rewrite (iso_get_entry _ _ _ _ _ _ H Hr), IH.
Qed.
Lemma iso_search k r d1 d2 s scope : iso k r d1 d2 -> search d1 s scope <> Diverge -> search d2 s scope <> Diverge ->
  search d1 s scope = search d2 s scope.
Proof using Type.
  intros H. unfold search. destruct (parse_normalize s) as [n|]; [|done].
  destruct (iso_get_id k r d1 d2 n H) as (a & b & -> & -> & Hab). cbn [rbind]. rewrite (rid_zero _ _ _ Hab).
  destruct (b =? 0)%N eqn:Eb; [done|]. rewrite <- (rid_zero _ _ _ Hab) in Eb. apply rid_some in Hab; [|done].
  destruct (scope =? ScopeBase)%Z; [intros _ _; f_equal; by eapply fetch_rel; [|constructor]|].
  destruct (scope =? ScopeOne)%Z; [intros _ _; f_equal; eapply fetch_rel; [done|]; by eapply iso_children|].
  destruct (scope =? ScopeSub)%Z; [|done].
  pose proof (subtree_rel _ _ _ _ (S (size (id2ch d1))) H _ _ Hab) as X1.
  pose proof (subtree_rel _ _ _ _ (S (size (id2ch d2))) H _ _ Hab) as X2.
  destruct (subtree (S (size (id2ch d1))) d1 a) as [l1|e| |] eqn:E1; [|destruct X1..|by intros []].
  destruct (subtree (S (size (id2ch d2))) d2 b) as [l2|e| |] eqn:E2; [|by destruct (subtree (S (size (id2ch d2))) d1 a)..|by intros _ []].
  intros _ _. cbn [rbind]. f_equal.
  pose proof (subtree_rel _ _ _ _ (max (S (size (id2ch d1))) (S (size (id2ch d2)))) H _ _ Hab) as Hx.
  rewrite (subtree_mono d1 _ _ _ _ (Nat.le_max_l _ _) E1), (subtree_mono d2 _ _ _ _ (Nat.le_max_r _ _) E2) in Hx.
  eapply fetch_rel; [done|]. by constructor.
Qed.
End iso.

(** * One message on two databases that give equal results *)
Section equal.
Context {T : Text} {C : Crypto} {W : Wire} (R : db -> db -> Prop) (c : bolt_cfg) (ev : renv env) (d1 d2 : db).
Definition both {A} (x1 x2 : hout A * db) : Prop := x1.1 = x2.1 /\ R x1.2 x2.2.
Context (HW : forall o tr, op_ok o -> both (bolt_write c (re_h ev) o tr d1) (bolt_write c (re_h ev) o tr d2)).
Context (HS : forall s scope, search d1 s scope = search d2 s scope) (HI : R d1 d2).
Lemma both_idle {A} (x : hout A) : both (x, d1) (x, d2).
Proof using HI. by split. Qed.
Definition twins (r1 r2 : result) : Prop := r_next r1 = r_next r2 /\ r_out r1 = r_out r2 /\ R (r_state r1) (r_state r2).
Lemma final_twins k l r x s1 s2 : R s1 s2 -> twins (send_final ev k l r x s1) (send_final ev k l r x s2).
Proof using Type. intros H. unfold send_final. by destruct (re_send ev k). Qed.
Lemma finish_twins id tag bound x1 x2 : both x1 x2 -> twins (finish ev id tag bound x1) (finish ev id tag bound x2).
Proof using Type.
  destruct x1 as [a1 s1], x2 as [a2 s2]. intros [E H]. cbn in E, H. subst a2.
  destruct a1 as [[code e]| |]; cbn [finish]; [by apply final_twins|done..].
Qed.
Lemma lift_both {A} (r : res A) (k1 k2 : A -> hout answer * db) :
  (forall a, r = Ok a -> both (k1 a) (k2 a)) -> both (lift_res r k1 d1) (lift_res r k2 d2).
Proof using HI.
  intros H. destruct r as [a|e| |]; cbn [lift_res]; [by apply H| |apply both_idle..].
  destruct e; apply both_idle.
Qed.
Lemma write_both o tr : op_ok o -> both (bolt_write c (re_h ev) o tr d1) (bolt_write c (re_h ev) o tr d2).
Proof using HW. apply HW. Qed.

Lemma handle_equal cfg bound p :
  dn_text_ok bound -> clean p ->
  twins (handle cfg (bolt_handler c) ev bound p d1) (handle cfg (bolt_handler c) ev bound p d2).
Proof using HW HS HI.
  intros Hbd [Hops _].
  assert (Hidle : forall (l : list response) x, twins (mkResult l x d1) (mkResult l x d2)).
  { by intros l x. }
  unfold handle. destruct (p_kids p) as [|i [|req rest]] eqn:Ek; [apply Hidle..|].
  destruct (as_int (p_val i)) as [id|] eqn:Ei; [|apply Hidle]. apply as_int_inv in Ei.
  destruct (N.eqb_spec (p_cls req) ClassApplication) as [Ecl|]; [|apply Hidle]. cbn [negb].
  destruct (match rest with [] => true | c0 :: _ => decode_controls (p_kids c0) end); [|apply Hidle].
  assert (Henv : envelope p id req) by (exists i, rest; done).
  assert (Hask : forall o, says_write req o -> op_ok o).
  { intros o Ho. apply (Hops bound); [done|]. exists i, req, rest, id. auto. }
  assert (Hw : forall A (r : res A) (mk : A -> op) tr,
    (forall a, r = Ok a -> says_write req (mk a)) ->
    both (lift_res r (fun a => if write_allowed c bound then bolt_write c (re_h ev) (mk a) tr d1 else (HRet (InsufficientAccessRights, false), d1)) d1)
         (lift_res r (fun a => if write_allowed c bound then bolt_write c (re_h ev) (mk a) tr d2 else (HRet (InsufficientAccessRights, false), d2)) d2)).
  { intros A r mk tr Hr. apply lift_both. intros a Ha. destruct (write_allowed c bound); [|apply both_idle].
    apply write_both. apply Hask. by apply Hr. }
  unfold dispatch.
  destruct (N.eqb_spec (p_tag req) AddRequest) as [Et|_].
  { unfold handle_add. apply finish_twins. destruct (is_empty bound); [apply both_idle|].
    apply (Hw add_req (parse_add req) (fun r => OpPut (entry_from_add r))).
    intros a Ha. split; [done|]. left. split; [done|]. exists a. split; [by apply add_iff|done]. }
  destruct (N.eqb_spec (p_tag req) BindRequest) as [Et|_].
  { assert (Hbb : (handle_bind (bolt_handler c) ev req d1).1 = (handle_bind (bolt_handler c) ev req d2).1 /\
      (handle_bind (bolt_handler c) ev req d1).2 = d1 /\ (handle_bind (bolt_handler c) ev req d2).2 = d2).
    { unfold handle_bind. destruct (p_kids req) as [|v rs] eqn:Er; [done|].
      destruct (as_int (p_val v)) as [z|] eqn:Ev; [|done]. apply as_int_inv in Ev.
      destruct (Z.eqb_spec z 3) as [->|]; [|done]. cbn [negb].
      destruct rs as [|x rs]; [done|]. destruct (as_str (p_val x)) as [dn|] eqn:Ex; [|done]. apply as_str_inv in Ex.
      destruct rs as [|a rs]; [done|]. destruct (N.eqb_spec (p_tag a) 0) as [Ea|]; [|done]. cbn [negb].
      destruct rs as [|? ?]; [|done]. cbn [is_empty negb].
      cbn [h_bind bolt_handler].
      assert (Hx : (bolt_bind c (re_h ev) dn (p_data a) d1).1 = (bolt_bind c (re_h ev) dn (p_data a) d2).1).
      { unfold bolt_bind, bolt_validate. cbn [fst]. destruct (parse_normalize dn); [by rewrite HS|done]. }
      assert (H1 : (bolt_bind c (re_h ev) dn (p_data a) d1).2 = d1) by done.
      assert (H2 : (bolt_bind c (re_h ev) dn (p_data a) d2).2 = d2) by done.
      destruct (bolt_bind c (re_h ev) dn (p_data a) d1) as [x1 s1], (bolt_bind c (re_h ev) dn (p_data a) d2) as [x2 s2].
      cbn in Hx, H1, H2. subst. by destruct x2 as [[code [|]]| |]. }
    destruct (handle_bind (bolt_handler c) ev req d1) as [x1 s1], (handle_bind (bolt_handler c) ev req d2) as [x2 s2].
    cbn in Hbb. destruct Hbb as (-> & -> & ->).
    destruct x2 as [code| |]; [|apply Hidle..].
    destruct (code =? Success)%N; [|by apply final_twins].
    destruct (p_kids req) as [|v [|x rs]]; [apply Hidle..|]. destruct (as_str (p_val x)) as [dn|]; [|apply Hidle].
    destruct (parse_normalize dn); [by apply final_twins|apply Hidle]. }
  destruct (p_tag req =? CompareRequest)%N; [by apply final_twins|].
  destruct (N.eqb_spec (p_tag req) DelRequest) as [Et|_].
  { unfold handle_delete. apply finish_twins. destruct (is_empty bound); [apply both_idle|].
    apply (Hw str (parse_delete req) OpDelete).
    intros a Ha. split; [done|]. right; left. split; [done|]. exists a. split; [by apply delete_iff|done]. }
  destruct (N.eqb_spec (p_tag req) ExtendedRequest) as [Et|_].
  { assert (Hx : both (handle_extended cfg (bolt_handler c) ev bound req d1) (handle_extended cfg (bolt_handler c) ev bound req d2)).
    { unfold handle_extended. destruct (parse_extended req) as [[oid body]|e| |] eqn:Ep; [|apply both_idle..].
      destruct (seqb oid pwmod_oid) eqn:Eo; [|apply both_idle]. apply seqb_eq in Eo as ->.
      assert (Hpw : both (handle_pwmod cfg (bolt_handler c) ev bound body d1) (handle_pwmod cfg (bolt_handler c) ev bound body d2)).
      { unfold handle_pwmod. destruct (is_empty bound) eqn:Hbe; [apply both_idle|].
        destruct (parse_pwmod body) as [r|e| |] eqn:Er; [|destruct e; apply both_idle|apply both_idle..].
        set (user := if is_empty (pw_user r) then bound else pw_user r).
        destruct (if is_empty (pw_new r) then _ else _) as [pw|e| |]; [|apply both_idle..].
        destruct (hash_password pw _ _) as [hash|e| |]; [|apply both_idle..].
        cbn [h_password bolt_handler].
        assert (Hp : both (bolt_password c (re_h ev) bound (mkPw user (pw_old r) hash) d1) (bolt_password c (re_h ev) bound (mkPw user (pw_old r) hash) d2)).
        { assert (Ho : op_ok (OpPassword (mkPw user (pw_old r) hash))).
          { apply (Hops bound); [done|]. exists i, req, rest, id. split; [done|]. split; [done|]. right. exists r, hash.
            split; [apply password_iff; [done..|]; by exists body|]. unfold user. by destruct (pw_user r). }
          unfold bolt_password. cbn [pw_user]. rewrite Hbe. destruct (is_empty user); [by apply write_both|].
          destruct (parse_normalize user); [|apply both_idle]. destruct (_ && _); [apply both_idle|by apply write_both]. }
        destruct (bolt_password c (re_h ev) bound _ d1) as [x1 s1], (bolt_password c (re_h ev) bound _ d2) as [x2 s2].
        destruct Hp as [E H]. cbn in E, H. subst x2. destruct x1 as [[code e]| |]; [|by split..].
        destruct (code =? Success)%N; by split. }
      destruct (handle_pwmod cfg (bolt_handler c) ev bound body d1) as [x1 s1], (handle_pwmod cfg (bolt_handler c) ev bound body d2) as [x2 s2].
      destruct Hpw as [E H]. cbn in E, H. subst x2. destruct x1 as [[[code e] v]| |]; [|by split..].
      destruct (_ && _); by split. }
    destruct (handle_extended cfg (bolt_handler c) ev bound req d1) as [x1 s1], (handle_extended cfg (bolt_handler c) ev bound req d2) as [x2 s2].
    destruct Hx as [E H]. cbn in E, H. subst x2. destruct x1 as [[code v]| |]; [by apply final_twins|..];
      done. }
  destruct (N.eqb_spec (p_tag req) ModifyDNRequest) as [Et|_].
  { unfold handle_moddn. apply finish_twins. destruct (is_empty bound); [apply both_idle|].
    apply (Hw moddn_req (parse_moddn req) OpModDn).
    intros a Ha. split; [done|]. right; right; right. split; [done|]. exists a. split; [by apply moddn_iff|done]. }
  destruct (N.eqb_spec (p_tag req) ModifyRequest) as [Et|_].
  { unfold handle_modify. apply finish_twins. destruct (is_empty bound); [apply both_idle|].
    apply (Hw modify_req (parse_modify req) OpModify).
    intros a Ha. split; [done|]. right; right; left. split; [done|]. exists a. split; [by apply modify_iff|done]. }
  destruct (N.eqb_spec (p_tag req) SearchRequest) as [Et|_]; [|apply Hidle].
  unfold handle_search. destruct (parse_search req) as [r|e| |] eqn:Ep; [|by apply final_twins|apply Hidle..].
  cbn [h_search bolt_handler]. unfold bolt_search. rewrite HS.
  set (f := match search d2 (sr_base r) (sr_scope r) with Ok (es, _) => HRet (mkFound es Success false)
    | Err _ => HRet (mkFound [] Success false) | Panic => HPanic | Diverge => HKill end). clearbody f.
  destruct (sv_enforce cfg); [destruct (compile_filter (sr_filter r)) as [flt|]; [|by apply final_twins]|];
    (destruct f as [f| |]; [|apply Hidle..]); (destruct (f_err f); [by apply final_twins|]);
    match goal with |- context [search_loop ?x ?y ?z ?w ?es 0] => destruct (search_loop x y z w es 0) as [es' [[]|[]| |]] end;
    try apply Hidle; by apply final_twins.
Qed.
End equal.
