(** Consequences of the simulation in terms of [represents] and [reachable]. *)
From Verif Require Import Bytes Text Dn DnProofs Res Entry EntryProofs Password Db DbSpec
  IdProofs DbProofs DbOps DbSearch.

(** ** The counter *)
Definition tx_seq {A} (m : tx A) : Prop :=
  forall f d n a d' n', m f d n = Ok (a, (d', n')) -> idseq d' = idseq d.
Lemma seq_ret {A} (a : A) : tx_seq (t_ret a).
Proof. intros f d n x d' n' [= _ <- _]. done. Qed.
Lemma seq_err {A} e : tx_seq (@t_err A e).
Proof. intros f d n x d' n'. done. Qed.
Lemma seq_bind {A B} (m : tx A) (k : A -> tx B) :
  tx_seq m -> (forall a, tx_seq (k a)) -> tx_seq (t_bind m k).
Proof.
  intros Hm Hk f d n x d' n'. unfold t_bind.
  destruct (m f d n) as [[a [d1 n1]]| | |] eqn:E; try done.
  intros H. apply Hk in H. apply Hm in E. congruence.
Qed.
Lemma seq_read {A} (g : db -> res A) : tx_seq (t_read g).
Proof. intros f d n x d' n'. unfold t_read. destruct (g d); try done. by intros [= _ <- _]. Qed.
Lemma seq_lift {A} (r : res A) : tx_seq (t_lift r).
Proof. apply seq_read. Qed.
Lemma seq_put_dn2id k v : tx_seq (put_dn2id k v).
Proof.
  intros f d n x d' n'. unfold put_dn2id, t_write. destruct (f n); [done|].
  destruct (key_ok k); [|done]. by intros [= _ <- _].
Qed.
Lemma seq_put_id2ch k v : tx_seq (put_id2ch k v).
Proof.
  intros f d n x d' n'. unfold put_id2ch, t_write. destruct (f n); [done|].
  destruct (key_ok k); [|done]. by intros [= _ <- _].
Qed.
Lemma seq_put_id2ent k v : tx_seq (put_id2ent k v).
Proof.
  intros f d n x d' n'. unfold put_id2ent, t_write. destruct (f n); [done|].
  destruct (key_ok k); [|done]. by intros [= _ <- _].
Qed.
Lemma seq_del_dn2id k : tx_seq (del_dn2id k).
Proof. intros f d n x d' n'. unfold del_dn2id, t_write. destruct (f n); [done|]. by intros [= _ <- _]. Qed.
Lemma seq_del_id2ent k : tx_seq (del_id2ent k).
Proof. intros f d n x d' n'. unfold del_id2ent, t_write. destruct (f n); [done|]. by intros [= _ <- _]. Qed.
Lemma seq_maperr {A} e (m : tx A) : tx_seq m -> tx_seq (t_maperr e m).
Proof.
  intros Hm f d n x d' n'. unfold t_maperr. destruct (m f d n) eqn:E; try done.
  intros [= ->]. by eapply Hm.
Qed.
Lemma seq_if {A} (c : bool) (m1 m2 : tx A) : tx_seq m1 -> tx_seq m2 -> tx_seq (if c then m1 else m2).
Proof. by destruct c. Qed.
Ltac tseq := repeat first
  [ apply seq_bind | apply seq_ret | apply seq_err | apply seq_read | apply seq_lift
  | apply seq_put_dn2id | apply seq_put_id2ch | apply seq_put_id2ent | apply seq_del_dn2id
  | apply seq_del_id2ent | apply seq_maperr | apply seq_if | intros ?
  | progress unfold entry_modify_with, add_child ].

Section facts.
Context {T : Text} (HT : TextOK T) {C : Crypto}.

Lemma put_tx_id base e ndn pdn f d n x d' n' :
  (idseq d + 1 < 2 ^ 64)%N ->
  entry_put_tx base e ndn pdn f d n = Ok (x, (d', n')) ->
  idseq d' = (idseq d + 1)%N /\ dn2id d' !! ndn = Some (id_bytes (idseq d')).
Proof using Type.
  intros Hlt. unfold entry_put_tx. unfold t_bind at 1. unfold t_read at 1.
  destruct (get_id ndn d) as [i| | |]; try done.
  destruct (negb (i =? 0)%N); [done|].
  unfold t_bind at 1. unfold next_seq at 1. unfold t_write at 1. destruct (f n); [done|].
  rewrite N.mod_small by done.
  set (d1 := mkDb (dn2id d) (id2ch d) (id2ent d) (idseq d + 1)%N).
  unfold t_bind at 1.
  destruct (put_id2ent (id_bytes (idseq d + 1)) e f d1 (S n)) as [[[] [d2 n2]]| | |] eqn:E2; try done.
  unfold t_bind at 1.
  destruct ((if seqb ndn base then t_ret tt else add_child pdn (idseq d + 1)) f d2 n2)
    as [[[] [d3 n3]]| | |] eqn:E3; try done.
  intros H4. apply seq_put_id2ent in E2.
  assert (E3' : idseq d3 = idseq d2).
  { destruct (seqb ndn base).
    - by injection E3 as <- _.
    - revert E3. assert (Hc : tx_seq (add_child pdn (idseq d + 1))) by tseq. apply Hc. }
  pose proof (seq_put_dn2id _ _ _ _ _ _ _ _ H4) as E4.
  assert (Hid : idseq d' = (idseq d + 1)%N) by (rewrite E4, E3', E2; done).
  split; [done|]. rewrite Hid.
  unfold put_dn2id, t_write in H4. destruct (f n3); [done|]. destruct (key_ok ndn); [|done].
  injection H4 as _ <- _. simpl. by rewrite lookup_insert.
Qed.
Lemma run_put_id base ev e d d' :
  (idseq d + 1 < 2 ^ 64)%N -> run_op base ev (OpPut e) d = (Done (Ok tt), d') ->
  idseq d' = (idseq d + 1)%N /\
  exists s, parse_normalize (e_dn e) = Some s /\ dn2id d' !! s = Some (id_bytes (idseq d')).
Proof using Type.
  intros Hlt. unfold run_op. cbn [op_body]. unfold entry_put, parse_normalize.
  destruct (parse_dn (e_dn e)) as [[|r p]|]; try done.
  destruct (negb _); [done|]. unfold update.
  destruct (entry_put_tx _ _ _ _ _ _ _) as [[[] [d1 n1]]| | |] eqn:E; try done.
  destruct (e_commit ev); try done. intros [= <-].
  apply put_tx_id in E as [H1 H2]; [|done]. split; [done|]. by eexists.
Qed.
Lemma run_op_seq base ev o d out d' :
  (idseq d + 1 < 2 ^ 64)%N -> run_op base ev o d = (out, d') ->
  (idseq d <= idseq d' <= idseq d + 1)%N.
Proof using Type.
  intros Hlt H. destruct (run_op_atomic _ _ _ _ _ _ H) as [[-> _]|[Hf _]]; [lia|]. clear H.
  destruct o as [e|s|r|r|r].
  - apply run_put_id in Hf as [-> _]; [lia|done].
  - unfold run_op in Hf. cbn [op_body] in Hf. unfold entry_delete in Hf.
    destruct (parse_dn s) as [[|x p]|]; try done. unfold update in Hf.
    destruct (entry_delete_tx _ _ _ _ _) as [[[] [d1 n1]]| | |] eqn:E; try done.
    injection Hf as <-.
    assert (Hc : tx_seq (entry_delete_tx (normalize (x :: p)) (normalize p))) by (unfold entry_delete_tx; tseq).
    apply Hc in E. lia.
  - unfold run_op in Hf. cbn [op_body] in Hf. unfold entry_modify in Hf.
    destruct (parse_normalize (m_dn r)) as [ndn|]; try done. unfold update in Hf.
    destruct (t_bind _ _ _ _ _) as [[[] [d1 n1]]| | |] eqn:E; try done.
    injection Hf as <-. revert E. match goal with |- ?m _ _ _ = _ -> _ =>
      assert (Hc : tx_seq m) by tseq end. intros E. apply Hc in E. lia.
  - unfold run_op in Hf. cbn [op_body] in Hf. unfold entry_moddn in Hf.
    destruct (parse_dn (md_dn r)) as [[|x p]|]; destruct (parse_dn (md_newrdn r)) as [[|y q]|]; try done.
    unfold update in Hf.
    destruct (entry_moddn_tx _ _ _ _ _ _ _ _) as [[[] [d1 n1]]| | |] eqn:E; try done.
    injection Hf as <-. revert E. match goal with |- ?m _ _ _ = _ -> _ =>
      assert (Hc : tx_seq m) by (unfold entry_moddn_tx; tseq) end. intros E. apply Hc in E. lia.
  - unfold run_op in Hf. cbn [op_body] in Hf. unfold update_password in Hf.
    destruct (parse_normalize (pw_user r)) as [ndn|]; try done. unfold update in Hf.
    destruct (t_bind _ _ _ _ _) as [[[] [d1 n1]]| | |] eqn:E; try done.
    injection Hf as <-. revert E. match goal with |- ?m _ _ _ = _ -> _ =>
      assert (Hc : tx_seq m) by tseq end. intros E. apply Hc in E. lia.
Qed.
Lemma run_ops_seq base h d :
  (idseq d + N.of_nat (length h) < 2 ^ 64)%N ->
  (idseq d <= idseq (run_ops base h d) <= idseq d + N.of_nat (length h))%N.
Proof using Type.
  revert d. induction h as [|[ev o] h IH]; intros d Hlt; cbn [run_ops length]; [lia|].
  cbn [length] in Hlt.
  destruct (run_op base ev o d) as [out d'] eqn:E. cbn [snd].
  apply run_op_seq in E; [|lia]. specialize (IH d' ltac:(lia)). lia.
Qed.

(** ** Histories with an invariant of the directory *)
Lemma history_inv (b : dn) (h : list (env * op)) (d : db) (g : ghost) (P : dir -> Prop) :
  base_ok b -> sim b d g -> Forall (fun p => op_ok p.2) h ->
  (idseq d + N.of_nat (length h) < 2 ^ 64)%N ->
  P (snd <$> g) ->
  (forall p m m', In p h -> P m -> spec_op b p.2 m = Ok m' -> P m') ->
  exists g', sim b (run_ops (normalize b) h d) g' /\ P (snd <$> g').
Proof using HT.
  intros Hb. revert d g. induction h as [|[ev o] h IH]; intros d g Hs Hok Hseq HP Hstep; [eauto|].
  inversion Hok as [|? ? Ho Hh]; subst. simpl in Ho. cbn [run_ops].
  destruct (run_op (normalize b) ev o d) as [out d'] eqn:E. cbn [snd].
  cbn [length] in Hseq.
  assert (Hstep' : forall p m m', In p h -> P m -> spec_op b p.2 m = Ok m' -> P m').
  { intros p m m' Hp. apply Hstep. by right. }
  destruct (run_op_atomic _ _ _ _ _ _ E) as [[-> _]|[Hf _]].
  - apply (IH d g); try done. lia.
  - pose proof (refines_op HT b d g o Hb Hs Ho ltac:(lia)) as Hr. unfold refines in Hr.
    destruct (spec_op b o (snd <$> g)) as [m1|e| |] eqn:Es.
    + destruct Hr as (g1 & d1 & Hr & Hs' & Hg1 & Hle). rewrite Hf in Hr. injection Hr as ->.
      apply (IH d1 g1); try done; [lia|]. rewrite Hg1.
      apply (Hstep (ev, o) (snd <$> g)); [by left|done|done].
    + rewrite Hf in Hr. by injection Hr.
    + rewrite Hf in Hr. by injection Hr.
    + done.
Qed.

Lemma reachable_sim b d : base_ok b -> reachable b d ->
  (idseq d + 1 < 2 ^ 64)%N /\ exists g, sim b d g.
Proof using HT.
  intros Hb (h & Hok & Hlen & ->).
  assert (H0 : idseq empty_db = 0%N) by done. split.
  - pose proof (run_ops_seq (normalize b) h empty_db ltac:(lia)). lia.
  - apply sim_history with (m := ∅); [done|done|apply sim_empty|done|lia].
Qed.

(** ** represents *)
Lemma sim_represents b d g : sim b d g -> represents d (snd <$> g).
Proof using Type.
  intros Hs. split.
  - intros k e H. rewrite lookup_fmap in H. destruct (g !! k) as [[i e']|] eqn:E; [|done].
    injection H as <-. pose proof (s_key _ _ _ Hs _ _ _ E) as Hg.
    split; [apply Hg|]. split; [apply Hg|]. exists (id_bytes i).
    rewrite normalize_flat, (gk_fold _ _ Hg) by apply Hg. split.
    + apply (s_dn2id _ _ _ Hs). eauto 10.
    + apply (s_ent _ _ _ Hs). eauto.
  - intros s v H. apply (s_dn2id _ _ _ Hs) in H as (k & i & e & Hk & -> & ->).
    exists k, e. rewrite lookup_fmap, Hk. split; [done|].
    pose proof (s_key _ _ _ Hs _ _ _ Hk) as Hg.
    by rewrite normalize_flat, (gk_fold _ _ Hg) by apply Hg.
Qed.
Lemma represents_le d m m' k e : represents d m -> represents d m' -> m !! k = Some e -> m' !! k = Some e.
Proof using HT.
  intros H H' Hk. destruct (r_down _ _ H _ _ Hk) as (Hwf & Hf & v & Hv & He).
  destruct (r_up _ _ H' _ _ Hv) as (k' & e' & Hk' & Hn).
  destruct (r_down _ _ H' _ _ Hk') as (Hwf' & Hf' & v' & Hv' & He').
  apply (normalize_inj HT) in Hn; [|done|done]. rewrite Hf, Hf' in Hn. subst k'.
  rewrite Hv in Hv'. injection Hv' as <-. congruence.
Qed.
Lemma represents_unique d m m' : represents d m -> represents d m' -> m = m'.
Proof using HT.
  intros H H'. apply map_eq. intros k. destruct (m !! k) as [e|] eqn:E.
  - symmetry. by apply (represents_le d m).
  - destruct (m' !! k) as [e|] eqn:E'; [|done].
    apply (represents_le d m' m) in E'; [|done|done]. by rewrite E in E'.
Qed.
Lemma reach_sim b d m : base_ok b -> reachable b d -> represents d m ->
  (idseq d + 1 < 2 ^ 64)%N /\ exists g, sim b d g /\ m = snd <$> g.
Proof using HT.
  intros Hb Hr Hm. destruct (reachable_sim b d Hb Hr) as [Hs [g Hg]]. split; [done|].
  exists g. split; [done|]. eapply represents_unique; [done|]. by eapply sim_represents.
Qed.

(** One operation, successful in any environment. *)
Lemma op_ok_inv b d m ev o d' :
  base_ok b -> reachable b d -> represents d m -> op_ok o ->
  run_op (normalize b) ev o d = (Done (Ok tt), d') ->
  exists m', spec_op b o m = Ok m' /\ represents d' m' /\ exists g, sim b d' g /\ m' = snd <$> g.
Proof using HT.
  intros Hb Hr Hm Ho Hrun. destruct (reach_sim b d m Hb Hr Hm) as [Hseq (g & Hg & ->)].
  destruct (run_op_atomic _ _ _ _ _ _ Hrun) as [[_ []]|[Hf _]]; [done|].
  pose proof (refines_op HT b d g o Hb Hg Ho Hseq) as Href. unfold refines in Href.
  destruct (spec_op b o (snd <$> g)) as [m1|e| |].
  - destruct Href as (g1 & d1 & Hr1 & Hs' & Hg1 & _). rewrite Hf in Hr1. injection Hr1 as <-.
    exists m1. split; [done|]. rewrite <- Hg1. split; [by eapply sim_represents|]. eauto.
  - rewrite Hf in Href. by injection Href.
  - rewrite Hf in Href. by injection Href.
  - done.
Qed.

(** ** Consistency *)
Lemma sim_consistent b d g : base_ok b -> sim b d g -> consistent d.
Proof using HT.
  intros Hb Hs. split.
  - intros s v H. apply (s_dn2id _ _ _ Hs) in H as (k & i & e & Hk & -> & ->).
    exists i, e. split; [done|]. split; [by apply (s_lt _ _ _ _ _ _ Hs Hk)|].
    split; [apply (s_ent _ _ _ Hs); eauto|].
    destruct (s_dn _ _ _ Hs _ _ _ Hk) as (dd & Hp & Hwf & Hf).
    unfold parse_normalize. rewrite Hp. simpl. by rewrite normalize_flat, Hf.
  - intros v e H. apply (s_ent _ _ _ Hs) in H as (k & i & Hk & ->).
    exists (flat k). split; [apply (s_dn2id _ _ _ Hs); eauto 10|].
    intros s' H. apply (s_dn2id _ _ _ Hs) in H as (k' & i' & e' & Hk' & -> & Hi).
    by destruct (sim_id_inj _ _ _ _ _ _ _ _ _ Hs Hk Hk' Hi) as [-> _].
  - intros s i Hi H. apply (s_dn2id _ _ _ Hs) in H as (k & i' & e & Hk & -> & Hb').
    apply id_bytes_inj in Hb'; [|lia|by apply (s_lt _ _ _ _ _ _ Hs Hk)]. subst i'.
    destruct (sim_children _ _ _ _ _ _ Hs Hk) as [Hnd Hin]. split; [done|].
    intros j. rewrite Hin. split.
    + intros (r & e' & Hr). split; [by apply (s_lt _ _ _ _ _ _ Hs Hr)|].
      pose proof (s_key _ _ _ Hs _ _ _ Hr) as Hg. pose proof (s_key _ _ _ Hs _ _ _ Hk) as Hgk.
      exists (flat (r :: k)). split; [apply (s_dn2id _ _ _ Hs); eauto 10|].
      exists (r :: k). split; [apply (parse_flat HT); apply Hg|]. split; [done|].
      simpl. by rewrite normalize_flat, (gk_fold _ _ Hgk) by apply Hgk.
    + intros (Hj & s' & H & dd & Hp & Hne & Hn).
      apply (s_dn2id _ _ _ Hs) in H as (k' & j' & e' & Hk' & -> & Hb').
      apply id_bytes_inj in Hb'; [|lia|by apply (s_lt _ _ _ _ _ _ Hs Hk')]. subst j'.
      pose proof (s_key _ _ _ Hs _ _ _ Hk') as Hg. pose proof (s_key _ _ _ Hs _ _ _ Hk) as Hgk.
      rewrite (parse_flat HT) in Hp by apply Hg. injection Hp as <-.
      destruct k' as [|r t]; [done|]. simpl in Hn.
      assert (Hwft : wf_dn t = true).
      { pose proof (gk_wf _ _ Hg) as H. simpl in H. by apply andb_true_iff in H as [_ ?]. }
      assert (Hft : fold_dn t = t).
      { pose proof (gk_fold _ _ Hg) as H. simpl in H. by injection H. }
      rewrite normalize_flat, Hft in Hn by done.
      apply flat_inj in Hn; [|done|apply Hgk]. subst t. eauto.
  - intros v w H. destruct (s_dead _ _ _ Hs _ _ H) as [->|(k & i & e & Hk & ->)].
    + split; [done|]. intros c Hc. by apply elem_of_nil in Hc.
    + destruct (s_ch _ _ _ Hs _ _ _ Hk) as (l & Hl & Hnd & Hin).
      unfold raw_children in Hl. rewrite H in Hl. simpl in Hl. subst w.
      rewrite chunks8_ids. split; [done|]. intros c Hc.
      apply elem_of_list_In, in_map_iff in Hc as (j & <- & Hj).
      apply elem_of_list_In, Hin in Hj as (r & e' & Hr).
      exists e'. apply (s_ent _ _ _ Hs). eauto.
Qed.

(** ** Base search *)
Lemma search_base b d g s dd :
  sim b d g -> parse_dn s = Some dd -> wf_dn dd = true ->
  search d s ScopeBase =
  Ok (match (snd <$> g) !! fold_dn dd with
      | Some e => ([e], None)
      | None => ([], Some ENotFound)
      end).
Proof using HT.
  intros Hs Hp Hwf. unfold search, parse_normalize. rewrite Hp. cbn [fmap option_fmap option_map].
  rewrite (normalize_flat _ Hwf).
  assert (Hkwf : wf_dn (fold_dn dd) = true) by by apply fold_dn_wf.
  rewrite (sim_get_id _ _ _ _ Hs Hkwf), lookup_fmap.
  destruct (g !! fold_dn dd) as [[i e]|] eqn:E; [|done]. cbn [rbind fmap option_fmap option_map snd].
  rewrite (sim_id_nonzero _ _ _ _ _ _ Hs E). unfold ScopeBase. cbn [Z.eqb fetch].
  by rewrite (sim_get_entry _ _ _ _ _ _ Hs E).
Qed.

(** ** Operations and the names they are about *)
Lemma spec_op_other b o m m' k :
  spec_op b o m = Ok m' -> ~ In k (op_names o) -> m' !! k = m !! k.
Proof using Type.
  intros H Hn. destruct o as [e|s|r|r|r]; cbn [spec_op op_names] in H, Hn.
  - destruct (parse_dn (e_dn e)) as [[|x p]|]; try done. unfold spec_put in H.
    repeat (case_match; try done). injection H as <-. apply lookup_insert_ne.
    intros <-. apply Hn. by left.
  - destruct (parse_dn s) as [[|x p]|]; try done. unfold spec_delete in H.
    repeat (case_match; try done). injection H as <-. apply lookup_delete_ne.
    intros <-. apply Hn. by left.
  - destruct (parse_dn (m_dn r)) as [dd|]; try done. unfold spec_modify in H.
    destruct (m !! fold_dn dd); [|done]. destruct (apply_modify e r); try done.
    injection H as <-. apply lookup_insert_ne. intros <-. apply Hn. by left.
  - destruct (parse_dn (md_dn r)) as [[|x p]|]; [by destruct (parse_dn (md_newrdn r)) as [[|]|]| |done].
    destruct (parse_dn (md_newrdn r)) as [[|y q]|]; try done. unfold spec_rename in H.
    destruct (bool_decide _); [done|]. destruct (m !! fold_dn (x :: p)); [|done].
    destruct (negb _); [done|]. destruct (apply_modify _ _); try done. cbn [rbind] in H.
    destruct (negb _); [done|]. injection H as <-.
    rewrite lookup_insert_ne, lookup_delete_ne; [done| |].
    + intros <-. apply Hn. by left.
    + intros <-. apply Hn. right. left. done.
  - destruct (parse_dn (pw_user r)) as [dd|]; try done. unfold spec_password in H.
    destruct (m !! fold_dn dd); [|done]. destruct (check_old e (pw_old r)); try done. cbn [rbind] in H.
    destruct (apply_modify _ _); try done.
    injection H as <-. apply lookup_insert_ne. intros <-. apply Hn. by left.
Qed.

(** ** Everything is below the base unless it is renamed *)
Lemma spec_op_below b o m m' :
  b <> [] -> spec_op b o m = Ok m' -> ~ renames b o ->
  (forall k e, m !! k = Some e -> b `suffix_of` k) ->
  (forall k e, m' !! k = Some e -> b `suffix_of` k).
Proof using Type.
  intros Hb H Hn Hm. destruct o as [e|s|r|r|r]; cbn [spec_op renames] in H, Hn.
  - destruct (parse_dn (e_dn e)) as [[|x p]|]; try done. unfold spec_put in H.
    destruct (negb _); [done|]. destruct (bool_decide (is_Some _)); [done|].
    destruct (negb (bool_decide (fold_dn (x :: p) = b)) && bool_decide (m !! tail (fold_dn (x :: p)) = None)) eqn:E; [done|].
    destruct (negb (name_fits _)); [done|]. injection H as <-.
    intros k e'. rewrite lookup_insert_Some. intros [[<- _]|[_ Hk]]; [|by eapply Hm].
    apply andb_false_iff in E as [E|E].
    + apply negb_false_iff, bool_decide_eq_true in E. rewrite <- E. by exists [].
    + apply bool_decide_eq_false in E.
      destruct (m !! tail (fold_dn (x :: p))) as [e0|] eqn:E0; [|done].
      apply Hm in E0. simpl. by apply suffix_cons_r.
  - destruct (parse_dn s) as [[|x p]|]; try done. unfold spec_delete in H.
    repeat (case_match; try done). injection H as <-.
    intros k e'. rewrite lookup_delete_Some. intros [_ Hk]. by eapply Hm.
  - destruct (parse_dn (m_dn r)) as [dd|]; try done. unfold spec_modify in H.
    destruct (m !! fold_dn dd) eqn:E; [|done]. destruct (apply_modify e r); try done.
    injection H as <-. intros k e'. rewrite lookup_insert_Some. intros [[<- _]|[_ Hk]]; by eapply Hm.
  - destruct (parse_dn (md_dn r)) as [[|x p]|]; [by destruct (parse_dn (md_newrdn r)) as [[|]|]| |done].
    destruct (parse_dn (md_newrdn r)) as [[|y q]|]; try done. unfold spec_rename in H.
    destruct (bool_decide _); [done|]. destruct (m !! fold_dn (x :: p)) eqn:E; [|done].
    destruct (negb _); [done|]. destruct (apply_modify _ _); try done. cbn [rbind] in H.
    destruct (negb _); [done|]. injection H as <-.
    intros k e'. rewrite lookup_insert_Some. intros [[<- _]|[_ Hk]].
    + apply Hm in E. cbn [fmap option_fmap option_map] in Hn.
      assert (Hne : fold_dn (x :: p) <> b) by (intros Heq; apply Hn; by rewrite Heq).
      simpl. apply suffix_cons_r.
      destruct E as [z Hz]. destruct z as [|z0 z].
      * simpl in Hz. by destruct Hne.
      * simpl in Hz. injection Hz as _ Hz. by exists z.
    + apply lookup_delete_Some in Hk as [_ Hk]. by eapply Hm.
  - destruct (parse_dn (pw_user r)) as [dd|]; try done. unfold spec_password in H.
    destruct (m !! fold_dn dd) eqn:E; [|done]. destruct (check_old e (pw_old r)); try done. cbn [rbind] in H.
    destruct (apply_modify _ _); try done.
    injection H as <-. intros k e'. rewrite lookup_insert_Some. intros [[<- _]|[_ Hk]]; by eapply Hm.
Qed.
End facts.
