(** Every operation on the buckets does what the directory specification says;
    faults and crashes. *)
From Verif Require Import Bytes Text Dn DnProofs Res Entry EntryProofs Password Db DbSpec
  IdProofs DbProofs.

(** ** Faults *)

(** A body that succeeds although some writes could fail does what it does
    without faults. *)
Definition tx_mono {A} (m : tx A) : Prop :=
  forall f d n r, m f d n = Ok r -> m (fun _ => false) d n = Ok r.

Lemma mono_ret {A} (a : A) : tx_mono (t_ret a).
Proof. by intros f d n r. Qed.
Lemma mono_err {A} e : tx_mono (@t_err A e).
Proof. by intros f d n r. Qed.
Lemma mono_bind {A B} (m : tx A) (k : A -> tx B) :
  tx_mono m -> (forall a, tx_mono (k a)) -> tx_mono (t_bind m k).
Proof.
  intros Hm Hk f d n r. unfold t_bind. destruct (m f d n) as [[a [d' n']]| | |] eqn:E; try done.
  apply Hm in E. rewrite E. apply Hk.
Qed.
Lemma mono_read {A} (g : db -> res A) : tx_mono (t_read g).
Proof. by intros f d n r. Qed.
Lemma mono_lift {A} (r : res A) : tx_mono (t_lift r).
Proof. by intros f d n x. Qed.
Lemma mono_write {A} (g : db -> res (A * db)) : tx_mono (t_write g).
Proof. intros f d n r. unfold t_write. by destruct (f n). Qed.
Lemma mono_maperr {A} e (m : tx A) : tx_mono m -> tx_mono (t_maperr e m).
Proof.
  intros Hm f d n r. unfold t_maperr. destruct (m f d n) eqn:E; try done.
  intros [= ->]. by rewrite (Hm _ _ _ _ E).
Qed.
Lemma mono_if {A} (c : bool) (m1 m2 : tx A) : tx_mono m1 -> tx_mono m2 -> tx_mono (if c then m1 else m2).
Proof. by destruct c. Qed.
Ltac mono := repeat first
  [ apply mono_bind | apply mono_ret | apply mono_err | apply mono_read | apply mono_lift
  | apply mono_write | apply mono_maperr | apply mono_if | intros ?
  | progress unfold entry_modify_with, add_child, put_id2ent, put_id2ch, put_dn2id, del_dn2id,
      del_id2ent, next_seq ].

Section ops.
Context {T : Text} (HT : TextOK T) {C : Crypto}.

Lemma op_body_mono base o m : op_body base o = Ok m -> tx_mono m.
Proof using Type.
  destruct o as [e|s|r|r|r]; simpl.
  - unfold entry_put. destruct (parse_dn (e_dn e)) as [[|x p]|]; try done.
    destruct (negb _); [done|]. intros [= <-]. unfold entry_put_tx. mono.
  - unfold entry_delete. destruct (parse_dn s) as [[|x p]|]; try done.
    intros [= <-]. unfold entry_delete_tx. mono.
  - unfold entry_modify. destruct (parse_normalize (m_dn r)); [|done]. intros [= <-]. mono.
  - unfold entry_moddn. destruct (parse_dn (md_dn r)) as [[|x p]|]; [| |done].
    + destruct (parse_dn (md_newrdn r)) as [[|y q]|]; done.
    + destruct (parse_dn (md_newrdn r)) as [[|y q]|]; try done.
      intros [= <-]. unfold entry_moddn_tx. mono.
  - unfold update_password. destruct (parse_normalize (pw_user r)); [|done]. intros [= <-]. mono.
Qed.

(** What a run in any environment can look like, in terms of the run without
    faults. *)
Lemma run_op_atomic base ev o d out d' :
  run_op base ev o d = (out, d') ->
  (d' = d /\ out <> Done (Ok tt)) \/
  (run_op base no_faults o d = (Done (Ok tt), d') /\ (out = Done (Ok tt) \/ out = Crashed)).
Proof using Type.
  unfold run_op. destruct (op_body base o) as [m| | |] eqn:Eb.
  - unfold update.
    destruct (m (e_fault ev) d 0) as [[[] [d1 n1]]|e| |] eqn:E.
    + apply (op_body_mono _ _ _ Eb) in E. simpl e_fault. rewrite E. simpl e_commit.
      destruct (e_commit ev); intros [= <- <-]; auto.
    + intros [= <- <-]. auto.
    + intros [= <- <-]. auto.
    + intros [= <- <-]. auto.
  - intros [= <- <-]. auto.
  - intros [= <- <-]. auto.
  - intros [= <- <-]. auto.
Qed.

(** ** Refinement *)

Definition refines (b : dn) (d : db) (o : op) (spec : res dir) : Prop :=
  match spec with
  | Ok m' => exists g d', run_op (normalize b) no_faults o d = (Done (Ok tt), d') /\
      sim b d' g /\ snd <$> g = m' /\
      (idseq d <= idseq d' <= idseq d + 1)%N
  | Err e => run_op (normalize b) no_faults o d = (Done (Err e), d)
  | Panic => run_op (normalize b) no_faults o d = (Done Panic, d)
  | Diverge => False
  end.

Lemma has_suffix_ends c s t : t <> [] -> has_suffix s t = true -> ends_with c s = ends_with c t.
Proof using Type.
  intros Ht Hs. apply has_suffix_spec in Hs as [u ->]. by apply ends_with_app.
Qed.
Lemma key_ok_flat k : k <> [] -> wf_dn k = true -> fold_dn k = k -> key_ok (flat k) = name_fits k.
Proof using Type.
  intros Hn Hwf Hf. unfold key_ok, name_fits. rewrite normalize_flat, Hf by done.
  destruct (flat k) eqn:E; [|done]. by apply flat_nil_inv in E.
Qed.
Lemma base_text b : base_ok b -> normalize b = flat b.
Proof using Type.
  intros Hb. rewrite normalize_flat, (base_folded _ Hb); [done|]. apply Hb.
Qed.
Lemma fmap_snd_none (m : ghost) k : (snd <$> m) !! k = None <-> m !! k = None.
Proof using Type. rewrite lookup_fmap. by destruct (m !! k) as [[]|]. Qed.
Lemma sim_nil_none b d m : sim b d m -> m !! [] = None.
Proof using Type.
  intros Hs. destruct (m !! []) as [[i e]|] eqn:E; [|done].
  by destruct (gk_ne _ _ (s_key _ _ _ Hs _ _ _ E)).
Qed.


(** *** Add *)
Definition db_put (d : db) (k : dn) (e : entry) (p : option N) : db :=
  let j := (idseq d + 1)%N in
  mkDb (<[flat k := id_bytes j]> (dn2id d))
    (match p with
     | None => id2ch d
     | Some p => <[id_bytes p := raw_children p d ++ id_bytes j]> (id2ch d)
     end)
    (<[id_bytes j := e]> (id2ent d)) j.
Lemma put_tx_run b d m k e :
  base_ok b -> sim b d m -> wf_dn k = true -> fold_dn k = k -> k <> [] ->
  (idseq d + 1 < 2 ^ 64)%N ->
  entry_put_tx (flat b) e (flat k) (flat (tail k)) (fun _ => false) d 0 =
  match m !! k with
  | Some _ => Err EExists
  | None =>
      if bool_decide (k = b)
      then if name_fits k then Ok (tt, (db_put d k e None, 3)) else Err EKey
      else match m !! tail k with
           | None => Err ENoParent
           | Some (p, _) => if name_fits k then Ok (tt, (db_put d k e (Some p), 4)) else Err EKey
           end
  end.
Proof using Type.
  intros Hb Hs Hkwf Hkf Hkne Hseq. unfold entry_put_tx.
  unfold t_bind at 1, t_read at 1. rewrite (sim_get_id _ _ _ _ Hs Hkwf).
  destruct (m !! k) as [[i e0]|] eqn:Emk.
  { rewrite (sim_id_nonzero _ _ _ _ _ _ Hs Emk). done. }
  cbn [N.eqb negb].
  unfold t_bind at 1, next_seq at 1, t_write at 1. rewrite N.mod_small by done.
  unfold t_bind at 1, put_id2ent at 1, t_write at 1. rewrite id_key_ok.
  cbn [dn2id id2ch id2ent idseq].
  assert (Hseqb : seqb (flat k) (flat b) = bool_decide (k = b)).
  { destruct (seqb (flat k) (flat b)) eqn:E.
    - apply seqb_eq in E. apply flat_inj in E; [|done|apply Hb]. by rewrite bool_decide_eq_true_2.
    - symmetry. apply bool_decide_eq_false. intros ->. by rewrite seqb_refl in E. }
  rewrite Hseqb. destruct (bool_decide (k = b)) eqn:Eb.
  - unfold t_bind at 1, t_ret at 1, put_dn2id at 1, t_write at 1.
    rewrite key_ok_flat by done. by destruct (name_fits k).
  - unfold t_bind at 1, add_child at 1, t_bind at 1, t_read at 1.
    assert (Hg : forall d0, dn2id d0 = dn2id d -> get_id (flat (tail k)) d0 = get_id (flat (tail k)) d).
    { intros d0 H. unfold get_id. by rewrite H. }
    rewrite Hg by done. rewrite (sim_get_id _ _ _ _ Hs).
    2:{ destruct k; [done|]. simpl in Hkwf |- *. by apply andb_true_iff in Hkwf as [_ ?]. }
    destruct (m !! tail k) as [[pi pe]|] eqn:Emp; [|done].
    rewrite (sim_id_nonzero _ _ _ _ _ _ Hs Emp).
    unfold t_bind at 1, t_read at 1, put_id2ch at 1, t_write at 1.
    rewrite id_key_ok. cbn [dn2id id2ch id2ent idseq].
    unfold put_dn2id at 1, t_write at 1.
    rewrite key_ok_flat by done. by destruct (name_fits k).
Qed.
Lemma refines_put b d m e :
  base_ok b -> sim b d m -> op_ok (OpPut e) -> (idseq d + 1 < 2 ^ 64)%N ->
  refines b d (OpPut e) (spec_op b (OpPut e) (snd <$> m)).
Proof using HT.
  intros Hb Hs Hok Hseq. unfold refines, run_op. cbn [spec_op op_body]. unfold entry_put.
  simpl in Hok. unfold dn_text_ok in Hok.
  destruct (parse_dn (e_dn e)) as [[|r p]|] eqn:Ep; [done| |done].
  specialize (Hok _ eq_refl).
  assert (Hwf : wf_rdn r = true /\ wf_dn p = true) by (simpl in Hok; by apply andb_true_iff).
  destruct Hwf as [Hwr Hwp].
  unfold spec_put. rewrite (normalize_fold HT) by done.
  destruct (has_suffix (normalize (r :: p)) (normalize b)) eqn:Esuf; [|done]. cbn [negb].
  pose proof (normalize_flat _ Hok) as Hk. pose proof (normalize_flat _ Hwp) as Hp.
  change (fold_dn p) with (tail (fold_dn (r :: p))) in Hp.
  assert (Hkwf : wf_dn (fold_dn (r :: p)) = true) by by apply fold_dn_wf.
  assert (Hkf : fold_dn (fold_dn (r :: p)) = fold_dn (r :: p)) by by apply fold_dn_idem.
  assert (Hkne : fold_dn (r :: p) <> []) by done.
  rewrite Hk, Hp. rewrite Hk in Esuf. clear Hk Hp.
  remember (fold_dn (r :: p)) as k eqn:Hk0.
  assert (Hlast : last_ok k = true).
  { rewrite base_text in Esuf by done.
    assert (Hbf : flat b <> []).
    { intros H. apply flat_nil_inv in H; [|apply Hb]. by apply (base_ne _ Hb). }
    pose proof (has_suffix_ends space _ _ Hbf Esuf) as He.
    rewrite (flat_ends_iff HT k), (flat_ends_iff HT b), (base_last _ Hb) in He; try done.
    - by destruct (last_ok k).
    - apply Hb.
    - apply Hb. }
  unfold update, no_faults, e_fault, e_commit.
  rewrite !(base_text b) by done. rewrite (put_tx_run b d m) by done.
  rewrite !lookup_fmap.
  destruct (m !! k) as [[i e0]|] eqn:Emk.
  { cbn [fmap option_fmap option_map]. rewrite bool_decide_eq_true_2 by eauto. done. }
  cbn [fmap option_fmap option_map]. rewrite (bool_decide_eq_false_2 (is_Some None)) by apply is_Some_None.
  destruct (decide (k = b)) as [Heq|Hne].
  - rewrite (bool_decide_eq_true_2 (k = b)) by done. cbn [negb andb].
    destruct (name_fits k); [|done]. cbn [negb].
    eexists (<[k := ((idseq d + 1)%N, e)]> m), _. split; [done|]. split; [|split].
    + apply sim_put with (dd := r :: p); try done.
      * split; try done. by rewrite Heq.
      * left. done.
    + by rewrite fmap_insert.
    + cbn [db_put idseq]. lia.
  - rewrite (bool_decide_eq_false_2 (k = b)) by done. cbn [negb andb].
    destruct (m !! tail k) as [[pi pe]|] eqn:Emp; [|done].
    cbn [option_map]. rewrite bool_decide_eq_false_2 by done.
    destruct (name_fits k); [|done]. cbn [negb].
    eexists (<[k := ((idseq d + 1)%N, e)]> m), _. split; [done|]. split; [|split].
    + apply sim_put with (dd := r :: p); try done.
      * split; try done.
        pose proof (gk_len _ _ (s_key _ _ _ Hs _ _ _ Emp)) as H.
        destruct k; [done|]. simpl in H |- *. lia.
      * right. exists pi, pe. done.
    + by rewrite fmap_insert.
    + cbn [db_put idseq]. lia.
Qed.

(** *** Delete *)
Definition db_del (d : db) (k : dn) (i p : N) : db :=
  mkDb (delete (flat k) (dn2id d))
    (<[id_bytes p := concat (bfilter (fun c => negb (le_val c =? i)%N)
                               (chunks8 (raw_children p d)))]> (id2ch d))
    (delete (id_bytes i) (id2ent d)) (idseq d).
Lemma delete_tx_run b d m k :
  sim b d m -> wf_dn k = true -> k <> [] ->
  entry_delete_tx (flat k) (flat (tail k)) (fun _ => false) d 0 =
  match m !! k with
  | None => Err ENotFound
  | Some (i, _) =>
      if negb (is_leaf (snd <$> m) k) then Err ENonLeaf
      else match m !! tail k with
           | None => Err ENotFound
           | Some (p, _) => Ok (tt, (db_del d k i p, 3))
           end
  end.
Proof using Type.
  intros Hs Hkwf Hkne. unfold entry_delete_tx.
  unfold t_bind at 1, t_read at 1. rewrite (sim_get_id _ _ _ _ Hs Hkwf).
  destruct (m !! k) as [[i e]|] eqn:Emk; [|done].
  rewrite (sim_id_nonzero _ _ _ _ _ _ Hs Emk).
  unfold t_bind at 1, t_read at 1. rewrite (sim_leaf _ _ _ _ _ _ Hs Emk).
  destruct (is_leaf (snd <$> m) k); [|done]. cbn [negb].
  unfold t_bind at 1, t_read at 1. rewrite (sim_get_id _ _ _ _ Hs).
  2:{ destruct k; [done|]. simpl in Hkwf |- *. by apply andb_true_iff in Hkwf as [_ ?]. }
  destruct (m !! tail k) as [[pi pe]|] eqn:Emp; [|done].
  rewrite (sim_id_nonzero _ _ _ _ _ _ Hs Emp).
  unfold t_bind at 1, t_read at 1.
  unfold t_bind at 1, put_id2ch at 1, t_write at 1. rewrite id_key_ok. done.
Qed.
Lemma refines_delete b d m s :
  base_ok b -> sim b d m -> op_ok (OpDelete s) ->
  refines b d (OpDelete s) (spec_op b (OpDelete s) (snd <$> m)).
Proof using HT.
  intros Hb Hs Hok. unfold refines, run_op. cbn [spec_op op_body]. unfold entry_delete.
  simpl in Hok. unfold dn_text_ok in Hok.
  destruct (parse_dn s) as [[|r p]|] eqn:Ep; [done| |done].
  specialize (Hok _ eq_refl).
  assert (Hwp : wf_dn p = true) by (simpl in Hok; by apply andb_true_iff in Hok as [_ ?]).
  pose proof (normalize_flat _ Hok) as Hk. pose proof (normalize_flat _ Hwp) as Hp.
  change (fold_dn p) with (tail (fold_dn (r :: p))) in Hp.
  assert (Hkwf : wf_dn (fold_dn (r :: p)) = true) by by apply fold_dn_wf.
  assert (Hkne : fold_dn (r :: p) <> []) by done.
  rewrite Hk, Hp. clear Hk Hp. remember (fold_dn (r :: p)) as k eqn:Hk0.
  unfold update, no_faults, e_fault, e_commit. rewrite (delete_tx_run b d m) by done.
  unfold spec_delete. rewrite !lookup_fmap.
  destruct (m !! k) as [[i e]|] eqn:Emk; [|done].
  cbn [fmap option_fmap option_map]. rewrite bool_decide_eq_false_2 by done.
  destruct (is_leaf (snd <$> m) k) eqn:El; [|done]. cbn [negb].
  destruct (m !! tail k) as [[pi pe]|] eqn:Emp; [|done].
  cbn [option_map]. rewrite bool_decide_eq_false_2 by done.
  destruct (s_ch _ _ _ Hs _ _ _ Emp) as (l & Hl & Hnd & Hin).
  eexists (delete k m), _. split; [done|]. split; [|split].
  - apply sim_del with (e := e) (ep := pe) (l := l); try done.
    + intros r'. pose proof (proj1 (is_leaf_spec _ _) El r') as H. by apply fmap_snd_none.
    + apply List.Forall_forall. intros j Hj. apply elem_of_list_In, Hin in Hj as (r' & e' & Hj).
      apply (s_lt _ _ _ _ _ _ Hs Hj).
  - by rewrite fmap_delete.
  - cbn [db_del idseq]. lia.
Qed.

(** *** Modify *)
Definition db_ent (d : db) (i : N) (e : entry) : db :=
  mkDb (dn2id d) (id2ch d) (<[id_bytes i := e]> (id2ent d)) (idseq d).
Lemma modify_with_run d i e req f n :
  f n = false ->
  entry_modify_with i e req f d n =
  match apply_modify e req with
  | Ok e' => Ok (tt, (db_ent d i e', S n))
  | Err x => Err x
  | Panic => Panic
  | Diverge => Diverge
  end.
Proof using Type.
  intros Hf. unfold entry_modify_with, t_bind, t_lift, t_read.
  destruct (apply_modify e req) as [e'| | |]; try done.
  unfold put_id2ent, t_write. by rewrite Hf, id_key_ok.
Qed.
Lemma apply_modify_conv e req : apply_modify e req <> Diverge.
Proof using Type.
  unfold apply_modify. destruct (parse_dn (e_dn e)) as [[|r od]|]; try done.
  destruct (parse_dn (m_dn req)); [|done]. destruct (negb _); [done|].
  assert (H : forall cs cur, apply_changes r (e_attrs e) cur cs <> Diverge).
  { induction cs as [|c cs IH]; intros cur; [done|]. simpl.
    unfold apply_change. destruct (c_op c); simpl.
    - apply IH.
    - destruct (delete_allowed r (c_type c) (c_vals c)); simpl; [apply IH|done].
    - destruct (replace_allowed r (c_type c) (c_vals c)); simpl; [apply IH|done]. }
  specialize (H (m_changes req) (e_attrs e)).
  by destruct (apply_changes r (e_attrs e) (e_attrs e) (m_changes req)).
Qed.
Lemma refines_modify b d m req :
  base_ok b -> sim b d m -> op_ok (OpModify req) ->
  refines b d (OpModify req) (spec_op b (OpModify req) (snd <$> m)).
Proof using HT.
  intros Hb Hs Hok. unfold refines, run_op. cbn [spec_op op_body]. unfold entry_modify, parse_normalize.
  simpl in Hok. unfold dn_text_ok in Hok.
  destruct (parse_dn (m_dn req)) as [dd|] eqn:Ep; [|done].
  specialize (Hok _ eq_refl). cbn [fmap option_fmap option_map].
  rewrite (normalize_flat _ Hok).
  assert (Hkwf : wf_dn (fold_dn dd) = true) by by apply fold_dn_wf.
  remember (fold_dn dd) as k eqn:Hk0.
  unfold update, no_faults, e_fault, e_commit, spec_modify.
  assert (Hrun : t_bind (t_read (get_entry_by_dn (flat k))) (fun p => entry_modify_with p.2 p.1 req)
     (fun _ => false) d 0 =
     match m !! k with
     | None => Err ENotFound
     | Some (i, e) => match apply_modify e req with
                      | Ok e' => Ok (tt, (db_ent d i e', 1))
                      | Err x => Err x
                      | Panic => Panic
                      | Diverge => Diverge
                      end
     end).
  { unfold t_bind at 1, t_read at 1. rewrite (sim_get_by_dn _ _ _ _ Hs Hkwf).
    destruct (m !! k) as [[i e]|] eqn:Emk; [|done]. by rewrite modify_with_run. }
  rewrite Hrun, lookup_fmap. destruct (m !! k) as [[i e]|] eqn:Emk; [|done].
  cbn [fmap option_fmap option_map snd].
  pose proof (apply_modify_conv e req) as Hc.
  destruct (apply_modify e req) as [e'| | |] eqn:Ea; try done. cbn [rbind].
  eexists (<[k := (i, e')]> m), _. split; [done|]. split; [|split].
  - apply sim_modify with (e := e); try done. by apply (modify_untouched _ _ _ Ea).
  - by rewrite fmap_insert.
  - cbn [db_ent idseq]. lia.
Qed.

(** *** Password *)
Lemma validate_conv p v : validate p v <> Diverge.
Proof using Type.
  unfold validate. repeat case_match; try done.
Qed.
Lemma check_old_conv e old : check_old e old <> Diverge.
Proof using Type.
  unfold check_old. pose proof (validate_conv old (get_eqfold_val (B "userPassword") (e_attrs e))).
  destruct (is_empty old); [done|]. by destruct (validate _ _) as [[]| | |].
Qed.
Lemma refines_password b d m req :
  base_ok b -> sim b d m -> op_ok (OpPassword req) ->
  refines b d (OpPassword req) (spec_op b (OpPassword req) (snd <$> m)).
Proof using HT.
  intros Hb Hs Hok. unfold refines, run_op. cbn [spec_op op_body].
  unfold update_password, parse_normalize.
  simpl in Hok. unfold dn_text_ok in Hok.
  destruct (parse_dn (pw_user req)) as [dd|] eqn:Ep; [|done].
  specialize (Hok _ eq_refl). cbn [fmap option_fmap option_map].
  rewrite (normalize_flat _ Hok).
  assert (Hkwf : wf_dn (fold_dn dd) = true) by by apply fold_dn_wf.
  remember (fold_dn dd) as k eqn:Hk0.
  unfold update, no_faults, e_fault, e_commit, spec_password.
  set (mr := mkModify (pw_user req) [mkChange MReplace (B "userPassword") [pw_new req]]).
  assert (Hrun : t_bind (t_read (get_entry_by_dn (flat k)))
     (fun p => t_bind (t_lift (check_old p.1 (pw_old req))) (fun _ =>
        t_maperr (ELdap OperationsError true) (entry_modify_with p.2 p.1 mr)))
     (fun _ => false) d 0 =
     match m !! k with
     | None => Err ENotFound
     | Some (i, e) =>
         match check_old e (pw_old req) with
         | Ok _ => match apply_modify e mr with
                   | Ok e' => Ok (tt, (db_ent d i e', 1))
                   | Err x => Err (ELdap OperationsError true)
                   | Panic => Panic
                   | Diverge => Diverge
                   end
         | Err x => Err x
         | Panic => Panic
         | Diverge => Diverge
         end
     end).
  { unfold t_bind at 1, t_read at 1. rewrite (sim_get_by_dn _ _ _ _ Hs Hkwf).
    destruct (m !! k) as [[i e]|] eqn:Emk; [|done]. cbn [fst snd].
    unfold t_bind at 1, t_lift at 1, t_read at 1.
    destruct (check_old e (pw_old req)); try done.
    unfold t_maperr. rewrite modify_with_run by done. by destruct (apply_modify e mr). }
  rewrite Hrun, lookup_fmap. clear Hrun. destruct (m !! k) as [[i e]|] eqn:Emk; [|done].
  cbn [fmap option_fmap option_map snd].
  pose proof (check_old_conv e (pw_old req)) as Ho.
  destruct (check_old e (pw_old req)); try done. cbn [rbind].
  pose proof (apply_modify_conv e mr) as Hc.
  destruct (apply_modify e mr) as [e'| | |] eqn:Ea; try done.
  eexists (<[k := (i, e')]> m), _. split; [done|]. split; [|split].
  - apply sim_modify with (e := e); try done. by apply (modify_untouched _ _ _ Ea).
  - by rewrite fmap_insert.
  - cbn [db_ent idseq]. lia.
Qed.

(** *** Rename *)
Definition db_ren (d : db) (k k' : dn) (i : N) (e : entry) : db :=
  mkDb (delete (flat k) (<[flat k' := id_bytes i]> (dn2id d))) (id2ch d)
    (<[id_bytes i := e]> (id2ent d)) (idseq d).
Lemma moddn_tx_run b d m k k' delold oldr newr :
  sim b d m -> wf_dn k = true -> wf_dn k' = true -> fold_dn k' = k' -> k' <> [] ->
  entry_moddn_tx (flat k) (flat k') delold oldr newr (fun _ => false) d 0 =
  match m !! k' with
  | Some _ => Err EExists
  | None =>
      match m !! k with
      | None => Err ENotFound
      | Some (i, e) =>
          if negb (is_leaf (snd <$> m) k) then Err ENonLeaf
          else match apply_modify (mkEntry (flat k') (e_attrs e))
                       (rename_req (flat k') delold oldr newr) with
               | Ok e' => if name_fits k' then Ok (tt, (db_ren d k k' i e', 3)) else Err EKey
               | Err x => Err x
               | Panic => Panic
               | Diverge => Diverge
               end
      end
  end.
Proof using Type.
  intros Hs Hkwf Hkwf' Hkf' Hkne'. unfold entry_moddn_tx.
  unfold t_bind at 1, t_read at 1. rewrite (sim_get_id _ _ _ _ Hs Hkwf').
  destruct (m !! k') as [[i' e']|] eqn:Emk'.
  { by rewrite (sim_id_nonzero _ _ _ _ _ _ Hs Emk'). }
  cbn [N.eqb negb].
  unfold t_bind at 1, t_read at 1. rewrite (sim_get_by_dn _ _ _ _ Hs Hkwf).
  destruct (m !! k) as [[i e]|] eqn:Emk; [|done]. cbn [fst snd].
  unfold t_bind at 1, t_read at 1. rewrite (sim_leaf' _ _ _ _ _ _ Hs Emk).
  destruct (is_leaf (snd <$> m) k); [|done]. cbn [negb].
  unfold t_bind at 1. rewrite modify_with_run by done.
  destruct (apply_modify _ _); try done.
  unfold t_bind at 1, put_dn2id at 1, t_write at 1. rewrite key_ok_flat by done.
  by destruct (name_fits k').
Qed.
Lemma refines_rename b d m req :
  base_ok b -> sim b d m -> op_ok (OpModDn req) ->
  refines b d (OpModDn req) (spec_op b (OpModDn req) (snd <$> m)).
Proof using HT.
  intros Hb Hs [Hok1 Hok2]. unfold refines, run_op. cbn [spec_op op_body]. unfold entry_moddn.
  unfold dn_text_ok in Hok1, Hok2.
  destruct (parse_dn (md_dn req)) as [[|r p]|] eqn:Ep; [| |done].
  { by destruct (parse_dn (md_newrdn req)) as [[|]|]. }
  destruct (parse_dn (md_newrdn req)) as [[|r' p']|] eqn:Ep'; [done| |done].
  specialize (Hok1 _ eq_refl). specialize (Hok2 _ eq_refl).
  assert (Hwp : wf_dn p = true) by (simpl in Hok1; by apply andb_true_iff in Hok1 as [_ ?]).
  assert (Hwr : wf_rdn r' = true) by (simpl in Hok2; by apply andb_true_iff in Hok2 as [? _]).
  assert (Hwn : wf_dn (r' :: p) = true) by (simpl; by rewrite Hwr, Hwp).
  unfold spec_rename.
  change (fold_dn [r'] ++ tail (fold_dn (r :: p))) with (fold_dn (r' :: p)).
  rewrite (normalize_fold HT), !(normalize_flat _ Hwn), (normalize_flat _ Hok1) by done.
  assert (Hkwf : wf_dn (fold_dn (r :: p)) = true) by by apply fold_dn_wf.
  assert (Hkwf' : wf_dn (fold_dn (r' :: p)) = true) by by apply fold_dn_wf.
  assert (Hkf' : fold_dn (fold_dn (r' :: p)) = fold_dn (r' :: p)) by by apply fold_dn_idem.
  assert (Hkne' : fold_dn (r' :: p) <> []) by done.
  assert (Htl : tail (fold_dn (r' :: p)) = tail (fold_dn (r :: p))) by done.
  assert (Hlen : length (fold_dn (r' :: p)) = length (fold_dn (r :: p))) by done.
  remember (fold_dn (r :: p)) as k eqn:Hk0. remember (fold_dn (r' :: p)) as k' eqn:Hk0'.
  unfold update, no_faults, e_fault, e_commit. rewrite (moddn_tx_run b d m) by done.
  change (mkModify (flat k') ((if md_delold req then map (fun p0 => mkChange MDelete p0.1 [p0.2]) r else [])
     ++ map (fun p1 => mkChange MAdd p1.1 [p1.2]) r')) with (rename_req (flat k') (md_delold req) r r').
  rewrite !lookup_fmap.
  destruct (m !! k') as [[i' e']|] eqn:Emk'.
  { cbn [fmap option_fmap option_map]. by rewrite bool_decide_eq_true_2 by eauto. }
  cbn [fmap option_fmap option_map]. rewrite (bool_decide_eq_false_2 (is_Some None)) by apply is_Some_None.
  destruct (m !! k) as [[i e]|] eqn:Emk; [|done]. cbn [fmap option_fmap option_map snd].
  destruct (is_leaf (snd <$> m) k) eqn:El; [|done]. cbn [negb].
  pose proof (apply_modify_conv (mkEntry (flat k') (e_attrs e)) (rename_req (flat k') (md_delold req) r r')) as Hc.
  destruct (apply_modify _ _) as [e'| | |] eqn:Ea; try done. cbn [rbind].
  destruct (name_fits k'); [|done]. cbn [negb].
  apply apply_modify_inv in Ea as (rr & od & md & attrs & Hp1 & _ & _ & _ & ->).
  cbn [e_dn] in Hp1 |- *.
  assert (Hlast : last_ok k' = true).
  { destruct (last_ok k') eqn:E; [done|]. rewrite (parse_flat_dangling HT) in Hp1; done. }
  eexists (<[k' := (i, _)]> (delete k m)), _. split; [done|]. split; [|split].
  - apply sim_rename with (e := e) (dd := k'); try done.
    + intros r0. pose proof (proj1 (is_leaf_spec _ _) El r0) as H. by apply fmap_snd_none.
    + split; try done. pose proof (gk_len _ _ (s_key _ _ _ Hs _ _ _ Emk)). lia.
    + by apply (parse_flat HT).
  - by rewrite fmap_insert, fmap_delete.
  - cbn [db_ren idseq]. lia.
Qed.

Theorem refines_op b d m o :
  base_ok b -> sim b d m -> op_ok o -> (idseq d + 1 < 2 ^ 64)%N ->
  refines b d o (spec_op b o (snd <$> m)).
Proof using HT.
  intros Hb Hs Hok Hseq. destruct o.
  - by apply refines_put.
  - by apply refines_delete.
  - by apply refines_modify.
  - by apply refines_rename.
  - by apply refines_password.
Qed.

(** ** Histories *)

(** The abstract run of a history: each operation either happens or not. *)
Theorem sim_history b h d m :
  base_ok b -> sim b d m -> Forall (fun p => op_ok p.2) h ->
  (idseq d + N.of_nat (length h) < 2 ^ 64)%N ->
  exists m', sim b (run_ops (normalize b) h d) m'.
Proof using HT.
  intros Hb. revert d m. induction h as [|[ev o] h IH]; intros d m Hs Hok Hseq; [by exists m|].
  inversion Hok as [|? ? Ho Hh]; subst. simpl in Ho. cbn [run_ops].
  destruct (run_op (normalize b) ev o d) as [out d'] eqn:E. cbn [snd].
  cbn [length] in Hseq.
  destruct (run_op_atomic _ _ _ _ _ _ E) as [[-> _]|[Hf _]].
  - apply (IH d m); try done. lia.
  - pose proof (refines_op b d m o Hb Hs Ho ltac:(lia)) as Hr. unfold refines in Hr.
    destruct (spec_op b o (snd <$> m)) as [m1|e| |].
    + destruct Hr as (g & d1 & Hr & Hs' & _ & Hle). rewrite Hf in Hr. injection Hr as ->.
      apply (IH d1 g); try done. lia.
    + rewrite Hf in Hr. by injection Hr.
    + rewrite Hf in Hr. by injection Hr.
    + done.
Qed.
End ops.
