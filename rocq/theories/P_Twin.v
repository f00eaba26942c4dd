(** Property C94: clients see the directory, not its history. *)
From Verif Require Import Bytes Text Dn DnProofs Res Entry EntryProofs Password PasswordProofs P_Password
  Db DbSpec IdProofs DbProofs DbOps DbSearch DbFacts DbMore P_Db
  Packet Filter FilterProofs P_Filter Handler Server ServerProofs CrashProofs P_Server
  Encode EncodeProofs E2e E2eProofs P_E2e ScopeProofs TwinProofs.

(** The messages written at each event. *)
Fixpoint outputs {T : Text} {C : Crypto} {W : Wire} (cfg : server_cfg) (c : bolt_cfg) (w : world (S:=db)) (es : list (event (E:=env)))
    : list (list response) :=
  match es with
  | [] => []
  | e :: es' => (step cfg (bolt_handler c) w e).2 :: outputs cfg c (step cfg (bolt_handler c) w e).1 es'
  end.
(** Events without I/O errors of the database, with proper names in writes, binds
    and searches, and with searches whose candidates can all be judged. *)
Fixpoint fair_along {T : Text} {C : Crypto} {W : Wire} (cfg : server_cfg) (c : bolt_cfg) (w : world (S:=db)) (es : list (event (E:=env))) : Prop :=
  match es with
  | [] => True
  | e :: es' =>
      match e with
      | EPacket _ ev p => re_h ev = no_faults /\ clean p /\ forall m, represents (w_state w) m -> fair cfg m p
      | _ => True
      end /\ fair_along cfg c (step cfg (bolt_handler c) w e).1 es'
  end.

Lemma bfilter_le {A} (f : A -> bool) l : length (bfilter f l) <= length l.
Proof. induction l as [|x l IH]; cbn; [lia|]. destruct (f x); cbn; lia. Qed.
Section twin.
Context {T : Text} {C : Crypto} {W : Wire} (HT : TextOK T).
Record paired (b : dn) (n : nat) (w1 w2 : world (S:=db)) : Prop := {
  pa_conns : w_conns w1 = w_conns w2;
  pa_alive : w_alive w1 = w_alive w2;
  pa_dir : same_dir b n (w_state w1) (w_state w2);
  pa_names : forall k bound, w_conns w1 !! k = Some bound -> dn_text_ok bound
}.
Lemma empty_ok : dn_text_ok [].
Proof using HT. intros dd. unfold parse_dn. rewrite (trim_dn_print _ HT) by constructor. by intros [= <-]. Qed.
Lemma step_paired b n cfg c w1 w2 e :
  base_ok b -> (N.of_nat n + 1 < 2 ^ 64)%N -> bc_base c = normalize b -> paired b n w1 w2 ->
  match e with
  | EPacket _ ev p => re_h ev = no_faults /\ clean p /\ forall m, represents (w_state w1) m -> fair cfg m p
  | _ => True
  end ->
  let x1 := step cfg (bolt_handler c) w1 e in
  let x2 := step cfg (bolt_handler c) w2 e in
  paired b (S n) x1.1 x2.1 /\ alike x1.2 x2.2.
Proof using HT.
  intros Hb Hn Hc [P1 P2 P3 P4] Hf. destruct w1 as [cs1 s1 a1], w2 as [cs2 s2 a2]. cbn in P1, P2, P3, P4, Hf. subst cs2 a2.
  pose proof (same_mono _ _ _ _ P3) as P3'.
  unfold step. cbn [w_alive w_conns w_state]. destruct a1; cbn [negb]; [|by split; [split|constructor]].
  destruct e as [k|k ev p|k].
  - destruct (cs1 !! k) eqn:Ek; (split; [|constructor]); split; try done. cbn. intros k' bound.
    destruct (decide (k = k')) as [<-|Hne]; [rewrite lookup_insert; intros [= <-]; apply empty_ok|].
    rewrite lookup_insert_ne by done. apply P4.
  - destruct (cs1 !! k) as [bound|] eqn:Ek; [|by split; [split|constructor]].
    destruct Hf as (Hev & Hcl & Hfair).
    destruct (handle_twins HT b Hb n Hn c Hc s1 s2 P3 cfg ev bound p Hev (P4 _ _ Ek) Hcl Hfair) as (Hx & Ho & Hs).
    assert (Hgo : forall b', r_next (handle cfg (bolt_handler c) ev bound p s1) = Go b' -> dn_text_ok b').
    { intros b' Hb'. destruct (decide (b' = bound)) as [->|Hne]; [by eapply P4|].
      destruct (handle_identity cfg (bolt_handler c) ev bound p s1 b' Hb' Hne) as (dn & pw & Hsb & Hpn & _).
      destruct Hcl as [_ Hcl]. by eapply Hcl. }
    cbn [fst snd]. split; [|exact Ho]. rewrite <- Hx.
    destruct (r_next (handle cfg (bolt_handler c) ev bound p s1)) as [b'| |]; split; try done; cbn.
    + intros k' bd. destruct (decide (k = k')) as [<-|Hne]; [rewrite lookup_insert; intros [= <-]; by apply Hgo|].
      rewrite lookup_insert_ne by done. apply P4.
    + intros k' bd [_ H]%lookup_delete_Some. by eapply P4.
  - split; [|constructor]. split; try done. cbn. intros k' bd [_ H]%lookup_delete_Some. by eapply P4.
Qed.
Lemma run_paired b cfg c es : forall n w1 w2,
  base_ok b -> bc_base c = normalize b -> (N.of_nat (n + length es) + 1 < 2 ^ 64)%N -> paired b n w1 w2 -> fair_along cfg c w1 es ->
  Forall2 alike (outputs cfg c w1 es) (outputs cfg c w2 es) /\
  paired b (n + length es) (run cfg (bolt_handler c) w1 es) (run cfg (bolt_handler c) w2 es).
Proof using HT.
  induction es as [|e es IH]; intros n w1 w2 Hb Hc Hn Hp Hf.
  { split; [constructor|]. by rewrite Nat.add_0_r. }
  destruct Hf as [He Hf]. cbn [length] in Hn.
  destruct (step_paired b n cfg c w1 w2 e Hb ltac:(lia) Hc Hp He) as [Hp' Ha].
  destruct (IH (S n) _ _ Hb Hc ltac:(lia) Hp' Hf) as [H1 H2]. cbn [outputs run length]. split; [by constructor|].
  by replace (n + S (length es)) with (S n + length es) by lia.
Qed.
End twin.

(** C94.  Two servers with the same settings, on databases that hold the same
    directory, however they came about, answer the same messages alike: equal
    messages, the entries of a search up to their order, and afterwards the same
    connections and the same directory. *)
Theorem C94_same_answers (T : Text) (C : Crypto) (W : Wire) (HT : TextOK T) (cfg : server_cfg) (c : bolt_cfg)
    (b : dn) (h1 h2 : list (env * op)) (m : dir) (es : list (event (E:=env))) :
  base_ok b -> bc_base c = normalize b ->
  Forall (fun p => op_ok p.2) h1 -> Forall (fun p => op_ok p.2) h2 ->
  (N.of_nat (max (length h1) (length h2) + length es) + 1 < 2 ^ 64)%N ->
  let d1 := run_ops (normalize b) h1 empty_db in
  let d2 := run_ops (normalize b) h2 empty_db in
  represents d1 m -> represents d2 m -> fair_along cfg c (start d1) es ->
  Forall2 alike (outputs cfg c (start d1) es) (outputs cfg c (start d2) es) /\
  let w1 := run cfg (bolt_handler c) (start d1) es in
  let w2 := run cfg (bolt_handler c) (start d2) es in
  w_conns w1 = w_conns w2 /\ w_alive w1 = w_alive w2 /\ exists m', represents (w_state w1) m' /\ represents (w_state w2) m'.
Proof.
  intros Hb Hc H1 H2 Hl d1 d2 M1 M2 Hf.
  assert (Hp : paired b (max (length h1) (length h2)) (start d1) (start d2)).
  { split; try done. split; [exists h1; split; [done|]; split; [lia|done]|].
    split; [exists h2; split; [done|]; split; [lia|done]|]. by exists m. }
  destruct (run_paired HT b cfg c es _ _ _ Hb Hc Hl Hp Hf) as [Ho [Q1 Q2 (_ & _ & Q3) _]]. auto.
Qed.
Print Assumptions C94_same_answers.

(** In particular a database restored from its export: the file printed by the
    export command of a database with a directory that is not empty is loaded
    without error, and a server on the new file answers like one on the old. *)
Theorem C94_restored (T : Text) (C : Crypto) (W : Wire) (HT : TextOK T) (cfg : server_cfg) (c : bolt_cfg)
    (b : dn) (h : list (env * op)) (m : dir) (es : list (event (E:=env))) :
  base_ok b -> bc_base c = normalize b -> Forall (fun p => op_ok p.2 /\ ~ renames b p.2) h ->
  (N.of_nat (length h + size m + length es) + 1 < 2 ^ 64)%N ->
  let d := run_ops (normalize b) h empty_db in
  represents d m -> m <> ∅ -> fair_along cfg c (start d) es ->
  exists exported d', export_db d (normalize b) = Ok (exported, None) /\
    load_db (normalize b) exported empty_db = (Done (Ok tt), d') /\
    Forall2 alike (outputs cfg c (start d) es) (outputs cfg c (start d') es) /\
    exists m', represents (w_state (run cfg (bolt_handler c) (start d) es)) m' /\
               represents (w_state (run cfg (bolt_handler c) (start d') es)) m'.
Proof.
  intros Hb Hc Hh Hl d M Hne Hf.
  destruct (C27_export_load T C HT b h m Hb Hh ltac:(lia) M) as [[-> _]|(xs & d' & Hx & Hld & M')]; [done|].
  exists xs, d'. split; [exact Hx|]. split; [exact Hld|].
  assert (Hh' : Forall (fun p : env * op => op_ok p.2) h) by (eapply Forall_impl; [exact Hh|]; by intros p [? _]).
  (* the exported entries *)
  assert (Hxs : length xs <= size m /\ Forall (fun e => dn_text_ok (e_dn e)) xs).
  { assert (Hr : reachable b d) by (exists h; split; [done|]; split; [lia|done]).
    destruct (reach_sim HT b d m Hb Hr M) as [_ (g & Hg & Eg)]. unfold export_db in Hx. fold d in Hx.
    assert (Hpb : parse_dn (normalize b) = Some b).
    { rewrite normalize_flat, (base_folded _ Hb) by apply Hb. apply (parse_flat HT); apply Hb. }
    pose proof (search_spec HT b d g (normalize b) b ScopeSub Hb Hg Hpb (base_wf _ Hb)) as Hs. rewrite <- Eg in Hs.
    specialize (Hs (or_intror (or_intror eq_refl))).
    destruct (m !! fold_dn b) as [e0|]; [|by rewrite Hs in Hx]. destruct Hs as (xs' & Hs & HP). rewrite Hs in Hx. injection Hx as ->.
    split.
    - rewrite (Permutation_length HP), map_length. etransitivity; [apply bfilter_le|]. done.
    - apply List.Forall_forall. intros e He. apply (Permutation_in _ HP) in He.
      apply in_map_iff in He as ([k e'] & <- & Hin). apply filter_In in Hin as [Hin _].
      apply elem_of_list_In, elem_of_map_to_list in Hin. rewrite Eg, lookup_fmap in Hin.
      destruct (g !! k) as [[j e1]|] eqn:Ek; [|done]. injection Hin as ->.
      destruct (s_dn _ _ _ Hg _ _ _ Ek) as (dd & Hdd & Hwf & _). intros dd' Hdd'. cbn [snd] in Hdd'. congruence. }
  destruct Hxs as [Hlen Hok].
  assert (Hrun : d' = run_ops (normalize b) (map (fun e => (no_faults, OpPut e)) xs) empty_db).
  { clear -Hld. revert Hld. generalize empty_db. induction xs as [|e xs IH]; intros d0; cbn [load_db map run_ops]; [by intros [= <-]|].
    destruct (run_op (normalize b) no_faults (OpPut e) d0) as [[[u| | |]|] d1]; try done. apply IH. }
  destruct (C94_same_answers T C W HT cfg c b h (map (fun e => (no_faults, OpPut e)) xs) m es) as (Ho & _ & _ & Hm); try done.
  - apply Forall_map. eapply Forall_impl; [exact Hok|]. done.
  - rewrite map_length. lia.
  - by rewrite <- Hrun.
  - rewrite <- Hrun in *. split; [exact Ho|exact Hm].
Qed.
Print Assumptions C94_restored.

(** Which searches can always be judged: the filter has no unsupported
    comparison, and for one level the names below have no escape or semicolon in
    their first part. *)
Theorem C94_fair (T : Text) (C : Crypto) (W : Wire) (HT : TextOK T) (cfg : server_cfg) (b : dn) (d : db) (m : dir)
    (p : packet) (id : Z) (req : packet) (r : search_req) (f : flt) :
  base_ok b -> reachable b d -> represents d m ->
  envelope p id req -> says_search req r -> dn_text_ok (sr_base r) ->
  compile_filter (sr_filter r) = Some (filter_packet f) -> evaluable f = true ->
  (sr_scope r = 1%Z -> parse_dn (sr_base r) <> Some [] /\ forall k e, m !! k = Some e -> plain_first (e_dn e)) ->
  fair cfg m p.
Proof.
  intros Hb Hr Hm Henv Hsay Htx Hcf Hev Hone id' req' r' Henv' _ Hsay'.
  assert (req' = req) as ->.
  { destruct Henv as (i & rest & H1 & _), Henv' as (i' & rest' & H2 & _). rewrite H1 in H2. by injection H2. }
  assert (r' = r) as ->.
  { apply search_iff in Hsay, Hsay'. rewrite Hsay in Hsay'. by injection Hsay'. }
  split; [done|]. intros _ flt dd k e Hflt Hdd Hk Hsc. rewrite Hcf in Hflt. injection Hflt as <-.
  destruct (reach_sim HT b d m Hb Hr Hm) as [_ (g & Hg & Eg)].
  pose proof Hk as Hk'. rewrite Eg, lookup_fmap in Hk'. destruct (g !! k) as [[j e1]|] eqn:Ek; [|done]. injection Hk' as ->.
  destruct (s_dn _ _ _ Hg _ _ _ Ek) as (de & Hde & _). cbn [snd] in Hde.
  destruct (apply_filter_sat f e Hev) as (x & Hx & _). destruct x; [|exists false; by left].
  assert (exists y, filter_scope (sr_base r) (sr_scope r) e = Ok y) as [y Hy]; [|exists y; by right].
  destruct (decide (sr_scope r = 1%Z)) as [E|E].
  - destruct (Hone E) as [Hne Hpl]. rewrite E. eexists. apply (scope_one HT); [by eapply Hpl|done..|congruence].
  - unfold filter_scope. rewrite Hdd, Hde. destruct (sr_scope r =? ScopeBase)%Z; [by eexists|].
    assert ((sr_scope r =? ScopeOne)%Z = false) as -> by by apply Z.eqb_neq. by eexists.
Qed.
Print Assumptions C94_fair.

(** Messages of which that can be told without knowing the directory: a search
    not of one level, with such a filter. *)
Definition plain_msg {T : Text} {W : Wire} (p : packet) : Prop :=
  forall id req r, envelope p id req -> p_tag req = SearchRequest -> says_search req r ->
    dn_text_ok (sr_base r) /\ sr_scope r <> 1%Z /\
    exists f, compile_filter (sr_filter r) = Some (filter_packet f) /\ evaluable f = true.
Theorem C94_fair_along (T : Text) (C : Crypto) (W : Wire) (HT : TextOK T) (cfg : server_cfg) (c : bolt_cfg)
    (b : dn) (h : list (env * op)) (m : dir) (es : list (event (E:=env))) :
  base_ok b -> bc_base c = normalize b -> Forall (fun p => op_ok p.2) h ->
  (N.of_nat (length h + length es) + 1 < 2 ^ 64)%N ->
  represents (run_ops (normalize b) h empty_db) m ->
  (forall conn ev p, In (EPacket conn ev p) es -> re_h ev = no_faults /\ clean p /\ plain_msg p) ->
  fair_along cfg c (start (run_ops (normalize b) h empty_db)) es.
Proof.
  intros Hb Hc Hh Hl M Hes.
  assert (Hp : paired b (length h) (start (run_ops (normalize b) h empty_db)) (start (run_ops (normalize b) h empty_db))).
  { split; try done. split; [exists h; split; [done|]; split; [lia|done]|].
    split; [exists h; split; [done|]; split; [lia|done]|]. by exists m. }
  revert Hl Hes Hp. generalize (length h) as n, (start (run_ops (normalize b) h empty_db)) as w. clear h Hh m M.
  induction es as [|e es IH]; intros n w Hl Hes Hp; [done|]. cbn [length] in Hl.
  assert (He : match e with
      | EPacket _ ev p => re_h ev = no_faults /\ clean p /\ forall m, represents (w_state w) m -> fair cfg m p
      | _ => True
      end).
  { destruct e as [|k ev p|]; try done. destruct (Hes k ev p (or_introl eq_refl)) as (H1 & H2 & H3). split; [done|]. split; [done|].
    intros m M id req r E1 E2 E3. destruct (H3 id req r E1 E2 E3) as (X1 & X2 & f & X3 & X4).
    assert (Hr : reachable b (w_state w)) by (eapply made_reachable; [|apply Hp]; lia).
    eapply (C94_fair T C W HT cfg b (w_state w) m p id req r f); try done. }
  split; [exact He|]. destruct (step_paired HT b n cfg c w w e Hb ltac:(lia) Hc Hp He) as [Hp' _].
  apply (IH (S n)); [lia| |done]. intros k ev p Hin. apply (Hes k). by right.
Qed.
Print Assumptions C94_fair_along.

Section case.
#[local] Existing Instances ascii_text toy wire1.
(** The same directory, with Carl put before Ada; the administrator searches the
    tree, fails to delete a missing entry, and searches with a size limit of one. *)
Definition e94 : str := B "uid=x,ou=people,o=base".
Definition h94 : list (env * op) := [good (OpPut e_base); good (OpPut e_people); good (OpPut e_carl); good (OpPut e_ada)].
Definition d94 : db := run_ops (normalize b0) h94 empty_db.
Definition search94 (limit : Z) : packet :=
  enc_search (mkSearch (B "o=base") 2 limit false (B "(uid=x)") []) 0 0 (filter_packet (FPres (B "uid"))).
Definition es94 : list (event (E:=env)) :=
  [EOpen 0; EPacket 0 ev1 (p_msg 1 (enc_bind admin1 (B "secret")));
   EPacket 0 ev1 (p_msg 2 (search94 0)); EPacket 0 ev1 (p_msg 3 (enc_delete e94)); EPacket 0 ev1 (p_msg 4 (search94 1))].
Lemma clean_search id r a l f : clean (p_msg id (enc_search r a l f)).
Proof.
  split.
  - intros bound o _ (i & req & rest & id' & [= <- <- <-] & _ & [Hw|(r' & hash & Hw & _)]).
    + destruct Hw as [_ [[? _]|[[? _]|[[? _]|[? _]]]]]; done.
    + by destruct Hw as (_ & ? & _).
  - intros dn' pw' n (id' & req & v & x & y & (i & rest & [= <- <- <-] & _ & _) & ? & _) Hp. done.
Qed.
Lemma plain_search id l : plain_msg (p_msg id (search94 l)).
Proof.
  intros id' req r (i & rest & [= <- <- <-] & _ & _) _ Hs. apply search_iff in Hs.
  assert (E : sr_base r = B "o=base" /\ sr_scope r = 2%Z).
  { revert Hs. unfold search94, enc_search, parse_search. cbn. intros [= <-]. done. }
  destruct E as [-> ->]. split; [intros dd; vm_compute; by intros [= <-]|]. split; [done|]. by exists (FPres (B "uid")).
Qed.
Lemma plain_other id req : p_tag req <> SearchRequest -> plain_msg (p_msg id req).
Proof. intros Hne id' req' r (i & rest & [= <- <- <-] & _ & _) ? _. done. Qed.
Lemma es94_ok conn ev p : In (EPacket conn ev p) es94 -> re_h ev = no_faults /\ clean p /\ plain_msg p.
Proof.
  assert (Hc : dn_text_ok e94) by (intros dd; vm_compute; by intros [= <-]).
  intros [H|[H|[H|[H|[H|[]]]]]]; try done; injection H as <- <- <-; (split; [done|]); split;
    try apply clean_search; try apply plain_search; try (apply plain_other; done); [|by apply clean_delete].
  apply clean_bind. intros n. vm_compute parse_normalize. intros [= <-] dd. vm_compute. by intros [= <-].
Qed.
Lemma d94_m1 : represents d94 m1.
Proof.
  apply represents_list.
  - repeat constructor; vm_compute; reflexivity.
  - apply (bool_decide_unpack _). vm_compute. exact I.
Qed.
(** The entries arrive in different orders, and the size limit picks different
    ones; every other message is equal. *)
Example C94_case :
  base_ok b0 /\ bc_base c1 = normalize b0 /\ represents d1 m1 /\ represents d94 m1 /\ fair_along cfg1 c1 (start d1) es94 /\
  Forall2 alike (outputs cfg1 c1 (start d1) es94) (outputs cfg1 c1 (start d94) es94) /\
  map (map (fun x => match x with REntry _ e => e_dn e | _ => [] end)) (outputs cfg1 c1 (start d1) es94) =
    [[]; [[]]; [e_dn e_ada; carl; []]; [[]]; [e_dn e_ada; []]] /\
  map (map (fun x => match x with REntry _ e => e_dn e | _ => [] end)) (outputs cfg1 c1 (start d94) es94) =
    [[]; [[]]; [carl; e_dn e_ada; []]; [[]]; [carl; []]].
Proof.
  assert (Hh : Forall (fun p : env * op => op_ok p.2) h1) by (apply ops_okb_ok; vm_compute; reflexivity).
  assert (Hh' : Forall (fun p : env * op => op_ok p.2) h94) by (apply ops_okb_ok; vm_compute; reflexivity).
  assert (Hc : bc_base c1 = normalize b0) by (vm_compute; reflexivity).
  assert (Hf : fair_along cfg1 c1 (start d1) es94).
  { eapply (C94_fair_along ascii_text toy wire1 ascii_text_ok cfg1 c1 b0 h1 m1 es94 b0_ok Hc Hh); [vm_compute; reflexivity|exact d1_m1|exact es94_ok]. }
  split; [exact b0_ok|]. split; [exact Hc|]. split; [exact d1_m1|]. split; [exact d94_m1|]. split; [exact Hf|]. split; [|split].
  - eapply (C94_same_answers ascii_text toy wire1 ascii_text_ok cfg1 c1 b0 h1 h94 m1 es94 b0_ok Hc Hh Hh'); [vm_compute; reflexivity|exact d1_m1|exact d94_m1|exact Hf].
  - vm_compute. reflexivity.
  - vm_compute. reflexivity.
Qed.

Example C94_restored_case :
  Forall (fun p : env * op => op_ok p.2 /\ ~ renames b0 p.2) h94 /\ m1 <> ∅ /\
  exists exported d', export_db d94 (normalize b0) = Ok (exported, None) /\ length exported = 4 /\
    load_db (normalize b0) exported empty_db = (Done (Ok tt), d') /\
    Forall2 alike (outputs cfg1 c1 (start d94) es94) (outputs cfg1 c1 (start d') es94).
Proof.
  assert (Hh : Forall (fun p : env * op => op_ok p.2) h94) by (apply ops_okb_ok; vm_compute; reflexivity).
  assert (Hc : bc_base c1 = normalize b0) by (vm_compute; reflexivity).
  assert (Hh' : Forall (fun p : env * op => op_ok p.2 /\ ~ renames b0 p.2) h94).
  { apply List.Forall_forall. intros x Hx. split; [by eapply List.Forall_forall in Hh|].
    destruct Hx as [<-|[<-|[<-|[<-|[]]]]]; intros []. }
  assert (Hm : m1 <> ∅).
  { intros E. apply (f_equal (fun x : dir => size x)) in E. revert E. rewrite map_size_empty. vm_compute. discriminate. }
  assert (Hf : fair_along cfg1 c1 (start d94) es94).
  { eapply (C94_fair_along ascii_text toy wire1 ascii_text_ok cfg1 c1 b0 h94 m1 es94 b0_ok Hc Hh); [vm_compute; reflexivity|exact d94_m1|exact es94_ok]. }
  split; [exact Hh'|]. split; [exact Hm|].
  destruct (C94_restored ascii_text toy wire1 ascii_text_ok cfg1 c1 b0 h94 m1 es94 b0_ok Hc Hh' ltac:(vm_compute; reflexivity) d94_m1 Hm Hf)
    as (xs & d' & H1 & H2 & H3 & _).
  exists xs, d'. split; [exact H1|]. split; [|split; [exact H2|exact H3]].
  assert (E : match export_db d94 (normalize b0) with Ok (x, _) => length x | _ => 0 end = 4) by (vm_compute; reflexivity).
  rewrite <- E. unfold d94 in *. by rewrite H1.
Qed.

(** Equal answers, in the same order, are not promised: with a size limit even
    the entries sent differ. *)
Theorem C94_order_refuted :
  exists (T : Text) (C : Crypto) (W : Wire) (cfg : server_cfg) (c : bolt_cfg) (b : dn) (h1 h2 : list (env * op)) (m : dir) (es : list (event (E:=env))),
    let d1 := run_ops (normalize b) h1 empty_db in
    let d2 := run_ops (normalize b) h2 empty_db in
    base_ok b /\ represents d1 m /\ represents d2 m /\ fair_along cfg c (start d1) es /\
    exists e1 e2 o1 o2 id, In o1 (outputs cfg c (start d1) es) /\ In o2 (outputs cfg c (start d2) es) /\
      o1 = [REntry id e1; RFinal id SearchResultDone 4 None] /\ o2 = [REntry id e2; RFinal id SearchResultDone 4 None] /\
      e_dn e1 <> e_dn e2.
Proof.
  exists ascii_text, toy, wire1, cfg1, c1, b0, h1, h94, m1, es94. intros x1 x2.
  destruct C94_case as (H1 & _ & H2 & H3 & H4 & _).
  split; [exact H1|]. split; [exact H2|]. split; [exact H3|]. split; [exact H4|].
  assert (E1 : nth_error (outputs cfg1 c1 (start d1) es94) 4 = Some [REntry 4 e_ada; RFinal 4 SearchResultDone 4 None]) by (vm_compute; reflexivity).
  assert (E2 : nth_error (outputs cfg1 c1 (start d94) es94) 4 = Some [REntry 4 e_carl; RFinal 4 SearchResultDone 4 None]) by (vm_compute; reflexivity).
  do 5 eexists. split; [eapply nth_error_In; exact E1|]. split; [eapply nth_error_In; exact E2|]. split; [reflexivity|]. split; [reflexivity|].
  vm_compute. discriminate.
Qed.
Print Assumptions C94_order_refuted.
End case.
