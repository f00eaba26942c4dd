(** Properties C95 and C96: a restore changes no answer, not even the order of
    entries; and what that order is. *)
From Verif Require Import Bytes Text Dn DnProofs Res Entry EntryProofs Password PasswordProofs P_Password
  Db DbSpec IdProofs DbProofs DbOps DbSearch DbFacts DbMore P_Db
  Packet Filter FilterProofs P_Filter Handler Server ServerProofs CrashProofs P_Server
  Encode EncodeProofs E2e E2eProofs P_E2e ScopeProofs TwinProofs P_Twin IsoProofs OrderProofs ListProofs.

Section order.
Context {T : Text} {C : Crypto} {W : Wire} (HT : TextOK T).
Lemma search_ends b d g s scope : base_ok b -> sim b d g -> search d s scope <> Diverge.
Proof using HT.
  intros Hb Hg. unfold search. destruct (parse_normalize s) as [n|]; [|done].
  destruct (dn2id d !! n) as [v|] eqn:E.
  - apply (s_dn2id _ _ _ Hg) in E as (k & i & e & G & -> & ->). pose proof (s_key _ _ _ Hg _ _ _ G) as Hk.
    rewrite (sim_get_id _ _ _ _ Hg (gk_wf _ _ Hk)), G. cbn [rbind]. rewrite (sim_id_nonzero _ _ _ _ _ _ Hg G).
    destruct (_ =? _)%Z; [done|]. destruct (_ =? _)%Z; [done|]. destruct (_ =? _)%Z; [|done].
    destruct (subtree_spec b d g (S (size (id2ch d))) Hg (base_ne _ Hb) k i e G) as (l & Hl & _).
    { pose proof (measure_top d g k). lia. }
    by rewrite Hl.
  - unfold get_id. by rewrite E.
Qed.
Lemma iso_represents k r d1 d2 m : iso k r d1 d2 -> represents d1 m -> represents d2 m.
Proof using Type.
  intros H [D U]. split.
  - intros x e Hx. destruct (D _ _ Hx) as (H1 & H2 & v & Hv & He). split; [done|]. split; [done|].
    pose proof (io_dn _ _ _ _ H (normalize x)) as Hn. rewrite Hv in Hn. destruct (dn2id d2 !! normalize x) as [w|]; [|done].
    destruct Hn as (i & j & Hr & -> & ->). exists (id_bytes j). split; [done|]. by rewrite <- (io_ent _ _ _ _ H _ _ Hr).
  - intros s v Hv. pose proof (io_dn _ _ _ _ H s) as Hn. rewrite Hv in Hn. destruct (dn2id d1 !! s) as [w|] eqn:E; [|done]. by eapply U.
Qed.
(** Two servers on databases of this kind that differ in numbers only, which
    have [k] numbers left. *)
Definition numbered (b : dn) (n : nat) (k : N) (d1 d2 : db) : Prop :=
  made b n d1 /\ made b n d2 /\ exists r, iso k r d1 d2.
Record matched (b : dn) (n : nat) (k : N) (w1 w2 : world (S:=db)) : Prop := {
  ma_conns : w_conns w1 = w_conns w2;
  ma_alive : w_alive w1 = w_alive w2;
  ma_dir : numbered b n k (w_state w1) (w_state w2);
  ma_names : forall k' bound, w_conns w1 !! k' = Some bound -> dn_text_ok bound
}.
Lemma step_matched b n k cfg c w1 w2 e :
  base_ok b -> (N.of_nat n + 1 < 2 ^ 64)%N -> bc_base c = normalize b -> matched b n (k + 1) w1 w2 ->
  match e with EPacket _ _ p => clean p | _ => True end ->
  let x1 := step cfg (bolt_handler c) w1 e in
  let x2 := step cfg (bolt_handler c) w2 e in
  matched b (S n) k x1.1 x2.1 /\ x1.2 = x2.2.
Proof using HT.
  intros Hb Hn Hc [P1 P2 P3 P4] Hf. destruct w1 as [cs1 s1 a1], w2 as [cs2 s2 a2]. cbn in P1, P2, P3, P4, Hf. subst cs2 a2.
  assert (P3' : numbered b (S n) k s1 s2).
  { destruct P3 as (H1 & H2 & r & Hr). split; [by apply made_mono|]. split; [by apply made_mono|]. exists r. eapply iso_weak; [|exact Hr]. lia. }
  unfold step. cbn [w_alive w_conns w_state]. destruct a1; cbn [negb]; [|by split; [split|]].
  destruct e as [k0|k0 ev p|k0].
  - destruct (cs1 !! k0) eqn:Ek; (split; [|done]); split; try done. cbn. intros k' bound.
    destruct (decide (k0 = k')) as [<-|Hne]; [rewrite lookup_insert; intros [= <-]; by apply empty_ok|].
    rewrite lookup_insert_ne by done. apply P4.
  - destruct (cs1 !! k0) as [bound|] eqn:Ek; [|by split; [split|]].
    destruct P3 as (H1 & H2 & r & Hr).
    destruct (handle_equal (numbered b (S n) k) c ev s1 s2) with (cfg := cfg) (bound := bound) (p := p) as (Hx & Ho & Hs); [| |exact P3'|by eapply P4|exact Hf|].
    { intros o tr Hok. destruct (iso_op (bc_base c) (re_h ev) o k r s1 s2 Hr) as [E [r' Hr']].
      pose proof (made_op b n s1 (re_h ev) o H1 Hok) as K1. pose proof (made_op b n s2 (re_h ev) o H2 Hok) as K2. rewrite <- Hc in K1, K2.
      unfold bolt_write. destruct (run_op (bc_base c) (re_h ev) o s1) as [x1 d1'], (run_op (bc_base c) (re_h ev) o s2) as [x2 d2'].
      cbn in E, Hr', K1, K2. subst x2. assert (numbered b (S n) k d1' d2') by (split; [done|]; split; [done|]; by exists r').
      destruct x1 as [[| | |]|]; by split. }
    { intros s scope. destruct (reachable_sim HT b s1 Hb (made_reachable _ _ _ Hn H1)) as [_ [g1 G1]].
      destruct (reachable_sim HT b s2 Hb (made_reachable _ _ _ Hn H2)) as [_ [g2 G2]].
      eapply iso_search; [exact Hr| |]; by eapply search_ends. }
    assert (Hgo : forall b', r_next (handle cfg (bolt_handler c) ev bound p s1) = Go b' -> dn_text_ok b').
    { intros b' Hb'. destruct (decide (b' = bound)) as [->|Hne]; [by eapply P4|].
      destruct (handle_identity cfg (bolt_handler c) ev bound p s1 b' Hb' Hne) as (dn & pw & Hsb & Hpn & _).
      destruct Hf as [_ Hcl]. by eapply Hcl. }
    cbn [fst snd]. split; [|exact Ho]. rewrite <- Hx.
    destruct (r_next (handle cfg (bolt_handler c) ev bound p s1)) as [b'| |]; split; try done; cbn.
    + intros k' bd. destruct (decide (k0 = k')) as [<-|Hne]; [rewrite lookup_insert; intros [= <-]; by apply Hgo|].
      rewrite lookup_insert_ne by done. apply P4.
    + intros k' bd [_ H]%lookup_delete_Some. by eapply P4.
  - split; [|done]. split; try done. cbn. intros k' bd [_ H]%lookup_delete_Some. by eapply P4.
Qed.
Lemma run_matched b cfg c es : forall n w1 w2,
  base_ok b -> bc_base c = normalize b -> (N.of_nat (n + length es) + 1 < 2 ^ 64)%N -> matched b n (N.of_nat (length es)) w1 w2 ->
  (forall conn ev p, In (EPacket conn ev p) es -> clean p) ->
  outputs cfg c w1 es = outputs cfg c w2 es /\
  matched b (n + length es) 0 (run cfg (bolt_handler c) w1 es) (run cfg (bolt_handler c) w2 es).
Proof using HT.
  induction es as [|e es IH]; intros n w1 w2 Hb Hc Hn Hp Hf.
  { split; [done|]. by rewrite Nat.add_0_r. }
  cbn [length] in Hn, Hp. replace (N.of_nat (S (length es))) with (N.of_nat (length es) + 1)%N in Hp by lia.
  destruct (step_matched b n (N.of_nat (length es)) cfg c w1 w2 e Hb ltac:(lia) Hc Hp) as [Hp' Ha].
  { destruct e as [|k ev p|]; try done. eapply Hf. by left. }
  destruct (IH (S n) _ _ Hb Hc ltac:(lia) Hp') as [H1 H2]; [intros k ev p Hin; eapply Hf; by right|]. cbn [outputs run length]. split; [by f_equal|].
  by replace (n + S (length es)) with (S n + length es) by lia.
Qed.
End order.

(** C95.  A server on a database restored from its export answers every message
    as a server on the old file does: the same messages in the same order, the
    entries of a search included, whatever I/O errors and lost connections they
    meet alike; and it ends with the same connections and the same directory. *)
Theorem C95_restored_exactly (T : Text) (C : Crypto) (W : Wire) (HT : TextOK T) (cfg : server_cfg) (c : bolt_cfg)
    (b : dn) (h : list (env * op)) (m : dir) (es : list (event (E:=env))) :
  base_ok b -> bc_base c = normalize b -> Forall (fun p => op_ok p.2 /\ ~ renames b p.2) h ->
  (N.of_nat (length h + size m + length es) + 1 < 2 ^ 64)%N ->
  let d := run_ops (normalize b) h empty_db in
  represents d m -> m <> ∅ -> (forall conn ev p, In (EPacket conn ev p) es -> clean p) ->
  exists exported d', export_db d (normalize b) = Ok (exported, None) /\
    load_db (normalize b) exported empty_db = (Done (Ok tt), d') /\
    outputs cfg c (start d) es = outputs cfg c (start d') es /\
    let w := run cfg (bolt_handler c) (start d) es in
    let w' := run cfg (bolt_handler c) (start d') es in
    w_conns w = w_conns w' /\ w_alive w = w_alive w' /\ exists m', represents (w_state w) m' /\ represents (w_state w') m'.
Proof.
  intros Hb Hc Hh Hl d M Hne Hcl.
  destruct (C27_export_load T C HT b h m Hb Hh ltac:(lia) M) as [[-> _]|(xs & d' & Hx & Hld & M')]; [done|].
  exists xs, d'. split; [exact Hx|]. split; [exact Hld|].
  assert (Hh' : Forall (fun p : env * op => op_ok p.2) h) by (eapply Forall_impl; [exact Hh|]; by intros p [? _]).
  assert (Hr : reachable b d) by (exists h; split; [done|]; split; [lia|done]).
  destruct (reach_sim HT b d m Hb Hr M) as [_ (g & Hg & Eg)].
  assert (Hxs : length xs <= size m /\ Forall (fun e => dn_text_ok (e_dn e)) xs).
  { unfold export_db in Hx. fold d in Hx.
    assert (Hpb : parse_dn (normalize b) = Some b).
    { rewrite normalize_flat, (base_folded _ Hb) by apply Hb. apply (parse_flat HT); apply Hb. }
    pose proof (search_spec HT b d g (normalize b) b ScopeSub Hb Hg Hpb (base_wf _ Hb)) as Hs. rewrite <- Eg in Hs.
    specialize (Hs (or_intror (or_intror eq_refl))).
    destruct (m !! fold_dn b) as [e0|]; [|by rewrite Hs in Hx]. destruct Hs as (xs' & Hs & HP). rewrite Hs in Hx. injection Hx as ->.
    split.
    - rewrite (Permutation_length HP), map_length. etransitivity; [apply bfilter_le|]. done.
    - apply List.Forall_forall. intros e He. apply (Permutation_in _ HP) in He.
      apply in_map_iff in He as ([k e'] & <- & Hin). apply filter_In in Hin as [Hin _].
      apply elem_of_list_In, elem_of_map_to_list in Hin. rewrite Eg, lookup_fmap in Hin.
      destruct (g !! k) as [[j e1]|] eqn:Ek; [|done]. injection Hin as ->.
      destruct (s_dn _ _ _ Hg _ _ _ Ek) as (dd & Hdd & Hwf & _). intros dd' Hdd'. cbn [snd] in Hdd'. congruence. }
  destruct Hxs as [Hlen Hok].
  set (h' := map (fun e => (no_faults, OpPut e)) xs).
  assert (Hrun : d' = run_ops (normalize b) h' empty_db).
  { unfold h'. clear -Hld. revert Hld. generalize empty_db. induction xs as [|e xs IH]; intros d0; cbn [load_db map run_ops]; [by intros [= <-]|].
    destruct (run_op (normalize b) no_faults (OpPut e) d0) as [[[u| | |]|] d1]; try done. apply IH. }
  assert (Hok' : Forall (fun p : env * op => op_ok p.2) h') by (unfold h'; apply Forall_map; eapply Forall_impl; [exact Hok|]; done).
  assert (Hlen' : length h' = length xs) by (unfold h'; by rewrite map_length).
  assert (Hr' : reachable b d') by (rewrite Hrun; exists h'; split; [done|]; split; [lia|done]).
  destruct (reach_sim HT b d' m Hb Hr' M') as [_ (g' & Hg' & Eg')].
  assert (H0 : idseq empty_db = 0%N) by done.
  assert (Ha : forall h0 : list (env * op), (N.of_nat (length h0) < 2 ^ 64)%N -> asc (idseq (run_ops (normalize b) h0 empty_db)) (run_ops (normalize b) h0 empty_db) /\
    (idseq (run_ops (normalize b) h0 empty_db) <= N.of_nat (length h0))%N).
  { intros h0 Hl0. split; [apply asc_history; [rewrite H0; apply asc_empty|lia]|].
    pose proof (run_ops_seq (normalize b) h0 empty_db ltac:(lia)). lia. }
  destruct (Ha h ltac:(lia)) as [A1 Q1], (Ha h' ltac:(lia)) as [A2 Q2]. fold d in A1, Q1. rewrite <- Hrun in A2, Q2.
  assert (Hiso : iso (N.of_nat (length es)) (fun i j => exists k e, g !! k = Some (i, e) /\ g' !! k = Some (j, e)) d d').
  { eapply (restore_iso HT b d g _ d' g' _ xs); try done; [congruence|lia..]. }
  assert (Hma : matched b (max (length h) (length xs)) (N.of_nat (length es)) (start d) (start d')).
  { split; try done. split; [exists h; split; [done|]; split; [lia|done]|].
    split; [exists h'; split; [done|]; split; [lia|done]|]. eexists. exact Hiso. }
  destruct (run_matched HT b cfg c es (max (length h) (length xs)) _ _ Hb Hc ltac:(lia) Hma Hcl) as [Ho [R1 R2 (K1 & _ & r & Hiso') _]].
  split; [exact Ho|]. split; [done|]. split; [done|].
  destruct (reachable_sim HT b _ Hb (made_reachable b (max (length h) (length xs) + length es) _ ltac:(lia) K1)) as [_ [gf Gf]]. apply sim_represents in Gf.
  eexists. split; [exact Gf|]. by eapply iso_represents.
Qed.
Print Assumptions C95_restored_exactly.

Section case95.
#[local] Existing Instances ascii_text toy wire1.
Lemma es94_clean conn ev p : In (EPacket conn ev p) es94 -> clean p.
Proof. intros H. by apply es94_ok in H as (_ & ? & _). Qed.
(** The database in which Carl comes before Ada: after the restore, still so. *)
Example C95_case :
  Forall (fun p : env * op => op_ok p.2 /\ ~ renames b0 p.2) h94 /\ m1 <> ∅ /\
  exists exported d', export_db d94 (normalize b0) = Ok (exported, None) /\
    load_db (normalize b0) exported empty_db = (Done (Ok tt), d') /\
    outputs cfg1 c1 (start d94) es94 = outputs cfg1 c1 (start d') es94 /\
    map (map (fun x => match x with REntry _ e => e_dn e | _ => [] end)) (outputs cfg1 c1 (start d') es94) =
      [[]; [[]]; [carl; e_dn e_ada; []]; [[]]; [carl; []]].
Proof.
  destruct C94_restored_case as (Hh' & Hm & _).
  assert (Hc : bc_base c1 = normalize b0) by (vm_compute; reflexivity).
  split; [exact Hh'|]. split; [exact Hm|].
  destruct (C95_restored_exactly ascii_text toy wire1 ascii_text_ok cfg1 c1 b0 h94 m1 es94 b0_ok Hc Hh' ltac:(vm_compute; reflexivity) d94_m1 Hm es94_clean)
    as (xs & d' & H1 & H2 & H3 & _).
  exists xs, d'. split; [exact H1|]. split; [exact H2|]. split; [exact H3|].
  destruct C94_case as (_ & _ & _ & _ & _ & _ & _ & E). rewrite <- E. apply (f_equal (map (map (fun x => match x with REntry _ e => e_dn e | _ => [] end)))).
  symmetry. exact H3.
Qed.
End case95.

(** The operation takes the entry named [p] away from there. *)
Definition takes_away {T : Text} (o : op) (p : dn) : Prop :=
  match o with
  | OpDelete s => exists x, parse_dn s = Some x /\ fold_dn x = p
  | OpModDn r => exists x, parse_dn (md_dn r) = Some x /\ fold_dn x = p
  | _ => False
  end.
(** C96.  The entries below a parent are listed in the order in which they got
    there: an entry added is listed last, one deleted drops out, one renamed keeps
    its place, and nothing else changes the list.  Only when the operation takes
    the parent away, which then listed nothing, is there no list after it. *)
Theorem C96_listing (T : Text) (C : Crypto) (HT : TextOK T) (b : dn) (d : db) (ev : env) (o : op) (d' : db)
    (s : str) (dd : dn) (ks : list dn) :
  base_ok b -> reachable b d -> op_ok o -> run_op (normalize b) ev o d = (Done (Ok tt), d') ->
  parse_dn s = Some dd -> wf_dn dd = true -> lists d s ks ->
  lists d' s (listed_after o (fold_dn dd) ks) \/
  ks = [] /\ search d' s ScopeOne = Ok ([], Some ENotFound) /\ takes_away o (fold_dn dd).
Proof.
  intros Hb Hr Ho Hrun Hp Hw Hl. destruct (reachable_sim HT b d Hb Hr) as [Hq [g Hg]].
  destruct (op_ok_inv HT b d (snd <$> g) ev o d' Hb Hr (sim_represents _ _ _ Hg) Ho Hrun) as (m' & _ & _ & g' & Hg' & _).
  assert (H0 : idseq empty_db = 0%N) by done.
  assert (Ha : asc (idseq d) d).
  { destruct Hr as (h & _ & Hlh & ->). apply asc_history; [rewrite H0; apply asc_empty|lia]. }
  assert (Ha' : asc (idseq d') d').
  { pose proof (asc_op (normalize b) ev o d Ha Hq) as H. by rewrite Hrun in H. }
  pose proof (renumber_op HT b d g ev o d' g' Hb Hg Ho Hq Hrun Hg') as Hn.
  assert (Hwf : wf_dn (fold_dn dd) = true) by by apply fold_dn_wf.
  destruct (g !! fold_dn dd) as [[i e0]|] eqn:Hk.
  2: { exfalso. destruct Hl as (es & Hs & _). unfold search, parse_normalize in Hs. rewrite Hp in Hs. cbn [fmap option_fmap option_map] in Hs.
       rewrite (normalize_flat _ Hw), (sim_get_id _ _ _ _ Hg Hwf), Hk in Hs. done. }
  destruct (g' !! fold_dn dd) as [[i' e0']|] eqn:Hk'.
  { left. eapply (lists_op HT b d g (idseq d) ev o d' g' s dd i e0 i' e0'); eauto. }
  right.
  assert (E1 : (fst <$> g) !! fold_dn dd = Some i) by by rewrite lookup_fmap, Hk.
  assert (E2 : renumber o (idseq d) (fst <$> g) !! fold_dn dd = None) by by rewrite <- Hn, lookup_fmap, Hk'.
  assert (Htk : takes_away o (fold_dn dd) /\ forall k j, k <> fold_dn dd -> (fst <$> g) !! k = Some j -> renumber o (idseq d) (fst <$> g) !! k <> None).
  { destruct o as [e|x|r|r|r]; cbn [renumber takes_away] in *.
    - destruct (parse_dn (e_dn e)); [|congruence]. exfalso. apply lookup_insert_None in E2 as [E2 _]. congruence.
    - destruct (parse_dn x) as [y|]; [|congruence]. apply lookup_delete_None in E2 as [E2|E2]; [|congruence]. split; [eauto|].
      intros k j Hne Hj. rewrite lookup_delete_ne by congruence. congruence.
    - congruence.
    - destruct (parse_dn (md_dn r)) as [[|x y]|]; [congruence| |congruence].
      destruct (parse_dn (md_newrdn r)) as [[|x' y']|]; [congruence| |congruence].
      destruct ((fst <$> g) !! fold_dn (x :: y)) as [n|]; [|congruence].
      apply lookup_insert_None in E2 as [E2 _]. apply lookup_delete_None in E2 as [E2|E2]; [|congruence]. split; [eauto|].
      intros k j Hne Hj Hno. apply lookup_insert_None in Hno as [Hno _]. apply lookup_delete_None in Hno as [Hno|Hno]; congruence.
    - congruence. }
  destruct Htk as [Htk Hkeep]. split; [|split; [|exact Htk]].
  - apply (lists_pairs HT b d g _ s dd i e0 ks Hb Hg Ha Hp Hw Hk) in Hl as (L & -> & _ & HM).
    destruct L as [|[k j] L]; [done|]. exfalso. destruct (HM k j) as [HM1 _]. destruct (HM1 (or_introl eq_refl)) as [Hj [r ->]].
    assert (Hne : r :: fold_dn dd <> fold_dn dd) by (intros E; apply (f_equal length) in E; cbn in E; lia).
    specialize (Hkeep _ _ Hne Hj). rewrite <- Hn, lookup_fmap in Hkeep. destruct (g' !! (r :: fold_dn dd)) as [[j' e']|] eqn:E; [|done].
    destruct (s_parent _ _ _ Hg' _ _ _ _ E) as [[? Hs]|Hs]; [congruence|].
    pose proof (gk_len _ _ (s_key _ _ _ Hg _ _ _ Hk)) as Hlen. rewrite Hs in Hlen. pose proof (base_ne _ Hb). destruct b; [done|]. cbn in Hlen. lia.
  - unfold search, parse_normalize. rewrite Hp. cbn [fmap option_fmap option_map].
    by rewrite (normalize_flat _ Hw), (sim_get_id _ _ _ _ Hg' Hwf), Hk'.
Qed.
Print Assumptions C96_listing.

Section case96.
#[local] Existing Instances ascii_text toy.
(** Carl, then Ada; Dan is added, Carl renamed to Zoe, Ada deleted. *)
Definition people96 : str := B "ou=people,o=base".
Definition e_dan : entry := mkEntry (B "uid=dan,ou=people,o=base") (e_attrs e_carl).
Definition key96 (u : str) : dn := [(B "uid", u)] :: [(B "ou", B "people")] :: b0.
Definition rename96 : op := OpModDn (mkModDn carl (B "uid=Zoe") true).
Example C96_case :
  let d1 := (run_op (normalize b0) no_faults (OpPut e_dan) d94).2 in
  let d2 := (run_op (normalize b0) no_faults rename96 d1).2 in
  let d3 := (run_op (normalize b0) no_faults (OpDelete (e_dn e_ada)) d2).2 in
  reachable b0 d94 /\ lists d94 people96 [key96 (B "carl"); key96 (B "ada")] /\
  run_op (normalize b0) no_faults (OpPut e_dan) d94 = (Done (Ok tt), d1) /\
  run_op (normalize b0) no_faults rename96 d1 = (Done (Ok tt), d2) /\
  run_op (normalize b0) no_faults (OpDelete (e_dn e_ada)) d2 = (Done (Ok tt), d3) /\
  lists d1 people96 [key96 (B "carl"); key96 (B "ada"); key96 (B "dan")] /\
  lists d2 people96 [key96 (B "zoe"); key96 (B "ada"); key96 (B "dan")] /\
  lists d3 people96 [key96 (B "zoe"); key96 (B "dan")].
Proof.
  intros x1 x2 x3.
  assert (Hl : forall d ks, match search d people96 ScopeOne with
      | Ok (es, None) => bool_decide (map key_of es = map Some ks)
      | _ => false
      end = true -> lists d people96 ks).
  { intros d ks. destruct (search d people96 ScopeOne) as [[es [x|]]| | |] eqn:E; try done.
    intros H%bool_decide_eq_true. by exists es. }
  assert (Hr : forall o d, match (run_op (normalize b0) no_faults o d).1 with Done (Ok _) => true | _ => false end = true ->
    run_op (normalize b0) no_faults o d = (Done (Ok tt), (run_op (normalize b0) no_faults o d).2)).
  { intros o d. destruct (run_op (normalize b0) no_faults o d) as [[[[]| | |]|] y]; done. }
  split; [exists h94; split; [apply ops_okb_ok; vm_compute; reflexivity|split; [vm_compute; reflexivity|done]]|].
  split; [apply Hl; vm_compute; reflexivity|]. split; [apply Hr; vm_compute; reflexivity|].
  split; [apply Hr; vm_compute; reflexivity|]. split; [apply Hr; vm_compute; reflexivity|].
  split; [apply Hl; vm_compute; reflexivity|]. split; [apply Hl; vm_compute; reflexivity|]. apply Hl; vm_compute; reflexivity.
Qed.
End case96.
