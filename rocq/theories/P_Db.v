(** Properties C12-C28: the database. *)
From Verif Require Import Bytes Text Dn DnProofs Res Entry EntryProofs Password Db DbSpec
  IdProofs DbProofs DbOps DbSearch DbFacts DbMore Conc ConcProofs PasswordProofs P_Password.

(** ** The setting of the examples: a base with a few entries. *)
Definition b0 : dn := [[(B "o", B "base")]].
Lemma b0_ok : base_ok (T:=ascii_text) b0.
Proof. split; vm_compute; done. Qed.
Definition ent (s : string) (l : list (string * string)) : entry :=
  mkEntry (B s) (map (fun p => mkAttr (B p.1) [B p.2]) l).
Definition e_base := ent "o=base" [("o", "base")]%string.
Definition e_people := ent "ou=People, o=Base" [("ou", "People")]%string.
Definition e_ada := ent "uid=Ada,ou=people,o=base" [("uid", "Ada"); ("userPassword", "secret")]%string.
Definition e_bob := ent "uid=bob,ou=people,o=base" [("uid", "bob")]%string.
Definition good (o : op) : env * op := (no_faults, o).
(** The second add fails at its third write, the fourth operation crashes
    before its commit, the fifth after it. *)
Definition h0 : list (env * op) :=
  [good (OpPut e_base);
   (mkEnv (fun n => n =? 2) CommitOk, OpPut e_people);
   good (OpPut e_people);
   (mkEnv (fun _ => false) CrashBefore, OpPut e_ada);
   (mkEnv (fun _ => false) CrashAfter, OpPut e_ada);
   good (OpPut e_bob);
   good (OpModDn (mkModDn (B "uid=bob,ou=people,o=base") (B "cn=Bob") false))].
(** Checking [op_ok] on concrete operations. *)
Definition text_okb (s : str) : bool :=
  match parse_dn (T:=ascii_text) s with Some d => wf_dn d | None => true end.
Definition op_okb (o : op) : bool :=
  match o with
  | OpPut e => text_okb (e_dn e)
  | OpDelete s => text_okb s
  | OpModify r => text_okb (m_dn r)
  | OpModDn r => text_okb (md_dn r) && text_okb (md_newrdn r)
  | OpPassword r => text_okb (pw_user r)
  end.
Lemma text_okb_ok s : text_okb s = true -> dn_text_ok (T:=ascii_text) s.
Proof. unfold text_okb. intros H d Hd. rewrite Hd in H. done. Qed.
Lemma op_okb_ok o : op_okb o = true -> op_ok (T:=ascii_text) o.
Proof.
  destruct o; simpl; try apply text_okb_ok. intros [H1 H2]%andb_true_iff.
  split; by apply text_okb_ok.
Qed.
Lemma ops_okb_ok (h : list (env * op)) :
  forallb (fun p => op_okb p.2) h = true -> Forall (fun p => op_ok (T:=ascii_text) p.2) h.
Proof.
  intros H. apply forallb_Forall in H. eapply Forall_impl; [exact H|].
  intros p Hp. by apply op_okb_ok.
Qed.
Definition d0 : db := run_ops (T:=ascii_text) (C:=toy) (normalize (T:=ascii_text) b0) h0 empty_db.
Lemma d0_reachable : reachable (T:=ascii_text) (C:=toy) b0 d0.
Proof.
  exists h0. split; [apply ops_okb_ok; vm_compute; reflexivity|]. split; [vm_compute; reflexivity|].
  reflexivity.
Qed.
(** The names stored in [d0]. *)
Example d0_names :
  map fst (map_to_list (dn2id d0)) ≡ₚ
  [B "o=base"; B "ou=people,o=base"; B "uid=ada,ou=people,o=base"; B "cn=bob,ou=people,o=base"].
Proof. apply (bool_decide_unpack _). vm_compute. exact I. Qed.
(** ... as a directory. *)
Definition e_bob' := mkEntry (B "cn=bob,ou=people,o=base")
  [mkAttr (B "uid") [B "bob"]; mkAttr (B "cn") [B "Bob"]].
Definition l0 : list (dn * entry) :=
  [(b0, e_base);
   ([(B "ou", B "people")] :: b0, e_people);
   ([(B "uid", B "ada")] :: [(B "ou", B "people")] :: b0, e_ada);
   ([(B "cn", B "bob")] :: [(B "ou", B "people")] :: b0, e_bob')].
Definition m0 : dir := list_to_map l0.
(** Checking [represents] on concrete data. *)
Lemma key_listed (m : gmap str str) s v : m !! s = Some v -> In s (map fst (map_to_list m)).
Proof.
  intros H. apply in_map_iff. exists (s, v). split; [done|].
  apply elem_of_list_In. by apply elem_of_map_to_list.
Qed.
Lemma represents_list {T : Text} (d : db) (l : list (dn * entry)) :
  Forall (fun p => wf_dn p.1 = true /\ fold_dn p.1 = p.1 /\
    (v ← dn2id d !! normalize p.1; id2ent d !! v) = Some p.2) l ->
  Forall (fun s => s ∈ map (fun p => normalize p.1) l) (map fst (map_to_list (dn2id d))) ->
  represents d (list_to_map l).
Proof.
  intros H1 H2. rewrite List.Forall_forall in H1, H2. split.
  - intros k e H. apply elem_of_list_to_map_2, elem_of_list_In, H1 in H as (Hw & Hf & H).
    simpl in *. split; [done|]. split; [done|].
    destruct (dn2id d !! normalize k) as [v|]; [|done]. by exists v.
  - intros s v H. apply key_listed, H2, elem_of_list_In, in_map_iff in H as ([k e] & <- & Hin).
    simpl. destruct (@list_to_map _ _ dir _ _ l !! k) as [e'|] eqn:E; [by exists k, e'|].
    apply not_elem_of_list_to_map in E. destruct E. apply elem_of_list_In, in_map_iff.
    by exists (k, e).
Qed.
Lemma d0_m0 : represents (T:=ascii_text) d0 m0.
Proof.
  apply represents_list.
  - repeat constructor; vm_compute; reflexivity.
  - apply (bool_decide_unpack _). vm_compute. exact I.
Qed.

(** C12.  The buckets are consistent after any history. *)
Theorem C12_indexes_consistent (T : Text) (C : Crypto) (HT : TextOK T)
    (b : dn) (h : list (env * op)) :
  base_ok b -> Forall (fun p => op_ok p.2) h -> (N.of_nat (length h) + 1 < 2 ^ 64)%N ->
  consistent (run_ops (normalize b) h empty_db).
Proof.
  intros Hb Hh Hlen. destruct (reachable_sim HT b (run_ops (normalize b) h empty_db) Hb) as [_ [g Hg]].
  - by exists h.
  - by apply (sim_consistent HT b _ g).
Qed.
Print Assumptions C12_indexes_consistent.

Example C12_case : consistent (T:=ascii_text) d0 /\
  get_children d0 2 = [3; 4]%N /\ get_children d0 1 = [2%N].
Proof.
  split; [|split; vm_compute; reflexivity].
  apply (C12_indexes_consistent ascii_text toy ascii_text_ok b0 h0 b0_ok);
    [apply ops_okb_ok|]; vm_compute; reflexivity.
Qed.

(** The condition on attribute types is needed: an escaped separator in a type
    is stored unescaped, so that the key of the entry reads as the name of an
    entry elsewhere in the tree. *)
Theorem C12_escaped_type_refuted :
  exists (T : Text) (C : Crypto) (b : dn) (h : list (env * op)),
    TextOK T /\ base_ok b /\ ~ consistent (run_ops (normalize b) h empty_db).
Proof.
  exists ascii_text, toy, b0,
    [good (OpPut e_base); good (OpPut (ent "a\=x\,b=c,o=base" []))].
  split; [apply ascii_text_ok|]. split; [apply b0_ok|]. intros Hc.
  destruct (c_children _ Hc (B "o=base") 1) as [_ H]; [lia|vm_compute; reflexivity|].
  destruct (proj1 (H 2%N)) as (_ & s' & Hs & dd & Hp & _ & Hn).
  { apply (bool_decide_unpack _). vm_compute. exact I. }
  assert (Hs' : s' = B "a=x,b=c,o=base" \/ s' = B "o=base").
  { apply key_listed in Hs.
    assert (Hall : Forall (fun s => s = B "a=x,b=c,o=base" \/ s = B "o=base")
      (map fst (map_to_list (dn2id (run_ops (T:=ascii_text) (C:=toy) (normalize (T:=ascii_text) b0)
        [good (OpPut e_base); good (OpPut (ent "a\=x\,b=c,o=base" []))] empty_db))))).
    { apply (bool_decide_unpack _). vm_compute. exact I. }
    rewrite List.Forall_forall in Hall. by apply Hall. }
  destruct Hs' as [-> | ->]; vm_compute in Hp; injection Hp as <-; vm_compute in Hn; discriminate.
Qed.
Print Assumptions C12_escaped_type_refuted.

(** C13.  Without faults, each operation returns what the abstract directory
    operation [spec_op] returns, and has its effect. *)
Theorem C13_database_refines_directory (T : Text) (C : Crypto) (HT : TextOK T)
    (b : dn) (d : db) (m : dir) (o : op) :
  base_ok b -> reachable b d -> represents d m -> op_ok o ->
  match spec_op b o m with
  | Ok m' => exists d', run_op (normalize b) no_faults o d = (Done (Ok tt), d') /\ represents d' m'
  | Err e => run_op (normalize b) no_faults o d = (Done (Err e), d)
  | Panic => run_op (normalize b) no_faults o d = (Done Panic, d)
  | Diverge => False
  end.
Proof.
  intros Hb Hr Hm Ho. destruct (reach_sim HT b d m Hb Hr Hm) as [Hseq (g & Hg & ->)].
  pose proof (refines_op HT b d g o Hb Hg Ho Hseq) as Href. unfold refines in Href.
  destruct (spec_op b o (snd <$> g)) as [m1|e| |]; try done.
  destruct Href as (g1 & d1 & Hr1 & Hs' & <- & _). exists d1. split; [done|].
  by eapply sim_represents.
Qed.
Print Assumptions C13_database_refines_directory.

(** Every reachable state represents a directory, and only one. *)
Theorem C13_every_state_is_a_directory (T : Text) (C : Crypto) (HT : TextOK T) (b : dn) (d : db) :
  base_ok b -> reachable b d -> exists m, represents d m /\ forall m', represents d m' -> m' = m.
Proof.
  intros Hb Hr. destruct (reachable_sim HT b d Hb Hr) as [_ [g Hg]].
  exists (snd <$> g). assert (H : represents d (snd <$> g)) by by eapply sim_represents.
  split; [done|]. intros m' Hm'. by eapply (represents_unique HT).
Qed.
Print Assumptions C13_every_state_is_a_directory.

Example C13_case :
  represents (T:=ascii_text) d0 m0 /\
  spec_op (T:=ascii_text) (C:=toy) b0 (OpDelete (B "ou=people,o=base")) m0 = Err ENonLeaf /\
  spec_op (T:=ascii_text) (C:=toy) b0 (OpPut e_ada) m0 = Err EExists /\
  spec_op (T:=ascii_text) (C:=toy) b0 (OpPut (ent "x=1,y=2,o=base" [])) m0 = Err ENoParent /\
  spec_op (T:=ascii_text) (C:=toy) b0 (OpDelete (B "UID=ada, OU=People,o=base")) m0 =
    Ok (delete ([(B "uid", B "ada")] :: [(B "ou", B "people")] :: b0) m0).
Proof.
  split; [apply d0_m0|]. repeat (split; [vm_compute; reflexivity|]). vm_compute; reflexivity.
Qed.

(** C14.  All or nothing, for every state, operation and environment. *)
Theorem C14_all_or_nothing (T : Text) (C : Crypto) (base : str) (ev : env) (o : op)
    (d d' : db) (out : outcome) :
  run_op base ev o d = (out, d') ->
  match out with
  | Done (Ok _) => run_op base no_faults o d = (Done (Ok tt), d')
  | Done _ => d' = d
  | Crashed => d' = d \/
      (e_commit ev = CrashAfter /\ run_op base no_faults o d = (Done (Ok tt), d'))
  end.
Proof.
  intros H. destruct (run_op_atomic _ _ _ _ _ _ H) as [[-> Hn]|[Hf Ho]].
  - destruct out as [[[]| | |]|]; auto. by destruct Hn.
  - destruct Ho as [->| ->]; [done|]. destruct (crash_commit _ _ _ _ _ H); auto.
Qed.
Print Assumptions C14_all_or_nothing.

Example C14_case :
  run_op (T:=ascii_text) (C:=toy) (B "o=base") (mkEnv (fun n => n =? 3) CommitOk)
    (OpPut (ent "uid=eve,ou=people,o=base" [])) d0 = (Done (Err EIo), d0) /\
  (run_op (T:=ascii_text) (C:=toy) (B "o=base") (mkEnv (fun n => n =? 4) CrashAfter)
    (OpPut (ent "uid=eve,ou=people,o=base" [])) d0).1 = Crashed.
Proof. vm_compute. split; reflexivity. Qed.

(** C15.  Two successful adds never use the same identifier, whatever happened
    before, between and after ... *)
Theorem C15_identifiers_never_reused (T : Text) (C : Crypto) (base : str)
    (h1 h2 : list (env * op)) (ev1 ev2 : env) (e1 e2 : entry) (d1 d2 : db) (n1 n2 v1 v2 : str) :
  (N.of_nat (length h1 + length h2) + 2 < 2 ^ 64)%N ->
  run_op base ev1 (OpPut e1) (run_ops base h1 empty_db) = (Done (Ok tt), d1) ->
  run_op base ev2 (OpPut e2) (run_ops base h2 d1) = (Done (Ok tt), d2) ->
  parse_normalize (e_dn e1) = Some n1 -> dn2id d1 !! n1 = Some v1 ->
  parse_normalize (e_dn e2) = Some n2 -> dn2id d2 !! n2 = Some v2 ->
  v1 <> v2.
Proof.
  intros Hlen H1 H2 Hn1 Hv1 Hn2 Hv2.
  assert (H0 : idseq empty_db = 0%N) by done.
  pose proof (run_ops_seq base h1 empty_db ltac:(lia)) as Hs1. rewrite H0 in Hs1.
  apply run_put_id in H1 as (Hq1 & s1 & Hp1 & Hd1); [|lia].
  pose proof (run_ops_seq base h2 d1 ltac:(lia)) as Hs2.
  apply run_put_id in H2 as (Hq2 & s2 & Hp2 & Hd2); [|lia].
  rewrite Hn1 in Hp1. injection Hp1 as <-. rewrite Hn2 in Hp2. injection Hp2 as <-.
  rewrite Hv1 in Hd1. rewrite Hv2 in Hd2. injection Hd1 as ->. injection Hd2 as ->.
  intros Heq. apply id_bytes_inj in Heq; lia.
Qed.
Print Assumptions C15_identifiers_never_reused.

(** ... identifiers survive their encoding, which has eight bytes ... *)
Theorem C15_identifier_codec (i : N) : (i < 2 ^ 64)%N ->
  length (id_bytes i) = 8 /\ le_val (id_bytes i) = i.
Proof. intros H. split; [apply id_bytes_length|by apply id_val]. Qed.
Print Assumptions C15_identifier_codec.

(** ... and so do lists of identifiers. *)
Theorem C15_list_codec (l : list N) (i : N) (d : db) :
  Forall (fun i => (i < 2 ^ 64)%N) l -> raw_children i d = concat (map id_bytes l) ->
  get_children d i = l.
Proof.
  intros Hl Hr. unfold get_children. rewrite Hr, chunks8_ids. clear Hr.
  induction Hl as [|j l Hj Hl IH]; [done|]. simpl map. f_equal; [by apply id_val|done].
Qed.
Print Assumptions C15_list_codec.

Example C15_case :
  id_bytes 258 = map ascii_of_nat [2; 1; 0; 0; 0; 0; 0; 0] /\
  get_children (mkDb ∅ {[id_bytes 7 := id_bytes 258 ++ id_bytes (2 ^ 64 - 1)]} ∅ 0) 7 =
    [258; 2 ^ 64 - 1]%N /\
  dn2id (run_ops (T:=ascii_text) (C:=toy) (B "o=base")
    [good (OpDelete (B "cn=bob,ou=people,o=base")); good (OpPut e_bob)] d0)
    !! B "uid=bob,ou=people,o=base" = Some (id_bytes 5).
Proof. vm_compute. repeat split. Qed.

(** C16.  A base search answers exactly with the named entry. *)
Theorem C16_base_search (T : Text) (C : Crypto) (HT : TextOK T)
    (b : dn) (d : db) (m : dir) (s : str) (dd : dn) :
  base_ok b -> reachable b d -> represents d m -> parse_dn s = Some dd -> wf_dn dd = true ->
  search d s 0 = Ok (match m !! fold_dn dd with
                     | Some e => ([e], None)
                     | None => ([], Some ENotFound)
                     end).
Proof.
  intros Hb Hr Hm Hp Hwf. destruct (reach_sim HT b d m Hb Hr Hm) as [_ (g & Hg & ->)].
  by apply (search_base HT b).
Qed.
Print Assumptions C16_base_search.

Example C16_case :
  search (T:=ascii_text) d0 (B "UID=ADA , ou=people,O=base") 0 = Ok ([e_ada], None) /\
  search (T:=ascii_text) d0 (B "uid=bob,ou=people,o=base") 0 = Ok ([], Some ENotFound).
Proof. vm_compute. split; reflexivity. Qed.

(** C17.  A one-level search lists the children, each once. *)
Theorem C17_one_level_search (T : Text) (C : Crypto) (HT : TextOK T)
    (b : dn) (d : db) (m : dir) (s : str) (dd : dn) :
  base_ok b -> reachable b d -> represents d m -> parse_dn s = Some dd -> wf_dn dd = true ->
  match m !! fold_dn dd with
  | None => search d s 1 = Ok ([], Some ENotFound)
  | Some _ => exists es, search d s 1 = Ok (es, None) /\
      es ≡ₚ map snd (bfilter (fun p => child_of (fold_dn dd) p.1) (map_to_list m))
  end.
Proof.
  intros Hb Hr Hm Hp Hwf. destruct (reach_sim HT b d m Hb Hr Hm) as [_ (g & Hg & ->)].
  apply (search_spec HT b d g s dd 1 Hb Hg Hp Hwf). by right; left.
Qed.
Print Assumptions C17_one_level_search.

Example C17_case :
  search (T:=ascii_text) d0 (B "ou=people,o=base") 1 = Ok ([e_ada; e_bob'], None) /\
  search (T:=ascii_text) d0 (B "o=base") 1 = Ok ([e_people], None).
Proof. vm_compute. split; reflexivity. Qed.

(** C18.  A subtree search lists the subtree, each entry once; the result is
    never [Diverge]. *)
Theorem C18_subtree_search (T : Text) (C : Crypto) (HT : TextOK T)
    (b : dn) (d : db) (m : dir) (s : str) (dd : dn) :
  base_ok b -> reachable b d -> represents d m -> parse_dn s = Some dd -> wf_dn dd = true ->
  match m !! fold_dn dd with
  | None => search d s 2 = Ok ([], Some ENotFound)
  | Some _ => exists es, search d s 2 = Ok (es, None) /\
      es ≡ₚ map snd (bfilter (fun p => at_or_below (fold_dn dd) p.1) (map_to_list m))
  end.
Proof.
  intros Hb Hr Hm Hp Hwf. destruct (reach_sim HT b d m Hb Hr Hm) as [_ (g & Hg & ->)].
  apply (search_spec HT b d g s dd 2 Hb Hg Hp Hwf). by right; right.
Qed.
Print Assumptions C18_subtree_search.

Example C18_case :
  search (T:=ascii_text) d0 (B "o=base") 2 = Ok ([e_base; e_people; e_ada; e_bob'], None).
Proof. vm_compute. reflexivity. Qed.

(** C19.  Two stored entries with the same normalised DN are the same ... *)
Theorem C19_names_unique (T : Text) (C : Crypto) (HT : TextOK T)
    (b : dn) (d : db) (v1 v2 : str) (e1 e2 : entry) :
  base_ok b -> reachable b d ->
  id2ent d !! v1 = Some e1 -> id2ent d !! v2 = Some e2 ->
  parse_normalize (e_dn e1) = parse_normalize (e_dn e2) -> v1 = v2.
Proof.
  intros Hb Hr H1 H2 Heq. destruct (reachable_sim HT b d Hb Hr) as [_ [g Hg]].
  apply (s_ent _ _ _ Hg) in H1 as (k1 & i1 & Hk1 & ->).
  apply (s_ent _ _ _ Hg) in H2 as (k2 & i2 & Hk2 & ->).
  destruct (s_dn _ _ _ Hg _ _ _ Hk1) as (d1 & Hp1 & Hw1 & <-).
  destruct (s_dn _ _ _ Hg _ _ _ Hk2) as (d2 & Hp2 & Hw2 & <-).
  unfold parse_normalize in Heq. rewrite Hp1, Hp2 in Heq. injection Heq as Heq.
  apply (normalize_inj HT) in Heq; [|done|done]. rewrite Heq in Hk1. rewrite Hk1 in Hk2.
  by injection Hk2 as <- _.
Qed.
Print Assumptions C19_names_unique.

(** ... and adding an existing name changes nothing and is an error, namely
    EntryAlreadyExists. *)
Theorem C19_existing_name_rejected (T : Text) (C : Crypto) (HT : TextOK T)
    (b : dn) (d : db) (m : dir) (e : entry) (dd : dn) :
  base_ok b -> reachable b d -> represents d m ->
  parse_dn (e_dn e) = Some dd -> wf_dn dd = true -> is_Some (m !! fold_dn dd) ->
  b `suffix_of` fold_dn dd ->
  run_op (normalize b) no_faults (OpPut e) d = (Done (Err EExists), d).
Proof.
  intros Hb Hr Hm Hp Hwf Hin Hsuf.
  assert (Ho : op_ok (OpPut e)).
  { intros x Hx. rewrite Hp in Hx. by injection Hx as <-. }
  pose proof (C13_database_refines_directory T C HT b d m (OpPut e) Hb Hr Hm Ho) as H.
  assert (Hs : spec_op b (OpPut e) m = Err EExists); [|by rewrite Hs in H].
  cbn [spec_op]. rewrite Hp. destruct dd as [|x p].
  - destruct Hsuf as [y Hy]. simpl in Hy. symmetry in Hy. apply app_eq_nil in Hy as [_ Hy].
    by destruct (base_ne _ Hb).
  - unfold spec_put. rewrite (normalize_fold HT) by done.
    rewrite (normalize_flat _ Hwf), (normalize_flat b (base_wf _ Hb)), (base_folded _ Hb).
    rewrite flat_suffix by (apply Hb || done). cbn [negb].
    by rewrite bool_decide_eq_true_2.
Qed.
Print Assumptions C19_existing_name_rejected.

Example C19_case :
  run_op (T:=ascii_text) (C:=toy) (B "o=base") no_faults
    (OpPut (ent "UID=ADA,ou=PEOPLE, o=base" [])) d0 = (Done (Err EExists), d0).
Proof. vm_compute. reflexivity. Qed.

(** C20.  Every entry has its parent, except beside the base. *)
Theorem C20_parent_stored (T : Text) (C : Crypto) (HT : TextOK T)
    (b : dn) (d : db) (m : dir) (k : dn) (e : entry) :
  base_ok b -> reachable b d -> represents d m -> m !! k = Some e ->
  k <> [] /\ (is_Some (m !! tail k) \/ tail k = tail b).
Proof.
  intros Hb Hr Hm Hk. destruct (reach_sim HT b d m Hb Hr Hm) as [_ (g & Hg & ->)].
  rewrite lookup_fmap in Hk. destruct (g !! k) as [[i e']|] eqn:E; [|done].
  pose proof (s_key _ _ _ Hg _ _ _ E) as Hgk. split; [apply Hgk|].
  destruct k as [|r k]; [by destruct (gk_ne _ _ Hgk)|]. simpl.
  destruct (s_parent _ _ _ Hg _ _ _ _ E) as [[x Hx]|Hx]; [left|by right].
  rewrite lookup_fmap, Hx. by eexists.
Qed.
Print Assumptions C20_parent_stored.

Example C20_case :
  is_Some (m0 !! ([(B "cn", B "bob")] :: [(B "ou", B "people")] :: b0)) /\
  is_Some (m0 !! ([(B "ou", B "people")] :: b0)) /\ m0 !! tail b0 = None.
Proof. vm_compute. repeat split; by eexists. Qed.

(** C21.  All entries lie below the base as long as that is not renamed ... *)
Theorem C21_all_below_base (T : Text) (C : Crypto) (HT : TextOK T)
    (b : dn) (h : list (env * op)) (m : dir) (k : dn) (e : entry) :
  base_ok b -> Forall (fun p => op_ok p.2 /\ ~ renames b p.2) h ->
  (N.of_nat (length h) + 1 < 2 ^ 64)%N ->
  represents (run_ops (normalize b) h empty_db) m -> m !! k = Some e -> b `suffix_of` k.
Proof.
  intros Hb Hh Hlen Hm Hk.
  assert (H0 : idseq empty_db = 0%N) by done.
  destruct (history_inv HT b h empty_db ∅ (fun m => forall k e, m !! k = Some e -> b `suffix_of` k))
    as (g & Hg & HP).
  - done.
  - apply sim_empty.
  - eapply Forall_impl; [exact Hh|]. by intros p [? _].
  - lia.
  - intros k' e' H. rewrite fmap_empty, lookup_empty in H. done.
  - intros p m1 m2 Hp Hm1 Hs. eapply spec_op_below; [apply Hb|exact Hs| |done].
    rewrite List.Forall_forall in Hh. by apply Hh.
  - rewrite (represents_unique HT _ m (snd <$> g) Hm) in Hk; [by eapply HP|].
    by eapply sim_represents.
Qed.
Print Assumptions C21_all_below_base.

Example C21_case :
  Forall (fun p => op_ok (T:=ascii_text) p.2 /\ ~ renames (T:=ascii_text) b0 p.2) h0.
Proof.
  apply Forall_and. split; [apply ops_okb_ok; vm_compute; reflexivity|].
  repeat constructor; vm_compute; try tauto; discriminate.
Qed.

(** ... but a childless base entry can be renamed, after which nothing is left
    below the base and new entries are still accepted elsewhere, because the
    base is compared as text. *)
Theorem C21_renamed_base_refuted :
  exists (T : Text) (C : Crypto) (b : dn) (h : list (env * op)) (m : dir) (k : dn) (e : entry),
    TextOK T /\ base_ok b /\ Forall (fun p => op_ok p.2) h /\
    represents (run_ops (normalize b) h empty_db) m /\ m !! k = Some e /\
    ~ b `suffix_of` k /\ length b < length k.
Proof.
  exists ascii_text, toy, b0,
    [good (OpPut e_base);
     good (OpModDn (mkModDn (B "o=base") (B "foo=base") false));
     good (OpPut (ent "x=y,foo=base" []))],
    (list_to_map [([[(B "foo", B "base")]], mkEntry (B "foo=base")
                     [mkAttr (B "o") [B "base"]; mkAttr (B "foo") [B "base"]]);
                  ([[(B "x", B "y")]; [(B "foo", B "base")]], ent "x=y,foo=base" [])]),
    [[(B "x", B "y")]; [(B "foo", B "base")]], (ent "x=y,foo=base" []).
  split; [apply ascii_text_ok|]. split; [apply b0_ok|].
  split; [apply ops_okb_ok; vm_compute; reflexivity|].
  split.
  { apply represents_list.
    - repeat constructor; vm_compute; reflexivity.
    - apply (bool_decide_unpack _). vm_compute. exact I. }
  split; [vm_compute; reflexivity|]. split; [|simpl; lia].
  apply (bool_decide_unpack _). vm_compute. exact I.
Qed.
Print Assumptions C21_renamed_base_refuted.

(** C22.  A successful delete, in any environment, removes one leaf that has a
    parent, and nothing else ... *)
Theorem C22_delete_one_leaf (T : Text) (C : Crypto) (HT : TextOK T)
    (b : dn) (d d' : db) (m : dir) (ev : env) (s : str) :
  base_ok b -> reachable b d -> represents d m -> dn_text_ok s ->
  run_op (normalize b) ev (OpDelete s) d = (Done (Ok tt), d') ->
  exists dd, parse_dn s = Some dd /\ is_Some (m !! fold_dn dd) /\
    (forall k, is_Some (m !! k) -> child_of (fold_dn dd) k = false) /\
    is_Some (m !! tail (fold_dn dd)) /\ represents d' (delete (fold_dn dd) m).
Proof.
  intros Hb Hr Hm Ho Hrun.
  destruct (op_ok_inv HT b d m ev (OpDelete s) d' Hb Hr Hm Ho Hrun) as (m' & Hs & Hm' & _).
  cbn [spec_op] in Hs. destruct (parse_dn s) as [[|x p]|]; try done.
  exists (x :: p). split; [done|]. unfold spec_delete in Hs.
  destruct (bool_decide (m !! fold_dn (x :: p) = None)) eqn:E1; [done|].
  destruct (is_leaf m (fold_dn (x :: p))) eqn:E2; [|done]. cbn [negb] in Hs.
  destruct (bool_decide (m !! tail (fold_dn (x :: p)) = None)) eqn:E3; [done|].
  injection Hs as <-. apply bool_decide_eq_false in E1, E3.
  split; [by apply not_eq_None_Some|]. split; [|split; [by apply not_eq_None_Some|done]].
  intros k [e Hk]. unfold is_leaf in E2. apply forallb_forall with (x := (k, e)) in E2.
  - by apply negb_true_iff in E2.
  - apply elem_of_list_In. by apply elem_of_map_to_list.
Qed.
Print Assumptions C22_delete_one_leaf.

(** ... and entries with children, and roots, are not deleted. *)
Theorem C22_delete_refused (T : Text) (C : Crypto) (HT : TextOK T)
    (b : dn) (d : db) (m : dir) (s : str) (dd : dn) :
  base_ok b -> reachable b d -> represents d m -> parse_dn s = Some dd -> wf_dn dd = true ->
  is_Some (m !! fold_dn dd) ->
  ((exists r, is_Some (m !! (r :: fold_dn dd))) ->
   run_op (normalize b) no_faults (OpDelete s) d = (Done (Err ENonLeaf), d)) /\
  (tail (fold_dn dd) = tail b ->
   exists e, run_op (normalize b) no_faults (OpDelete s) d = (Done (Err e), d)).
Proof.
  intros Hb Hr Hm Hp Hwf Hin.
  assert (Ho : op_ok (OpDelete s)).
  { intros x Hx. rewrite Hp in Hx. by injection Hx as <-. }
  pose proof (C13_database_refines_directory T C HT b d m (OpDelete s) Hb Hr Hm Ho) as H.
  assert (Hne : dd <> []).
  { intros ->. destruct Hin as [e He]. simpl in He.
    by destruct (C20_parent_stored T C HT b d m [] e Hb Hr Hm He). }
  cbn [spec_op] in H. rewrite Hp in H. destruct dd as [|x p]; [done|].
  unfold spec_delete in H. rewrite bool_decide_eq_false_2 in H by (by apply not_eq_None_Some).
  split.
  - intros [r [e Hre]].
    assert (E : is_leaf m (fold_dn (x :: p)) = false).
    { unfold is_leaf. apply not_true_iff_false. intros Hf. rewrite forallb_forall in Hf.
      specialize (Hf (r :: fold_dn (x :: p), e)). cbn [fst child_of] in Hf.
      rewrite bool_decide_eq_true_2 in Hf by done.
      apply (fun Hx => diff_false_true (Hf Hx)). apply elem_of_list_In. by apply elem_of_map_to_list. }
    rewrite E in H. exact H.
  - intros Ht. destruct (is_leaf m (fold_dn (x :: p))); cbn [negb] in H; [|by eexists].
    rewrite bool_decide_eq_true_2 in H; [by eexists|].
    rewrite Ht. destruct (m !! tail b) as [e|] eqn:E; [|done]. exfalso.
    destruct (reach_sim HT b d m Hb Hr Hm) as [_ (g & Hg & ->)].
    rewrite lookup_fmap in E. destruct (g !! tail b) as [[i e']|] eqn:E'; [|done].
    pose proof (gk_len _ _ (s_key _ _ _ Hg _ _ _ E')) as Hl.
    pose proof (base_ne _ Hb) as Hbn. destruct b; [done|]. simpl in Hl. lia.
Qed.
Print Assumptions C22_delete_refused.

Example C22_case :
  (run_op (T:=ascii_text) (C:=toy) (B "o=base") no_faults
     (OpDelete (B "CN=bob, ou=people,o=base")) d0).1 = Done (Ok tt) /\
  run_op (T:=ascii_text) (C:=toy) (B "o=base") no_faults (OpDelete (B "ou=people,o=base")) d0 =
    (Done (Err ENonLeaf), d0) /\
  (run_op (T:=ascii_text) (C:=toy) (B "o=base") no_faults (OpDelete (B "o=base"))
     (run_ops (T:=ascii_text) (C:=toy) (B "o=base") [good (OpPut e_base)] empty_db)).1 =
    Done (Err ENotFound).
Proof. vm_compute. repeat split. Qed.

(** C23.  A successful rename moves one leaf to the new name under the same
    parent; nothing else changes, and the entry has the values of the new RDN
    (its attribute names being distinct ASCII).  Unless the old RDN is to be
    deleted it keeps all values. *)
Theorem C23_rename_one_leaf (T : Text) (C : Crypto) (HT : TextOK T)
    (b : dn) (d d' : db) (m : dir) (ev : env) (r : moddn_req) :
  base_ok b -> reachable b d -> represents d m -> op_ok (OpModDn r) ->
  run_op (normalize b) ev (OpModDn r) d = (Done (Ok tt), d') ->
  exists oldr p newr q e e',
    parse_dn (md_dn r) = Some (oldr :: p) /\ parse_dn (md_newrdn r) = Some (newr :: q) /\
    let k := fold_dn (oldr :: p) in
    let k' := fold_dn (newr :: p) in
    m !! k = Some e /\ m !! k' = None /\
    (forall x, is_Some (m !! x) -> child_of k x = false) /\
    represents d' (<[k' := e']> (delete k m)) /\ e_dn e' = normalize k' /\
    (names_ok (e_attrs e) ->
     (forall t v, In (t, v) newr -> has_value t v (e_attrs e')) /\
     (md_delold r = false -> forall t v, has_value t v (e_attrs e) -> has_value t v (e_attrs e'))).
Proof.
  intros Hb Hr Hm Ho Hrun.
  destruct (op_ok_inv HT b d m ev (OpModDn r) d' Hb Hr Hm Ho Hrun) as (m' & Hs & Hm' & _).
  destruct Ho as [Ho1 Ho2]. cbn [spec_op] in Hs.
  destruct (parse_dn (md_dn r)) as [[|oldr p]|] eqn:Ep;
    [by destruct (parse_dn (md_newrdn r)) as [[|]|]| |done].
  destruct (parse_dn (md_newrdn r)) as [[|newr q]|] eqn:Eq; try done.
  unfold spec_rename in Hs.
  replace (fold_dn [newr] ++ tail (fold_dn (oldr :: p))) with (fold_dn (newr :: p)) in Hs by done.
  destruct (bool_decide _) eqn:E1; [done|]. apply bool_decide_eq_false in E1.
  destruct (m !! fold_dn (oldr :: p)) as [e|] eqn:E; [|done].
  destruct (is_leaf m (fold_dn (oldr :: p))) eqn:E2; [|done]. cbn [negb] in Hs.
  destruct (apply_modify _ _) as [e'| | |] eqn:Em; try done. cbn [rbind] in Hs.
  destruct (negb (name_fits _)); [done|]. injection Hs as <-.
  exists oldr, p, newr, q, e, e'. split; [done|]. split; [done|]. cbv zeta.
  split; [done|]. split; [by apply eq_None_not_Some|]. split.
  { intros k [e0 Hk]. unfold is_leaf in E2. apply forallb_forall with (x := (k, e0)) in E2.
    - by apply negb_true_iff in E2.
    - apply elem_of_list_In. by apply elem_of_map_to_list. }
  split; [done|].
  assert (Hw : wf_rdn oldr = true /\ wf_rdn newr = true).
  { pose proof (Ho1 _ Ep) as H1. pose proof (Ho2 _ Eq) as H2. simpl in H1, H2.
    apply andb_true_iff in H1 as [? _], H2 as [? _]. done. }
  split.
  - by destruct (modify_untouched _ _ _ Em) as [-> _].
  - intros Hn. destruct Hw as [Hw1 Hw2].
    destruct (rename_values HT e e' _ _ _ _ Hw1 Hw2 Hn Em) as (_ & H1 & H2). done.
Qed.
Print Assumptions C23_rename_one_leaf.

Example C23_case :
  search (T:=ascii_text) (run_op (T:=ascii_text) (C:=toy) (B "o=base") no_faults
    (OpModDn (mkModDn (B "uid=ada,ou=people,o=base") (B "cn=Ada L+sn=L") true)) d0).2
    (B "ou=people,o=base") 1 =
  Ok ([mkEntry (B "cn=ada l+sn=l,ou=people,o=base")
         [mkAttr (B "userPassword") [B "secret"]; mkAttr (B "cn") [B "Ada L"]; mkAttr (B "sn") [B "L"]];
       e_bob'], None).
Proof. vm_compute. reflexivity. Qed.

(** C24.  A successful modify or password change replaces one entry; names and
    child lists are untouched. *)
Theorem C24_modify_one_entry (T : Text) (C : Crypto) (HT : TextOK T)
    (b : dn) (d d' : db) (m : dir) (ev : env) (r : modify_req) :
  base_ok b -> reachable b d -> represents d m -> op_ok (OpModify r) ->
  run_op (normalize b) ev (OpModify r) d = (Done (Ok tt), d') ->
  dn2id d' = dn2id d /\ id2ch d' = id2ch d /\
  exists dd e e', parse_dn (m_dn r) = Some dd /\ m !! fold_dn dd = Some e /\
    apply_modify e r = Ok e' /\ e_dn e' = e_dn e /\
    represents d' (<[fold_dn dd := e']> m).
Proof.
  intros Hb Hr Hm Ho Hrun. split; [|split].
  - by apply (modify_keeps_index (normalize b) ev (OpModify r)) in Hrun as [? _].
  - by apply (modify_keeps_index (normalize b) ev (OpModify r)) in Hrun as [_ ?].
  - destruct (op_ok_inv HT b d m ev (OpModify r) d' Hb Hr Hm Ho Hrun) as (m' & Hs & Hm' & _).
    cbn [spec_op] in Hs. destruct (parse_dn (m_dn r)) as [dd|]; [|done].
    unfold spec_modify in Hs. destruct (m !! fold_dn dd) as [e|] eqn:E; [|done].
    destruct (apply_modify e r) as [e'| | |] eqn:Em; try done. injection Hs as <-.
    exists dd, e, e'. repeat (split; [done|]). split; [|done].
    by apply modify_untouched in Em as [? _].
Qed.
Print Assumptions C24_modify_one_entry.

Theorem C24_password_one_entry (T : Text) (C : Crypto) (HT : TextOK T)
    (b : dn) (d d' : db) (m : dir) (ev : env) (r : pw_req) :
  base_ok b -> reachable b d -> represents d m -> op_ok (OpPassword r) ->
  run_op (normalize b) ev (OpPassword r) d = (Done (Ok tt), d') ->
  dn2id d' = dn2id d /\ id2ch d' = id2ch d /\
  exists dd e e', parse_dn (pw_user r) = Some dd /\ m !! fold_dn dd = Some e /\
    e_dn e' = e_dn e /\ represents d' (<[fold_dn dd := e']> m).
Proof.
  intros Hb Hr Hm Ho Hrun. split; [|split].
  - by apply (modify_keeps_index (normalize b) ev (OpPassword r)) in Hrun as [? _].
  - by apply (modify_keeps_index (normalize b) ev (OpPassword r)) in Hrun as [_ ?].
  - destruct (op_ok_inv HT b d m ev (OpPassword r) d' Hb Hr Hm Ho Hrun) as (m' & Hs & Hm' & _).
    cbn [spec_op] in Hs. destruct (parse_dn (pw_user r)) as [dd|]; [|done].
    unfold spec_password in Hs. destruct (m !! fold_dn dd) as [e|] eqn:E; [|done].
    destruct (check_old e (pw_old r)); try done. cbn [rbind] in Hs.
    destruct (apply_modify e _) as [e'| | |] eqn:Em; try done. injection Hs as <-.
    exists dd, e, e'. repeat (split; [done|]). split; [|done].
    by apply modify_untouched in Em as [? _].
Qed.
Print Assumptions C24_password_one_entry.

Example C24_case :
  let d' := (run_op (T:=ascii_text) (C:=toy) (B "o=base") no_faults
    (OpModify (mkModify (B "uid=ADA,ou=people,o=base") [mkChange MAdd (B "sn") [B "L"]])) d0).2 in
  (map_to_list (dn2id d') = map_to_list (dn2id d0)) /\
  search (T:=ascii_text) d' (B "ou=people,o=base") 1 =
    Ok ([mkEntry (e_dn e_ada) (e_attrs e_ada ++ [mkAttr (B "sn") [B "L"]]); e_bob'], None).
Proof. vm_compute. split; reflexivity. Qed.

(** C25.  A given old password must be accepted by the first value of the
    entry's (first) userPassword attribute; afterwards the new value is the
    only one and the other attributes are as before. *)
Theorem C25_old_password_checked (T : Text) (C : Crypto) (HT : TextOK T)
    (b : dn) (d d' : db) (m : dir) (ev : env) (r : pw_req) :
  base_ok b -> reachable b d -> represents d m -> op_ok (OpPassword r) ->
  run_op (normalize b) ev (OpPassword r) d = (Done (Ok tt), d') ->
  exists dd e e', parse_dn (pw_user r) = Some dd /\ m !! fold_dn dd = Some e /\
    represents d' (<[fold_dn dd := e']> m) /\
    (pw_old r <> [] -> exists l1 a l2 v vs, e_attrs e = l1 ++ a :: l2 /\
       Forall (fun a => eqfold (B "userPassword") (a_name a) = false) l1 /\
       eqfold (B "userPassword") (a_name a) = true /\ a_vals a = v :: vs /\
       accepts (pw_old r) v) /\
    (names_ok (e_attrs e) -> vals_of (B "userPassword") (e_attrs e') = [[pw_new r]]) /\
    bfilter (fun a => negb (same (a_name a) (B "userPassword"))) (e_attrs e') =
    bfilter (fun a => negb (same (a_name a) (B "userPassword"))) (e_attrs e).
Proof.
  intros Hb Hr Hm Ho Hrun.
  destruct (op_ok_inv HT b d m ev (OpPassword r) d' Hb Hr Hm Ho Hrun) as (m' & Hs & Hm' & _).
  cbn [spec_op] in Hs. destruct (parse_dn (pw_user r)) as [dd|]; [|done].
  unfold spec_password in Hs. destruct (m !! fold_dn dd) as [e|] eqn:E; [|done].
  destruct (check_old e (pw_old r)) as [[]| | |] eqn:Ec; try done. cbn [rbind] in Hs.
  destruct (apply_modify e _) as [e'| | |] eqn:Em; try done. injection Hs as <-.
  exists dd, e, e'. split; [done|]. split; [done|]. split; [done|]. split; [|split].
  - intros Hne. unfold check_old in Ec. destruct (pw_old r) as [|c o]; [done|].
    cbn [is_empty] in Ec. destruct (validate _ _) as [[]| | |] eqn:Ev; try done.
    apply (validate_accepts HT) in Ev. by apply (first_password HT) in Ev.
  - intros Hn. apply single_replace with (t := B "userPassword") (vs := [pw_new r]) in Em; done.
  - destruct (modify_untouched _ _ _ Em) as [_ H]. cbn [m_changes] in H.
    unfold named_by in H. cbn [existsb c_type] in H.
    assert (Hx : forall l, bfilter (fun a => negb (same (a_name a) (B "userPassword") || false)) l =
      bfilter (fun a => negb (same (a_name a) (B "userPassword"))) l).
    { intros l. apply filter_ext. intros a. by rewrite orb_false_r. }
    by rewrite !Hx in H.
Qed.
Print Assumptions C25_old_password_checked.

Example C25_case :
  (run_op (T:=ascii_text) (C:=toy) (B "o=base") no_faults
     (OpPassword (mkPw (B "uid=ada,ou=people,o=base") (B "wrong") (B "new"))) d0) =
    (Done (Err (ELdap UnwillingToPerform true)), d0) /\
  search (T:=ascii_text) (run_op (T:=ascii_text) (C:=toy) (B "o=base") no_faults
     (OpPassword (mkPw (B "uid=ada,ou=people,o=base") (B "secret") (B "new"))) d0).2
     (B "uid=ada,ou=people,o=base") 0 =
    Ok ([mkEntry (e_dn e_ada) [mkAttr (B "uid") [B "Ada"]; mkAttr (B "userPassword") [B "new"]]], None).
Proof. vm_compute. split; reflexivity. Qed.

(** C26.  What was added is found, under any spelling, as long as operations
    addressing its name leave the database as it is. *)
Fixpoint left_alone {T : Text} {C : Crypto} (base : str) (k : dn) (h : list (env * op)) (d : db)
    : Prop :=
  match h with
  | [] => True
  | (ev, o) :: h' =>
      (In k (op_names o) -> (run_op base ev o d).2 = d) /\
      left_alone base k h' (run_op base ev o d).2
  end.
Theorem C26_added_is_found (T : Text) (C : Crypto) (HT : TextOK T)
    (b : dn) (d d1 : db) (ev : env) (e : entry) (h : list (env * op)) (dd : dn) (s : str) (ds : dn) :
  base_ok b -> reachable b d -> op_ok (OpPut e) ->
  run_op (normalize b) ev (OpPut e) d = (Done (Ok tt), d1) ->
  parse_dn (e_dn e) = Some dd ->
  Forall (fun p => op_ok p.2) h -> (idseq d1 + N.of_nat (length h) < 2 ^ 64)%N ->
  left_alone (normalize b) (fold_dn dd) h d1 ->
  parse_dn s = Some ds -> wf_dn ds = true -> normalize ds = normalize dd ->
  search (run_ops (normalize b) h d1) s 0 = Ok ([e], None).
Proof.
  intros Hb Hr Ho Hrun Hp Hh Hq Hla Hps Hws Hn.
  destruct (C13_every_state_is_a_directory T C HT b d Hb Hr) as (m & Hm & _).
  destruct (op_ok_inv HT b d m ev (OpPut e) d1 Hb Hr Hm Ho Hrun) as (m' & Hs & _ & g & Hg & ->).
  assert (Hk : (snd <$> g) !! fold_dn dd = Some e).
  { cbn [spec_op] in Hs. rewrite Hp in Hs. destruct dd as [|x p]; [done|]. unfold spec_put in Hs.
    repeat (case_match; try done). injection Hs as <-. by rewrite lookup_insert. }
  assert (Hfin : exists g', sim b (run_ops (normalize b) h d1) g' /\ (snd <$> g') !! fold_dn dd = Some e).
  { clear Hs Hrun Hr Hm. revert d1 g Hg Hk Hq Hla.
    induction h as [|[ev1 o] h IH]; intros d1 g Hg Hk Hq Hla; [by exists g|].
    inversion Hh as [|? ? Ho1 Hh']; subst. simpl in Ho1. cbn [run_ops].
    cbn [left_alone] in Hla. destruct Hla as [Hl1 Hl2]. cbn [length] in Hq.
    destruct (run_op (normalize b) ev1 o d1) as [out d2] eqn:E. cbn [snd] in *.
    destruct (run_op_atomic _ _ _ _ _ _ E) as [[-> _]|[Hf _]].
    - apply (IH Hh' d1 g); try done. lia.
    - pose proof (refines_op HT b d1 g o Hb Hg Ho1 ltac:(lia)) as Href. unfold refines in Href.
      destruct (spec_op b o (snd <$> g)) as [m1|e1| |] eqn:Es; try (rewrite Hf in Href; by injection Href); [|done].
      destruct Href as (g1 & d3 & Hr1 & Hg1 & Hgm & Hle). rewrite Hf in Hr1. injection Hr1 as <-.
      destruct (in_dec (decide_rel eq) (fold_dn dd) (op_names o)) as [Hin|Hin].
      + rewrite (Hl1 Hin) in *. apply (IH Hh' d1 g); try done. lia.
      + apply (IH Hh' d2 g1); try done; [|lia].
        rewrite Hgm. by rewrite (spec_op_other _ _ _ _ _ Es Hin). }
  destruct Hfin as (g' & Hg' & Hk').
  change 0%Z with ScopeBase. rewrite (search_base HT b _ g' s ds Hg' Hps Hws).
  apply (normalize_inj HT) in Hn; [|done|by apply Ho]. by rewrite Hn, Hk'.
Qed.
Print Assumptions C26_added_is_found.

Example C26_case :
  let d1 := (run_op (T:=ascii_text) (C:=toy) (B "o=base") no_faults
     (OpPut (ent "uid=Eve,ou=people,o=base" [("uid", "Eve")]%string)) d0).2 in
  left_alone (T:=ascii_text) (C:=toy) (B "o=base") ([(B "uid", B "eve")] :: [(B "ou", B "people")] :: b0)
    [good (OpDelete (B "cn=bob,ou=people,o=base"))] d1 /\
  search (T:=ascii_text) (run_ops (T:=ascii_text) (C:=toy) (B "o=base")
    [good (OpDelete (B "cn=bob,ou=people,o=base"))] d1) (B "UID = eve, OU=people, o=base") 0 =
  Ok ([ent "uid=Eve,ou=people,o=base" [("uid", "Eve")]%string], None).
Proof.
  split; [|vm_compute; reflexivity]. split; [|done]. intros H. exfalso. revert H.
  apply (bool_decide_unpack _). vm_compute. exact I.
Qed.

(** C27.  Loading an export reproduces the directory. *)
Theorem C27_export_load (T : Text) (C : Crypto) (HT : TextOK T)
    (b : dn) (h : list (env * op)) (m : dir) :
  base_ok b -> Forall (fun p => op_ok p.2 /\ ~ renames b p.2) h ->
  (N.of_nat (length h) + 1 < 2 ^ 64)%N ->
  let d := run_ops (normalize b) h empty_db in
  represents d m ->
  (m = ∅ /\ export_db d (normalize b) = Ok ([], Some ENotFound)) \/
  (exists es d', export_db d (normalize b) = Ok (es, None) /\
     load_db (normalize b) es empty_db = (Done (Ok tt), d') /\ represents d' m).
Proof.
  intros Hb Hh Hlen d Hm.
  assert (H0 : idseq empty_db = 0%N) by done.
  destruct (history_inv HT b h empty_db ∅ (fun m =>
      (forall k e, m !! k = Some e -> b `suffix_of` k) /\
      (forall k, is_Some (m !! k) -> name_fits k = true)))
    as (g & Hg & HP1 & HP2).
  - done.
  - apply sim_empty.
  - eapply Forall_impl; [exact Hh|]. by intros p [? _].
  - lia.
  - split.
    + intros k' e' H. rewrite fmap_empty, lookup_empty in H. done.
    + intros k' [e' H]. rewrite fmap_empty, lookup_empty in H. done.
  - intros p m1 m2 Hp [Hm1 Hm2] Hs. split.
    + eapply spec_op_below; [apply Hb|exact Hs| |done].
      rewrite List.Forall_forall in Hh. by apply Hh.
    + by eapply spec_op_fits.
  - fold d in Hg. rewrite (represents_unique HT _ m (snd <$> g) Hm) by (by eapply sim_represents).
    clear m Hm. destruct (g !! b) as [[i e]|] eqn:E.
    + right. destruct (export_load HT b d g i e Hb Hg E) as (es & d' & He & Hl & g' & Hg' & Heq).
      { intros k [[i' e'] Hk]. assert (Hk' : (snd <$> g) !! k = Some e') by by rewrite lookup_fmap, Hk.
        split; [by eapply HP1|]. apply HP2. by rewrite Hk'. }
      exists es, d'. split; [done|]. split; [done|]. rewrite <- Heq. by eapply sim_represents.
    + left. assert (Hemp : g = ∅).
      { apply map_eq. intros k. rewrite lookup_empty.
        destruct (g !! k) as [[i e]|] eqn:Ek; [|done]. exfalso.
        assert (Hsuf : b `suffix_of` k) by (eapply HP1; by rewrite lookup_fmap, Ek).
        clear HP1 HP2. destruct Hsuf as [x ->]. revert i e Ek.
        induction x as [|r x IH]; intros i e Ek; simpl in Ek; [by rewrite E in Ek|].
        destruct (s_parent _ _ _ Hg _ _ _ _ Ek) as [[[i' e'] Hx]|Hx]; [by eapply IH|].
        apply (f_equal length) in Hx. rewrite app_length in Hx.
        pose proof (base_ne _ Hb) as Hbn. destruct b; [done|]. simpl in Hx. lia. }
      split; [by rewrite Hemp, fmap_empty|]. unfold export_db.
      pose proof (search_spec HT b d g (normalize b) b 2 Hb Hg) as Hse.
      rewrite Hemp, fmap_empty, lookup_empty in Hse. apply Hse; [|apply Hb|by right; right].
      rewrite normalize_flat, (base_folded _ Hb) by apply Hb. apply (parse_flat HT); apply Hb.
Qed.
Print Assumptions C27_export_load.

Example C27_case :
  export_db (T:=ascii_text) d0 (B "o=base") = Ok ([e_base; e_people; e_ada; e_bob'], None) /\
  (load_db (T:=ascii_text) (C:=toy) (B "o=base") [e_base; e_people; e_ada; e_bob'] empty_db).1 = Done (Ok tt) /\
  represents (T:=ascii_text)
    (load_db (T:=ascii_text) (C:=toy) (B "o=base") [e_base; e_people; e_ada; e_bob'] empty_db).2 m0.
Proof.
  split; [vm_compute; reflexivity|]. split; [vm_compute; reflexivity|]. apply represents_list.
  - repeat constructor; vm_compute; reflexivity.
  - apply (bool_decide_unpack _). vm_compute. exact I.
Qed.

(** C28.  In every interleaving the committed state is the one of a serial run
    of the write operations in commit order, giving each the outcome it had;
    and it is the one of running just the successful ones without faults. *)
Theorem C28_writes_serialise (T : Text) (C : Crypto) (base : str) (d : db) (w : world) :
  steps base (start d) w ->
  serial base d (w_log w) (w_db w) /\
  exists ops, effective (w_log w) ops /\ all_succeed base ops d (w_db w).
Proof.
  intros H. apply steps_inv in H. split; [apply H|].
  apply serial_effective. apply H.
Qed.
Print Assumptions C28_writes_serialise.

(** Each search answers from one committed state that was current at some
    moment between its beginning and its end. *)
Theorem C28_searches_see_one_state (T : Text) (C : Crypto) (base : str) (d : db) (w : world) :
  steps base (start d) w ->
  Forall (fun a => an_from a <= an_to a < length (w_hist w) /\
    exists t x, an_from a <= t <= an_to a /\ w_hist w !! t = Some x /\
      an_res a = search x (an_base a) (an_scope a)) (w_answers w) /\
  last (w_hist w) = Some (w_db w).
Proof.
  intros H. apply steps_inv in H. split; [|apply H].
  eapply Forall_impl; [apply (i_answers _ _ _ H)|]. intros a (H1 & H2 & H3).
  split; [|done]. pose proof (i_hist _ _ _ H). lia.
Qed.
Print Assumptions C28_searches_see_one_state.

(** Client 1 searches while client 2 deletes. *)
Example C28_case :
  exists w, steps (T:=ascii_text) (C:=toy) (B "o=base") (start d0) w /\
    w_answers w = [mkAnswer 0 1 (B "o=base") 1 (Ok ([e_people], None));
                   mkAnswer 0 1 (B "ou=people,o=base") 1 (Ok ([e_ada; e_bob'], None))] /\
    search (T:=ascii_text) (w_db w) (B "ou=people,o=base") 1 = Ok ([e_ada], None) /\
    length (w_log w) = 1.
Proof.
  destruct (run_op (T:=ascii_text) (C:=toy) (B "o=base") no_faults
    (OpDelete (B "cn=bob,ou=people,o=base")) d0) as [out d'] eqn:E.
  assert (Hout : out = Done (Ok tt)).
  { transitivity (run_op (T:=ascii_text) (C:=toy) (B "o=base") no_faults
      (OpDelete (B "cn=bob,ou=people,o=base")) d0).1; [by rewrite E|vm_compute; reflexivity]. }
  subst out.
  eexists. split.
  { eapply steps_step; [eapply steps_step; [eapply steps_step; [eapply steps_step;
      [eapply steps_step; [eapply steps_step; [apply steps_refl|]|]|]|]|]|].
    - apply (st_begin_read _ _ 1 (B "ou=people,o=base") 1). reflexivity.
    - apply (st_begin_write _ _ 2 no_faults (OpDelete (B "cn=bob,ou=people,o=base"))); reflexivity.
    - apply (st_begin_read _ _ 3 (B "o=base") 1). reflexivity.
    - eapply (st_end_write _ _ 2); [reflexivity|exact E].
    - eapply (st_end_read _ _ 3). reflexivity.
    - eapply (st_end_read _ _ 1). reflexivity. }
  simpl. split; [|split; [|done]].
  - vm_compute. reflexivity.
  - replace d' with (run_op (T:=ascii_text) (C:=toy) (B "o=base") no_faults
      (OpDelete (B "cn=bob,ou=people,o=base")) d0).2 by (by rewrite E).
    vm_compute. reflexivity.
Qed.
