(** Properties of the handler objects in memory: C91. *)
From Verif Require Import Bytes Text Dn Res Entry Password Db Packet Filter Handler Server Ldif Template Startup TemplateProofs Objects ObjectsProofs
  P_Password P_Db P_Server P_Ldif.

(** * C91 *)
(** The objects made at the start serve what C76 says is served. *)
Theorem C91_start (T : Text) (C : Crypto) (W : Wire) (Tr : Trees) (cf : config) (attrs : list (str * str)) (fn : str) (k : disk)
    (stored : option db) (c : ldif_cfg) :
  cf_handler cf = B "ldif" -> cf_ldif_main cf <> [] -> ldif_new (cf_base cf) (cf_admin cf) (cf_anon cf) attrs = Some c ->
  let conf := negb (is_empty (cf_ldif_config cf)) in
  (conf = true -> eqfold (cf_base cf) (to_lower (cf_base cf)) = true) ->
  let path := match dk_main k with Some (true, _) => fn | _ => dir_of fn end in
  match new_server attrs (main_parsed fn k) (dk_conf k path) stored cf with
  | Some (_, BLdif c' d) =>
      conf = false /\ c' = c /\ exists h m, serve_handler c fn conf k = Some (h, m) /\ serves m h None d /\ m_path m = path
  | Some (_, BOverlay base c' o d) =>
      conf = true /\ c' = c /\ base = to_lower (cf_base cf) /\
      exists h m, serve_handler c fn conf k = Some (h, m) /\ serves m h (Some o) d /\ m_path m = path
  | Some (_, BBolt _ _ _) => False
  | None => serve_handler c fn conf k = None
  end.
Proof.
  intros Hh Hm Hc conf Heq path. unfold new_server. rewrite Hh, seqb_refl.
  destruct (is_empty (cf_ldif_main cf)) eqn:Em; [by apply is_empty_true in Em|]. rewrite Hc. cbn [mbind option_bind].
  assert (Ha : lc_attrs c = attrs).
  { unfold ldif_new in Hc. repeat case_match; try done. by injection Hc as <-. }
  unfold serve_handler, new_handler, new_main, main_open, main_parsed, ldif_open. cbn [alloc mem0]. subst path.
  destruct (dk_main k) as [[f parse]|] eqn:Ek; [|done]. cbn [mbind option_bind].
  set (path := if f then fn else dir_of fn) in *.
  destruct (parse path) as [rs|] eqn:Er; [|done]. rewrite Ha. cbn [mbind option_bind].
  destruct (build attrs rs) as [d|] eqn:Ed; [|done].
  subst conf. destruct (is_empty (cf_ldif_config cf)) eqn:Ec; cbn [negb] in *.
  - split; [done|]. split; [done|]. eexists _, _. split; [reflexivity|]. split; [by constructor|done].
  - rewrite (Heq eq_refl). unfold new_overlay, conf_open. cbn [alloc m_path store m_objs m_next].
    destruct (dk_conf k path) as [ro|] eqn:Eo; [|done]. cbn [mbind option_bind]. destruct (build [] ro) as [o|] eqn:Eb; [|done].
    split; [done|]. split; [done|]. split; [done|].
    eexists _, _. split; [reflexivity|]. split; [|done]. eapply serves_overlay; reflexivity.
Qed.
Print Assumptions C91_start.
(** A reload reads through the handler that serves: with any requests meanwhile,
    what is served afterwards is what C51 says, and the reload is reported so. *)
Theorem C91_reload (T : Text) (C : Crypto) (W : Wire) (Tr : Trees) (c : ldif_cfg) (base fn : str) (h : nat) (w : oworld)
    (o : option dataset) (d : dataset) (k1 k2 : disk) (es1 es2 es3 : list oevent) :
  serves (ow_mem w) h o d -> ow_reload w = None ->
  (forall e, In e (es1 ++ es2 ++ es3) -> (exists j q, e = ECall j q) \/ (exists j, e = ELook j)) ->
  let w' := o_run c base fn h w (EReload :: es1 ++ EOpen k1 :: es2 ++ EOpen k2 :: es3) in
  let expected := match o with
    | None => let r := ldif_reload c (main_parsed fn k1) d in (r.1, (None, r.2))
    | Some o => let r := overlay_reload c (dk_conf k1 (m_path (ow_mem w))) (main_parsed fn k2) (o, d) in
                (r.1, (Some r.2.1, r.2.2))
    end in
  serves (ow_mem w') h expected.2.1 expected.2.2 /\ ow_reload w' = None /\ ow_reports w' = ow_reports w ++ [expected.1].
Proof.
  intros Hs Hr Hq.
  assert (Hf : Forall request_event es1 /\ Forall request_event es2 /\ Forall request_event es3).
  { assert (H : Forall request_event (es1 ++ es2 ++ es3)).
    { apply List.Forall_forall. intros e He. by destruct (Hq e He) as [(j & q & ->)|(j & ->)]. }
    apply Forall_app in H as [H1 H]. by apply Forall_app in H as [H2 H3]. }
  destruct Hf as (F1 & F2 & F3).
  intros w' expected. subst w'.
  rewrite o_run_cons, o_run_app, o_run_cons, o_run_app, o_run_cons.
  set (w1 := o_step c base fn h w EReload).
  assert (E1 : ow_mem w1 = ow_mem w /\ ow_reload w1 = Some h /\ ow_reports w1 = ow_reports w) by (unfold w1; cbn [o_step]; by rewrite Hr).
  set (w2 := o_run c base fn h w1 es1). destruct (requests_mem c base fn h es1 w1 F1) as (M2 & R2 & P2). fold w2 in M2, R2, P2.
  destruct E1 as (M1 & R1 & P1). rewrite M1 in M2. rewrite R1 in R2. rewrite P1 in P2. clearbody w2. clear w1 M1 R1 P1.
  set (w3 := o_step c base fn h w2 (EOpen k1)).
  set (w4 := o_run c base fn h w3 es2). destruct (requests_mem c base fn h es2 w3 F2) as (M4 & R4 & P4). fold w4 in M4, R4, P4.
  set (w5 := o_step c base fn h w4 (EOpen k2)).
  destruct (requests_mem c base fn h es3 w5 F3) as (M6 & R6 & P6). rewrite M6, R6, P6. clear M6 R6 P6.
  destruct Hs as [d H|o d q H1 H2].
  - destruct (main_open_reload c fn h k1 (ow_mem w) d true H) as [Ek Eo].
    assert (E3 : ow_mem w3 = (main_open c fn h k1 (ow_mem w)).2 /\ ow_reload w3 = None /\
      ow_reports w3 = ow_reports w ++ [(main_open c fn h k1 (ow_mem w)).1]).
    { unfold w3. cbn [o_step]. rewrite R2, M2, H, P2. by destruct (main_open c fn h k1 (ow_mem w)). }
    destruct E3 as (M3 & R3 & P3). rewrite M3 in M4. rewrite R3 in R4. rewrite P3 in P4.
    assert (w5 = w4) as -> by (unfold w5; cbn [o_step]; by rewrite R4).
    rewrite M4, R4, P4, Ek. split; [|done]. cbn. by constructor.
  - assert (Hne : q <> h) by (intros ->; congruence).
    destruct (conf_open_reload c h k1 (ow_mem w) o (Some q) H1) as [Ek Eo].
    pose proof (conf_open_objs h k1 (ow_mem w) q Hne) as Eq. rewrite H2 in Eq.
    assert (E3 : ow_mem w3 = (conf_open h k1 (ow_mem w)).2 /\
      ow_reload w3 = (if (conf_open h k1 (ow_mem w)).1 then Some q else None) /\
      ow_reports w3 = ow_reports w ++ (if (conf_open h k1 (ow_mem w)).1 then [] else [false])).
    { unfold w3. cbn [o_step]. rewrite R2, M2, H1, P2. destruct (conf_open h k1 (ow_mem w)) as [[] m]; cbn; rewrite ?app_nil_r; done. }
    destruct E3 as (M3 & R3 & P3). rewrite M3 in M4. rewrite R3 in R4. rewrite P3 in P4.
    unfold expected, overlay_reload. cbn [fst snd].
    destruct (ldif_reload (mkLdif (lc_base c) (lc_anon c) []) (dk_conf k1 (m_path (ow_mem w))) o) as [ok o'] eqn:El. cbn [fst snd] in Ek, Eo.
    rewrite Ek in R4, P4. destruct ok.
    + rewrite app_nil_r in P4. rewrite <- M4 in Eo, Eq.
      destruct (main_open_reload c fn q k2 (ow_mem w4) d true Eq) as [Ek' Eo'].
      pose proof (main_open_objs c fn q k2 (ow_mem w4) h (not_eq_sym Hne)) as Eh. rewrite Eo in Eh.
      unfold w5. cbn [o_step]. rewrite R4, Eq, P4.
      destruct (ldif_reload c (main_parsed fn k2) d) as [ok' d'] eqn:El'. cbn [fst snd] in *.
      destruct (main_open c fn q k2 (ow_mem w4)) as [ok2 m2]. cbn [fst snd] in Ek', Eo', Eh. subst ok2. cbn.
      split; [by econstructor|done].
    + assert (w5 = w4) as -> by (unfold w5; cbn [o_step]; by rewrite R4).
      rewrite R4, P4. cbn. split; [|done]. rewrite M4. unfold ldif_reload in El.
      assert (o' = o) as -> by (repeat case_match; congruence). by econstructor.
Qed.
Print Assumptions C91_reload.
(** The objects made by NewServer are never changed by Serve: the data loaded at
    the start stays in memory, and is not served after a reload. *)
Theorem C91_first_kept (T : Text) (C : Crypto) (W : Wire) (Tr : Trees) (c : ldif_cfg) (base fn : str) (conf : bool) (k : disk)
    (p h : nat) (m m' : mem) (es : list oevent) :
  new_handler c fn conf k = Some (p, m) -> serve_handler c fn conf k = Some (h, m') ->
  forall a x, m_objs m !! a = Some x -> a <> h /\ m_objs (ow_mem (o_run c base fn h (o_start m') es)) !! a = Some x.
Proof.
  intros Hn Hs a x Ha. unfold serve_handler in Hs. rewrite Hn in Hs.
  assert (Hm : exists r, (exists o d, shape h r o d m') /\ ~ in_chain h r a /\ a <> h /\ m_objs m' !! a = Some x).
  { unfold new_handler, new_main, main_open in Hn. cbn [alloc mem0] in Hn.
    destruct (dk_main k) as [[f parse]|]; [|done]. destruct (parse _) as [rs|]; [|done]. destruct (build _ rs) as [d|]; [|done].
    destruct conf.
    - unfold new_overlay, conf_open in Hn. cbn [alloc m_path store m_objs m_next] in Hn.
      destruct (dk_conf k _) as [ro|]; [|done]. destruct (build [] ro) as [o|]; [|done].
      injection Hn as <- <-. cbn [with_handler] in *. injection Hs as <- <-.
      assert (a = 0 \/ a = 1) as [-> | ->].
      { destruct a as [|[|a]]; [by left|by right|]. exfalso. revert Ha. cbn [m_objs store].
        rewrite lookup_alter_ne, lookup_alter_ne, lookup_insert_ne, lookup_alter_ne, lookup_insert_ne by done. by rewrite lookup_empty. }
      + exists (Some 2). split; [exists (Some o), d; split; [done|]; split; reflexivity|]. split; [by intros [?|[=]]|]. split; [done|exact Ha].
      + exists (Some 2). split; [exists (Some o), d; split; [done|]; split; reflexivity|]. split; [by intros [?|[=]]|]. split; [done|exact Ha].
    - injection Hn as <- <-. injection Hs as <- <-.
      assert (a = 0) as ->.
      { destruct a as [|a]; [done|]. exfalso. revert Ha. cbn [m_objs store].
        rewrite lookup_alter_ne, lookup_insert_ne by done. by rewrite lookup_empty. }
      exists None. split; [exists None, d; reflexivity|]. split; [by intros [?|[=]]|]. split; [done|exact Ha]. }
  destruct Hm as (r & Hsh & Hni & Hne & Hx). split; [done|]. rewrite (run_outside c base fn h r); [done| |done].
  split; [done|]. done.
Qed.
Print Assumptions C91_first_kept.
(** A request made while a reload may be under way: the answer is that of C48 and
    C58 from the data of the middleware at one moment and the main data at one
    moment not before, both while the request was under way. *)
Theorem C91_request (T : Text) (C : Crypto) (W : Wire) (Tr : Trees) (c : ldif_cfg) (base fn : str) (h : nat) (m : mem)
    (o0 : option dataset) (d0 : dataset) (es1 es2 : list oevent) (j : nat) (q : hcall) (x : hresult) :
  serves m h o0 d0 ->
  let mem_after es := ow_mem (o_run c base fn h (o_start m) es) in
  let calls_after es := ow_calls (o_run c base fn h (o_start m) es) in
  (forall p q', calls_after es1 !! j <> Some (At p q')) -> (forall q', ~ In (ECall j q') es2) ->
  calls_after (es1 ++ ECall j q :: es2) !! j = Some (Returned x) ->
  exists a b e o d o' d', es2 = a ++ b ++ e /\
    serves (mem_after (es1 ++ ECall j q :: a)) h o d' /\ serves (mem_after (es1 ++ ECall j q :: a ++ b)) h o' d /\
    x = result_with c base o d q.
Proof.
  intros Hs mem_after calls_after H1 H2 H3. destruct (serves_shape h m o0 d0 Hs) as [r Hr].
  assert (Hsd : sound h r (o_start m)) by (split; [by eauto|done]).
  apply (run_sound c base fn h r es1) in Hsd. set (w1 := o_run c base fn h (o_start m) es1) in *.
  assert (Hsd2 : sound h r (o_step c base fn h w1 (ECall j q))) by (by apply step_sound).
  assert (Hat : ow_calls (o_step c base fn h w1 (ECall j q)) !! j = Some (At h q)).
  { cbn [o_step]. specialize (H1 : forall p q', ow_calls w1 !! j <> Some (At p q')).
    destruct (ow_calls w1 !! j) as [[p q'|y]|] eqn:E; [by destruct (H1 p q')| |]; cbn; by rewrite lookup_insert. }
  destruct (call_comes c base fn h r _ j q es2 Hsd2 Hat H2) as (y & Hy & Hc).
  assert (Hrun : forall l, o_run c base fn h (o_start m) (es1 ++ ECall j q :: l) = o_run c base fn h (o_step c base fn h w1 (ECall j q)) l).
  { intros l. by rewrite o_run_app, o_run_cons. }
  unfold calls_after in H3. rewrite Hrun, Hy in H3. injection H3 as ->.
  destruct Hc as (a & b & e & o & d & o' & d' & -> & Ha & Hb & ->). exists a, b, e, o, d, o', d'.
  split; [done|]. unfold mem_after. rewrite !Hrun. split; [by eapply shape_serves|]. split; [by eapply shape_serves|done].
Qed.
Print Assumptions C91_request.
(** No file read and stored meanwhile: the answer is that from what was served
    when the request was made. *)
Theorem C91_undisturbed (T : Text) (C : Crypto) (W : Wire) (Tr : Trees) (c : ldif_cfg) (base fn : str) (h : nat) (m : mem)
    (o0 : option dataset) (d0 : dataset) (es1 es2 : list oevent) (j : nat) (q : hcall) (x : hresult) :
  serves m h o0 d0 ->
  let after es := o_run c base fn h (o_start m) es in
  (forall p q', ow_calls (after es1) !! j <> Some (At p q')) -> (forall q', ~ In (ECall j q') es2) -> (forall k, ~ In (EOpen k) es2) ->
  ow_calls (after (es1 ++ ECall j q :: es2)) !! j = Some (Returned x) ->
  exists o d, serves (ow_mem (after es1)) h o d /\ x = result_with c base o d q.
Proof.
  intros Hs after H1 H2 H4 H3.
  destruct (C91_request T C W Tr c base fn h m o0 d0 es1 es2 j q x Hs H1 H2 H3) as (a & b & e & o & d & o' & d' & -> & Ha & Hb & ->).
  assert (Hno : forall l, (forall k, ~ In (EOpen k) l) -> ow_mem (after (es1 ++ ECall j q :: l)) = ow_mem (after es1)).
  { intros l Hl. unfold after. rewrite o_run_app. apply no_open_mem. intros k [?|Hk]; [done|by apply (Hl k)]. }
  rewrite Hno in Ha. 2: { intros k Hk. apply (H4 k), in_or_app. by left. }
  rewrite Hno in Hb. 2: { intros k Hk. apply (H4 k). rewrite app_assoc. apply in_or_app. by left. }
  exists o, d. split; [|done]. destruct (serves_fun h _ _ _ _ _ Ha Hb) as [-> ->]. done.
Qed.
Print Assumptions C91_undisturbed.
(** Templates include files from the folder of the main source, those in the file
    of the middleware too. *)
Theorem C91_folder (T : Text) (C : Crypto) (W : Wire) (Tr : Trees) (c : ldif_cfg) (base fn : str) (conf folder : bool) (k : disk)
    (h : nat) (m : mem) (es : list oevent) :
  serve_handler c fn conf k = Some (h, m) ->
  (forall k' f parse, k' = k \/ In (EOpen k') es -> dk_main k' = Some (f, parse) -> f = folder) ->
  m_path (ow_mem (o_run c base fn h (o_start m) es)) = if folder then fn else dir_of fn.
Proof.
  intros Hs Hf. induction es as [|e es IH] using rev_ind.
  - unfold serve_handler, new_handler, new_main, main_open in Hs. cbn [alloc mem0] in Hs.
    destruct (dk_main k) as [[f parse]|] eqn:Ek; [|done]. rewrite <- (Hf k f parse (or_introl eq_refl) Ek).
    destruct (parse _) as [rs|]; [|done]. destruct (build _ rs) as [d|]; [|done]. destruct conf.
    + unfold new_overlay, conf_open in Hs. cbn [alloc m_path store m_objs m_next] in Hs.
      destruct (dk_conf k _) as [ro|]; [|done]. destruct (build [] ro) as [o|]; [|done]. injection Hs as <- <-. done.
    + injection Hs as <- <-. done.
  - rewrite o_run_app. cbn [o_run foldl].
    destruct (step_path c base fn h (o_run c base fn h (o_start m) es) e) as [E|(k' & f & parse & -> & Ek & E)].
    + unfold o_run in *. rewrite E. apply IH. intros k' f parse [->|Hi] Ek; [by eapply Hf; eauto|].
      eapply Hf; [|exact Ek]. right. apply in_or_app. by left.
    + unfold o_run in *. rewrite E, (Hf k' f parse); [done| |done]. right. apply in_or_app. right. by left.
Qed.
Print Assumptions C91_folder.
(** The folder of a file: what is before its name, given that the file is named by
    an absolute path without empty or dotted parts; every absolute path is brought
    to this form. *)
Theorem C91_dir (ds : list str) (name : str) :
  Forall plain (ds ++ [name]) ->
  dir_of (slash :: Bytes.join [slash] (ds ++ [name])) = slash :: Bytes.join [slash] ds.
Proof.
  intros H. apply Forall_app in H as [Hd Hn]. apply Forall_inv in Hn. unfold dir_of.
  assert (Hl : forall s, no_slash s -> to_last_slash s = []).
  { induction s as [|x s IH]; intros Hs; [done|]. cbn [to_last_slash]. apply Forall_cons in Hs as [Hx Hs]. rewrite (IH Hs). cbn.
    destruct (aeqb x slash) eqn:E; [|done]. apply aeqb_eq in E as ->. discriminate Hx. }
  assert (Ha : forall a s, no_slash s -> to_last_slash (a ++ slash :: s) = a ++ [slash]).
  { intros a s Hs. induction a as [|x a IH]; cbn [Datatypes.app to_last_slash].
    - by rewrite (Hl s Hs).
    - rewrite IH. by destruct a. }
  destruct ds as [|q ds].
  { change (slash :: Bytes.join [slash] ([] ++ [name])) with ([] ++ slash :: name). rewrite Ha by apply Hn. done. }
  assert (Hj : forall q ds, slash :: Bytes.join [slash] ((q :: ds) ++ [name]) = (slash :: Bytes.join [slash] (q :: ds)) ++ slash :: name).
  { intros q' ds'. cbn [Datatypes.app]. f_equal. clear -ds'. revert q'. induction ds' as [|r ds IH]; intros q; [done|].
    change (q ++ slash :: Bytes.join [slash] (r :: ds ++ [name]) = (q ++ slash :: Bytes.join [slash] (r :: ds)) ++ slash :: name).
    rewrite IH, <- app_assoc. done. }
  rewrite Hj, Ha by apply Hn. cbn [Datatypes.app].
  destruct (clean_abs (slash :: Bytes.join [slash] (q :: ds) ++ [slash]) eq_refl) as (kept & -> & _ & ->). f_equal. f_equal.
  rewrite split_slash, split_app, split_join; [|done|eapply Forall_impl; [exact Hd|]; intros x Hx; apply Hx].
  change (go_path [] ([] :: (q :: ds) ++ Bytes.split slash [])) with (go_path [] ((q :: ds) ++ [[]])).
  rewrite go_path_app, (go_plain [] (q :: ds) Hd). reflexivity.
Qed.
Print Assumptions C91_dir.

Section case.
#[local] Existing Instances ascii_text toy plain_trees.
#[local] Instance wire91 : Wire := wire_f (FAnd []).
(** A user is moved from the main file to that of the middleware. *)
Definition moved_before : disk := mkDisk (Some (false, fun _ => Some records1)) (fun _ => Some []).
Definition moved_after : disk := mkDisk (Some (false, fun _ => Some [Some e_base])) (fun _ => Some [Some e_dora]).
Definition dora_binds : hcall := HBind false (B "uid=dora,ou=people,o=base") (B "pw").
Definition moving : list oevent :=
  [ECall 0 dora_binds; ELook 0; EReload; EOpen moved_after; EOpen moved_after; ELook 0].
Definition fn91 : str := B "/etc/idm/main.ldif".
Definition run91 (k : disk) (es : list oevent) : option oworld :=
  match serve_handler lc1 fn91 true k with
  | Some (h, m) => Some (o_run lc1 (B "o=base") fn91 h (o_start m) es)
  | None => None
  end.
(** The result of the request on a connection after such a run. *)
Definition answer91 (j : nat) (es : list oevent) : option progress := match run91 moved_before es with Some w => ow_calls w !! j | None => None end.
Definition accepted91 (x : option progress) : bool :=
  match x with Some (Returned (RBind (HRet (code, _)))) => (code =? Success)%N | _ => false end.
Example C91_case :
  match run91 moved_before [] with Some _ => true | None => false end = true /\
  map (fun l => accepted91 (answer91 1 (l ++ [ECall 1 dora_binds; ELook 1; ELook 1]))) (map (fun n => take n moving) (seq 0 7)) =
    [true; true; true; true; true; true; true] /\
  answer91 0 moving = Some (Returned (RBind (HRet (InvalidCredentials, false)))) /\
  option_map ow_reports (run91 moved_before moving) = Some [true] /\
  option_map (fun w => m_path (ow_mem w)) (run91 moved_before moving) = Some (B "/etc/idm") /\
  file_to_open (Some (B "/run")) (B "/etc/idm") (B "/srv/over/photo.jpg") = None.
Proof. repeat split; vm_compute; reflexivity. Qed.
(** The whole middleware and main file are switched in two steps: a user who could
    bind before, between and after the steps can be refused during them. *)
Theorem C91_moved_refuted : exists (k : disk) (h : nat) (m : mem) (es : list oevent) (q : hcall),
  serve_handler lc1 fn91 true k = Some (h, m) /\
  (forall n, exists o d, serves (ow_mem (o_run lc1 (B "o=base") fn91 h (o_start m) (take n es))) h o d /\
     result_with lc1 (B "o=base") o d q = RBind (HRet (Success, false))) /\
  es !! 0 = Some (ECall 0 q) /\ (forall q', ~ In (ECall 0 q') (tail es)) /\
  ow_calls (o_run lc1 (B "o=base") fn91 h (o_start m) es) !! 0 = Some (Returned (RBind (HRet (InvalidCredentials, false)))).
Proof.
  destruct (serve_handler lc1 fn91 true moved_before) as [[h m]|] eqn:E.
  2: { assert (H : match serve_handler lc1 fn91 true moved_before with Some _ => true | None => false end = true) by (vm_compute; reflexivity).
       rewrite E in H. discriminate H. }
  exists moved_before, h, m, moving, dora_binds. split; [exact E|]. split; [|split; [reflexivity|split]].
  - assert (Hgood : forall n, n < 7 -> let w := o_run lc1 (B "o=base") fn91 h (o_start m) (take n moving) in
      match m_objs (ow_mem w) !! h with
      | Some (OOverlay (Some o) (Some q)) =>
          match m_objs (ow_mem w) !! q with
          | Some (OLdif (Some d) true) =>
              match result_with lc1 (B "o=base") (Some o) d dora_binds with RBind (HRet (0%N, false)) => true | _ => false end
          | _ => false
          end
      | _ => false
      end = true).
    { assert (H : match serve_handler lc1 fn91 true moved_before with
        | Some (h, m) => forallb (fun n => let w := o_run lc1 (B "o=base") fn91 h (o_start m) (take n moving) in
            match m_objs (ow_mem w) !! h with
            | Some (OOverlay (Some o) (Some q)) =>
                match m_objs (ow_mem w) !! q with
                | Some (OLdif (Some d) true) =>
                    match result_with lc1 (B "o=base") (Some o) d dora_binds with RBind (HRet (0%N, false)) => true | _ => false end
                | _ => false
                end
            | _ => false
            end) (seq 0 7)
        | None => false end = true) by (vm_compute; reflexivity).
      rewrite E in H. clear E. rewrite forallb_forall in H. intros n Hn. apply (H n). apply in_seq. lia. }
    clear E. intros n. assert (Hn : exists n', n' < 7 /\ take n moving = take n' moving).
    { destruct (decide (n < 7)); [by exists n|]. exists 6. split; [lia|]. rewrite !take_ge; [done|cbn; lia|cbn; lia]. }
    destruct Hn as (n' & Hn' & ->). specialize (Hgood n' Hn'). cbv zeta in Hgood.
    set (w := o_run lc1 (B "o=base") fn91 h (o_start m) (take n' moving)) in *. clearbody w.
    destruct (m_objs (ow_mem w) !! h) as [[|[o|] [q|]]|] eqn:E1; try done.
    destruct (m_objs (ow_mem w) !! q) as [[[d|] []|]|] eqn:E2; try done.
    exists (Some o), d. split; [by econstructor|].
    destruct (result_with lc1 (B "o=base") (Some o) d dora_binds) as [[[[|?] []]| |]|]; done.
  - clear E. intros q' Hq. cbn in Hq. by repeat (destruct Hq as [[=]|Hq]).
  - assert (H : match serve_handler lc1 fn91 true moved_before with
      | Some (h, m) => match ow_calls (o_run lc1 (B "o=base") fn91 h (o_start m) moving) !! 0 with
          | Some (Returned (RBind (HRet (49%N, false)))) => true | _ => false end
      | None => false end = true) by (vm_compute; reflexivity).
    rewrite E in H. clear E. destruct (ow_calls _ !! 0) as [[|[[[z []]| |]|]]|]; try done; repeat (destruct z as [|z]; try done); repeat (destruct z; try done).
Qed.
Print Assumptions C91_moved_refuted.
End case.
