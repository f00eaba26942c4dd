(** Properties C50, C51, C60-C62 and the part of C45 about paging: searches in
    the LDIF backend under every schedule. *)
From Verif Require Import Bytes Text Dn DnProofs Res Entry EntryProofs Password PasswordProofs P_Password Db Packet
  Filter FilterProofs Handler Server ServerProofs P_Db P_Server Ldif LdifProofs LdifMore P_Ldif Paging PagingProofs.

(** ** The setting of the examples *)
(** All four entries of P_Ldif match. *)
Definition f_all : flt := FNot (FPres (B "nothing")).
Definition e_new := mkEntry (B "o=base") [mkAttr (B "objectClass") [B "organization"]].
Definition wire_all : Wire := wire_f f_all.
Definition outs1 (es : list pevent) : list answered :=
  p_outs (T:=ascii_text) (W:=wire_all) (Tr:=plain_trees) lc1 (p_init ld1) es.
Definition view (a : answered) : nat * option (list str) * option str :=
  (an_conn a, match an_out a with HRet p => if f_err (pa_found p) then None else Some (map e_dn (f_entries (pa_found p))) | _ => None end,
   match an_out a with HRet p => pa_cookie p | _ => None end).
Definition start1 (k : nat) (size n : Z) (ck fresh : string) : pevent :=
  PStart k true [] (lreq ["*"]%string size) (Some (mkPaging n (B ck))) (B fresh).
Arguments start1 k%nat size%Z n%Z ck%string fresh%string.
Definition names (l : list string) : option (list str) := Some (map B l).
Definition dn1 : string := "o=base"%string.
Definition dn2 : string := "ou=people, o=base"%string.
Definition dn3 : string := "uid=dora,ou=people,o=base"%string.
Definition dn4 : string := "uid=sam,ou=people,o=base"%string.

(** The same request without its size limit. *)
Definition unlimited (r : search_req) : search_req :=
  mkSearch (sr_base r) (sr_scope r) 0 (sr_types r) (sr_filter r) (sr_attrs r).
Lemma unlimited_search (T : Text) (W : Wire) (Tr : Trees) (HTr : TreesOK Tr) c d local bound r flt fs :
  built d -> search_checks c local bound r = inr (flt, fs) -> decided flt r (sends d (sr_base r) fs) ->
  (ldif_search c local bound (unlimited r) d).1 =
    HRet (mkFound (omap (decide_entry flt r) (sends d (sr_base r) fs)) Success false).
Proof.
  intros Hd Hs Hdec. unfold ldif_search. cbn [fst].
  assert (Hs' : search_checks c local bound (unlimited r) = inr (flt, fs)) by exact Hs. rewrite Hs'.
  rewrite take_es_all by (by apply candidates_valid). rewrite take_es_unlimited; [done|done|exact Hdec].
Qed.

(** * C50 *)
(** A client starts a paged search; then anything happens, except that nobody
    else uses its cookie, no random cookie equals it, the client repeats its
    request with positive page sizes (which may vary) and the pump is not stopped
    by its timer.  The entries answered so far, in the order of the pages, are a
    beginning of the unpaged result; a page with the cookie is full; after a page
    without the cookie all entries have been answered. *)
Theorem C50_partition (T : Text) (W : Wire) (Tr : Trees) (HTr : TreesOK Tr) (c : ldif_cfg)
    (d : dataset) (before after : list pevent) (k : nat) (local : bool) (bound : str) (r : search_req) (n : Z)
    (ck : str) (flt : packet) (fs : list leaf) :
  let st := p_run c (p_init d) before in
  let st' := (p_step c st (PStart k local bound r (Some (mkPaging n [])) ck)).1 in
  let ch := ps_next st in
  let outs := p_outs c st' after in
  built d -> ck <> [] -> Forall (no_fresh ck) before -> ps_readers st !! k = None ->
  search_checks c local bound r = inr (flt, fs) ->
  ((0 < sr_size r)%Z -> (n < u32 (sr_size r))%Z) ->
  (forall e, In e (sends (ps_data st) (sr_base r) fs) -> exists o, take_entry flt r e = Ok o) ->
  Forall (polite k r ck ch) after ->
  exists all, (ldif_search c local bound (unlimited r) (ps_data st)).1 = HRet (mkFound all Success false) /\
    (exists rest, log_of ch outs ++ rest = all) /\
    forall a, In a outs -> an_chan a = Some ch ->
      an_conn a = k /\ exists m l ck', an_page a = Some (mkPaging m ck) /\
        an_out a = HRet (mkPage (mkFound l Success false) (Some ck')) /\
        ((ck' = ck /\ Z.of_nat (length l) = Z.max 1 m) \/
         (ck' = [] /\ (Z.of_nat (length l) < Z.max 1 m)%Z /\ log_of ch outs = all)).
Proof.
  intros st st' ch outs Hd Hck Hfr Hk Hs Hn Hdec Hpol.
  assert (Hdec' : decided flt r (sends (ps_data st) (sr_base r) fs)) by (by apply List.Forall_forall).
  exists (omap (decide_entry flt r) (sends (ps_data st) (sr_base r) fs)).
  split; [apply unlimited_search; [done|by apply built_run|done..]|].
  destruct (session_start c st k local bound r n ck flt fs) as [_ Hses]; [apply wf_true_run|by apply unused_run|done..|].
  pose proof (start_checks c _ _ _ _ _ Hs) as (_ & Hf & _).
  destruct (session_run c k r flt ck ch _ Hck Hf after st' [] Hses Hpol) as [Hrun Hpages]. cbn [app] in *. fold outs in Hrun, Hpages.
  split.
  - destruct (ss_pump _ _ _ _ _ _ _ _ Hrun) as (full & todo & ph & _ & _ & Hx & _). eauto.
  - intros a Ha Hch. destruct (Hpages a Ha) as (log' & (Hconn & m & l & ck' & H1 & H2 & H3) & Hfin); [by apply bool_decide_eq_true|].
    split; [done|]. exists m, l, ck'. split; [done|]. split; [done|]. destruct H3 as [H3|(-> & H3 & _)]; [by left|right].
    split; [done|]. split; [done|]. apply Hfin. eexists. exact H2.
Qed.
Print Assumptions C50_partition.
(** A request with the cookie, the client idle, is continued; it is refused with
    UnwillingToPerform only after all entries have been answered. *)
Theorem C50_continue (T : Text) (W : Wire) (Tr : Trees) (HTr : TreesOK Tr) (c : ldif_cfg)
    (d : dataset) (before after : list pevent) (k : nat) (local local' : bool) (bound bound' : str) (r : search_req)
    (n m : Z) (ck fresh : str) (flt : packet) (fs : list leaf) :
  let st := p_run c (p_init d) before in
  let st' := (p_step c st (PStart k local bound r (Some (mkPaging n [])) ck)).1 in
  let ch := ps_next st in
  let last := p_run c st' after in
  built d -> ck <> [] -> Forall (no_fresh ck) before -> ps_readers st !! k = None ->
  search_checks c local bound r = inr (flt, fs) -> search_checks c local' bound' r = inr (flt, fs) ->
  ((0 < sr_size r)%Z -> (n < u32 (sr_size r))%Z) -> ((0 < sr_size r)%Z -> (m < u32 (sr_size r))%Z) -> (0 < m)%Z ->
  (forall e, In e (sends (ps_data st) (sr_base r) fs) -> exists o, take_entry flt r e = Ok o) ->
  Forall (polite k r ck ch) after -> ps_readers last !! k = None ->
  let next := p_step c last (PStart k local' bound' r (Some (mkPaging m ck)) fresh) in
  (next.2 = None /\ exists rd, ps_readers next.1 !! k = Some rd /\ rd_chan rd = Some ch) \/
  (next.2 = Some (mkAns k None None (HRet (mkPage (mkFound [] UnwillingToPerform true) None))) /\
   (ldif_search c local bound (unlimited r) (ps_data st)).1 =
     HRet (mkFound (log_of ch (p_outs c st' after)) Success false)).
Proof.
  intros st st' ch last Hd Hck Hfr Hk Hs Hs' Hn Hm Hpos Hdec Hpol Hidle next.
  assert (Hdec' : decided flt r (sends (ps_data st) (sr_base r) fs)) by (by apply List.Forall_forall).
  destruct (session_start c st k local bound r n ck flt fs) as [_ Hses]; [apply wf_true_run|by apply unused_run|done..|].
  pose proof (start_checks c _ _ _ _ _ Hs') as (Hb & Hf & Hl & Hbase).
  destruct (session_run c k r flt ck ch _ Hck Hf after st' [] Hses Hpol) as [Hrun _]. cbn [app] in Hrun. fold last in Hrun.
  destruct (ss_pump _ _ _ _ _ _ _ _ Hrun) as (full & todo & ph & Hp & _ & Hall & Hph).
  assert (Hnext : next = match ps_reg last !! ck with
      | Some ch' => enter k (Some ch') r (Some (mkPaging m ck)) last
      | None => (last, say k (no_page (refused UnwillingToPerform))) end).
  { unfold next. cbn [p_step]. rewrite Hidle. unfold p_start. rewrite Hb, Hl, Hbase. cbn [negb].
    assert (Hpg : paging_of r (Some (mkPaging m ck)) = Some (mkPaging m ck)).
    { unfold paging_of. cbn [pg_size]. destruct (Z.ltb_spec 0 (sr_size r)); [|done].
      destruct (Z.leb_spec (u32 (sr_size r)) m); [lia|done]. }
    rewrite Hpg. cbn [pg_cookie pg_size]. destruct ck as [|x ck]; [done|]. cbn [is_empty].
    apply Z.ltb_lt in Hpos as ->. done. }
  destruct ph.
  - left. rewrite Hnext, Hph. unfold enter. rewrite Hf. cbn [fst snd ps_readers]. split; [done|].
    rewrite lookup_insert. eauto.
  - right. destruct Hph as [-> Hreg]. rewrite Hnext, Hreg. split; [done|].
    unfold pending in Hall. rewrite Hidle in Hall. cbn [omap list_omap app] in Hall. rewrite ?app_nil_r, ?app_nil_l in Hall. rewrite Hall.
    apply unlimited_search; [done|by apply built_run|done..].
  - right. destruct Hph as [-> Hreg]. rewrite Hnext, Hreg. split; [done|].
    unfold pending in Hall. rewrite Hidle in Hall. cbn [omap list_omap app] in Hall. rewrite ?app_nil_r, ?app_nil_l in Hall. rewrite Hall.
    apply unlimited_search; [done|by apply built_run|done..].
Qed.
Print Assumptions C50_continue.
(** A search that has a channel can always be answered: some steps of its pump
    and its own lead to an answer. *)
Theorem C50_progress (T : Text) (W : Wire) (Tr : Trees) (c : ldif_cfg) (d : dataset)
    (es : list pevent) (k : nat) (rd : reader) (ch : nat) :
  let st := p_run c (p_init d) es in
  ps_readers st !! k = Some rd -> rd_chan rd = Some ch ->
  exists more a, In a (p_outs c st more) /\ an_conn a = k /\
    Forall (fun e => e = PRecv k \/ e = PDone ch \/ e = PShut ch \/ e = PEmpty k) more.
Proof. intros st. apply can_answer, wf_true_run. Qed.
Print Assumptions C50_progress.
Lemma all_four : exists f,
  (ldif_search (T:=ascii_text) (W:=wire_all) (Tr:=plain_trees) lc1 true [] (lreq ["*"]%string 0) ld1).1 = HRet f /\
  f_err f = false /\ length (f_entries f) = 4.
Proof. eexists. split; [vm_compute; reflexivity|]. done. Qed.
(** The timer of the pump: with entries left, the last page comes as if the
    search were complete. *)
Theorem C50_timeout_refuted : exists (T : Text) (W : Wire) (Tr : Trees) (c : ldif_cfg) (d : dataset)
    (es : list pevent) (r : search_req),
  let outs := p_outs c (p_init d) es in
  built d /\ TreesOK Tr /\
  (exists n ck a b, outs = [a; b] /\ es !! 0 = Some (PStart 0 true [] r (Some (mkPaging n [])) ck) /\
     pa_cookie <$> (match an_out a with HRet p => Some p | _ => None end) = Some (Some ck) /\ final b) /\
  exists f, (ldif_search c true [] r d).1 = HRet f /\ f_err f = false /\ log_of 0 outs <> f_entries f.
Proof.
  exists ascii_text, wire_all, plain_trees, lc1, ld1,
    [start1 0 0 2 "" "ck"; PRecv 0; PRecv 0; start1 0 0 2 "ck" "x"; PGiveUp 0; PShut 0; PEmpty 0], (lreq ["*"]%string 0).
  intros outs. split; [exists index_attributes, records1; apply ld1_build|]. split; [apply plain_trees_ok|].
  assert (Hv : map view outs = [(0, names [dn1; dn2], Some (B "ck")); (0, names [], Some [])]) by (vm_compute; reflexivity).
  assert (Hl : length (log_of 0 outs) = 2) by (vm_compute; reflexivity).
  clearbody outs.
  split.
  - destruct outs as [|a [|b [|]]]; try discriminate Hv. cbn [map] in Hv.
    pose proof (f_equal (fun l => snd (hd (0, None, None) l)) Hv) as Ha.
    pose proof (f_equal (fun l => snd (hd (0, None, None) (tl l))) Hv) as Hb. cbn [hd tl snd view] in Ha, Hb. clear Hv Hl.
    exists 2%Z, (B "ck"), a, b. split; [reflexivity|]. split; [reflexivity|]. split.
    + destruct (an_out a); try discriminate Ha. cbn. by f_equal.
    + unfold final. destruct (an_out b) as [[f' x]| |]; try discriminate Hb. cbn in Hb. subst x. eauto.
  - destruct all_four as (f & Hf & Hf1 & Hf2). exists f. split; [exact Hf|]. split; [exact Hf1|]. intros E.
    rewrite E, Hf2 in Hl. discriminate Hl.
Qed.
Print Assumptions C50_timeout_refuted.
Example C50_case :
  (* pages of three: the second has one entry and no cookie *)
  map view (outs1 [start1 0 0 3 "" "ck"; PRecv 0; PRecv 0; PRecv 0; start1 0 0 3 "ck" "x"; PRecv 0;
                   PDone 0; PShut 0; PEmpty 0])
    = [(0, names [dn1; dn2; dn3], Some (B "ck")); (0, names [dn4], Some [])] /\
  (* pages of two: the second is full and has a cookie, which is refused *)
  map view (outs1 [start1 0 0 2 "" "ck"; PRecv 0; PRecv 0; start1 0 0 2 "ck" "x"; PRecv 0; PRecv 0; PDone 0;
                   start1 0 0 2 "ck" "y"])
    = [(0, names [dn1; dn2], Some (B "ck")); (0, names [dn3; dn4], Some (B "ck")); (0, None, None)] /\
  (* the same with the request before the pump has noticed *)
  map view (outs1 [start1 0 0 2 "" "ck"; PRecv 0; PRecv 0; start1 0 0 2 "ck" "x"; PRecv 0; PRecv 0;
                   start1 0 0 2 "ck" "y"; PDone 0; PShut 0; PEmpty 0])
    = [(0, names [dn1; dn2], Some (B "ck")); (0, names [dn3; dn4], Some (B "ck")); (0, names [], Some [])] /\
  Forall (polite 0 (lreq ["*"]%string 0) (B "ck") 0)
    [PRecv 0; PRecv 0; PRecv 0; start1 0 0 3 "ck" "x"; PRecv 0; PDone 0; PShut 0; PEmpty 0].
Proof.
  split; [vm_compute; reflexivity|]. split; [vm_compute; reflexivity|]. split; [vm_compute; reflexivity|].
  repeat (apply List.Forall_cons; [try done|]); [|constructor]. split; [done|]. intros pg [= <-] _. done.
Qed.
(** The hypotheses of C50_partition in this case. *)
Example C50_case_checks :
  exists flt fs, search_checks (T:=ascii_text) (W:=wire_all) lc1 true [] (lreq ["*"]%string 0) = inr (flt, fs) /\
    length (sends (T:=ascii_text) (Tr:=plain_trees) ld1 (B "o=base") fs) = 4 /\
    forall e, In e (sends (T:=ascii_text) (Tr:=plain_trees) ld1 (B "o=base") fs) ->
      exists o, take_entry (T:=ascii_text) flt (lreq ["*"]%string 0) e = Ok o.
Proof.
  eexists _, _. split; [vm_compute; reflexivity|]. split; [vm_compute; reflexivity|].
  intros e He. vm_compute in He. repeat (destruct He as [<-|He]; [eexists; vm_compute; reflexivity|]). done.
Qed.

(** * C51 *)
(** A search without paging is answered from the data current at its start: its
    answer is the one computed from that data alone, whatever reloads and other
    searches come in between (the pump not being stopped by its timer). *)
Theorem C51_one_dataset (T : Text) (W : Wire) (Tr : Trees) (HTr : TreesOK Tr) (c : ldif_cfg)
    (d : dataset) (before after : list pevent) (k : nat) (local : bool) (bound : str) (r : search_req)
    (p : option paging) (fresh : str) (pre post : list answered) (a : answered) :
  let st := p_run c (p_init d) before in
  built d -> ps_readers st !! k = None -> paging_of r p = None -> ~ In (PGiveUp (ps_next st)) after ->
  p_outs c st (PStart k local bound r p fresh :: after) = pre ++ a :: post ->
  an_conn a = k -> (forall b, In b pre -> an_conn b <> k) ->
  an_out a = no_page (ldif_search c local bound r (ps_data st)).1.
Proof.
  intros st Hd Hk Hp Hg Ho Ha Hpre. unfold ldif_search. cbn [fst]. rewrite p_outs_cons in Ho.
  destruct (search_checks c local bound r) as [x|[flt fs]] eqn:Es.
  - destruct (refused_start c st k local bound r p fresh x Hk Hp Es) as (b & Hb & Hbk & Hbo). rewrite Hb in Ho. cbn [app] in Ho.
    destruct pre as [|y pre]; injection Ho as Hy Ho; [by rewrite <- Hy|]. subst y. by destruct (Hpre b (or_introl eq_refl)).
  - destruct (waiting_start c st k local bound r p fresh flt fs) as [Hn Hw]; [apply wf_true_run|done..|].
    rewrite Hn in Ho. cbn [app] in Ho.
    rewrite take_es_all by (apply candidates_valid; [done|by apply built_run]).
    by eapply waiting_run.
Qed.
Print Assumptions C51_one_dataset.
(** The data served changes only by a reload that succeeds, to what was read. *)
Theorem C51_current (T : Text) (W : Wire) (Tr : Trees) (c : ldif_cfg) (st : pstate) (e : pevent) :
  ps_data (p_step c st e).1 <> ps_data st ->
  exists records, e = PReload (Some records) /\ build (lc_attrs c) records = Some (ps_data (p_step c st e).1).
Proof.
  rewrite step_data. destruct e; try done. unfold ldif_reload. destruct parsed as [records|]; [|done].
  destruct (build (lc_attrs c) records) eqn:E; [|done]. cbn [snd]. eauto.
Qed.
Print Assumptions C51_current.
Theorem C51_failed_reload (T : Text) (W : Wire) (Tr : Trees) (c : ldif_cfg) (st : pstate)
    (parsed : option (list (option entry))) :
  (ldif_reload c parsed (ps_data st)).1 = false -> p_step c st (PReload parsed) = (st, None).
Proof.
  cbn [p_step]. unfold ldif_reload. destruct parsed as [records|]; [|by destruct st].
  destruct (build _ _); [done|by destruct st].
Qed.
Print Assumptions C51_failed_reload.
(** A reload is reported as successful exactly if the new data is served, and that
    exactly if the files could be read and the tree built (C53). *)
Theorem C51_reported (T : Text) (W : Wire) (Tr : Trees) (c : ldif_cfg) (parsed : option (list (option entry))) (d d' : dataset)
    (ok : bool) :
  ldif_reload c parsed d = (ok, d') <->
  (ok = true /\ exists records, parsed = Some records /\ build (lc_attrs c) records = Some d') \/
  (ok = false /\ d' = d /\ forall records, parsed = Some records -> build (lc_attrs c) records = None).
Proof.
  unfold ldif_reload. destruct parsed as [records|]; [destruct (build _ _) as [x|] eqn:E|].
  - split.
    + intros [= <- <-]. left. eauto.
    + intros [(-> & r & [= <-] & Hb)|(_ & _ & H)]; [congruence|]. by rewrite (H records) in E.
  - split.
    + intros [= <- <-]. right. split; [done|]. split; [done|]. by intros ? [= <-].
    + intros [(_ & r & [= <-] & Hb)|(-> & -> & _)]; congruence.
  - split.
    + intros [= <- <-]. by right.
    + intros [(_ & r & ? & _)|(-> & -> & _)]; done.
Qed.
Print Assumptions C51_reported.
(** With the overlay, both files are read, the overlay's first; the reload is
    reported as successful exactly if both are served, and after a failure of the
    first everything is as before. *)
Theorem C51_overlay (T : Text) (W : Wire) (Tr : Trees) (c : ldif_cfg) (po p : option (list (option entry)))
    (o d o' d' : dataset) (ok : bool) :
  let data (attrs : list (str * str)) (p : option (list (option entry))) (d : dataset) :=
    exists records, p = Some records /\ build attrs records = Some d in
  overlay_reload c po p (o, d) = (ok, (o', d')) <->
  (ok = true /\ data [] po o' /\ data (lc_attrs c) p d') \/
  (ok = false /\ o' = o /\ d' = d /\ (forall x, ~ data [] po x)) \/
  (ok = false /\ data [] po o' /\ d' = d /\ (forall x, ~ data (lc_attrs c) p x)).
Proof.
  intros data. assert (Hd : forall c p x ok x', ldif_reload c p x = (ok, x') <->
    (ok = true /\ data (lc_attrs c) p x') \/ (ok = false /\ x' = x /\ forall y, ~ data (lc_attrs c) p y)).
  { clear c. intros c q x k x'. rewrite (C51_reported T W Tr). unfold data. split; (intros [H|(H1 & H2 & H3)]; [by left|right; split; [done|]; split; [done|]]).
    - intros y (r & -> & Hr). rewrite (H3 r eq_refl) in Hr. done.
    - intros r ->. destruct (build (lc_attrs c) r) as [y|] eqn:E; [|done]. destruct (H3 y). eauto. }
  unfold overlay_reload. cbn [fst snd].
  destruct (ldif_reload (mkLdif (lc_base c) (lc_anon c) []) po o) as [k1 x1] eqn:E1. apply Hd in E1. cbn [lc_attrs] in E1. destruct k1.
  - destruct E1 as [[_ E1]|[? _]]; [|done].
    assert (Hu : forall y, data [] po y -> y = x1).
    { intros y (r & -> & Hr). destruct E1 as (r' & [= <-] & Hr'). congruence. }
    destruct (ldif_reload c p d) as [k2 x2] eqn:E2. split.
    + intros [= <- <- <-]. apply Hd in E2 as [[-> H]|(-> & -> & H)]; [by left|by right; right].
    + intros [(-> & H1 & H2)|[(-> & -> & -> & H)|(-> & H1 & -> & H)]].
      * rewrite (Hu _ H1). assert (ldif_reload c p d = (true, d')) as E3 by (apply Hd; by left). congruence.
      * by destruct (H x1).
      * rewrite (Hu _ H1). assert (ldif_reload c p d = (false, d)) as E3 by (apply Hd; by right). congruence.
  - destruct E1 as [[? _]|(_ & -> & E1)]; [done|]. split.
    + intros [= <- <- <-]. right. left. done.
    + intros [(-> & H1 & H2)|[(-> & -> & -> & H)|(-> & H1 & -> & H)]]; [by destruct (E1 o')|done|by destruct (E1 o')].
Qed.
Print Assumptions C51_overlay.
(** With the overlay a reload is not atomic: a failing reload can leave the new
    overlay beside the old data. *)
Theorem C51_overlay_refuted : exists (T : Text) (c : ldif_cfg) (o d : dataset) (parsed : option (list (option entry))) dn,
  (overlay_reload c parsed None (o, d)).1 = false /\
  tree_get (overlay_reload c parsed None (o, d)).2.1 dn <> tree_get o dn /\
  (overlay_reload c parsed None (o, d)).2.2 = d.
Proof.
  exists ascii_text, lc1, (mkData [] ∅ ∅), ld1, (Some records1), (B "o=base").
  unfold overlay_reload, ldif_reload. cbn [fst snd lc_attrs lc_base lc_anon lc1].
  assert (H : match build (T:=ascii_text) [] records1 with
    | Some o => match tree_get o (B "o=base") with Some _ => true | None => false end | None => false end = true)
    by (vm_compute; reflexivity).
  destruct (build (T:=ascii_text) [] records1) as [o|]; [|done]. cbn [fst snd]. split; [done|]. split; [|done].
  intros E. rewrite E in H. clear E. vm_compute in H. discriminate H.
Qed.
Print Assumptions C51_overlay_refuted.
(** A reload in the middle of a search: all four entries of the old data; the
    next search sees the new data, and a reload with a duplicate DN changes
    nothing. *)
Example C51_case :
  let start k := PStart k true [] (lreq ["*"]%string 0) None [] in
  let reload := PReload (Some [Some e_new]) in
  map view (outs1 [start 0; PRecv 0; PRecv 0; reload; start 1; PRecv 1; PRecv 0; PRecv 0; PDone 1; PShut 1; PEmpty 1;
                   PReload (Some [Some e_new; Some e_new]); start 2; PDone 0; PShut 0; PEmpty 0; PRecv 2; PDone 2; PShut 2; PEmpty 2])
    = [(1, names [dn1], None); (0, names [dn1; dn2; dn3; dn4], None); (2, names [dn1], None)].
Proof. vm_compute. reflexivity. Qed.

(** * C45 *)
(** No page contains a password, whatever the schedule and the reloads. *)
Theorem C45_paged (T : Text) (W : Wire) (Tr : Trees) (c : ldif_cfg) (d : dataset) (es : list pevent)
    (a : answered) (p : page) (e : entry) :
  built d -> In a (p_outs c (p_init d) es) -> an_out a = HRet p -> In e (f_entries (pa_found p)) -> no_password e.
Proof.
  intros Hd Ha Hp He.
  assert (Hb : forall attrs records d, build attrs records = Some d -> data_all no_password d).
  { intros attrs records d' Hb. apply build_ok in Hb. unfold data_all. apply List.Forall_forall. intros x Hx.
    rewrite (id_heap _ _ _ Hb) in Hx. apply in_map_iff in Hx as (e0 & <- & _). apply public_no_password. }
  assert (Hall : Forall no_password (ans_entries a)).
  { eapply (acc_run c no_password).
    - intros flt r e1 e2 H1 H2. apply take_entry_some in H2 as (-> & _). by apply select_no_password.
    - apply wf_init. destruct Hd as (attrs & records & Hd). by eapply Hb.
    - intros k rd. cbn. by rewrite lookup_empty.
    - intros records d'. apply Hb.
    - exact Ha. }
  unfold ans_entries in Hall. rewrite Hp in Hall. rewrite List.Forall_forall in Hall. by apply Hall.
Qed.
Print Assumptions C45_paged.

(** * C60 *)
(** Page size 0 with a known cookie is meant to abandon the search; the
    connection waits on a nil channel and is never answered again. *)
Theorem C60_abandon_hangs (T : Text) (W : Wire) (Tr : Trees) (c : ldif_cfg) (st : pstate)
    (es : list pevent) (k : nat) (local : bool) (bound : str) (r : search_req) (n : Z) (ck fresh : str)
    (flt : packet) (fs : list leaf) (a : answered) :
  ps_readers st !! k = None -> search_checks c local bound r = inr (flt, fs) ->
  (sr_size r <= 0)%Z -> (n <= 0)%Z -> ck <> [] -> is_Some (ps_reg st !! ck) ->
  let e := PStart k local bound r (Some (mkPaging n ck)) fresh in
  In a (p_outs c st (e :: es)) -> an_conn a <> k.
Proof.
  intros Hk Hs Hsz Hn Hck [ch Hreg] e Ha. pose proof (start_checks c _ _ _ _ _ Hs) as (Hb & Hf & Hl & Hbase).
  assert (He : p_step c st e = enter k None r (Some (mkPaging n ck)) (forget ck st)).
  { unfold e. cbn [p_step]. rewrite Hk. unfold p_start. rewrite Hb, Hl, Hbase. cbn [negb]. unfold paging_of.
    destruct (Z.ltb_spec 0 (sr_size r)); [lia|]. cbn [andb pg_cookie pg_size]. destruct ck; [done|]. cbn [is_empty].
    rewrite Hreg. destruct (Z.ltb_spec 0 n); [lia|done]. }
  rewrite p_outs_cons, He in Ha. unfold enter in Ha. rewrite Hf in Ha. cbn [fst snd app] in Ha.
  eapply stuck_run in Ha; [exact Ha| |]; cbn; [by rewrite lookup_insert|done].
Qed.
Print Assumptions C60_abandon_hangs.
Example C60_case :
  map view (outs1 [start1 0 0 2 "" "ck"; PRecv 0; PRecv 0; start1 0 0 0 "ck" "x"; PRecv 0; PEmpty 0; start1 0 0 2 "" "z";
                   PGiveUp 0; PShut 0; PEmpty 0; start1 1 0 2 "ck" "y"])
    = [(0, names [dn1; dn2], Some (B "ck")); (1, None, None)].
Proof. vm_compute. reflexivity. Qed.

(** * C61 *)
(** The size limit does not limit a paged search: with a page size below the
    limit the pages go on to the end of the unlimited result. *)
Theorem C61_limit_per_page (T : Text) (W : Wire) (Tr : Trees) (HTr : TreesOK Tr) (c : ldif_cfg)
    (d : dataset) (before after : list pevent) (k : nat) (local : bool) (bound : str) (r : search_req) (n : Z)
    (ck : str) (flt : packet) (fs : list leaf) (a : answered) :
  let st := p_run c (p_init d) before in
  let st' := (p_step c st (PStart k local bound r (Some (mkPaging n [])) ck)).1 in
  let ch := ps_next st in
  let outs := p_outs c st' after in
  built d -> ck <> [] -> Forall (no_fresh ck) before -> ps_readers st !! k = None ->
  search_checks c local bound r = inr (flt, fs) ->
  (0 < n < u32 (sr_size r))%Z ->
  (forall e, In e (sends (ps_data st) (sr_base r) fs) -> exists o, take_entry flt r e = Ok o) ->
  Forall (polite k r ck ch) after -> In a outs -> an_chan a = Some ch -> final a ->
  (ldif_search c local bound (unlimited r) (ps_data st)).1 = HRet (mkFound (log_of ch outs) Success false).
Proof.
  intros st st' ch outs Hd Hck Hfr Hk Hs Hn Hdec Hpol Ha Hch (f & Hf).
  destruct (C50_partition T W Tr HTr c d before after k local bound r n ck flt fs) as (all & Hall & _ & Hpages); try done; [lia|].
  destruct (Hpages a Ha Hch) as (_ & m & l & ck' & _ & Ho & Hor). rewrite Hf in Ho. injection Ho as _ <-.
  destruct Hor as [[E _]|(_ & _ & E)]; [by destruct Hck|]. change (log_of ch outs = all) in E. rewrite E. exact Hall.
Qed.
Print Assumptions C61_limit_per_page.
(** A size limit of three; four entries are answered. *)
Example C61_case :
  map view (outs1 [start1 0 3 2 "" "ck"; PRecv 0; PRecv 0; start1 0 3 2 "ck" "x"; PRecv 0; PRecv 0;
                   start1 0 3 2 "ck" "x"; PDone 0; PShut 0; PEmpty 0])
    = [(0, names [dn1; dn2], Some (B "ck")); (0, names [dn3; dn4], Some (B "ck")); (0, names [], Some [])] /\
  dns (find1 f_all (lreq ["*"]%string 3)) = names [dn1; dn2; dn3].
Proof. split; vm_compute; reflexivity. Qed.

(** * C62 *)
(** A cookie is not bound to the connection it was given to: whoever passes the
    checks and presents it reads from the same pump. *)
Theorem C62_cookie_shared (T : Text) (W : Wire) (Tr : Trees) (c : ldif_cfg) (st : pstate)
    (k : nat) (local : bool) (bound : str) (r : search_req) (n : Z) (ck fresh : str)
    (flt : packet) (fs : list leaf) (ch : nat) :
  ps_readers st !! k = None -> search_checks c local bound r = inr (flt, fs) ->
  (sr_size r <= 0)%Z -> (0 < n)%Z -> ck <> [] -> ps_reg st !! ck = Some ch ->
  exists rd, ps_readers (p_step c st (PStart k local bound r (Some (mkPaging n ck)) fresh)).1 !! k = Some rd /\
    rd_chan rd = Some ch.
Proof.
  intros Hk Hs Hsz Hn Hck Hreg. pose proof (start_checks c _ _ _ _ _ Hs) as (Hb & Hf & Hl & Hbase).
  cbn [p_step]. rewrite Hk. unfold p_start. rewrite Hb, Hl, Hbase. cbn [negb]. unfold paging_of.
  destruct (Z.ltb_spec 0 (sr_size r)); [lia|]. cbn [andb pg_cookie pg_size]. destruct ck; [done|]. cbn [is_empty].
  rewrite Hreg. destruct (Z.ltb_spec 0 n); [|lia]. unfold enter. rewrite Hf. cbn. rewrite lookup_insert. eauto.
Qed.
Print Assumptions C62_cookie_shared.
(** The entries another connection takes are missing from the pages of the first,
    which ends as if complete. *)
Example C62_case :
  map view (outs1 [start1 0 0 2 "" "ck"; PRecv 0; PRecv 0; start1 1 0 1 "ck" "x"; PRecv 1; start1 0 0 2 "ck" "y";
                   PRecv 0; PDone 0; PShut 0; PEmpty 0])
    = [(0, names [dn1; dn2], Some (B "ck")); (1, names [dn3], Some (B "ck")); (0, names [dn4], Some [])].
Proof. vm_compute. reflexivity. Qed.
