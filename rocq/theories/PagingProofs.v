(** Proofs about Paging.v. *)
From Verif Require Import Bytes Text Dn DnProofs Res Entry EntryProofs Password PasswordProofs Db Packet Filter
  FilterProofs Handler Ldif LdifProofs Paging.

Section paging.
Context {T : Text} {C : Crypto} {W : Wire} {Tr : Trees}.
Variable (c : ldif_cfg).

(** * Every state that can be reached *)
(** [P] holds of the entries of the data sets and so of all that is sent. *)
Section wf.
Variable P : entry -> Prop.
Definition data_all (d : dataset) : Prop := Forall (fun x => P (l_entry x)) (d_heap d).
Record wf (st : pstate) : Prop := {
  wf_data : data_all (ps_data st);
  wf_pumps : forall ch pm, ps_pumps st !! ch = Some pm -> ch < ps_next st /\ Forall P (pm_todo pm);
  wf_reg : forall ck ch, ps_reg st !! ck = Some ch -> is_Some (ps_pumps st !! ch);
  wf_readers : forall k rd ch, ps_readers st !! k = Some rd -> rd_chan rd = Some ch -> is_Some (ps_pumps st !! ch)
}.
Lemma wf_init d : data_all d -> wf (p_init d).
Proof using Type. intros H. constructor; cbn; [done|intros *; by rewrite lookup_empty..]. Qed.
Lemma sends_all d base fs : data_all d -> Forall P (sends d base fs).
Proof using Type.
  intros H. unfold sends. apply Forall_forall. intros e He. apply elem_of_list_omap in He as (p & _ & He).
  apply fmap_Some in He as (x & Hx & ->). unfold data_all in H. rewrite Forall_forall in H. apply H.
  by eapply elem_of_list_lookup_2.
Qed.
Lemma is_some_insert {A} (m : gmap nat A) i j (x : A) : is_Some (m !! j) -> is_Some (<[i := x]> m !! j).
Proof using Type. intros H. destruct (decide (i = j)) as [->|]; [rewrite lookup_insert; eauto|by rewrite lookup_insert_ne]. Qed.
Lemma wf_set_pump ch pm pm' st : wf st -> ps_pumps st !! ch = Some pm -> Forall P (pm_todo pm') -> wf (set_pump ch pm' st).
Proof using Type.
  intros [Hd Hp Hr Hk] Hch Hpm. constructor; cbn; [done| | |].
  - intros ch' pm''. destruct (decide (ch = ch')) as [->|]; [rewrite lookup_insert|rewrite lookup_insert_ne by done; apply Hp].
    intros [= <-]. split; [by apply (Hp ch' pm)|done].
  - intros ck ch' H. apply is_some_insert. eauto.
  - intros k rd ch' H1 H2. apply is_some_insert. eauto.
Qed.
Lemma wf_forget ck st : wf st -> wf (forget ck st).
Proof using Type.
  intros [Hd Hp Hr Hk]. constructor; cbn; [done..| |done]. intros ck' ch H. apply lookup_delete_Some in H as [_ H]. eauto.
Qed.
Lemma wf_unregister pm st : wf st -> wf (unregister pm st).
Proof using Type. unfold unregister. destruct (pm_cookie pm); [apply wf_forget|done]. Qed.
Lemma wf_spawn fs r ck st : wf st -> wf (spawn fs r ck st).
Proof using Type.
  intros [Hd Hp Hr Hk]. constructor; cbn; [done| | |].
  - intros ch pm. destruct (decide (ps_next st = ch)) as [<-|].
    + rewrite lookup_insert. intros [= <-]. split; [lia|]. by apply sends_all.
    + rewrite lookup_insert_ne by done. intros H. apply Hp in H as [? ?]. split; [lia|done].
  - intros ck' ch H. destruct ck as [ck|]; [|apply is_some_insert; eauto].
    apply lookup_insert_Some in H as [[_ <-]|[_ H]]; [rewrite lookup_insert; eauto|apply is_some_insert; eauto].
  - intros k rd ch H1 H2. apply is_some_insert. eauto.
Qed.
Lemma wf_enter k ch r pg st : wf st -> (forall x, ch = Some x -> is_Some (ps_pumps st !! x)) -> wf (enter k ch r pg st).1.
Proof using Type.
  intros H Hch. unfold enter. destruct (compile_filter _) as [flt|]; [|done]. destruct H as [Hd Hp Hr Hk].
  constructor; cbn; [done..|]. intros k' rd ch'. destruct (decide (k = k')) as [->|].
  - rewrite lookup_insert. intros [= <-]. cbn. apply Hch.
  - rewrite lookup_insert_ne by done. apply Hk.
Qed.
Lemma wf_leave k rd o st : wf st -> wf (p_leave k rd o st).1.
Proof using Type.
  intros [Hd Hp Hr Hk]. constructor; cbn; [done..|]. intros k' rd' ch H. apply lookup_delete_Some in H as [_ H]. eauto.
Qed.
Lemma wf_take k rd e st : wf st -> ps_readers st !! k = Some rd -> wf (p_take k rd e st).1.
Proof using Type.
  intros H Hrd. unfold p_take. destruct (take_entry _ _ _) as [[e'|]|[]| |]; try (by apply wf_leave); [|done].
  destruct (enough _ _ _); [by apply wf_leave|]. destruct H as [Hd Hp Hr Hk]. constructor; cbn; [done..|].
  intros k' rd' ch. destruct (decide (k = k')) as [->|]; [|rewrite lookup_insert_ne by done; apply Hk].
  rewrite lookup_insert. intros [= <-]. cbn. by apply (Hk k').
Qed.
Lemma wf_step st e : wf st ->
  (forall parsed, e = PReload parsed -> data_all (ldif_reload c parsed (ps_data st)).2) ->
  wf (p_step c st e).1.
Proof using Type.
  intros H Hre. destruct e as [k local bound r p fresh|k|ch|ch|k|ch|parsed]; cbn [p_step].
  - destruct (ps_readers st !! k); [done|]. unfold p_start. destruct (negb (bind_dn_ok _ _ _)); [done|].
    destruct (leaves_of r) as [fs| | |]; try done. destruct (negb _); [done|].
    destruct (paging_of r p) as [pg|].
    + destruct (is_empty _).
      * apply wf_enter; [by apply wf_spawn|]. intros x [= <-]. cbn. rewrite lookup_insert. eauto.
      * destruct (ps_reg st !! pg_cookie pg) as [ch|] eqn:Ereg; [|done]. destruct (0 <? pg_size pg)%Z.
        -- apply wf_enter; [done|]. intros x [= <-]. by eapply wf_reg.
        -- apply wf_enter; [by apply wf_forget|done].
    + apply wf_enter; [by apply wf_spawn|]. intros x [= <-]. cbn. rewrite lookup_insert. eauto.
  - destruct (ps_readers st !! k) as [rd|] eqn:Erd; [|done]. destruct (rd_chan rd) as [ch|]; [|done].
    destruct (ps_pumps st !! ch) as [[full [|e todo] [] ck]|] eqn:Ep; try done. apply wf_take; [|done].
    eapply wf_set_pump; [done..|]. cbn. apply (wf_pumps _ H) in Ep as [_ Ep]. cbn in Ep.
    by apply Forall_cons in Ep as [_ Ep].
  - destruct (ps_pumps st !! ch) as [[full [|e todo] [] ck]|] eqn:Ep; try done. cbn [fst]. apply wf_unregister.
    eapply wf_set_pump; [done..|]. constructor.
  - destruct (ps_pumps st !! ch) as [[full todo [] ck]|] eqn:Ep; try done. cbn [fst].
    eapply wf_set_pump; [done..|]. by apply (wf_pumps _ H) in Ep as [_ Ep].
  - destruct (ps_readers st !! k) as [rd|] eqn:Erd; [|done]. destruct (rd_chan rd) as [ch|]; [|done].
    destruct (ps_pumps st !! ch) as [[full todo [] ck]|] eqn:Ep; try done. by apply wf_leave.
  - destruct (ps_pumps st !! ch) as [[full [|e todo] [] ck]|] eqn:Ep; try done. cbn [fst]. apply wf_unregister.
    eapply wf_set_pump; [done..|]. cbn. by apply (wf_pumps _ H) in Ep as [_ Ep].
  - destruct H as [Hd Hp Hr Hk]. constructor; cbn; [|done..]. by apply Hre.
Qed.
End wf.
Lemma wf_true_run d es : wf (fun _ => True) (p_run c (p_init d) es).
Proof using Type.
  assert (Hall : forall d, data_all (fun _ => True) d) by (intros d'; apply Forall_true; done).
  assert (H : wf (fun _ => True) (p_init d)) by (by apply wf_init). revert H. unfold p_run. generalize (p_init d).
  induction es as [|e es IH]; intros st H; [done|]. cbn [foldl]. apply IH. by apply wf_step.
Qed.
Lemma p_run_app st es1 es2 : p_run c st (es1 ++ es2) = p_run c (p_run c st es1) es2.
Proof using Type. unfold p_run. by rewrite foldl_app. Qed.
Lemma p_outs_cons st e es : p_outs c st (e :: es) =
  match (p_step c st e).2 with Some a => [a] | None => [] end ++ p_outs c (p_step c st e).1 es.
Proof using Type. cbn [p_outs]. destruct (p_step c st e) as [st' [a|]]; done. Qed.
Lemma p_outs_app st es1 es2 : p_outs c st (es1 ++ es2) = p_outs c st es1 ++ p_outs c (p_run c st es1) es2.
Proof using Type.
  revert st. induction es1 as [|e es1 IH]; intros st; [done|]. cbn [app]. rewrite !p_outs_cons, IH, app_assoc. done.
Qed.

(** * One paged search *)
Definition decide_entry (flt : packet) (r : search_req) (e : entry) : option entry :=
  match take_entry flt r e with Ok o => o | _ => None end.
Definition decided (flt : packet) (r : search_req) (es : list entry) : Prop :=
  Forall (fun e => exists o, take_entry flt r e = Ok o) es.

(** What others and the client itself may do meanwhile: nobody else uses the
    cookie, no random cookie equals it, the client repeats its request with any
    positive page size, and the pump is not stopped by its timer. *)
Definition polite (k : nat) (r : search_req) (ck : str) (ch : nat) (e : pevent) : Prop :=
  match e with
  | PGiveUp ch' => ch' <> ch
  | PStart k' _ _ r' p fresh =>
      fresh <> ck /\ (forall pg, p = Some pg -> pg_cookie pg = ck -> k' = k /\ r' = r /\ (0 < pg_size pg)%Z)
  | _ => True
  end.
Definition on_chan (ch : nat) (a : answered) : bool := bool_decide (an_chan a = Some ch).
Definition ans_entries (a : answered) : list entry :=
  match an_out a with HRet p => f_entries (pa_found p) | _ => [] end.
Definition log_of (ch : nat) (outs : list answered) : list entry :=
  concat (map ans_entries (bfilter (on_chan ch) outs)).
Definition final (a : answered) : Prop :=
  exists f, an_out a = HRet (mkPage f (Some [])).

Section session.
Variable (k : nat) (r : search_req) (flt : packet) (ck : str) (ch : nat) (all : list entry).
Hypothesis (Hck : ck <> []) (Hflt : compile_filter (sr_filter r) = Some flt).

Definition pending (st : pstate) : list entry :=
  match ps_readers st !! k with
  | Some rd => if bool_decide (rd_chan rd = Some ch) then rd_acc rd else []
  | None => []
  end.
(** The size limit leaves the paging control alone. *)
Definition page_kept (n : Z) : Prop := (0 < sr_size r)%Z -> (n < u32 (sr_size r))%Z.
Record session (st : pstate) (log : list entry) : Prop := {
  ss_pump : exists full todo ph, ps_pumps st !! ch = Some (mkPump full todo ph (Some ck)) /\
    decided flt r todo /\ log ++ pending st ++ omap (decide_entry flt r) todo = all /\
    match ph with
    | Sending => ps_reg st !! ck = Some ch
    | _ => todo = [] /\ ps_reg st !! ck = None
    end;
  ss_next : ch < ps_next st;
  ss_reg : forall ck', ps_reg st !! ck' = Some ch -> ck' = ck;
  ss_cookie : forall ch' pm, ps_pumps st !! ch' = Some pm -> pm_cookie pm = Some ck -> ch' = ch;
  ss_readers : forall k' rd, ps_readers st !! k' = Some rd -> rd_chan rd = Some ch ->
    k' = k /\ rd_flt rd = flt /\ rd_req rd = r /\
    exists n, rd_page rd = Some (mkPaging n ck) /\ page_kept n /\ (Z.of_nat (length (rd_acc rd)) < Z.max 1 n)%Z
}.
(** An answer of this search. *)
Definition page_ok (log : list entry) (a : answered) : Prop :=
  an_conn a = k /\ exists n es ck', an_page a = Some (mkPaging n ck) /\
    an_out a = HRet (mkPage (mkFound es Success false) (Some ck')) /\
    ((ck' = ck /\ Z.of_nat (length es) = Z.max 1 n) \/
     (ck' = [] /\ (Z.of_nat (length es) < Z.max 1 n)%Z /\ log ++ es = all)).
Definition out_ok (log : list entry) (o : option answered) : list entry -> Prop := fun log' =>
  match o with
  | Some a => if on_chan ch a then page_ok log a /\ log' = log ++ ans_entries a else log' = log
  | None => log' = log
  end.

Lemma take_enough n m : page_kept n -> (Z.of_nat m < Z.max 1 n)%Z ->
  enough (Some n) (sr_size r) (S m) = (Z.max 1 n <=? Z.of_nat (S m))%Z.
Proof using Type.
  unfold page_kept, enough. intros Hn Hm.
  destruct (Z.leb_spec n (Z.of_nat (S m))), (Z.leb_spec (Z.max 1 n) (Z.of_nat (S m))); lia.
Qed.
(** Steps that touch neither the pump nor its readers. *)
Lemma session_frame st st' log :
  session st log ->
  ps_pumps st' !! ch = ps_pumps st !! ch -> ps_next st <= ps_next st' ->
  ps_reg st' !! ck = ps_reg st !! ck ->
  (forall ck', ps_reg st' !! ck' = Some ch -> ps_reg st !! ck' = Some ch) ->
  (forall ch' pm, ps_pumps st' !! ch' = Some pm -> pm_cookie pm = Some ck -> exists pm', ps_pumps st !! ch' = Some pm' /\ pm_cookie pm' = Some ck) ->
  (forall k' rd, rd_chan rd = Some ch -> ps_readers st' !! k' = Some rd <-> ps_readers st !! k' = Some rd) ->
  session st' log.
Proof using Type.
  intros [(full & todo & ph & Hp & Hdec & Hall & Hph) Hn Hr Hc Hk] Ep En Ereg Hr' Hc' Hk'.
  assert (Hpend : pending st' = pending st).
  { unfold pending. destruct (ps_readers st' !! k) as [rd|] eqn:E1, (ps_readers st !! k) as [rd'|] eqn:E2.
    - destruct (bool_decide (rd_chan rd = Some ch)) eqn:B1; [apply bool_decide_eq_true in B1|apply bool_decide_eq_false in B1].
      + pose proof E1 as E1'. apply Hk' in E1'; [|done]. rewrite E1' in E2. injection E2 as <-. by rewrite bool_decide_true.
      + destruct (bool_decide (rd_chan rd' = Some ch)) eqn:B2; [|done]. apply bool_decide_eq_true in B2.
        pose proof E2 as E2'. apply Hk' in E2'; [|done]. congruence.
    - destruct (bool_decide (rd_chan rd = Some ch)) eqn:B1; [|done]. apply bool_decide_eq_true in B1.
      apply Hk' in E1; [|done]. congruence.
    - destruct (bool_decide (rd_chan rd' = Some ch)) eqn:B1; [|done]. apply bool_decide_eq_true in B1.
      apply Hk' in E2; [|done]. congruence.
    - done. }
  constructor.
  - exists full, todo, ph. rewrite Ep, Hpend, Ereg. done.
  - lia.
  - intros ck' H. by apply Hr, Hr'.
  - intros ch' pm H1 H2. destruct (Hc' _ _ H1 H2) as (pm' & H3 & H4). by eapply Hc.
  - intros k' rd H1 H2. apply Hk; [|done]. by apply Hk'.
Qed.
Lemma session_enter_other k' ch' r' pg st log :
  session st log -> (ch' <> Some ch) -> ps_readers st !! k' = None ->
  session (enter k' ch' r' pg st).1 log.
Proof using Type.
  intros H Hch Hk. unfold enter. destruct (compile_filter (sr_filter r')); [|done]. eapply session_frame; [exact H|..]; cbn; [done|done|done|done|by eauto|].
  intros k'' rd Hrd. destruct (decide (k' = k'')) as [->|]; [|by rewrite lookup_insert_ne].
  rewrite lookup_insert. split; [|congruence]. intros [= <-]. done.
Qed.
Lemma session_spawn fs r' ck' st log : session st log -> ck' <> Some ck -> session (spawn fs r' ck' st) log.
Proof using Type.
  intros H Hne. pose proof (ss_next _ _ H) as Hn. eapply session_frame; [exact H|..]; cbn; [..|done].
  - rewrite lookup_insert_ne by lia. done.
  - lia.
  - destruct ck' as [x|]; [|done]. rewrite lookup_insert_ne by congruence. done.
  - destruct ck' as [x|]; [|done]. intros y Hy. apply lookup_insert_Some in Hy as [[_ E]|[_ E]]; [lia|done].
  - intros ch' pm Hp Hc. apply lookup_insert_Some in Hp as [[_ <-]|[_ Hp]]; [cbn in Hc; congruence|eauto].
Qed.
Lemma session_forget ck' st log : session st log -> ck' <> ck -> session (forget ck' st) log.
Proof using Type.
  intros H Hne. eapply session_frame; [exact H|..]; cbn; [done|done| | |by eauto|done].
  - by rewrite lookup_delete_ne.
  - intros x Hx. by apply lookup_delete_Some in Hx as [_ Hx].
Qed.
Lemma session_set_pump ch' pm pm' st log : session st log -> ch' <> ch -> ps_pumps st !! ch' = Some pm ->
  pm_cookie pm' = pm_cookie pm -> session (set_pump ch' pm' st) log.
Proof using Type.
  intros H Hne Hp Hc. eapply session_frame; [exact H|..]; cbn; [|done|done|done| |done].
  - by rewrite lookup_insert_ne.
  - intros ch'' pm'' Hl Hck'. apply lookup_insert_Some in Hl as [[<- <-]|[_ Hl]]; [|eauto]. exists pm. by rewrite <- Hc.
Qed.
Lemma cookie_other ch' pm st log : session st log -> ch' <> ch -> ps_pumps st !! ch' = Some pm -> pm_cookie pm <> Some ck.
Proof using Type. intros H Hne Hp Hc. by destruct (Hne (ss_cookie _ _ H _ _ Hp Hc)). Qed.
Lemma session_leave_other k' rd o st log : session st log -> ps_readers st !! k' = Some rd -> rd_chan rd <> Some ch ->
  session (p_leave k' rd o st).1 log.
Proof using Type.
  intros H Hrd Hne. eapply session_frame; [exact H|..]; cbn; [done|done|done|done|by eauto|].
  intros k'' rd' Hch. destruct (decide (k' = k'')) as [->|]; [|by rewrite lookup_delete_ne].
  rewrite lookup_delete. split; [done|congruence].
Qed.
Lemma session_take_other k' rd e st log : session st log -> ps_readers st !! k' = Some rd -> rd_chan rd <> Some ch ->
  session (p_take k' rd e st).1 log /\ forall a, (p_take k' rd e st).2 = Some a -> on_chan ch a = false.
Proof using Type.
  intros H Hrd Hne.
  assert (Hl : forall o, session (p_leave k' rd o st).1 log /\ forall a, (p_leave k' rd o st).2 = Some a -> on_chan ch a = false).
  { intros o. split; [by apply session_leave_other|]. intros a [= <-]. unfold on_chan. cbn. by apply bool_decide_eq_false. }
  unfold p_take. destruct (take_entry _ _ _) as [[e'|]|[]| |]; try apply Hl; [|done].
  destruct (enough _ _ _); [apply Hl|]. split; [|done]. eapply session_frame; [exact H|..]; cbn; [done|done|done|done|by eauto|].
  intros k'' rd' Hch. destruct (decide (k' = k'')) as [->|]; [|by rewrite lookup_insert_ne].
  rewrite lookup_insert. split; [|congruence]. intros [= <-]. done.
Qed.
Lemma on_say k' o : on_chan ch (mkAns k' None None o) = false.
Proof using Type. done. Qed.

Lemma session_recv st log k' rd full e todo ck' : session st log -> ps_readers st !! k' = Some rd ->
  rd_chan rd = Some ch -> ps_pumps st !! ch = Some (mkPump full (e :: todo) Sending ck') ->
  exists log', session (p_take k' rd e (set_pump ch (mkPump full todo Sending ck') st)).1 log' /\
    out_ok log (p_take k' rd e (set_pump ch (mkPump full todo Sending ck') st)).2 log'.
Proof using Type.
  intros H Erd Ech Ep. destruct H as [(full' & todo' & ph & Hp & Hdec & Hall & Hph) Hn Hr Hc Hrd]. rewrite Ep in Hp.
  injection Hp as <- <- <- ->. destruct (Hrd _ _ Erd Ech) as (-> & Hf & Hq & n & Hpg & Hkeep & Hlen).
  unfold pending in Hall. rewrite Erd, bool_decide_true in Hall by done.
  apply Forall_cons in Hdec as [[o Ho] Hdec]. cbn [omap list_omap] in Hall. unfold decide_entry at 1 in Hall. rewrite Ho in Hall.
  assert (Hc' : forall ch' pm, <[ch:=mkPump full todo Sending (Some ck)]> (ps_pumps st) !! ch' = Some pm -> pm_cookie pm = Some ck -> ch' = ch).
  { intros ch' pm Hl Hx. apply lookup_insert_Some in Hl as [[<- _]|[_ Hl]]; [done|by eapply Hc]. }
  unfold p_take. rewrite Hf, Hq, Ho. destruct o as [e'|].
  2:{ exists log. split; [|done]. constructor; cbn; [|done..].
      exists full, todo, Sending. rewrite lookup_insert. unfold pending. cbn. rewrite Erd, bool_decide_true by done. done. }
  rewrite Hpg. cbn [fmap option_fmap option_map pg_size pg_cookie]. rewrite app_length. cbn [length].
  replace (length (rd_acc rd) + 1) with (S (length (rd_acc rd))) by lia. rewrite take_enough by done.
  destruct (Z.leb_spec (Z.max 1 n) (Z.of_nat (S (length (rd_acc rd))))) as [Hfull|Hmore].
  - exists (log ++ rd_acc rd ++ [e']). split.
    + constructor; cbn; [|done..|].
      * exists full, todo, Sending. rewrite lookup_insert. unfold pending. cbn. rewrite lookup_delete. split; [done|].
        split; [done|]. split; [|done]. rewrite <- Hall. by rewrite <- !app_assoc.
      * intros k' rd' Hl. apply lookup_delete_Some in Hl as [_ Hl]. by apply Hrd.
    + cbn [p_leave snd out_ok]. unfold on_chan. cbn [an_chan]. rewrite bool_decide_true by done.
      split; [|done]. split; [done|]. exists n, (rd_acc rd ++ [e']), ck. cbn. split; [done|]. split; [done|].
      left. split; [done|]. rewrite app_length. cbn [length]. lia.
  - exists log. split; [|done]. constructor; cbn; [|done..|].
    + exists full, todo, Sending. rewrite lookup_insert. unfold pending. cbn. rewrite lookup_insert. cbn.
      rewrite bool_decide_true by done. split; [done|]. split; [done|]. split; [|done]. rewrite <- Hall. by rewrite <- !app_assoc.
    + intros k' rd'. destruct (decide (k = k')) as [<-|]; [|rewrite lookup_insert_ne by done; apply Hrd].
      rewrite lookup_insert. intros [= <-] _. cbn. split; [done|]. split; [done|]. split; [done|].
      exists n. split; [done|]. split; [done|]. rewrite app_length. cbn [length]. lia.
Qed.
Lemma session_step st log e : session st log -> polite k r ck ch e ->
  exists log', session (p_step c st e).1 log' /\ out_ok log (p_step c st e).2 log' .
Proof using Hck Hflt.
  intros H Hpol.
  assert (Hsay : forall k' o, out_ok log (say k' o) log) by done.
  assert (Henter : forall k' ch' r' pg st', out_ok log (enter k' ch' r' pg st').2 log).
  { intros k' ch' r' pg st'. unfold enter. by destruct (compile_filter (sr_filter r')). }
  destruct e as [k' local bound r' p fresh|k'|ch'|ch'|k'|ch'|parsed]; cbn [p_step polite] in *.
  - (* a search starts *)
    destruct (ps_readers st !! k') as [|] eqn:Ek; [by exists log|]. destruct Hpol as [Hfr Hpol]. unfold p_start.
    destruct (negb (bind_dn_ok _ _ _)); [by exists log|].
    destruct (leaves_of r') as [fs| | |]; try (by exists log). destruct (negb _); [by exists log|].
    pose proof (ss_next _ _ H) as Hn.
    destruct (paging_of r' p) as [pg|] eqn:Epg.
    2:{ exists log. split; [|done]. apply session_enter_other; [by apply session_spawn| |done]. intros [= E]; lia. }
    assert (Hp : p = Some pg /\ ((0 < sr_size r')%Z -> (pg_size pg < u32 (sr_size r'))%Z)).
    { unfold paging_of in Epg. destruct p as [p|]; [|done].
      destruct (Z.ltb_spec 0 (sr_size r')), (Z.leb_spec (u32 (sr_size r')) (pg_size p)); cbn in Epg; try done;
        injection Epg as ->; split; try done; lia. }
    destruct Hp as [-> Hkeep]. specialize (Hpol pg eq_refl).
    destruct (is_empty (pg_cookie pg)) eqn:Eemp.
    + exists log. split; [|done]. apply session_enter_other; [apply session_spawn; [done|congruence]| |done]. intros [= E]; lia.
    + destruct (ps_reg st !! pg_cookie pg) as [ch'|] eqn:Ereg; [|by exists log].
      destruct (decide (pg_cookie pg = ck)) as [Eck|Nck].
      * destruct (Hpol Eck) as (-> & -> & Hpos). apply Z.ltb_lt in Hpos as ->.
        destruct H as [(full & todo & ph & Hp & Hdec & Hall & Hph) _ Hr Hc Hrd].
        assert (ch' = ch /\ ph = Sending) as [-> ->].
        { rewrite Eck in Ereg. destruct ph; [split; congruence|destruct Hph; congruence..]. }
        exists log. split; [|done]. unfold enter. rewrite Hflt. cbn [fst].
        assert (Hold : pending st = []) by (unfold pending; by rewrite Ek).
        constructor; cbn; [|done..|].
        -- exists full, todo, Sending. split; [done|]. split; [done|]. split; [|done]. rewrite Hold in Hall.
           unfold pending. cbn. by rewrite lookup_insert, bool_decide_true.
        -- intros k' rd. destruct (decide (k = k')) as [<-|]; [|rewrite lookup_insert_ne by done; apply Hrd].
           rewrite lookup_insert. intros [= <-] _. cbn. split; [done|]. split; [done|]. split; [done|].
           exists (pg_size pg). destruct pg as [n x]. cbn in *. subst x. split; [done|]. split; [exact Hkeep|lia].
      * assert (ch' <> ch) by (intros ->; by apply Nck, (ss_reg _ _ H)).
        exists log. split; [|by destruct (0 <? pg_size pg)%Z]. destruct (0 <? pg_size pg)%Z.
        -- apply session_enter_other; [done|congruence|done].
        -- apply session_enter_other; [by apply session_forget|done|done].
  - (* an entry passes *)
    destruct (ps_readers st !! k') as [rd|] eqn:Erd; [|by exists log]. destruct (rd_chan rd) as [ch'|] eqn:Ech; [|by exists log].
    destruct (ps_pumps st !! ch') as [[full [|e todo] [] ck']|] eqn:Ep; try (by exists log).
    destruct (decide (ch' = ch)) as [->|Nch].
    + by eapply session_recv.
    + exists log. destruct (session_take_other k' rd e (set_pump ch' (mkPump full todo Sending ck') st) log) as [H1 H2].
      * eapply session_set_pump; [done..| |]; done.
      * done.
      * congruence.
      * split; [done|]. unfold out_ok. destruct (p_take _ _ _ _).2 as [a|]; [|done]. by rewrite (H2 a).
  - destruct (ps_pumps st !! ch') as [[full [|e todo] [] ck']|] eqn:Ep; try (by exists log). cbn [fst snd].
    exists log. split; [|done]. destruct (decide (ch' = ch)) as [->|Nch].
    + destruct H as [(full' & todo & ph & Hp & Hdec & Hall & Hph) Hn Hr Hc Hrd]. rewrite Ep in Hp.
      injection Hp as <- <- <- ->. unfold unregister. cbn [pm_cookie]. constructor; cbn; [|done| | |done].
      * exists full, [], Removed. rewrite lookup_insert, lookup_delete. done.
      * intros x Hx. apply lookup_delete_Some in Hx as [_ Hx]. by apply Hr.
      * intros ch' pm Hl Hx. apply lookup_insert_Some in Hl as [[<- _]|[_ Hl]]; [done|by eapply Hc].
    + assert (Hs : session (set_pump ch' (mkPump full [] Removed ck') st) log) by (eapply session_set_pump; done).
      unfold unregister. cbn [pm_cookie]. destruct ck' as [x|]; [|done]. apply session_forget; [done|].
      pose proof (cookie_other _ _ _ _ H Nch Ep). cbn in *. congruence.
  - destruct (ps_pumps st !! ch') as [[full todo [] ck']|] eqn:Ep; try (by exists log). cbn [fst snd].
    exists log. split; [|done]. destruct (decide (ch' = ch)) as [->|Nch]; [|eapply session_set_pump; done].
    destruct H as [(full' & todo' & ph & Hp & Hdec & Hall & Hph) Hn Hr Hc Hrd]. rewrite Ep in Hp.
    injection Hp as <- <- <- ->. constructor; cbn; [|done|done| |done].
    + exists full, todo, Closed. rewrite lookup_insert. done.
    + intros ch' pm Hl Hx. apply lookup_insert_Some in Hl as [[<- _]|[_ Hl]]; [done|by eapply Hc].
  - destruct (ps_readers st !! k') as [rd|] eqn:Erd; [|by exists log]. destruct (rd_chan rd) as [ch'|] eqn:Ech; [|by exists log].
    destruct (ps_pumps st !! ch') as [[full todo [] ck']|] eqn:Ep; try (by exists log).
    destruct (decide (ch' = ch)) as [->|Nch].
    + destruct H as [(full' & todo' & ph & Hp & Hdec & Hall & Hph) Hn Hr Hc Hrd]. rewrite Ep in Hp.
      injection Hp as <- <- <- ->. destruct Hph as [-> Hreg].
      destruct (Hrd _ _ Erd Ech) as (-> & Hf & Hq & n & Hpg & Hkeep & Hlen).
      unfold pending in Hall. rewrite Erd, bool_decide_true in Hall by done. cbn [omap list_omap] in Hall. rewrite app_nil_r in Hall.
      exists (log ++ rd_acc rd). split.
      * constructor; cbn; [|done..|].
        -- exists full, [], Closed. split; [done|]. split; [done|]. split; [|done]. unfold pending. cbn.
           rewrite lookup_delete. cbn [omap list_omap]. by rewrite !app_nil_r.
        -- intros k' rd' Hl. apply lookup_delete_Some in Hl as [_ Hl]. by apply Hrd.
      * cbn [p_leave snd out_ok]. unfold on_chan. cbn [an_chan]. rewrite bool_decide_true by done.
        split; [|done]. split; [done|]. exists n, (rd_acc rd), []. cbn. rewrite Hpg. split; [done|]. split; [done|]. right. done.
    + exists log. split; [apply session_leave_other; [done..|congruence]|]. cbn [p_leave snd out_ok].
      unfold on_chan. cbn [an_chan]. rewrite bool_decide_false by congruence. done.
  - destruct (ps_pumps st !! ch') as [[full [|e todo] [] ck']|] eqn:Ep; try (by exists log). cbn [fst snd].
    exists log. split; [|done].
    assert (Hs : session (set_pump ch' (mkPump full (e :: todo) Removed ck') st) log) by (eapply session_set_pump; done).
    unfold unregister. cbn [pm_cookie]. destruct ck' as [x|]; [|done]. apply session_forget; [done|].
    pose proof (cookie_other _ _ _ _ H Hpol Ep). cbn in *. congruence.
  - exists log. split; [|done]. eapply session_frame; [exact H|..]; cbn; [done|done|done|done|by eauto|done].
Qed.

Lemma log_cons a outs : log_of ch (a :: outs) = (if on_chan ch a then ans_entries a else []) ++ log_of ch outs.
Proof using Type. unfold log_of. cbn [bfilter List.filter]. by destruct (on_chan ch a). Qed.
Lemma session_run es st log : session st log -> Forall (polite k r ck ch) es ->
  session (p_run c st es) (log ++ log_of ch (p_outs c st es)) /\
  (forall a, In a (p_outs c st es) -> on_chan ch a = true ->
     exists log', page_ok log' a /\ (final a -> log ++ log_of ch (p_outs c st es) = all)).
Proof using Hck Hflt.
  revert st log. induction es as [|e es IH]; intros st log H Hpol.
  - cbn. unfold log_of. cbn. by rewrite app_nil_r.
  - apply Forall_cons in Hpol as [Hpe Hpol]. destruct (session_step st log e H Hpe) as (log' & H' & Hout).
    destruct (IH _ _ H' Hpol) as [Hrun Hpages]. rewrite p_outs_cons. cbn [p_run foldl].
    change (foldl (fun st e => (p_step c st e).1) (p_step c st e).1 es) with (p_run c (p_step c st e).1 es).
    destruct (p_step c st e).2 as [a|]; cbn [out_ok app] in *; [|subst log'; done].
    rewrite log_cons. destruct (on_chan ch a) eqn:Ea; [|subst log'; cbn [app]; split; [done|]].
    + destruct Hout as [Hok ->]. rewrite app_assoc. split; [done|]. intros b [<-|Hb] Hon; [|by apply Hpages].
      exists log. split; [done|]. intros (f & Hf). destruct Hok as (_ & n & l & ck' & _ & Ho & Hor).
      rewrite Hf in Ho. injection Ho as -> <-. destruct Hor as [[? _]|(_ & _ & Hall)]; [by destruct Hck|].
      unfold ans_entries in Hrun |- * at 1. rewrite Hf in Hrun |- *. cbn in Hrun |- *. rewrite Hall in Hrun |- *.
      destruct (ss_pump _ _ Hrun) as (full & todo & ph & _ & _ & Hx & _). rewrite <- app_assoc in Hx.
      assert (Hnil : log_of ch (p_outs c (p_step c st e).1 es) = []).
      { destruct (log_of ch _) as [|x l']; [done|]. apply (f_equal length) in Hx. rewrite !app_length in Hx. cbn [length] in Hx.
        rewrite ?app_length in Hx. lia. }
      rewrite Hnil. by rewrite app_nil_r.
    + intros b [<-|Hb] Hon; [congruence|by apply Hpages].
Qed.
End session.

(** The cookies handed out so far. *)
Definition no_fresh (ck : str) (e : pevent) : Prop :=
  match e with PStart _ _ _ _ _ fresh => fresh <> ck | _ => True end.
Definition unused (ck : str) (st : pstate) : Prop :=
  ps_reg st !! ck = None /\ forall ch pm, ps_pumps st !! ch = Some pm -> pm_cookie pm <> Some ck.
Lemma unused_enter ck k ch r pg st : unused ck st -> unused ck (enter k ch r pg st).1.
Proof using Type. unfold enter. by destruct (compile_filter _). Qed.
Lemma unused_forget ck ck' st : unused ck st -> unused ck (forget ck' st).
Proof using Type. intros [H1 H2]. split; [|done]. cbn. apply lookup_delete_None. auto. Qed.
Lemma unused_set ck ch pm pm' st : unused ck st -> ps_pumps st !! ch = Some pm -> pm_cookie pm' = pm_cookie pm ->
  unused ck (set_pump ch pm' st).
Proof using Type.
  intros [H1 H2] Hp Hc. split; [done|]. cbn. intros ch' pm'' Hl.
  apply lookup_insert_Some in Hl as [[<- <-]|[_ Hl]]; [rewrite Hc|]; by eapply H2.
Qed.
Lemma unused_spawn ck fs r o st : unused ck st -> o <> Some ck -> unused ck (spawn fs r o st).
Proof using Type.
  intros [H1 H2] Hne. split; cbn.
  - destruct o as [x|]; [|done]. rewrite lookup_insert_ne; [done|congruence].
  - intros ch pm Hl. apply lookup_insert_Some in Hl as [[<- <-]|[_ Hl]]; [done|by eapply H2].
Qed.
Lemma unused_step ck st e : unused ck st -> no_fresh ck e -> unused ck (p_step c st e).1.
Proof using Type.
  intros H Hf. destruct e as [k local bound r p fresh|k|ch|ch|k|ch|parsed]; cbn [p_step no_fresh] in *.
  - destruct (ps_readers st !! k); [done|]. unfold p_start. destruct (negb (bind_dn_ok _ _ _)); [done|].
    destruct (leaves_of r) as [fs| | |]; try done. destruct (negb _); [done|].
    destruct (paging_of r p) as [pg|].
    + destruct (is_empty _); [apply unused_enter, unused_spawn; [done|congruence]|].
      destruct (ps_reg st !! pg_cookie pg); [|done]. destruct (0 <? pg_size pg)%Z; apply unused_enter; [done|].
      by apply unused_forget.
    + by apply unused_enter, unused_spawn.
  - destruct (ps_readers st !! k) as [rd|]; [|done]. destruct (rd_chan rd) as [ch|]; [|done].
    destruct (ps_pumps st !! ch) as [[full [|e todo] [] ck']|] eqn:Ep; try done.
    assert (Hs : unused ck (set_pump ch (mkPump full todo Sending ck') st)) by (eapply unused_set; done).
    unfold p_take. destruct (take_entry _ _ _) as [[e'|]|[]| |]; try done. by destruct (enough _ _ _).
  - destruct (ps_pumps st !! ch) as [[full [|e todo] [] ck']|] eqn:Ep; try done. cbn [fst].
    assert (Hs : unused ck (set_pump ch (mkPump full [] Removed ck') st)) by (eapply unused_set; done).
    unfold unregister. cbn [pm_cookie]. destruct ck'; [by apply unused_forget|done].
  - destruct (ps_pumps st !! ch) as [[full todo [] ck']|] eqn:Ep; try done. cbn [fst]. by eapply unused_set.
  - destruct (ps_readers st !! k) as [rd|]; [|done]. destruct (rd_chan rd) as [ch|]; [|done].
    by destruct (ps_pumps st !! ch) as [[full todo [] ck']|].
  - destruct (ps_pumps st !! ch) as [[full [|e todo] [] ck']|] eqn:Ep; try done. cbn [fst].
    assert (Hs : unused ck (set_pump ch (mkPump full (e :: todo) Removed ck') st)) by (eapply unused_set; done).
    unfold unregister. cbn [pm_cookie]. destruct ck'; [by apply unused_forget|done].
  - done.
Qed.
Lemma unused_run ck d es : Forall (no_fresh ck) es -> unused ck (p_run c (p_init d) es).
Proof using Type.
  intros Hes. assert (H : unused ck (p_init d)) by (split; cbn; [apply lookup_empty|intros *; by rewrite lookup_empty]).
  revert H. generalize (p_init d). induction Hes as [|e es He _ IH]; intros st H; [done|]. cbn [p_run foldl]. apply IH.
  by apply unused_step.
Qed.

(** The checks of Ldif.v and those of a start. *)
Lemma start_checks local bound r flt fs : search_checks c local bound r = inr (flt, fs) ->
  bind_dn_ok c local (to_lower bound) = true /\ compile_filter (sr_filter r) = Some flt /\
  leaves_of r = Ok fs /\ has_suffix (to_lower (sr_base r)) (lc_base c) = true.
Proof using Type.
  unfold search_checks, leaves_of. destruct (bind_dn_ok _ _ _); [|done]. cbn [negb].
  destruct (compile_filter _) as [f|]; [|done]. destruct (index_filter f) as [l| | |]; try done.
  destruct (has_suffix _ _); [|done]. intros [= -> ->]. done.
Qed.
Lemma session_start st k local bound r n ck flt fs :
  wf (fun _ => True) st -> unused ck st -> ps_readers st !! k = None ->
  search_checks c local bound r = inr (flt, fs) ->
  (0 < sr_size r -> n < u32 (sr_size r))%Z ->
  decided flt r (sends (ps_data st) (sr_base r) fs) ->
  (p_step c st (PStart k local bound r (Some (mkPaging n [])) ck)).2 = None /\
  session k r flt ck (ps_next st) (omap (decide_entry flt r) (sends (ps_data st) (sr_base r) fs))
    (p_step c st (PStart k local bound r (Some (mkPaging n [])) ck)).1 [].
Proof using Type.
  intros Hwf [Hu1 Hu2] Hk Hs Hn Hdec. apply start_checks in Hs as (Hb & Hf & Hl & Hbase).
  cbn [p_step]. rewrite Hk. unfold p_start. rewrite Hb, Hl, Hbase. cbn [negb].
  assert (Hpg : paging_of r (Some (mkPaging n [])) = Some (mkPaging n [])).
  { unfold paging_of. cbn [pg_size]. destruct (Z.ltb_spec 0 (sr_size r)); [|done].
    destruct (Z.leb_spec (u32 (sr_size r)) n); [lia|done]. }
  rewrite Hpg. cbn [pg_cookie pg_size is_empty]. unfold enter. rewrite Hf. cbn [fst snd]. split; [done|].
  constructor; cbn.
  - exists (sends (ps_data st) (sr_base r) fs), (sends (ps_data st) (sr_base r) fs), Sending. rewrite lookup_insert.
    unfold pending. cbn. rewrite lookup_insert. cbn. rewrite bool_decide_true by done. split; [done|]. split; [done|].
    split; [done|]. by rewrite lookup_insert.
  - lia.
  - intros ck' Hx. apply lookup_insert_Some in Hx as [[<- _]|[_ Hx]]; [done|].
    apply (wf_reg _ _ Hwf) in Hx as [pm Hx]. apply (wf_pumps _ _ Hwf) in Hx as [Hx _]. lia.
  - intros ch pm Hx Hc. apply lookup_insert_Some in Hx as [[<- _]|[_ Hx]]; [done|]. by destruct (Hu2 _ _ Hx).
  - intros k' rd Hx Hc. apply lookup_insert_Some in Hx as [[<- <-]|[_ Hx]].
    + cbn. split; [done|]. split; [done|]. split; [done|]. exists n. split; [done|]. split; [exact Hn|lia].
    + destruct (wf_readers _ _ Hwf _ _ _ Hx Hc) as [pm Hp]. apply (wf_pumps _ _ Hwf) in Hp as [Hp _]. lia.
Qed.

(** * A search without paging *)
(** [take_all] on the entries themselves. *)
Fixpoint take_es (flt : packet) (r : search_req) (es : list entry) (count : nat) : res (list entry) :=
  match es with
  | [] => Ok []
  | e :: es' =>
      o <-- take_entry flt r e ;;
      match o with
      | None => take_es flt r es' count
      | Some e' =>
          if enough None (sr_size r) (S count) then Ok [e']
          else l <-- take_es flt r es' (S count) ;; Ok (e' :: l)
      end
  end.
Lemma take_es_all d flt r ps n : Forall (fun p => is_Some (d_heap d !! p)) ps ->
  take_all d flt r ps n = take_es flt r (omap (fun p => l_entry <$> (d_heap d !! p)) ps) n.
Proof using Type.
  intros H. revert n. induction H as [|p ps [x Hx] _ IH]; intros n; [done|]. cbn [take_all omap list_omap].
  rewrite Hx. cbn [fmap option_fmap option_map take_es]. destruct (take_entry flt r (l_entry x)) as [[e|]| | |]; cbn [rbind]; try done.
  destruct (enough _ _ _); [done|]. by rewrite IH.
Qed.
Definition after (acc : list entry) (x : res (list entry)) : res (list entry) :=
  match x with Ok l => Ok (acc ++ l) | Err e => Err e | Panic => Panic | Diverge => Diverge end.

Section plain.
Variable (k : nat) (r : search_req) (flt : packet) (ch : nat) (result : res (list entry)).
Record waiting (st : pstate) : Prop := {
  ww_reader : exists acc full todo ph,
    ps_readers st !! k = Some (mkReader (Some ch) flt r None acc) /\
    ps_pumps st !! ch = Some (mkPump full todo ph None) /\
    (ph <> Sending -> todo = []) /\ after acc (take_es flt r todo (length acc)) = result;
  ww_next : ch < ps_next st;
  ww_reg : forall ck, ps_reg st !! ck <> Some ch;
  ww_readers : forall k' rd, ps_readers st !! k' = Some rd -> rd_chan rd = Some ch -> k' = k
}.
Lemma waiting_frame st st' : waiting st ->
  ps_pumps st' !! ch = ps_pumps st !! ch -> ps_next st <= ps_next st' ->
  (forall ck, ps_reg st' !! ck = Some ch -> ps_reg st !! ck = Some ch) ->
  ps_readers st' !! k = ps_readers st !! k ->
  (forall k' rd, ps_readers st' !! k' = Some rd -> rd_chan rd = Some ch -> ps_readers st !! k' = Some rd \/ k' = k) ->
  waiting st'.
Proof using Type.
  intros [(acc & full & todo & ph & Hr & Hp & Hph & Hres) Hn Hreg Hk] Ep En Er Ek Hk'. constructor.
  - exists acc, full, todo, ph. rewrite Ek, Ep. done.
  - lia.
  - intros ck H. by apply (Hreg ck), Er.
  - intros k' rd H1 H2. destruct (Hk' _ _ H1 H2) as [H3| ->]; [by eapply Hk|done].
Qed.
Definition plain_out (o : option answered) : Prop :=
  forall a, o = Some a -> an_conn a = k -> an_out a = no_page (ldif_found result).
Lemma waiting_enter k' ch' r' pg st : waiting st -> k' <> k -> ch' <> Some ch -> waiting (enter k' ch' r' pg st).1.
Proof using Type.
  intros H Hk Hch. unfold enter. destruct (compile_filter _); [|done]. eapply waiting_frame; [exact H|..]; cbn; [done|done|done| |].
  - by rewrite lookup_insert_ne.
  - intros k'' rd Hl Hc. apply lookup_insert_Some in Hl as [[<- <-]|[_ Hl]]; [done|auto].
Qed.
Lemma waiting_spawn fs r' ck st : waiting st -> waiting (spawn fs r' ck st).
Proof using Type.
  intros H. pose proof (ww_next _ H) as Hn. eapply waiting_frame; [exact H|..]; cbn; [|lia| |done|auto].
  - rewrite lookup_insert_ne by lia. done.
  - intros ck' Hx. destruct ck as [ck|]; [|done]. apply lookup_insert_Some in Hx as [[_ Hx]|[_ Hx]]; [lia|done].
Qed.
Lemma waiting_forget ck st : waiting st -> waiting (forget ck st).
Proof using Type.
  intros H. eapply waiting_frame; [exact H|..]; cbn; [done|done| |done|auto].
  intros ck' Hx. by apply lookup_delete_Some in Hx as [_ Hx].
Qed.
Lemma waiting_unregister pm st : waiting st -> waiting (unregister pm st).
Proof using Type. unfold unregister. destruct (pm_cookie pm); [apply waiting_forget|done]. Qed.
Lemma waiting_set ch' pm st : waiting st -> ch' <> ch -> waiting (set_pump ch' pm st).
Proof using Type. intros H Hne. eapply waiting_frame; [exact H|..]; cbn; [|done|done|done|auto]. by rewrite lookup_insert_ne. Qed.
Lemma waiting_leave k' rd o st : waiting st -> k' <> k -> waiting (p_leave k' rd o st).1.
Proof using Type.
  intros H Hne. eapply waiting_frame; [exact H|..]; cbn; [done|done|done| |].
  - by rewrite lookup_delete_ne.
  - intros k'' rd' Hl _. apply lookup_delete_Some in Hl as [_ Hl]. auto.
Qed.
(** As long as the connection has not been answered it waits; its answer is the
    result. *)
Lemma waiting_step st e : waiting st -> e <> PGiveUp ch ->
  (waiting (p_step c st e).1 /\ forall a, (p_step c st e).2 = Some a -> an_conn a <> k) \/
  exists a, (p_step c st e).2 = Some a /\ an_conn a = k /\ an_out a = no_page (ldif_found result).
Proof using Type.
  intros H He.
  pose proof (ww_reader _ H) as (acc & full & todo & ph & Hr & Hp & Hph & Hres).
  destruct e as [k' local bound r' p fresh|k'|ch'|ch'|k'|ch'|parsed]; cbn [p_step].
  - left. destruct (decide (k' = k)) as [->|Hne]; [by rewrite Hr|].
    destruct (ps_readers st !! k'); [done|]. pose proof (ww_next _ H) as Hn.
    assert (Hsay : forall o a, say k' o = Some a -> an_conn a <> k) by (intros o a [= <-]; done).
    assert (Hent : forall x r' pg st', waiting st' -> x <> Some ch -> waiting (enter k' x r' pg st').1 /\
        forall a, (enter k' x r' pg st').2 = Some a -> an_conn a <> k).
    { intros x r'' pg st' Hw Hx. split; [by apply waiting_enter|]. unfold enter. destruct (compile_filter _); [done|apply Hsay]. }
    unfold p_start. destruct (negb (bind_dn_ok _ _ _)); [split; [done|apply Hsay]|].
    destruct (leaves_of r') as [fs| | |]; try (split; [done|apply Hsay]). destruct (negb _); [split; [done|apply Hsay]|].
    destruct (paging_of r' p) as [pg|].
    + destruct (is_empty _); [apply Hent; [by apply waiting_spawn|intros [= ?]; lia]|].
      destruct (ps_reg st !! pg_cookie pg) as [x|] eqn:Ex; [|split; [done|apply Hsay]].
      destruct (0 <? pg_size pg)%Z; apply Hent; [done| |by apply waiting_forget|done].
      intros [= ->]. by apply (ww_reg _ H) in Ex.
    + apply Hent; [by apply waiting_spawn|intros [= ?]; lia].
  - destruct (decide (k' = k)) as [->|Hne].
    + rewrite Hr. cbn [rd_chan]. rewrite Hp. destruct todo as [|e todo]; [left; by destruct ph|].
      destruct ph; [|by specialize (Hph ltac:(done))..].
      cbn [take_es] in Hres. unfold p_take. cbn [rd_flt rd_req rd_page rd_acc rd_chan].
      destruct (take_entry flt r e) as [[e'|]|x| |] eqn:Et; cbn [rbind] in Hres; cycle 1.
      * left. split; [|done]. destruct H as [_ Hn Hreg Hk]. constructor; cbn; [|done..].
        exists acc, full, todo, Sending. rewrite lookup_insert. done.
      * right. cbn in Hres. rewrite <- Hres. destruct x; (eexists; split; [reflexivity|]; done).
      * right. cbn in Hres. rewrite <- Hres. eexists. split; [reflexivity|]. done.
      * right. cbn in Hres. rewrite <- Hres. eexists. split; [reflexivity|]. done.
      * rewrite app_length. cbn [length]. replace (length acc + 1) with (S (length acc)) by lia.
        cbn [fmap option_fmap option_map]. destruct (enough None (sr_size r) (S (length acc))).
        -- right. cbn in Hres. rewrite <- Hres. eexists. split; [reflexivity|]. done.
        -- left. split; [|done]. destruct H as [_ Hn Hreg Hk]. constructor; cbn; [|done..|].
           ++ exists (acc ++ [e']), full, todo, Sending. rewrite !lookup_insert. split; [done|]. split; [done|]. split; [done|].
              rewrite app_length. cbn [length]. replace (length acc + 1) with (S (length acc)) by lia. rewrite <- Hres.
              destruct (take_es flt r todo (S (length acc))); cbn; try done. by rewrite <- app_assoc.
           ++ intros k' rd Hl Hc. apply lookup_insert_Some in Hl as [[<- _]|[_ Hl]]; [done|by eapply Hk].
    + left. destruct (ps_readers st !! k') as [rd|] eqn:Erd; [|done]. destruct (rd_chan rd) as [ch'|] eqn:Ech; [|done].
      assert (Hch : ch' <> ch) by (intros ->; by apply Hne, (ww_readers _ H k' rd)).
      destruct (ps_pumps st !! ch') as [[full' [|e todo'] [] ck]|]; try done.
      set (st' := set_pump ch' _ st). assert (Hs : waiting st') by (by apply waiting_set).
      assert (Hl : forall o, waiting (p_leave k' rd o st').1 /\ forall a, (p_leave k' rd o st').2 = Some a -> an_conn a <> k).
      { intros o. split; [by apply waiting_leave|]. intros a [= <-]. done. }
      unfold p_take. destruct (take_entry _ _ _) as [[e'|]|[]| |]; try apply Hl; [|done].
      destruct (enough _ _ _); [apply Hl|]. split; [|done]. eapply waiting_frame; [exact Hs|..]; cbn; [done|done|done| |].
      * by rewrite lookup_insert_ne.
      * intros k'' rd' Hl' Hc. apply lookup_insert_Some in Hl' as [[<- <-]|[_ Hl']]; [|auto]. cbn in Hc. congruence.
  - left. destruct (decide (ch' = ch)) as [->|Hne].
    + rewrite Hp. destruct todo as [|e todo]; [|done]. destruct ph; try done. cbn [fst snd]. split; [|done].
      apply waiting_unregister. destruct H as [_ Hn Hreg Hk]. constructor; cbn; [|done..].
      exists acc, full, [], Removed. rewrite lookup_insert. done.
    + destruct (ps_pumps st !! ch') as [[full' [|e todo'] [] ck]|]; try done. cbn [fst snd]. split; [|done].
      by apply waiting_unregister, waiting_set.
  - left. destruct (decide (ch' = ch)) as [->|Hne].
    + rewrite Hp. destruct ph; try done. cbn [fst snd]. split; [|done].
      destruct H as [_ Hn Hreg Hk]. constructor; cbn; [|done..].
      exists acc, full, todo, Closed. rewrite lookup_insert. split; [done|]. split; [done|]. split; [|done].
      intros _. by apply Hph.
    + destruct (ps_pumps st !! ch') as [[full' todo' [] ck]|]; try done. cbn [fst snd]. split; [|done]. by apply waiting_set.
  - destruct (decide (k' = k)) as [->|Hne].
    + rewrite Hr. cbn [rd_chan]. rewrite Hp. destruct ph; [by left..|]. right. rewrite (Hph ltac:(done)) in Hres.
      cbn in Hres. rewrite app_nil_r in Hres. rewrite <- Hres. eexists. split; [reflexivity|]. done.
    + left. destruct (ps_readers st !! k') as [rd|] eqn:Erd; [|done]. destruct (rd_chan rd) as [ch'|] eqn:Ech; [|done].
      destruct (ps_pumps st !! ch') as [[full' todo' [] ck]|]; try done. split; [by apply waiting_leave|].
      intros a [= <-]. done.
  - left. destruct (decide (ch' = ch)) as [->|Hne]; [done|].
    destruct (ps_pumps st !! ch') as [[full' [|e todo'] [] ck]|]; try done. cbn [fst snd]. split; [|done].
    by apply waiting_unregister, waiting_set.
  - left. split; [|done]. eapply waiting_frame; [exact H|..]; cbn; [done|done|done|done|auto].
Qed.
Lemma waiting_run es st : waiting st -> ~ In (PGiveUp ch) es ->
  forall pre a post, p_outs c st es = pre ++ a :: post -> an_conn a = k -> (forall b, In b pre -> an_conn b <> k) ->
    an_out a = no_page (ldif_found result).
Proof using Type.
  revert st. induction es as [|e es IH]; intros st H Hes pre a post Ho Ha Hpre; [by destruct pre|].
  rewrite p_outs_cons in Ho. cbn [In] in Hes.
  destruct (waiting_step st e H) as [[Hw Hn]|(b & Hb & Hbk & Hbo)]; [naive_solver| |].
  - destruct (p_step c st e).2 as [b|]; cbn [app] in Ho.
    + destruct pre as [|x pre]; injection Ho as Hx Ho.
      * subst x || subst b. by specialize (Hn a eq_refl).
      * eapply (IH _ Hw); [tauto|exact Ho|done|]. intros y Hy. apply Hpre. by right.
    + by eapply (IH _ Hw); [tauto|..].
  - rewrite Hb in Ho. cbn [app] in Ho. destruct pre as [|x pre]; injection Ho as Hx Ho; [congruence|].
    subst x. by destruct (Hpre b (or_introl eq_refl)).
Qed.
End plain.
Lemma waiting_start st k local bound r p fresh flt fs :
  wf (fun _ => True) st -> ps_readers st !! k = None -> search_checks c local bound r = inr (flt, fs) ->
  paging_of r p = None ->
  (p_step c st (PStart k local bound r p fresh)).2 = None /\
  waiting k r flt (ps_next st) (take_es flt r (sends (ps_data st) (sr_base r) fs) 0)
    (p_step c st (PStart k local bound r p fresh)).1.
Proof using Type.
  intros Hwf Hk Hs Hp. apply start_checks in Hs as (Hb & Hf & Hl & Hbase).
  cbn [p_step]. rewrite Hk. unfold p_start. rewrite Hb, Hl, Hbase, Hp. cbn [negb]. unfold enter. rewrite Hf. cbn [fst snd].
  split; [done|]. constructor; cbn.
  - exists [], (sends (ps_data st) (sr_base r) fs), (sends (ps_data st) (sr_base r) fs), Sending. rewrite !lookup_insert.
    split; [done|]. split; [done|]. split; [done|]. cbn [length]. by destruct (take_es _ _ _ 0).
  - lia.
  - intros ck Hx. apply (wf_reg _ _ Hwf) in Hx as [pm Hx]. apply (wf_pumps _ _ Hwf) in Hx as [Hx _]. lia.
  - intros k' rd Hx Hc. apply lookup_insert_Some in Hx as [[<- _]|[_ Hx]]; [done|].
    destruct (wf_readers _ _ Hwf _ _ _ Hx Hc) as [pm Hpm]. apply (wf_pumps _ _ Hwf) in Hpm as [Hpm _]. lia.
Qed.
(** A search that is answered at once. *)
Lemma refused_start st k local bound r p fresh x : ps_readers st !! k = None -> paging_of r p = None ->
  search_checks c local bound r = inl x ->
  exists a, (p_step c st (PStart k local bound r p fresh)).2 = Some a /\ an_conn a = k /\ an_out a = no_page x.
Proof using Type.
  intros Hk Hp Hs. cbn [p_step]. rewrite Hk. unfold p_start. unfold search_checks, leaves_of in *.
  destruct (bind_dn_ok _ _ _); cbn [negb] in *; [|injection Hs as <-; eexists; split; [reflexivity|done]].
  destruct (compile_filter (sr_filter r)) as [f|] eqn:Ef.
  - destruct (index_filter f) as [l| | |]; try (injection Hs as <-; eexists; split; [reflexivity|done]).
    destruct (has_suffix _ _); [done|]. injection Hs as <-. eexists; split; [reflexivity|done].
  - destruct (has_suffix _ _); cbn [negb].
    + rewrite Hp. unfold enter. rewrite Ef. injection Hs as <-. eexists; split; [reflexivity|done].
    + injection Hs as <-. eexists; split; [reflexivity|done].
Qed.

(** * Progress and hanging *)
(** A Search call with a channel can always be brought to its answer by steps of
    the pump and of its own. *)
Lemma can_answer st k rd ch : wf (fun _ => True) st -> ps_readers st !! k = Some rd -> rd_chan rd = Some ch ->
  exists es a, In a (p_outs c st es) /\ an_conn a = k /\
    Forall (fun e => e = PRecv k \/ e = PDone ch \/ e = PShut ch \/ e = PEmpty k) es.
Proof using Type.
  intros Hwf Hk Hch. destruct (wf_readers _ _ Hwf _ _ _ Hk Hch) as [[full todo ph ck] Hp].
  assert (Hclosed : forall st full todo ck rd, ps_readers st !! k = Some rd -> rd_chan rd = Some ch ->
    ps_pumps st !! ch = Some (mkPump full todo Closed ck) ->
    exists a, In a (p_outs c st [PEmpty k]) /\ an_conn a = k).
  { clear. intros st full todo ck rd Hk Hch Hp. rewrite p_outs_cons. cbn [p_step].
    rewrite Hk, Hch, Hp. eexists. split; [by left|]. done. }
  assert (Hremoved : forall st full todo ck rd, ps_readers st !! k = Some rd -> rd_chan rd = Some ch ->
    ps_pumps st !! ch = Some (mkPump full todo Removed ck) ->
    exists a, In a (p_outs c st [PShut ch; PEmpty k]) /\ an_conn a = k).
  { intros st' full' todo' ck' rd' Hk' Hch' Hp'. rewrite p_outs_cons. cbn [p_step]. rewrite Hp'. cbn [fst snd app].
    eapply Hclosed; [exact Hk'|done|]. cbn. by rewrite lookup_insert. }
  assert (Hend : forall st full ck rd, ps_readers st !! k = Some rd -> rd_chan rd = Some ch ->
    ps_pumps st !! ch = Some (mkPump full [] Sending ck) ->
    exists a, In a (p_outs c st [PDone ch; PShut ch; PEmpty k]) /\ an_conn a = k).
  { intros st' full' ck' rd' Hk' Hch' Hp'. rewrite p_outs_cons. cbn [p_step]. rewrite Hp'. cbn [fst snd app].
    eapply Hremoved with (rd := rd'); unfold unregister; cbn [pm_cookie]; destruct ck'; cbn; try done; by rewrite lookup_insert. }
  destruct ph.
  2:{ destruct (Hremoved _ _ _ _ _ Hk Hch Hp) as (a & H1 & H2). exists [PShut ch; PEmpty k], a.
      split; [done|]. split; [done|]. repeat (apply List.Forall_cons; [by auto|]). constructor. }
  2:{ destruct (Hclosed _ _ _ _ _ Hk Hch Hp) as (a & H1 & H2). exists [PEmpty k], a.
      split; [done|]. split; [done|]. repeat (apply List.Forall_cons; [by auto|]). constructor. }
  clear Hwf. revert st rd Hk Hch Hp. induction todo as [|e todo IH]; intros st rd Hk Hch Hp.
  { destruct (Hend _ _ _ _ Hk Hch Hp) as (a & H1 & H2). exists [PDone ch; PShut ch; PEmpty k], a.
    split; [done|]. split; [done|]. repeat (apply List.Forall_cons; [by auto|]). constructor. }
  assert (Hstep : p_step c st (PRecv k) = p_take k rd e (set_pump ch (mkPump full todo Sending ck) st)).
  { cbn [p_step]. by rewrite Hk, Hch, Hp. }
  assert (Hleave : forall o, p_step c st (PRecv k) = p_leave k rd o (set_pump ch (mkPump full todo Sending ck) st) ->
    exists es a, In a (p_outs c st es) /\ an_conn a = k /\
      Forall (fun e => e = PRecv k \/ e = PDone ch \/ e = PShut ch \/ e = PEmpty k) es).
  { intros o Ho. exists [PRecv k]. rewrite p_outs_cons, Ho. eexists. split; [by left|]. split; [done|]. apply List.Forall_cons; [by auto|constructor]. }
  assert (Hmore : forall st', p_step c st (PRecv k) = (st', None) ->
    (exists rd', ps_readers st' !! k = Some rd' /\ rd_chan rd' = Some ch /\ ps_pumps st' !! ch = Some (mkPump full todo Sending ck)) ->
    exists es a, In a (p_outs c st es) /\ an_conn a = k /\
      Forall (fun e => e = PRecv k \/ e = PDone ch \/ e = PShut ch \/ e = PEmpty k) es).
  { intros st' Ho (rd' & H1 & H2 & H3). destruct (IH st' rd' H1 H2 H3) as (es & a & Ha & Hak & Hes).
    exists (PRecv k :: es), a. rewrite p_outs_cons, Ho. split; [done|]. split; [done|]. constructor; auto. }
  unfold p_take in Hstep. destruct (take_entry _ _ _) as [[e'|]|[]| |]; try (by eapply Hleave).
  - destruct (enough _ _ _); [by eapply Hleave|]. eapply Hmore; [exact Hstep|]. eexists. cbn. rewrite !lookup_insert. done.
  - eapply Hmore; [exact Hstep|]. exists rd. cbn. by rewrite lookup_insert.
Qed.
(** A Search call on the nil channel stays. *)
Lemma stuck_step st e k rd : ps_readers st !! k = Some rd -> rd_chan rd = None ->
  ps_readers (p_step c st e).1 !! k = Some rd /\ forall a, (p_step c st e).2 = Some a -> an_conn a <> k.
Proof using Type.
  intros Hk Hch.
  assert (Hun : forall pm st', ps_readers (unregister pm st') = ps_readers st').
  { intros pm st'. unfold unregister. by destruct (pm_cookie pm). }
  destruct e as [k' local bound r p fresh|k'|ch|ch|k'|ch|parsed]; cbn [p_step].
  - destruct (decide (k' = k)) as [->|Hne]; [by rewrite Hk|]. destruct (ps_readers st !! k'); [done|].
    assert (Hsay : forall o a, say k' o = Some a -> an_conn a <> k) by (intros o a [= <-]; done).
    assert (Hent : forall x pg st', ps_readers st' !! k = Some rd -> ps_readers (enter k' x r pg st').1 !! k = Some rd /\
        forall a, (enter k' x r pg st').2 = Some a -> an_conn a <> k).
    { intros x pg st' H. unfold enter. destruct (compile_filter _); [|split; [done|apply Hsay]].
      split; [cbn; by rewrite lookup_insert_ne|done]. }
    unfold p_start. destruct (negb (bind_dn_ok _ _ _)); [split; [done|apply Hsay]|].
    destruct (leaves_of r) as [fs| | |]; try (split; [done|apply Hsay]). destruct (negb _); [split; [done|apply Hsay]|].
    destruct (paging_of r p) as [pg|]; [|by apply Hent]. destruct (is_empty _); [by apply Hent|].
    destruct (ps_reg st !! _); [|split; [done|apply Hsay]]. destruct (0 <? pg_size pg)%Z; by apply Hent.
  - destruct (decide (k' = k)) as [->|Hne]; [by rewrite Hk, Hch|].
    destruct (ps_readers st !! k') as [rd'|]; [|done]. destruct (rd_chan rd') as [ch|]; [|done].
    destruct (ps_pumps st !! ch) as [[full [|e todo] [] ck]|]; try done. set (st' := set_pump _ _ _).
    assert (Hl : forall o, ps_readers (p_leave k' rd' o st').1 !! k = Some rd /\ forall a, (p_leave k' rd' o st').2 = Some a -> an_conn a <> k).
    { intros o. split; [cbn; by rewrite lookup_delete_ne|]. intros a [= <-]. done. }
    unfold p_take. destruct (take_entry _ _ _) as [[e'|]|[]| |]; try apply Hl; [|done].
    destruct (enough _ _ _); [apply Hl|]. split; [cbn; by rewrite lookup_insert_ne|done].
  - destruct (ps_pumps st !! ch) as [[full [|e todo] [] ck]|]; try done. cbn [fst snd]. by rewrite Hun.
  - destruct (ps_pumps st !! ch) as [[full todo [] ck]|]; try done.
  - destruct (decide (k' = k)) as [->|Hne]; [by rewrite Hk, Hch|].
    destruct (ps_readers st !! k') as [rd'|]; [|done]. destruct (rd_chan rd') as [ch|]; [|done].
    destruct (ps_pumps st !! ch) as [[full todo [] ck]|]; try done.
    split; [cbn; by rewrite lookup_delete_ne|]. intros a [= <-]. done.
  - destruct (ps_pumps st !! ch) as [[full [|e todo] [] ck]|]; try done. cbn [fst snd]. by rewrite Hun.
  - done.
Qed.
Lemma stuck_run st es k rd : ps_readers st !! k = Some rd -> rd_chan rd = None ->
  ps_readers (p_run c st es) !! k = Some rd /\ forall a, In a (p_outs c st es) -> an_conn a <> k.
Proof using Type.
  intros Hk Hch. revert st Hk. induction es as [|e es IH]; intros st Hk; [done|].
  destruct (stuck_step st e k rd Hk Hch) as [H1 H2]. destruct (IH _ H1) as [H3 H4]. split; [done|].
  intros a Ha. rewrite p_outs_cons in Ha. apply in_app_or in Ha as [Ha|Ha]; [|by apply H4].
  destruct (p_step c st e).2 as [b|]; [|done]. destruct Ha as [<-|[]]. by apply H2.
Qed.

(** * What all answers have in common *)
Section all.
Variable P : entry -> Prop.
Hypothesis Hsel : forall flt r e e', P e -> take_entry flt r e = Ok (Some e') -> P e'.
Definition acc_ok (st : pstate) : Prop := forall k rd, ps_readers st !! k = Some rd -> Forall P (rd_acc rd).
Lemma acc_enter k ch r pg st : acc_ok st -> acc_ok (enter k ch r pg st).1 /\
  forall a, (enter k ch r pg st).2 = Some a -> ans_entries a = [].
Proof using Type.
  intros H. unfold enter. destruct (compile_filter _); [|split; [done|by intros a [= <-]]]. split; [|done].
  intros k' rd Hl. cbn in Hl. apply lookup_insert_Some in Hl as [[<- <-]|[_ Hl]]; [constructor|by eapply H].
Qed.
Lemma acc_leave k rd o st : acc_ok st -> acc_ok (p_leave k rd o st).1.
Proof using Type. intros H k' rd' Hl. cbn in Hl. apply lookup_delete_Some in Hl as [_ Hl]. by eapply H. Qed.
Lemma acc_step st e : wf P st -> acc_ok st ->
  acc_ok (p_step c st e).1 /\ forall a, (p_step c st e).2 = Some a -> Forall P (ans_entries a).
Proof using Hsel.
  intros Hwf H.
  assert (Hun : forall pm st', acc_ok st' -> acc_ok (unregister pm st')).
  { intros pm st'. unfold unregister. by destruct (pm_cookie pm). }
  destruct e as [k local bound r p fresh|k|ch|ch|k|ch|parsed]; cbn [p_step].
  - destruct (ps_readers st !! k); [done|].
    assert (Hsay : forall code a, say k (no_page (refused code)) = Some a -> Forall P (ans_entries a)).
    { intros f a [= <-]. constructor. }
    assert (Hent : forall ch pg st', acc_ok st' -> acc_ok (enter k ch r pg st').1 /\
      forall a, (enter k ch r pg st').2 = Some a -> Forall P (ans_entries a)).
    { intros ch pg st' Hs. destruct (acc_enter k ch r pg st' Hs) as [H1 H2]. split; [done|]. intros a Ha. by rewrite (H2 a Ha). }
    unfold p_start. destruct (negb (bind_dn_ok _ _ _)); [split; [done|apply Hsay]|].
    destruct (leaves_of r) as [fs| | |]; try (split; [done|intros a [= <-]; constructor]).
    destruct (negb _); [split; [done|apply Hsay]|].
    destruct (paging_of r p) as [pg|]; [|by apply Hent]. destruct (is_empty _); [by apply Hent|].
    destruct (ps_reg st !! _); [|split; [done|apply Hsay]]. destruct (0 <? pg_size pg)%Z; by apply Hent.
  - destruct (ps_readers st !! k) as [rd|] eqn:Ek; [|done]. destruct (rd_chan rd) as [ch|]; [|done].
    destruct (ps_pumps st !! ch) as [[full [|e todo] [] ck]|] eqn:Ep; try done.
    apply (wf_pumps _ _ Hwf) in Ep as [_ Ep]. cbn in Ep. apply Forall_cons in Ep as [He _].
    set (st' := set_pump _ _ _). assert (Hs : acc_ok st') by done.
    assert (Hl : forall o, (forall p, o = HRet p -> Forall P (f_entries (pa_found p))) ->
       acc_ok (p_leave k rd o st').1 /\ forall a, (p_leave k rd o st').2 = Some a -> Forall P (ans_entries a)).
    { intros o Ho. split; [by apply acc_leave|]. intros a [= <-]. unfold ans_entries. cbn. destruct o; [by apply Ho|constructor..]. }
    unfold p_take. destruct (take_entry _ _ _) as [[e'|]|[]| |] eqn:Et; try (apply Hl; intros p Hpp; inversion Hpp; exact (List.Forall_nil _)); [|done].
    assert (Hacc : Forall P (rd_acc rd ++ [e'])).
    { apply Forall_app. split; [by eapply H|]. constructor; [by eapply Hsel|constructor]. }
    destruct (enough _ _ _); [apply Hl; by intros p [= <-]|]. split; [|done].
    intros k' rd' Hl'. cbn in Hl'. apply lookup_insert_Some in Hl' as [[<- <-]|[_ Hl']]; [done|by eapply Hs].
  - destruct (ps_pumps st !! ch) as [[full [|e todo] [] ck]|]; try done. cbn [fst snd]. split; [by apply Hun|done].
  - destruct (ps_pumps st !! ch) as [[full todo [] ck]|]; done.
  - destruct (ps_readers st !! k) as [rd|] eqn:Ek; [|done]. destruct (rd_chan rd) as [ch|]; [|done].
    destruct (ps_pumps st !! ch) as [[full todo [] ck]|]; try done. split; [by apply acc_leave|].
    intros a [= <-]. unfold ans_entries. cbn. by eapply H.
  - destruct (ps_pumps st !! ch) as [[full [|e todo] [] ck]|]; try done. cbn [fst snd]. split; [by apply Hun|done].
  - done.
Qed.
Lemma acc_run st es : wf P st -> acc_ok st ->
  (forall records d, build (lc_attrs c) records = Some d -> data_all P d) ->
  forall a, In a (p_outs c st es) -> Forall P (ans_entries a).
Proof using Hsel.
  intros Hwf Hacc Hb. revert st Hwf Hacc. induction es as [|e es IH]; intros st Hwf Hacc a Ha; [done|].
  destruct (acc_step st e Hwf Hacc) as [H1 H2]. rewrite p_outs_cons in Ha. apply in_app_or in Ha as [Ha|Ha].
  - destruct (p_step c st e).2 as [b|]; [|done]. destruct Ha as [<-|[]]. by apply H2.
  - apply (IH (p_step c st e).1); [|done..]. apply wf_step; [done|]. intros parsed _. unfold ldif_reload.
    destruct parsed as [records|]; [|apply (wf_data _ _ Hwf)].
    destruct (build (lc_attrs c) records) as [d|] eqn:Ed; [by eapply Hb|apply (wf_data _ _ Hwf)].
Qed.
End all.

(** * The data *)
Lemma step_data st e : ps_data (p_step c st e).1 =
  match e with PReload parsed => (ldif_reload c parsed (ps_data st)).2 | _ => ps_data st end.
Proof using Type.
  assert (Hun : forall pm st', ps_data (unregister pm st') = ps_data st').
  { intros pm st'. unfold unregister. by destruct (pm_cookie pm). }
  assert (Hent : forall k ch r pg st', ps_data (enter k ch r pg st').1 = ps_data st').
  { intros. unfold enter. by destruct (compile_filter _). }
  destruct e as [k local bound r p fresh|k|ch|ch|k|ch|parsed]; cbn [p_step]; [..|done].
  - destruct (ps_readers st !! k); [done|]. unfold p_start. destruct (negb (bind_dn_ok _ _ _)); [done|].
    destruct (leaves_of r) as [fs| | |]; try done. destruct (negb _); [done|].
    destruct (paging_of r p) as [pg|]; [|by rewrite Hent]. destruct (is_empty _); [by rewrite Hent|].
    destruct (ps_reg st !! _); [|done]. destruct (0 <? pg_size pg)%Z; by rewrite Hent.
  - destruct (ps_readers st !! k) as [rd|]; [|done]. destruct (rd_chan rd) as [ch|]; [|done].
    destruct (ps_pumps st !! ch) as [[full [|e todo] [] ck]|]; try done. unfold p_take.
    destruct (take_entry _ _ _) as [[e'|]|[]| |]; try done. by destruct (enough _ _ _).
  - destruct (ps_pumps st !! ch) as [[full [|e todo] [] ck]|]; try done. cbn [fst]. by rewrite Hun.
  - by destruct (ps_pumps st !! ch) as [[full todo [] ck]|].
  - destruct (ps_readers st !! k) as [rd|]; [|done]. destruct (rd_chan rd) as [ch|]; [|done].
    by destruct (ps_pumps st !! ch) as [[full todo [] ck]|].
  - destruct (ps_pumps st !! ch) as [[full [|e todo] [] ck]|]; try done. cbn [fst]. by rewrite Hun.
Qed.
Definition built (d : dataset) : Prop := exists attrs records, build attrs records = Some d.
Lemma built_run d es : built d -> built (ps_data (p_run c (p_init d) es)).
Proof using Type.
  intros H. change d with (ps_data (p_init d)) in H. revert H. generalize (p_init d).
  induction es as [|e es IH]; intros st H; [done|]. cbn [p_run foldl]. apply IH. rewrite step_data.
  destruct e; try done. unfold ldif_reload. destruct parsed as [records|]; [|done].
  destruct (build (lc_attrs c) records) eqn:E; [|done]. cbn [snd]. unfold built. eauto.
Qed.
Lemma candidates_valid d base fs : TreesOK Tr -> built d -> Forall (fun p => is_Some (d_heap d !! p)) (candidates d base fs).
Proof using Type.
  intros HTr (attrs & records & Hb). apply build_ok in Hb. apply Forall_forall. intros p Hp.
  eapply candidates_elem in Hp as (e & He & _); [|exact HTr|exact Hb]. rewrite (id_heap _ _ _ Hb).
  pose proof (list_lookup_fmap split_entry (records_of records) p) as Hx. rewrite He in Hx.
  exists (split_entry e). exact Hx.
Qed.
Lemma take_es_unlimited flt r es n : (sr_size r <= 0)%Z -> decided flt r es ->
  take_es flt r es n = Ok (omap (decide_entry flt r) es).
Proof using Type.
  intros Hs H. revert n. induction H as [|e es [o Ho] _ IH]; intros n; [done|]. cbn [take_es omap list_omap].
  unfold decide_entry at 1. rewrite Ho. cbn [rbind]. destruct o as [e'|]; [|apply IH].
  unfold enough. destruct (Z.ltb_spec 0 (sr_size r)); [lia|]. cbn [andb orb]. by rewrite IH.
Qed.
End paging.
