(** Property C106: what every filter does to a search, whether the server supports
    all of its comparisons or not.

    Filters are judged from left to right.  An unsupported comparison matters only
    if it is reached; then it ends the search and the connection. *)
From Verif Require Import Bytes Text Dn DnProofs Res Entry EntryProofs Password PasswordProofs
  Db DbSpec IdProofs DbProofs DbOps DbSearch DbFacts DbMore P_Password P_Db
  Packet Filter FilterProofs ScopeProofs P_Filter Handler Server ServerProofs CrashProofs P_Server
  Encode EncodeProofs E2e E2eProofs P_E2e SessionProofs P_Session.

(** What a filter says about an entry: it satisfies it or not, an unsupported
    comparison was reached, or a substring assertion without components. *)
Inductive judgement := Yes | No | Stuck | Fatal.
#[local] Instance judgement_dec : EqDecision judgement.
Proof. solve_decision. Defined.
Definition decided (j : judgement) : Prop := j = Yes \/ j = No.

Section judge.
Context {T : Text} (e : entry).
(** A conjunction is decided by the first member that is not satisfied, a
    disjunction only by all of its members.  A substring assertion is judged by its
    first component. *)
Inductive judge : flt -> judgement -> Prop :=
| j_eq_yes a v : sat e (FEq a v) -> judge (FEq a v) Yes
| j_eq_no a v : ~ sat e (FEq a v) -> judge (FEq a v) No
| j_pres_yes a : sat e (FPres a) -> judge (FPres a) Yes
| j_pres_no a : ~ sat e (FPres a) -> judge (FPres a) No
| j_sub_yes a p ps : sat e (FSub a [p]) -> judge (FSub a (p :: ps)) Yes
| j_sub_no a p ps : ~ sat e (FSub a [p]) -> judge (FSub a (p :: ps)) No
| j_sub_none a : judge (FSub a []) Fatal
| j_other o : judge (FOther o) Stuck
| j_not_yes f : judge f No -> judge (FNot f) Yes
| j_not_no f : judge f Yes -> judge (FNot f) No
| j_not_more f j : judge f j -> ~ decided j -> judge (FNot f) j
| j_and_yes l : Forall (fun f => judge f Yes) l -> judge (FAnd l) Yes
| j_and_more l f r j : Forall (fun f => judge f Yes) l -> judge f j -> j <> Yes -> judge (FAnd (l ++ f :: r)) j
| j_or_no l : Forall (fun f => judge f No) l -> judge (FOr l) No
| j_or_yes l f r : Forall (fun f => judge f Yes \/ judge f No) (l ++ r) -> judge f Yes -> judge (FOr (l ++ f :: r)) Yes
| j_or_more l f r j : Forall (fun f => judge f Yes \/ judge f No) l -> judge f j -> ~ decided j ->
    judge (FOr (l ++ f :: r)) j.

(** The outcome of the code. *)
Definition said_so (j : judgement) : res bool :=
  match j with Yes => Ok true | No => Ok false | Stuck => perr OperationsError | Fatal => Panic end.

Lemma all_app l r : Forall (fun f => apply_filter (filter_packet f) e = Ok true) l ->
  all_filters e (map filter_packet (l ++ r)) = all_filters e (map filter_packet r).
Proof using Type. induction 1 as [|f l Hf _ IH]; [done|]. cbn. rewrite Hf. cbn [rbind]. exact IH. Qed.
Lemma any_app l r : Forall (fun f => exists b, apply_filter (filter_packet f) e = Ok b) l -> forall acc,
  exists acc', any_filter e (map filter_packet (l ++ r)) acc = any_filter e (map filter_packet r) acc' /\ (acc = true -> acc' = true).
Proof using Type.
  induction 1 as [|f l [b Hf] _ IH]; intros acc; [by exists acc|]. cbn. rewrite Hf. cbn [rbind].
  destruct (IH (acc || b)) as (acc' & H & Hi). exists acc'. split; [exact H|]. intros ->. by apply Hi.
Qed.
Lemma any_true l : Forall (fun f => exists b, apply_filter (filter_packet f) e = Ok b) l ->
  any_filter e (map filter_packet l) true = Ok true.
Proof using Type. induction 1 as [|f l [b Hf] _ IH]; [done|]. cbn. rewrite Hf. cbn [rbind orb]. exact IH. Qed.
Lemma any_false l : Forall (fun f => apply_filter (filter_packet f) e = Ok false) l ->
  any_filter e (map filter_packet l) false = Ok false.
Proof using Type. induction 1 as [|f l Hf _ IH]; [done|]. cbn. rewrite Hf. cbn [rbind orb]. exact IH. Qed.
Lemma stuck_bind {A} j (k : bool -> res A) : ~ decided j -> rbind (said_so j) k = match j with Stuck => perr OperationsError | _ => Panic end.
Proof using Type. destruct j; [intros []; by left|intros []; by right|done|done]. Qed.
Lemma not_filter f : apply_filter (filter_packet (FNot f)) e = (ok <-- apply_filter (filter_packet f) e ;; Ok (negb ok)).
Proof using Type. done. Qed.

Lemma and_judged l : Forall (fun f => exists j, judge f j) l -> exists j, judge (FAnd l) j.
Proof using Type.
  intros H. assert (Forall (fun f => judge f Yes) l \/ exists l1 f r j, l = l1 ++ f :: r /\ Forall (fun f => judge f Yes) l1 /\ judge f j /\ j <> Yes) as [Hy|(l1 & f & r & j & -> & H1 & Hf & Hj)].
  { induction H as [|f l [j Hj] _ IH]; [by left|]. destruct (decide (j = Yes)) as [->|Hn].
    - destruct IH as [IH|(l1 & g & r & j & -> & H1 & Hg & Hn)]; [left; by constructor|].
      right. exists (f :: l1), g, r, j. split; [done|]. split; [by constructor|done].
    - right. by exists [], f, l, j. }
  - exists Yes. by apply j_and_yes.
  - exists j. by apply j_and_more.
Qed.
Lemma or_judged l : Forall (fun f => exists j, judge f j) l -> exists j, judge (FOr l) j.
Proof using Type.
  intros H.
  assert (Forall (fun f => judge f Yes \/ judge f No) l \/ exists l1 f r j, l = l1 ++ f :: r /\ Forall (fun f => judge f Yes \/ judge f No) l1 /\ judge f j /\ ~ decided j) as [Hy|(l1 & f & r & j & -> & H1 & Hf & Hj)].
  { induction H as [|f l [j Hj] _ IH]; [by left|]. destruct (decide (j = Yes \/ j = No)) as [Hd|Hn].
    - assert (judge f Yes \/ judge f No) as Hf by (destruct Hd as [-> | ->]; auto).
      destruct IH as [IH|(l1 & g & r & j' & -> & H1 & Hg & Hn)]; [left; by constructor|].
      right. exists (f :: l1), g, r, j'. split; [done|]. split; [by constructor|done].
    - right. by exists [], f, l, j. }
  2:{ exists j. by apply j_or_more. }
  clear H. assert (Forall (fun f => judge f No) l \/ exists l1 f r, l = l1 ++ f :: r /\ judge f Yes) as [Hn|(l1 & f & r & -> & Hf)].
  { induction Hy as [|f l [Hf|Hf] _ IH]; [by left|right; by exists [], f, l|].
    destruct IH as [IH|(l1 & g & r & -> & Hg)]; [left; by constructor|]. right. by exists (f :: l1), g, r. }
  - exists No. by apply j_or_no.
  - exists Yes. apply j_or_yes; [|done]. apply Forall_app in Hy as [H1 H2]. apply Forall_cons in H2 as [_ H2]. by apply Forall_app.
Qed.
End judge.

(** The code says what the judgement says ... *)
Theorem C106_filter (T : Text) (f : flt) (e : entry) (j : judgement) :
  judge e f j -> apply_filter (filter_packet f) e = said_so j.
Proof.
  revert j. induction f as [l IH|l IH|f IH|a v|a ps|a|t] using flt_ind'; intros j Hj; inversion Hj; subst.
  - change (apply_filter (filter_packet (FAnd l)) e) with (all_filters e (map filter_packet l)).
    rewrite <- (app_nil_r l), (all_app e l []); [done|].
    rewrite List.Forall_forall in IH, H0 |- *. intros f Hf. by apply (IH f Hf Yes), H0.
  - change (apply_filter (filter_packet (FAnd (l0 ++ f :: r))) e) with (all_filters e (map filter_packet (l0 ++ f :: r))).
    apply Forall_app in IH as [IH0 IH]. apply Forall_cons in IH as [IHf _]. rewrite all_app.
    2:{ rewrite List.Forall_forall in IH0, H0 |- *. intros g Hg. by apply (IH0 g Hg Yes), H0. }
    cbn [map all_filters]. rewrite (IHf j H1). by destruct j.
  - change (apply_filter (filter_packet (FOr l)) e) with (any_filter e (map filter_packet l) false).
    apply any_false. rewrite List.Forall_forall in IH, H0 |- *. intros f Hf. by apply (IH f Hf No), H0.
  - change (apply_filter (filter_packet (FOr (l0 ++ f :: r))) e) with (any_filter e (map filter_packet (l0 ++ f :: r)) false).
    apply Forall_app in IH as [IH0 IH]. apply Forall_cons in IH as [IHf IHr]. apply Forall_app in H0 as [Hl Hr].
    assert (Hb : forall l, Forall (fun f => forall j, judge e f j -> apply_filter (filter_packet f) e = said_so j) l ->
      Forall (fun f => judge e f Yes \/ judge e f No) l -> Forall (fun f => exists b, apply_filter (filter_packet f) e = Ok b) l).
    { clear. intros l H1 H2. rewrite List.Forall_forall in H1, H2 |- *. intros g Hg.
      destruct (H2 g Hg) as [H|H]; apply (H1 g Hg) in H; eauto. }
    destruct (any_app e l0 (f :: r) (Hb _ IH0 Hl) false) as (acc & -> & _). cbn [map any_filter]. rewrite (IHf Yes H1). cbn [said_so rbind].
    rewrite orb_true_r. apply (any_true e r). by apply Hb.
  - change (apply_filter (filter_packet (FOr (l0 ++ f :: r))) e) with (any_filter e (map filter_packet (l0 ++ f :: r)) false).
    apply Forall_app in IH as [IH0 IH]. apply Forall_cons in IH as [IHf _].
    destruct (any_app e l0 (f :: r)) with (acc := false) as (acc & -> & _).
    { rewrite List.Forall_forall in IH0, H0 |- *. intros g Hg. destruct (H0 g Hg) as [H|H]; apply (IH0 g Hg) in H; eauto. }
    cbn [map any_filter]. rewrite (IHf j H1), stuck_bind by done.
    destruct j; [destruct H2; by left|destruct H2; by right|done|done].
  - rewrite not_filter, (IH No) by done. done.
  - rewrite not_filter, (IH Yes) by done. done.
  - rewrite not_filter, (IH j), stuck_bind by done. destruct j; [destruct H1; by left|destruct H1; by right|done|done].
  - cbn [said_so]. change (apply_filter (filter_packet (FEq a v)) e) with (Ok (match_equality a v (e_attrs e))). f_equal. by apply match_equality_sat.
  - cbn [said_so]. change (apply_filter (filter_packet (FEq a v)) e) with (Ok (match_equality a v (e_attrs e))). f_equal.
    apply not_true_is_false. by rewrite match_equality_sat.
  - destruct p as [t v]. cbn [said_so]. change (apply_filter (filter_packet (FSub a ((t, v) :: ps0))) e) with (Ok (match_substring a t v (e_attrs e))).
    f_equal. by apply match_substring_sat.
  - destruct p as [t v]. cbn [said_so]. change (apply_filter (filter_packet (FSub a ((t, v) :: ps0))) e) with (Ok (match_substring a t v (e_attrs e))).
    f_equal. apply not_true_is_false. by rewrite match_substring_sat.
  - done.
  - cbn [said_so]. change (apply_filter (filter_packet (FPres a)) e) with (Ok (match_present a (e_attrs e))). f_equal. by apply match_present_sat.
  - cbn [said_so]. change (apply_filter (filter_packet (FPres a)) e) with (Ok (match_present a (e_attrs e))). f_equal.
    apply not_true_is_false. by rewrite match_present_sat.
  - apply (C39_failures T [] t e).
Qed.
Print Assumptions C106_filter.
(** ... and every filter has exactly one judgement of every entry. *)
Theorem C106_judgement (T : Text) (f : flt) (e : entry) :
  exists j, judge e f j /\ forall j', judge e f j' -> j' = j.
Proof.
  assert (exists j, judge e f j) as [j Hj].
  { induction f as [l IH|l IH|f [j IH]|a v|a ps|a|t] using flt_ind'.
    - by apply and_judged.
    - by apply or_judged.
    - destruct j; [exists No|exists Yes|exists Stuck|exists Fatal]; try (by constructor); apply j_not_more; try done; intros [[=]|[=]].
    - destruct (match_equality a v (e_attrs e)) eqn:E; [exists Yes|exists No]; constructor; rewrite <- match_equality_sat; congruence.
    - destruct ps as [|[t v] ps]; [exists Fatal; constructor|].
      destruct (match_substring a t v (e_attrs e)) eqn:E; [exists Yes|exists No]; constructor; rewrite <- match_substring_sat; congruence.
    - destruct (match_present a (e_attrs e)) eqn:E; [exists Yes|exists No]; constructor; rewrite <- match_present_sat; congruence.
    - exists Stuck. constructor. }
  exists j. split; [done|]. intros j' Hj'. apply C106_filter in Hj, Hj'. rewrite Hj in Hj'. by destruct j, j'.
Qed.
Print Assumptions C106_judgement.
(** A filter of supported comparisons is never stuck, and satisfied as it says. *)
Theorem C106_supported (T : Text) (f : flt) (e : entry) :
  supported f = true -> (judge e f Yes <-> sat e f) /\ (judge e f No <-> ~ sat e f).
Proof.
  intros Hs. destruct (C39_filter_boolean T f e Hs) as (b & Hb & Hsat).
  destruct (C106_judgement T f e) as (j & Hj & Hu). pose proof (C106_filter T f e j Hj) as Hf. rewrite Hb in Hf.
  destruct j; cbn [said_so] in Hf; try done; injection Hf as ->.
  - split; split; [intros _; by apply Hsat|done|intros H; by apply Hu in H|]. intros H. destruct H. by apply Hsat.
  - split; split; [intros H; by apply Hu in H| |intros _ H; apply Hsat in H; done|done]. intros H. apply Hsat in H. done.
Qed.
Print Assumptions C106_supported.
(** A packet that is none of these filters, because it has the wrong number of parts
    or another tag, is refused as well. *)
Theorem C106_no_filter (T : Text) (cls tag : N) (con : bool) (v : value) (data : str) (kids : list packet) (e : entry) :
  (tag = 2%N /\ length kids <> 1) \/ ((tag = 3%N \/ tag = 4%N) /\ length kids <> 2) \/
  ~ In tag [0; 1; 2; 3; 4; 7]%N ->
  apply_filter (Pkt cls con tag v data kids) e = perr OperationsError.
Proof.
  intros [[-> Hl]|[[[-> | ->] Hl]|Hn]].
  - by destruct kids as [|a [|b k]].
  - by destruct kids as [|a [|b [|c k]]].
  - by destruct kids as [|a [|b [|c k]]].
  - cbn [apply_filter]. unfold FEqualityTag, FPresentTag, FAndTag, FOrTag, FNotTag, FSubstringsTag.
    repeat (match goal with |- context [(tag =? ?k)%N] => destruct (N.eqb_spec tag k) as [->|_]; [exfalso; apply Hn; cbn [In]; tauto|] end). done.
Qed.
Print Assumptions C106_no_filter.
(** A negation of two parts, a comparison without value, and the tag of lessOrEqual. *)
Example C106_no_filter_case :
  let two := [octets 7 (B "uid"); octets 7 (B "cn")] in
  apply_filter (T:=ascii_text) (Pkt ClassContext true 2 VNil [] two) e_ada = perr OperationsError /\
  apply_filter (T:=ascii_text) (Pkt ClassContext true 3 VNil [] [Filter.field (B "uid")]) e_ada = perr OperationsError /\
  apply_filter (T:=ascii_text) (Pkt ClassContext true 6 VNil [] two) e_ada = perr OperationsError /\ ~ In 6%N [0; 1; 2; 3; 4; 7]%N.
Proof. cbv zeta. repeat (split; [reflexivity|]). cbn [In]. intros H. repeat destruct H as [H|H]; done. Qed.

(** How a search goes through the entries in its scope, in some order: those seen
    are judged; the first that cannot be, or would be one too many, ends it. *)
Definition goes (J : entry -> judgement -> Prop) (r : search_req) (start : nat) (es sent : list entry) (end_ : res unit) : Prop :=
  exists seen rest (keep : entry -> bool), es = seen ++ rest /\ sent = bfilter keep seen /\
    (forall e, In e seen -> J e (if keep e then Yes else No)) /\
    ((0 < sr_size r)%Z -> (Z.of_nat (start + length sent) <= sr_size r)%Z) /\
    match rest with
    | [] => end_ = Ok tt
    | e :: _ =>
        (J e Yes /\ (0 < sr_size r)%Z /\ Z.of_nat (start + length sent) = sr_size r /\ end_ = perr SizeLimitExceeded) \/
        (J e Stuck /\ end_ = perr OperationsError) \/ (J e Fatal /\ end_ = Panic)
    end.
(** What the loop of the search makes of one entry. *)
Definition look {T : Text} (f : flt) (r : search_req) (e : entry) : res bool :=
  match apply_filter (filter_packet f) e with Ok true => filter_scope (sr_base r) (sr_scope r) e | x => x end.
Lemma loop_goes {T : Text} (J : entry -> judgement -> Prop) f r ok es : (forall k, ok k = true) ->
  Forall (fun e => exists j, J e j /\ look f r e = said_so j) es ->
  forall i, ((0 < sr_size r)%Z -> (Z.of_nat i <= sr_size r)%Z) ->
  exists sent end_, search_loop true (filter_packet f) r ok es i = (map (select_attributes (sr_attrs r)) sent, end_) /\
    goes J r i es sent end_.
Proof.
  intros Hok. set (keep e := match look f r e with Ok b => b | _ => false end).
  intros Hsc.
  enough (Hx : forall i, ((0 < sr_size r)%Z -> (Z.of_nat i <= sr_size r)%Z) ->
    exists seen rest end_, es = seen ++ rest /\
      search_loop true (filter_packet f) r ok es i = (map (select_attributes (sr_attrs r)) (bfilter keep seen), end_) /\
      (forall e, In e seen -> J e (if keep e then Yes else No)) /\
      ((0 < sr_size r)%Z -> (Z.of_nat (i + length (bfilter keep seen)) <= sr_size r)%Z) /\
      match rest with
      | [] => end_ = Ok tt
      | e :: _ =>
          (J e Yes /\ (0 < sr_size r)%Z /\ Z.of_nat (i + length (bfilter keep seen)) = sr_size r /\ end_ = perr SizeLimitExceeded) \/
          (J e Stuck /\ end_ = perr OperationsError) \/ (J e Fatal /\ end_ = Panic)
      end).
  { intros i Hi. destruct (Hx i Hi) as (seen & rest & end_ & -> & Hl & Hs & Hn & Hr).
    exists (bfilter keep seen), end_. split; [done|]. exists seen, rest, keep. done. }
  induction Hsc as [|e es (j & Hj & Hf) _ IH]; intros i Hi.
  { exists [], [], (Ok tt). cbn. split; [done|]. split; [done|]. split; [by intros e []|]. split; [|done]. rewrite Nat.add_0_r. exact Hi. }
  assert (Hstop : forall j end_, J e j -> search_loop true (filter_packet f) r ok (e :: es) i = ([], end_) ->
    (j = Yes /\ (0 < sr_size r)%Z /\ Z.of_nat i = sr_size r /\ end_ = perr SizeLimitExceeded) \/
    (j = Stuck /\ end_ = perr OperationsError) \/ (j = Fatal /\ end_ = Panic) -> exists seen rest end_, e :: es = seen ++ rest /\
      search_loop true (filter_packet f) r ok (e :: es) i = (map (select_attributes (sr_attrs r)) (bfilter keep seen), end_) /\
      (forall e, In e seen -> J e (if keep e then Yes else No)) /\
      ((0 < sr_size r)%Z -> (Z.of_nat (i + length (bfilter keep seen)) <= sr_size r)%Z) /\
      match rest with
      | [] => end_ = Ok tt
      | e :: _ =>
          (J e Yes /\ (0 < sr_size r)%Z /\ Z.of_nat (i + length (bfilter keep seen)) = sr_size r /\ end_ = perr SizeLimitExceeded) \/
          (J e Stuck /\ end_ = perr OperationsError) \/ (J e Fatal /\ end_ = Panic)
      end).
  { clear -Hi. intros j end_ Hj Hl Hcase. exists [], (e :: es), end_. cbn [List.filter length]. rewrite Nat.add_0_r.
    split; [done|]. split; [done|]. split; [by intros ? []|]. split; [done|].
    destruct Hcase as [(-> & ?)|[(-> & ?)|(-> & ?)]]; [left|right; left|right; right]; done. }
  assert (Hgo : forall b n, keep e = b -> J e (if b then Yes else No) -> n = (if b then S i else i) ->
    ((0 < sr_size r)%Z -> (Z.of_nat n <= sr_size r)%Z) ->
    search_loop true (filter_packet f) r ok (e :: es) i =
      (let '(l, x) := search_loop true (filter_packet f) r ok es n in ((if b then [select_attributes (sr_attrs r) e] else []) ++ l, x)) ->
    exists seen rest end_, e :: es = seen ++ rest /\
      search_loop true (filter_packet f) r ok (e :: es) i = (map (select_attributes (sr_attrs r)) (bfilter keep seen), end_) /\
      (forall e, In e seen -> J e (if keep e then Yes else No)) /\
      ((0 < sr_size r)%Z -> (Z.of_nat (i + length (bfilter keep seen)) <= sr_size r)%Z) /\
      match rest with
      | [] => end_ = Ok tt
      | e :: _ =>
          (J e Yes /\ (0 < sr_size r)%Z /\ Z.of_nat (i + length (bfilter keep seen)) = sr_size r /\ end_ = perr SizeLimitExceeded) \/
          (J e Stuck /\ end_ = perr OperationsError) \/ (J e Fatal /\ end_ = Panic)
      end).
  { intros b n Hb Hjb Hn Hlim Hl. destruct (IH n Hlim) as (seen & rest & end_ & -> & Hl' & Hs & Hle & Hr).
    exists (e :: seen), rest, end_. split; [done|]. rewrite Hl, Hl'. cbn [List.filter]. rewrite Hb.
    assert (Hlen : i + length (if b then e :: bfilter keep seen else bfilter keep seen) = n + length (bfilter keep seen))
      by (subst n; destruct b; cbn [length]; lia).
    rewrite Hlen. split; [by destruct b|]. split; [|done]. intros x [<-|Hx]; [by rewrite Hb|by apply Hs]. }
  assert (Hstep : search_loop true (filter_packet f) r ok (e :: es) i =
    match look f r e with
    | Ok false => search_loop true (filter_packet f) r ok es i
    | Ok true =>
        if (0 <? sr_size r)%Z && (sr_size r <=? Z.of_nat i)%Z then ([], perr SizeLimitExceeded)
        else let '(l, x) := search_loop true (filter_packet f) r ok es (S i) in (select_attributes (sr_attrs r) e :: l, x)
    | Err x => ([], Err x) | Panic => ([], Panic) | Diverge => ([], Diverge)
    end).
  { cbn [search_loop]. unfold look. rewrite Hok. by destruct (apply_filter _ e) as [[]| | |]. }
  destruct j; cbn [said_so] in Hf.
  - destruct ((0 <? sr_size r)%Z && (sr_size r <=? Z.of_nat i)%Z) eqn:El.
    + apply (Hstop Yes (perr SizeLimitExceeded) Hj); [by rewrite Hstep, Hf|].
      left. apply andb_true_iff in El as [H1 H2]. apply Z.ltb_lt in H1. apply Z.leb_le in H2. specialize (Hi H1).
      repeat (split; [done || lia|]). done.
    + apply (Hgo true (S i)); [unfold keep; by rewrite Hf|done|done| |].
      * intros H1. specialize (Hi H1). apply andb_false_iff in El as [El|El]; [apply Z.ltb_ge in El; lia|apply Z.leb_gt in El; lia].
      * rewrite Hstep, Hf. done.
  - apply (Hgo false i); [unfold keep; by rewrite Hf|done|done|done|]. rewrite Hstep, Hf. by destruct (search_loop _ _ _ _ es i).
  - apply (Hstop Stuck (perr OperationsError) Hj); [by rewrite Hstep, Hf|]. right; left. done.
  - apply (Hstop Fatal Panic Hj); [by rewrite Hstep, Hf|]. right; right. done.
Qed.

(** The request around the loop. *)
Lemma loop_handled {T : Text} {C : Crypto} {W : Wire} cfg c (ev : renv env) bound id req r f d es sent end_ :
  p_cls req = ClassApplication -> p_tag req = SearchRequest -> says_search req r ->
  compile_filter (sr_filter r) = Some (filter_packet f) -> sv_enforce cfg = true ->
  (forall k, re_send ev k = true) -> search d (sr_base r) (sr_scope r) = Ok (es, None) ->
  search_loop true (filter_packet f) r (re_send ev) es 0 = (map (select_attributes (sr_attrs r)) sent, end_) ->
  handle cfg (bolt_handler c) ev bound (p_msg id req) d =
    let out := map (fun e => REntry id (select_attributes (sr_attrs r) e)) sent in
    match end_ with
    | Ok _ => mkResult (out ++ [RFinal id SearchResultDone 0 None]) (Go bound) d
    | Err (ELdap code _) => mkResult (out ++ [RFinal id SearchResultDone code None]) Drop d
    | Err _ => mkResult (out ++ [RFinal id SearchResultDone 1 None]) Drop d
    | _ => mkResult out Dead d
    end.
Proof.
  intros Hcl Ht Hsay Hf Hen Hs Hsearch Hloop.
  unfold handle, p_msg. cbn [p_kids p_seq as_int p_int p_val].
  rewrite Hcl. change (negb (ClassApplication =? ClassApplication)%N) with false. cbn match.
  rewrite d_search by done.
  unfold handle_search. apply search_iff in Hsay. rewrite Hsay, Hen, Hf.
  cbn [h_search bolt_handler]. unfold bolt_search. rewrite Hsearch. cbn [f_err f_entries]. rewrite Hloop.
  destruct end_ as [[]|[]| |]; cbn zeta; unfold send_final; rewrite ?Hs, map_map; done.
Qed.

(** The whole request, whatever its filter. *)
Theorem C106_search (T : Text) (C : Crypto) (W : Wire) (HT : TextOK T) (cfg : server_cfg) (c : bolt_cfg)
    (ev : renv env) (b : dn) (d : db) (m : dir) (bound : str) (id : Z) (req : packet)
    (r : search_req) (f : flt) (dd : dn) :
  base_ok b -> reachable b d -> represents d m ->
  p_cls req = ClassApplication -> p_tag req = SearchRequest -> says_search req r ->
  compile_filter (sr_filter r) = Some (filter_packet f) -> sv_enforce cfg = true ->
  (forall k, re_send ev k = true) ->
  parse_dn (sr_base r) = Some dd -> wf_dn dd = true -> is_Some (m !! fold_dn dd) ->
  scope_ok (sr_scope r) -> names_plain (sr_scope r) dd m ->
  exists (es seen rest : list entry) (keep : entry -> bool),
    es ≡ₚ map snd (bfilter (fun p => in_scope (sr_scope r) (fold_dn dd) p.1) (map_to_list m)) /\ es = seen ++ rest /\
    (forall e, In e seen -> judge e f (if keep e then Yes else No)) /\
    let sent := bfilter keep seen in
    let out := map (fun e => REntry id (select_attributes (sr_attrs r) e)) sent in
    let done_ code := out ++ [RFinal id SearchResultDone code None] in
    let result := handle cfg (bolt_handler c) ev bound (p_msg id req) d in
    ((0 < sr_size r)%Z -> (Z.of_nat (length sent) <= sr_size r)%Z) /\
    match rest with
    | [] => result = mkResult (done_ 0%N) (Go bound) d
    | e :: _ =>
        (judge e f Yes /\ (0 < sr_size r)%Z /\ Z.of_nat (length sent) = sr_size r /\ result = mkResult (done_ 4%N) Drop d) \/
        (judge e f Stuck /\ result = mkResult (done_ 1%N) Drop d) \/
        (judge e f Fatal /\ result = mkResult out Dead d)
    end.
Proof.
  intros Hb Hr Hm Hcl Ht Hsay Hf Hen Hs Hp Hwf [e0 He0] Hsc Hnp.
  destruct (reach_sim HT b d m Hb Hr Hm) as [_ (g & Hg & ->)].
  pose proof (search_spec HT b d g (sr_base r) dd (sr_scope r) Hb Hg Hp Hwf Hsc) as Hsearch.
  rewrite He0 in Hsearch. destruct Hsearch as (es & Hsearch & Hperm).
  assert (Hscope : Forall (fun e => filter_scope (sr_base r) (sr_scope r) e = Ok true) es).
  { apply List.Forall_forall. intros e He.
    assert (exists k, (snd <$> g) !! k = Some e /\ in_scope (sr_scope r) (fold_dn dd) k = true) as (k & Hke & Hks).
    { apply elem_of_list_In in He. rewrite Hperm in He. apply elem_of_list_In, in_map_iff in He as ([k e'] & <- & He).
      apply filter_In in He as [He Hks]. apply elem_of_list_In, elem_of_map_to_list in He. by exists k. }
    rewrite lookup_fmap in Hke. destruct (g !! k) as [[i e']|] eqn:Eg; [|done].
    cbn in Hke. injection Hke as ->.
    destruct (s_dn _ _ _ Hg _ _ _ Eg) as (de & Hde & _ & Hfold).
    destruct Hnp as [H2|[Hab Hnp]].
    { rewrite H2. by eapply scope_sub. }
    destruct (Hnp k e) as [Had Hpl]; [by rewrite lookup_fmap, Eg|]. specialize (Had _ Hde).
    destruct Hsc as [H0|[H1|H2]].
    + rewrite H0 in *. change ScopeBase with 0%Z in *. rewrite (scope_base _ _ _ _ Hde Hp). f_equal.
      unfold in_scope in Hks. cbn [Z.eqb Pos.eqb] in Hks. apply bool_decide_eq_true in Hks.
      apply (dn_eqfold_of_fold HT); [done..|]. by rewrite Hfold.
    + rewrite H1 in *. change ScopeOne with 1%Z in *. destruct (Hpl eq_refl) as [Hne Hpf].
      rewrite (scope_one HT _ _ _ _ Hpf Hde Hp Hne). f_equal.
      unfold in_scope in Hks. cbn [Z.eqb Pos.eqb] in Hks. rewrite <- Hfold in Hks.
      destruct de as [|r0 t]; [done|]. cbn [fold_dn map child_of] in Hks. apply bool_decide_eq_true in Hks.
      apply Forall_cons in Had as [_ Had]. by apply (dn_eqfold_of_fold HT).
    + rewrite H2. by eapply scope_sub. }
  assert (HJ : Forall (fun e => exists j, judge e f j /\ look f r e = said_so j) es).
  { eapply List.Forall_impl; [|exact Hscope]. intros e He. destruct (C106_judgement T f e) as (j & Hj & _). exists j.
    split; [done|]. unfold look. rewrite (C106_filter T f e j Hj). by destruct j. }
  destruct (loop_goes (fun e => judge e f) f r (re_send ev) es Hs HJ 0) as (sent & end_ & Hloop & seen & rest & keep & Hes & -> & Hseen & Hlim & Hrest); [lia|].
  exists es, seen, rest, keep. split; [exact Hperm|]. split; [done|]. split; [done|]. cbn zeta.
  split; [exact Hlim|].
  rewrite (loop_handled cfg c ev bound id req r f d es _ end_ Hcl Ht Hsay Hf Hen Hs Hsearch Hloop). destruct rest as [|e rest]; [by rewrite Hrest|].
  destruct Hrest as [(H1 & H0 & H2 & ->)|[(H1 & ->)|(H1 & ->)]]; [left|right; left|right; right]; done.
Qed.
Print Assumptions C106_search.

(** A uid is present, and not both the uid is carl and the uid is at least a: the
    comparison is reached for Carl only, after Ada's entry has been sent. *)
Definition f106 : flt := FAnd [FPres (B "uid"); FNot (FAnd [FEq (B "uid") (B "carl"); FOther (OCmp CGreater (B "uid") (B "a"))])].
Definition wire106 : Wire := {|
  decompile_filter _ := Some (B "(uid=x)"); compile_filter _ := Some (filter_packet f106);
  decode_inner _ := None; decode_control _ := Ok KOther |}.
Definition read106 : search_req := mkSearch (B "o=base") 2 0 false (B "(uid=x)") [].
Example C106_case :
  judge (T:=ascii_text) e_people f106 No /\ judge (T:=ascii_text) e_ada f106 Yes /\
  judge (T:=ascii_text) e_carl f106 Stuck /\
  says_search (W:=wire106) (enc_search read106 0 0 (filter_packet f106)) read106 /\
  names_plain (T:=ascii_text) (sr_scope read106) b0 m1 /\
  (let res := handle (T:=ascii_text) (C:=toy) (W:=wire106) cfg1 (bolt_handler (T:=ascii_text) (C:=toy) c1) ev1 []
     (p_msg 1 (enc_search read106 0 0 (filter_packet f106))) d1 in
   r_out res = [REntry 1 e_ada; RFinal 1 SearchResultDone 1 None] /\ r_next res = Drop).
Proof.
  assert (Hp : forall v w, sat (T:=ascii_text) (ent v [("uid", w); ("userPassword", "pw")]%string) (FPres (B "uid"))).
  { intros v w. exists (mkAttr (B "uid") [B w]). vm_compute. auto. }
  split. { apply (j_and_more _ [] (FPres (B "uid")) [_] No); [done| |done]. constructor.
           intros (a & Ha & Hn). vm_compute in Ha. destruct Ha as [<-|[]]. vm_compute in Hn. discriminate. }
  split. { apply j_and_yes. constructor; [|constructor; [|done]].
           - constructor. exists (mkAttr (B "uid") [B "Ada"]). vm_compute. auto.
           - apply j_not_yes. apply (j_and_more _ [] (FEq (B "uid") (B "carl")) [_] No); [done| |done]. constructor.
             intros (x & y & Hx & Hy & Hn & Hv). vm_compute in Hx.
             destruct Hx as [<-|[<-|[]]]; vm_compute in Hy, Hn; [|discriminate].
             destruct Hy as [<-|[]]. vm_compute in Hv. discriminate. }
  split. { apply (j_and_more _ [_] (FNot _) [] Stuck); [|apply j_not_more|done].
           - constructor; [|done]. constructor. apply Hp.
           - apply (j_and_more _ [_] (FOther _) [] Stuck); [|by constructor|done].
             constructor; [|done]. constructor. vm_compute. eauto 10.
           - by intros [|]. }
  split. { by apply search_iff. }
  split; [by left|]. vm_compute. repeat split.
Qed.
