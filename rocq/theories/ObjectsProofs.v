(** Proofs about Objects.v. *)
From Verif Require Import Bytes Text Dn Res Entry Password Db Packet Filter Handler Ldif Template Objects.

Section proofs.
Context {T : Text} {C : Crypto} {W : Wire} {Tr : Trees}.
Variable (c : ldif_cfg) (base fn : str) (h : nat).

(** The chain of handlers that starts at [h], the same all the time. *)
Definition shape (r : option nat) (o : option dataset) (d : dataset) (m : mem) : Prop :=
  match r, o with
  | None, None => m_objs m !! h = Some (OLdif (Some d) true)
  | Some q, Some o => q <> h /\ m_objs m !! h = Some (OOverlay (Some o) (Some q)) /\ m_objs m !! q = Some (OLdif (Some d) true)
  | _, _ => False
  end.
Lemma shape_serves r o d m : shape r o d m -> serves m h o d.
Proof. destruct r as [q|], o as [o|]; cbn; try done; [intros (_ & H1 & H2); by econstructor|by constructor]. Qed.
Lemma serves_shape m o d : serves m h o d -> exists r, shape r o d m.
Proof.
  intros [d' H|o' d' q H1 H2]; [by exists None|]. exists (Some q). split; [|done].
  intros ->. rewrite H1 in H2. done.
Qed.
Lemma serves_fun m o d o' d' : serves m h o d -> serves m h o' d' -> o = o' /\ d = d'.
Proof.
  intros [x H|x y q H1 H2] [x' H'|x' y' q' H1' H2']; try (by rewrite H in H1'); try (by rewrite H1 in H'); [by rewrite H in H'; injection H' as ->|].
  rewrite H1 in H1'. injection H1' as -> ->. rewrite H2 in H2'. by injection H2' as ->.
Qed.
Lemma store_other p d m q : q <> p -> m_objs (store p d m) !! q = m_objs m !! q.
Proof. intros H. unfold store. cbn. by rewrite lookup_alter_ne by congruence. Qed.
Lemma store_same p d m x : m_objs m !! p = Some x -> m_objs (store p d m) !! p = Some (set_current d x).
Proof. intros H. unfold store. cbn. by rewrite lookup_alter, H. Qed.

Lemma main_open_objs p k m q : q <> p -> m_objs (main_open c fn p k m).2 !! q = m_objs m !! q.
Proof.
  intros H. unfold main_open. destruct (dk_main k) as [[f parse]|]; [|done].
  destruct (parse _) as [rs|]; [|done]. destruct (build _ rs) as [d|]; [|done]. cbn [snd].
  rewrite store_other by done. done.
Qed.
Lemma conf_open_objs p k m q : q <> p -> m_objs (conf_open p k m).2 !! q = m_objs m !! q.
Proof.
  intros H. unfold conf_open. destruct (dk_conf k _) as [rs|]; [|done]. destruct (build _ rs) as [d|]; [|done]. cbn [snd].
  by rewrite store_other.
Qed.
Lemma conf_open_path p k m : m_path (conf_open p k m).2 = m_path m.
Proof. unfold conf_open. destruct (dk_conf k _) as [rs|]; [|done]. by destruct (build _ rs). Qed.
Lemma main_open_path p k m :
  m_path (main_open c fn p k m).2 = match dk_main k with Some (f, _) => if f : bool then fn else dir_of fn | None => m_path m end.
Proof.
  unfold main_open. destruct (dk_main k) as [[f parse]|]; [|done].
  destruct (parse _) as [rs|]; [|done]. by destruct (build _ rs).
Qed.
(** [main_open] in terms of [ldif_reload]. *)
Lemma main_open_reload p k m d s :
  m_objs m !! p = Some (OLdif (Some d) s) ->
  let r := ldif_reload c (main_parsed fn k) d in
  (main_open c fn p k m).1 = r.1 /\ m_objs (main_open c fn p k m).2 !! p = Some (OLdif (Some r.2) s).
Proof.
  intros H. unfold main_open, main_parsed, ldif_reload. destruct (dk_main k) as [[f parse]|]; [|done].
  destruct (parse _) as [rs|]; [|done]. destruct (build _ rs) as [d'|]; [|done]. cbn [fst snd]. split; [done|].
  by rewrite (store_same _ _ _ (OLdif (Some d) s)).
Qed.
Lemma conf_open_reload p k m o n :
  m_objs m !! p = Some (OOverlay (Some o) n) ->
  let r := ldif_reload (mkLdif (lc_base c) (lc_anon c) []) (dk_conf k (m_path m)) o in
  (conf_open p k m).1 = r.1 /\ m_objs (conf_open p k m).2 !! p = Some (OOverlay (Some r.2) n).
Proof.
  intros H. unfold conf_open, ldif_reload. destruct (dk_conf k _) as [rs|]; [|done]. cbn [lc_attrs].
  destruct (build [] rs) as [d'|]; [|done]. cbn [fst snd]. split; [done|].
  by rewrite (store_same _ _ _ (OOverlay (Some o) n)).
Qed.

(** The reloading goroutine is at an object of the chain. *)
Definition in_chain (r : option nat) (p : nat) : Prop := p = h \/ r = Some p.
Definition sound (r : option nat) (w : oworld) : Prop :=
  (exists o d, shape r o d (ow_mem w)) /\ (forall p, ow_reload w = Some p -> in_chain r p).
Lemma step_sound r w e : sound r w -> sound r (o_step c base fn h w e).
Proof.
  intros [(o & d & Hs) Hr]. destruct e as [|k|j q|j]; cbn [o_step].
  - destruct (ow_reload w) eqn:E; [by split; [eauto|rewrite E]|]. split; [by eauto|]. cbn. intros p [= <-]. by left.
  - destruct (ow_reload w) as [p|] eqn:E; [|by split; [eauto|rewrite E]].
    destruct r as [q|], o as [o|]; try done; cbn [shape] in Hs.
    + destruct Hs as (Hne & H1 & H2). destruct (Hr p eq_refl) as [->|[= ->]].
      * rewrite H1. destruct (conf_open_reload h k (ow_mem w) o (Some q) H1) as [Ek Eo].
        pose proof (conf_open_objs h k (ow_mem w) q Hne) as Eq. rewrite H2 in Eq.
        destruct (conf_open h k (ow_mem w)) as [ok m]. cbn [fst snd] in *. destruct ok.
        -- split; [eexists (Some _), _; cbn; eauto|]. cbn. intros p [= <-]. by right.
        -- split; [eexists (Some _), _; cbn; eauto|]. done.
      * rewrite H2. destruct (main_open_reload p k (ow_mem w) d true H2) as [Ek Eo].
        pose proof (main_open_objs p k (ow_mem w) h (not_eq_sym Hne)) as Eq. rewrite H1 in Eq.
        destruct (main_open c fn p k (ow_mem w)) as [ok m]. cbn [fst snd] in *.
        split; [eexists (Some _), _; cbn; eauto|]. done.
    + destruct (Hr p eq_refl) as [->|[=]]. rewrite Hs. destruct (main_open_reload h k (ow_mem w) d true Hs) as [Ek Eo].
      destruct (main_open c fn h k (ow_mem w)) as [ok m]. cbn [fst snd] in *. split; [eexists None, _; cbn; eauto|done].
  - destruct (ow_calls w !! j) as [[]|]; by (split; [eauto|]).
  - destruct (ow_calls w !! j) as [[]|]; by (split; [eauto|]).
Qed.
Lemma run_sound r es w : sound r w -> sound r (o_run c base fn h w es).
Proof. revert w. induction es as [|e es IH]; intros w H; [done|]. cbn. by apply IH, step_sound. Qed.
Lemma o_run_cons w e es : o_run c base fn h w (e :: es) = o_run c base fn h (o_step c base fn h w e) es.
Proof. done. Qed.
Lemma o_run_app w a b : o_run c base fn h w (a ++ b) = o_run c base fn h (o_run c base fn h w a) b.
Proof. apply foldl_app. Qed.

(** Requests do not touch the objects. *)
Definition request_event (e : oevent) : Prop := match e with ECall _ _ | ELook _ => True | _ => False end.
Lemma request_mem w e : request_event e ->
  ow_mem (o_step c base fn h w e) = ow_mem w /\ ow_reload (o_step c base fn h w e) = ow_reload w /\
  ow_reports (o_step c base fn h w e) = ow_reports w.
Proof. destruct e; try done; intros _; cbn [o_step]; by destruct (ow_calls w !! j) as [[]|]. Qed.
Lemma requests_mem es : forall w, Forall request_event es ->
  ow_mem (o_run c base fn h w es) = ow_mem w /\ ow_reload (o_run c base fn h w es) = ow_reload w /\
  ow_reports (o_run c base fn h w es) = ow_reports w.
Proof.
  induction es as [|e es IH]; intros w H; [done|]. inversion H as [|? ? He Hes]; subst. cbn.
  destruct (request_mem w e He) as (<- & <- & <-). by apply IH.
Qed.
(** Without [EOpen] the objects stay. *)
Lemma no_open_mem es : forall w, (forall k, ~ In (EOpen k) es) -> ow_mem (o_run c base fn h w es) = ow_mem w.
Proof.
  induction es as [|e es IH]; intros w H; [done|]. rewrite o_run_cons.
  rewrite (IH (o_step c base fn h w e)) by (intros k Hk; apply (H k); by right).
  destruct e as [|k|j q|j]; cbn [o_step].
  - by destruct (ow_reload w).
  - destruct (H k). by left.
  - by destruct (ow_calls w !! j) as [[]|].
  - by destruct (ow_calls w !! j) as [[]|].
Qed.

(** Objects outside the chain are never touched. *)
Lemma step_kept r w e p : sound r w -> ~ in_chain r p ->
  m_objs (ow_mem (o_step c base fn h w e)) !! p = m_objs (ow_mem w) !! p.
Proof.
  intros [_ Hr] Hp. destruct e as [|k|j q|j]; cbn [o_step].
  - by destruct (ow_reload w).
  - destruct (ow_reload w) as [p'|] eqn:E; [|done].
    assert (p <> p') by (intros ->; apply Hp, Hr; done).
    destruct (m_objs (ow_mem w) !! p') as [[]|]; [| |done].
    + pose proof (main_open_objs p' k (ow_mem w) p H) as Eq. by destruct (main_open c fn p' k (ow_mem w)) as [ok m].
    + pose proof (conf_open_objs p' k (ow_mem w) p H) as Eq. by destruct (conf_open p' k (ow_mem w)) as [[] m].
  - by destruct (ow_calls w !! j) as [[]|].
  - by destruct (ow_calls w !! j) as [[]|].
Qed.
Lemma run_outside r es p : forall w, sound r w -> ~ in_chain r p ->
  m_objs (ow_mem (o_run c base fn h w es)) !! p = m_objs (ow_mem w) !! p.
Proof.
  induction es as [|e es IH]; intros w H Hp; [done|]. rewrite o_run_cons, (IH (o_step c base fn h w e)) by (done || by apply step_sound).
  by apply (step_kept r).
Qed.

(** The folder for templates. *)
Lemma step_path w e : m_path (ow_mem (o_step c base fn h w e)) = m_path (ow_mem w) \/
  exists k f parse, e = EOpen k /\ dk_main k = Some (f, parse) /\ m_path (ow_mem (o_step c base fn h w e)) = if f : bool then fn else dir_of fn.
Proof.
  destruct e as [|k|j q|j]; cbn [o_step].
  - left. by destruct (ow_reload w).
  - destruct (ow_reload w) as [p'|] eqn:E; [|by left].
    destruct (m_objs (ow_mem w) !! p') as [[]|]; [| |by left].
    + pose proof (main_open_path p' k (ow_mem w)) as Eq. destruct (main_open c fn p' k (ow_mem w)) as [ok m]. cbn [snd ow_mem] in *.
      destruct (dk_main k) as [[f parse]|] eqn:Ek; [right; by exists k, f, parse|by left].
    + pose proof (conf_open_path p' k (ow_mem w)) as Eq. left. by destruct (conf_open p' k (ow_mem w)) as [[] m].
  - left. by destruct (ow_calls w !! j) as [[]|].
  - left. by destruct (ow_calls w !! j) as [[]|].
Qed.

(** * Calls *)
(** How far the call [q] on connection [j], made before [es], has come. *)
Definition come (r : option nat) (w0 : oworld) (q : hcall) (es : list oevent) (x : progress) : Prop :=
  let mem_after l := ow_mem (o_run c base fn h w0 l) in
  match x with
  | At p q' =>
      (p = h /\ q' = q) \/
      (exists a b o d n, es = a ++ b /\ r = Some n /\ p = n /\ shape r (Some o) d (mem_after a) /\ at_overlay base (Some o) n q = At n q')
  | Returned y =>
      exists a b e o d o' d', es = a ++ b ++ e /\ shape r o d' (mem_after a) /\ shape r o' d (mem_after (a ++ b)) /\
        y = result_with c base o d q
  end.
Lemma come_more r w0 q es e x : come r w0 q es x -> come r w0 q (es ++ [e]) x.
Proof.
  destruct x as [p q'|y]; cbn.
  - intros [H|(a & b & o & d & n & -> & H)]; [by left|right]. exists a, (b ++ [e]), o, d, n. by rewrite app_assoc.
  - intros (a & b & e' & o & d & o' & d' & -> & H). exists a, b, (e' ++ [e]), o, d, o', d'. by rewrite !app_assoc.
Qed.
Lemma look_main d q : at_main c (Some d) q = Returned (result_with c base None d q).
Proof. by destruct q. Qed.
Lemma look_overlay o d n q :
  at_overlay base (Some o) n q = Returned (result_with c base (Some o) d q) \/
  exists q', at_overlay base (Some o) n q = At n q' /\ forall d', at_main c (Some d') q' = Returned (result_with c base (Some o) d' q).
Proof.
  destruct q as [local dn pw|local bound s]; cbn [at_overlay result_with h_bind h_search overlay ldif_handler].
  - unfold overlay_bind. cbn [fst snd]. destruct (is_empty pw).
    + right. eexists. split; [done|]. intros d'. by cbn [at_main h_bind ldif_handler].
    + destruct (tree_get o (to_lower dn)) as [x|]; [by left|]. right. eexists. split; [done|]. intros d'. by cbn [at_main h_bind ldif_handler].
  - right. eexists. split; [done|]. intros d'. by cbn [at_main].
Qed.
Lemma call_comes r w0 j q es : sound r w0 -> ow_calls w0 !! j = Some (At h q) -> (forall q', ~ In (ECall j q') es) ->
  exists x, ow_calls (o_run c base fn h w0 es) !! j = Some x /\ come r w0 q es x.
Proof.
  intros Hs Hj. induction es as [|e es IH] using rev_ind; intros Hn; [exists (At h q); split; [done|by left]|].
  destruct IH as (x & Hx & Hc). { intros q' H'. apply (Hn q'), in_or_app. by left. }
  rewrite o_run_app. cbn [o_run foldl]. set (w := o_run c base fn h w0 es) in *.
  assert (Hkeep : ow_calls (o_step c base fn h w e) !! j = Some x -> exists x',
    ow_calls (o_step c base fn h w e) !! j = Some x' /\ come r w0 q (es ++ [e]) x').
  { intros H. exists x. split; [done|]. by apply come_more. }
  destruct e as [|k|i q'|i].
  - apply Hkeep. cbn [o_step]. by destruct (ow_reload w).
  - apply Hkeep. cbn [o_step]. destruct (ow_reload w) as [p|]; [|done].
    destruct (m_objs (ow_mem w) !! p) as [[]|]; [| |done].
    + by destruct (main_open c fn p k (ow_mem w)).
    + by destruct (conf_open p k (ow_mem w)) as [[]].
  - assert (i <> j). { intros ->. apply (Hn q'), in_or_app. right. by left. }
    apply Hkeep. cbn [o_step]. destruct (ow_calls w !! i) as [[]|]; cbn; rewrite ?lookup_insert_ne by done; done.
  - destruct (decide (i = j)) as [->|Hij].
    2: { apply Hkeep. cbn [o_step]. destruct (ow_calls w !! i) as [[]|]; cbn; rewrite ?lookup_insert_ne by done; done. }
    cbn [o_step]. rewrite Hx. destruct x as [p q'|y]; [|rewrite Hx; exists (Returned y); split; [done|by apply come_more]].
    cbn [ow_calls]. rewrite lookup_insert. eexists. split; [done|].
    destruct (run_sound r es w0 Hs) as [(o & d & Hsh) _]. fold w in Hsh.
    destruct Hc as [[-> ->]|(a & b & o1 & d1 & n & -> & -> & -> & Hsh1 & Hat)].
    + destruct r as [n|], o as [o|]; try done; cbn [shape] in Hsh.
      * destruct Hsh as (Hne & H1 & H2). rewrite H1. destruct (look_overlay o d n q) as [E|(q' & E & _)]; rewrite E.
        -- exists es, [], [ELook j], (Some o), d, (Some o), d. rewrite app_nil_r. cbn [shape]. fold w. done.
        -- right. exists es, [ELook j], o, d, n. cbn [shape]. fold w. done.
      * rewrite Hsh, look_main. exists es, [], [ELook j], None, d, None, d. rewrite app_nil_r. cbn [shape]. fold w. done.
    + destruct o as [o|]; [|done]. cbn [shape] in Hsh. destruct Hsh as (Hne & H1 & H2). rewrite H2.
      destruct (look_overlay o1 d n q) as [E|(q2 & E & Hm)]; rewrite E in Hat; [done|]. injection Hat as ->. rewrite Hm.
      exists a, b, [ELook j], (Some o1), d, (Some o), d1. rewrite <- app_assoc. split; [done|]. split; [done|]. cbn [shape]. fold w. done.
Qed.
End proofs.
