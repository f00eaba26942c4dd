(** Property C92: an account is what the messages addressed to it made of it. *)
From Verif Require Import Bytes Text Dn DnProofs Res Entry EntryProofs Password PasswordProofs
  Db DbSpec IdProofs DbProofs DbOps DbSearch DbFacts DbMore P_Password P_Db
  Packet Filter FilterProofs P_Filter Handler Server ServerProofs CrashProofs P_Server
  Encode EncodeProofs E2e E2eProofs P_E2e SessionProofs P_Session P_Bind
  AccountProofs.

Section life.
Context {T : Text} {C : Crypto} {W : Wire}.
Variables (cfg : server_cfg) (c : bolt_cfg) (b : dn) (h0 : list (env * op)).
(** The server, started on the database the history [h0] made, after the events [es]. *)
Definition after (es : list (event (E:=env))) : world (S:=db) :=
  run cfg (bolt_handler c) (start (run_ops (normalize b) h0 empty_db)) es.
(** [m] is the directory stored then. *)
Definition holds (es : list (event (E:=env))) (m : dir) : Prop := represents (w_state (after es)) m.
(** The events [es'] following [es] leave the entry named [k] alone: every
    message among them that asks for an operation on this name, as coming from
    the user its connection is bound to, leaves the database as it is. *)
Definition spared (k : dn) (es es' : list (event (E:=env))) : Prop :=
  forall es1 conn ev p es2 bound o, es' = es1 ++ EPacket conn ev p :: es2 ->
    w_conns (after (es ++ es1)) !! conn = Some bound -> asks bound p o -> In k (op_names o) ->
    w_state (after (es ++ es1 ++ [EPacket conn ev p])) = w_state (after (es ++ es1)).
(** The start: a base, a history of operations with well-formed names, and
    messages with well-formed names, fewer than the identifiers there are. *)
Definition sound (es : list (event (E:=env))) : Prop :=
  base_ok b /\ bc_base c = normalize b /\ Forall (fun p => op_ok p.2) h0 /\
  (forall conn ev p, In (EPacket conn ev p) es -> clean p) /\
  (N.of_nat (length h0 + length es) + 1 < 2 ^ 64)%N.

Lemma sound_app es es' : sound (es ++ es') -> sound es.
Proof using Type.
  intros (Hb & Hc & Hh & Hcl & Hl). split; [done|]. split; [done|]. split; [done|]. split.
  - intros conn ev p Hin. apply (Hcl conn ev p). apply in_or_app. by left.
  - rewrite app_length in Hl. lia.
Qed.
Lemma sound_reachable (HT : TextOK T) es : sound es -> reachable b (w_state (after es)).
Proof using Type. intros (Hb & Hc & Hh & Hcl & Hl). by eapply (C72_reachable T C W HT cfg c b h0 es). Qed.
Lemma sound_holds (HT : TextOK T) es : sound es -> exists m, holds es m /\ forall m', holds es m' -> m' = m.
Proof using Type.
  intros Hs. destruct (C13_every_state_is_a_directory T C HT b (w_state (after es))) as (m & Hm & Hu);
    [apply Hs|by apply sound_reachable|]. by exists m.
Qed.
(** The identities of connections are well-formed names. *)
Lemma sound_bound (HT : TextOK T) es conn bound :
  sound es -> w_conns (after es) !! conn = Some bound -> dn_text_ok bound.
Proof using Type.
  intros (_ & _ & _ & Hcl & _) Hw. destruct (decide (bound = [])) as [->|Hne].
  { intros dd. unfold parse_dn. rewrite (trim_dn_print _ HT) by constructor. by intros [= <-]. }
  apply (earned_inv HT) in Hw as (es1 & ev1 & p1 & es2 & dn & pw & e1 & Hes & Hsb & _ & Hn & _); [|done].
  destruct (Hcl conn ev1 p1) as [_ Hbind]; [|by eapply Hbind].
  rewrite Hes. apply in_or_app. right. by left.
Qed.
(** One operation changes the entries it names only. *)
Lemma op_frame (HT : TextOK T) d m m' ev o k :
  base_ok b -> reachable b d -> represents d m -> op_ok o -> ~ In k (op_names o) ->
  reachable b (run_op (normalize b) ev o d).2 -> represents (run_op (normalize b) ev o d).2 m' -> m' !! k = m !! k.
Proof using Type.
  intros Hb Hr Hm Ho Hk Hr' Hm'.
  destruct (run_op (normalize b) ev o d) as [out d'] eqn:E. cbn [snd] in *.
  pose proof (C14_all_or_nothing T C _ _ _ _ _ _ E) as H14.
  assert (Huniq : forall x, represents d' x -> x = m').
  { destruct (C13_every_state_is_a_directory T C HT b d' Hb Hr') as (m0 & _ & Hu). intros x Hx. by rewrite (Hu x), (Hu m'). }
  assert (Hcase : d' = d \/ run_op (normalize b) no_faults o d = (Done (Ok tt), d')).
  { destruct out as [[[]|x| |]|]; try (by left); [by right|]. destruct H14 as [->|[_ ?]]; [by left|by right]. }
  destruct Hcase as [->|Hrun]; [by rewrite <- (Huniq m Hm)|].
  pose proof (C13_database_refines_directory T C HT b d m o Hb Hr Hm Ho) as H13. rewrite Hrun in H13.
  destruct (spec_op b o m) as [m1|x| |] eqn:Es; try done. destruct H13 as (d1 & [= <-] & Hm1).
  rewrite <- (Huniq m1 Hm1). by apply (spec_op_other _ _ _ _ _ Es Hk).
Qed.
Lemma kept (HT : TextOK T) k es es' m m' :
  sound (es ++ es') -> spared k es es' -> holds es m -> holds (es ++ es') m' -> m' !! k = m !! k.
Proof using Type.
  intros Hsound Hsp Hm. revert m'. induction es' as [|e es' IH] using rev_ind; intros m' Hm'.
  { rewrite app_nil_r in *. destruct (sound_holds HT es Hsound) as (m0 & _ & Hu). by rewrite (Hu m), (Hu m'). }
  rewrite app_assoc in *. pose proof (sound_app _ _ Hsound) as Hs1.
  destruct (sound_holds HT _ Hs1) as (m1 & Hm1 & Hu1).
  assert (IH1 : m1 !! k = m !! k).
  { apply IH; [done| |done]. intros es1 conn ev p es2 bound o Heq. apply (Hsp es1 conn ev p (es2 ++ [e]) bound o).
    rewrite Heq. by rewrite <- app_assoc. }
  rewrite <- IH1. clear IH IH1 Hm m.
  destruct (sound_holds HT _ Hsound) as (m2 & Hm2 & Hu2). rewrite (Hu2 m' Hm'). clear m' Hm'.
  assert (Hsame : w_state (after ((es ++ es') ++ [e])) = w_state (after (es ++ es')) -> m2 !! k = m1 !! k).
  { intros Heq. unfold holds in Hm2. rewrite Heq in Hm2. by rewrite (Hu1 m2 Hm2). }
  assert (Hst : w_state (after ((es ++ es') ++ [e])) = w_state (after (es ++ es')) \/
    exists conn ev p bound o, e = EPacket conn ev p /\ w_conns (after (es ++ es')) !! conn = Some bound /\ asks bound p o /\
      w_state (after ((es ++ es') ++ [e])) = (run_op (normalize b) (re_h ev) o (w_state (after (es ++ es')))).2).
  { assert (after ((es ++ es') ++ [e]) = (step cfg (bolt_handler c) (after (es ++ es')) e).1) as -> by apply run_snoc.
    set (w := after (es ++ es')).
    unfold step. destruct (negb (w_alive w)); [by left|]. destruct e as [x|x ev p|x]; [| |by left].
    - destruct (w_conns w !! x); by left.
    - destruct (w_conns w !! x) as [bound|] eqn:Ek; [|by left].
      destruct (handle_asks cfg c ev bound p (w_state w)) as [Hd|(o & Ha & Hd)].
      + left. cbn [fst]. by destruct (r_next _).
      + right. exists x, ev, p, bound, o. split; [done|]. split; [done|]. split; [done|].
        destruct Hsound as (_ & Hc & _). rewrite Hc in Hd. cbn [fst]. by destruct (r_next _). }
  destruct Hst as [Hst|(conn & ev & p & bound & o & -> & Hw & Ha & Hst)]; [by apply Hsame|].
  destruct (in_dec (decide_rel eq) k (op_names o)) as [Hin|Hin].
  { apply Hsame. rewrite <- app_assoc. by apply (Hsp es' conn ev p [] bound o). }
  pose proof Hsound as (Hb & _ & _ & Hcl & _).
  unfold holds in Hm2. rewrite Hst in Hm2.
  refine (op_frame HT _ m1 m2 (re_h ev) o k Hb _ Hm1 _ Hin _ Hm2).
  - by apply sound_reachable.
  - destruct (Hcl conn ev p) as [Hops _]; [apply in_or_app; right; by left|]. apply (Hops bound o); [|done].
    by apply (sound_bound HT _ _ _ Hs1 Hw).
  - rewrite <- Hst. by apply sound_reachable.
Qed.
Lemma spared_nil k es : spared k es [].
Proof using Type. intros es1 conn ev p es2 bound o Heq. by destruct es1. Qed.
Lemma spared_cons k es e es' :
  match e with
  | EPacket conn ev p => forall bound o, w_conns (after es) !! conn = Some bound -> asks bound p o -> In k (op_names o) ->
      w_state (after (es ++ [e])) = w_state (after es)
  | _ => True
  end -> spared k (es ++ [e]) es' -> spared k es (e :: es').
Proof using Type.
  intros He Hs es1 conn ev p es2 bound o Heq. destruct es1 as [|x es1].
  - injection Heq as -> ->. cbn [Datatypes.app]. rewrite app_nil_r. apply He.
  - injection Heq as -> ->. specialize (Hs es1 conn ev p es2 bound o eq_refl).
    rewrite <- !app_assoc in Hs. exact Hs.
Qed.
Lemma dead_closed es : w_alive (after es) = false -> w_conns (after es) = ∅.
Proof using Type.
  induction es as [|e es IH] using rev_ind; [done|].
  assert (after (es ++ [e]) = (step cfg (bolt_handler c) (after es) e).1) as -> by apply run_snoc.
  unfold step. destruct (w_alive (after es)) eqn:Ea; cbn [negb]; [|intros _; by apply IH].
  destruct e as [x|x ev p|x]; cbn [fst].
  - destruct (w_conns (after es) !! x); cbn [fst w_alive w_conns]; by rewrite ?Ea.
  - destruct (w_conns (after es) !! x) as [bound|]; cbn [fst w_alive w_conns]; [|by rewrite Ea].
    by destruct (r_next _).
  - done.
Qed.
Lemma after_packet es conn ev p bound : w_conns (after es) !! conn = Some bound ->
  w_state (after (es ++ [EPacket conn ev p])) = r_state (handle cfg (bolt_handler c) ev bound p (w_state (after es))).
Proof using Type.
  intros Hw. assert (after (es ++ [EPacket conn ev p]) = (step cfg (bolt_handler c) (after es) (EPacket conn ev p)).1)
    as -> by apply run_snoc.
  unfold step. destruct (w_alive (after es)) eqn:Ea; cbn [negb].
  - rewrite Hw. cbn [fst]. by destruct (r_next _).
  - by rewrite (dead_closed es Ea) in Hw.
Qed.
(** The answer to a bind by the entry of the name. *)
Lemma bind_same (HT : TextOK T) d d' m m' ev ev' bound bound' id dn dn' pw dd dd' :
  base_ok b -> bc_base c = normalize b -> reachable b d -> represents d m -> reachable b d' -> represents d' m' ->
  re_send ev 0 = true -> re_send ev' 0 = true -> parse_dn dn = Some dd -> parse_dn dn' = Some dd' ->
  wf_dn dd = true -> wf_dn dd' = true -> dd <> [] -> fold_dn dd' = fold_dn dd -> m' !! fold_dn dd = m !! fold_dn dd ->
  r_out (handle cfg (bolt_handler c) ev' bound' (p_msg id (enc_bind dn' pw)) d') =
  r_out (handle cfg (bolt_handler c) ev bound (p_msg id (enc_bind dn pw)) d).
Proof using Type.
  intros Hb Hc Hr Hm Hr' Hm' Hs Hs' Hp Hp' Hw Hw' Hne Hf Hk.
  assert (Hdn : forall x y, parse_dn x = Some y -> y <> [] -> x <> []).
  { intros x y Hx Hy ->. unfold parse_dn in Hx. rewrite (trim_dn_print _ HT) in Hx by constructor. by injection Hx as <-. }
  assert (Hne' : dd' <> []). { intros ->. by destruct dd. }
  assert (Hn : normalize dd' = normalize dd). { by rewrite !normalize_flat, Hf. }
  destruct (C80_answer T C W HT cfg c ev b d m bound id dn pw dd Hb Hr Hm Hc Hs Hp Hw) as (code & -> & H0 & H1 & H2).
  destruct (C80_answer T C W HT cfg c ev' b d' m' bound' id dn' pw dd' Hb Hr' Hm' Hc Hs' Hp' Hw') as (code' & -> & H0' & H1' & H2').
  cbn [r_out]. rewrite Hn, Hf, Hk in H0', H1'. do 2 f_equal.
  pose proof (Hdn _ _ Hp Hne) as Hd. pose proof (Hdn _ _ Hp' Hne') as Hd'.
  assert (E0 : code' = 0%N <-> code = 0%N).
  { rewrite H0, H0'. split; (intros [(? & _)|?]; [done|by right]). }
  assert (E1 : code' = 1%N <-> code = 1%N) by by rewrite H1, H1'.
  clear H0 H1 H0' H1'.
  destruct (N.eq_dec code 0) as [->|N0]; [by apply E0|]. destruct (N.eq_dec code 1) as [->|N1]; [by apply E1|].
  rewrite (H2 N0 N1). apply H2'; [by intros ?%E0|by intros ?%E1].
Qed.
End life.

(** C92.  Whatever happens on any connections, under I/O errors and crashes of
    transactions, an entry changes only by a message that names it: if the
    messages naming it leave the database as it is, it stays what it is ... *)
Theorem C92_kept (T : Text) (C : Crypto) (W : Wire) (HT : TextOK T) (cfg : server_cfg) (c : bolt_cfg)
    (b : dn) (h0 : list (env * op)) (es es' : list (event (E:=env))) (k : dn) (m m' : dir) :
  sound c b h0 (es ++ es') -> spared cfg c b h0 k es es' ->
  holds cfg c b h0 es m -> holds cfg c b h0 (es ++ es') m' -> m' !! k = m !! k.
Proof. by apply kept. Qed.
Print Assumptions C92_kept.

(** ... so a bind is answered then as it would have been before, with any
    spelling of the name and on any connection ... *)
Theorem C92_same_answer (T : Text) (C : Crypto) (W : Wire) (HT : TextOK T) (cfg : server_cfg) (c : bolt_cfg)
    (b : dn) (h0 : list (env * op)) (es es' : list (event (E:=env))) (dd dd' : dn)
    (ev ev' : renv env) (bound bound' : str) (id : Z) (dn dn' pw : str) :
  sound c b h0 (es ++ es') -> spared cfg c b h0 (fold_dn dd) es es' ->
  parse_dn dn = Some dd -> wf_dn dd = true -> dd <> [] ->
  parse_dn dn' = Some dd' -> wf_dn dd' = true -> fold_dn dd' = fold_dn dd ->
  re_send ev 0 = true -> re_send ev' 0 = true ->
  r_out (handle cfg (bolt_handler c) ev' bound' (p_msg id (enc_bind dn' pw)) (w_state (after cfg c b h0 (es ++ es')))) =
  r_out (handle cfg (bolt_handler c) ev bound (p_msg id (enc_bind dn pw)) (w_state (after cfg c b h0 es))).
Proof.
  intros Hs Hsp Hp Hw Hne Hp' Hw' Hf He He'. pose proof (sound_app c b h0 _ _ Hs) as Hs1.
  destruct (sound_holds cfg c b h0 HT _ Hs) as (m' & Hm' & _). destruct (sound_holds cfg c b h0 HT _ Hs1) as (m & Hm & _).
  pose proof (kept cfg c b h0 HT _ es es' m m' Hs Hsp Hm Hm') as Hk.
  apply (bind_same cfg c b HT _ _ m m') with (dd := dd) (dd' := dd'); try done; try apply Hs;
    by apply sound_reachable.
Qed.
Print Assumptions C92_same_answer.

(** ... the password that was set last opens the account, and no other does ... *)
Theorem C92_last_password (T : Text) (C : Crypto) (W : Wire) (HT : TextOK T) (HC : CryptoOK C) (cfg : server_cfg)
    (c : bolt_cfg) (b : dn) (h0 : list (env * op)) (es es' : list (event (E:=env))) (m : dir)
    (conn : nat) (bound : str) (ev : renv env) (id : Z) (req : packet) (r : pw_req) (dd : dn) (pw ah : str) (e : entry)
    (v : option str) (ev2 : renv env) (bound2 : str) (id2 : Z) (dn q : str) (dd2 : list rdn) :
  let es1 := es ++ [EPacket conn ev (p_msg id req)] in
  sound c b h0 (es1 ++ es') -> spared cfg c b h0 (fold_dn dd) es1 es' ->
  holds cfg c b h0 es m -> w_conns (after cfg c b h0 es) !! conn = Some bound ->
  re_h ev = no_faults -> re_send ev 0 = true -> says_password req r -> bound <> [] ->
  parse_dn (pw_for bound r) = Some dd -> wf_dn dd = true ->
  normalize dd = bound \/ bound = bc_admin c ->
  pw_chosen cfg ev r pw -> pw <> [] -> argon2_hash pw (re_salt ev) = LOk ah ->
  m !! fold_dn dd = Some e -> names_ok (e_attrs e) -> b `suffix_of` fold_dn dd ->
  r_out (handle cfg (bolt_handler c) ev bound (p_msg id req) (w_state (after cfg c b h0 es))) =
    [RFinal id ExtendedResponse 0 v] ->
  parse_dn dn = Some dd2 -> wf_dn dd2 = true -> fold_dn dd2 = fold_dn dd -> re_send ev2 0 = true ->
  (r_out (handle cfg (bolt_handler c) ev2 bound2 (p_msg id2 (enc_bind dn q)) (w_state (after cfg c b h0 (es1 ++ es')))) =
     [RFinal id2 BindResponse 0 None] <-> q = pw).
Proof.
  intros es1 Hs Hsp Hm Hw Hev Hsend Hsay Hne Hp Hwf Hal Hpw Hpwne Hah He Hn Hsuf Hout Hp2 Hwf2 Hf Hs2.
  pose proof (sound_app c b h0 _ _ Hs) as Hs1. pose proof (sound_app c b h0 _ _ Hs1) as Hs0.
  pose proof Hs1 as (Hb & Hc & Hh0 & Hcl & Hlen).
  assert (Hdd : dd <> []). { intros ->. destruct Hsuf as [x Hx]. pose proof (base_ne _ Hb). destruct x, b; done. }
  rewrite (C92_same_answer T C W HT cfg c b h0 es1 es' dd dd2 ev2 ev2 bound2 bound2 id2 (pw_for bound r) dn q) by done.
  destruct (clean_history HT cfg c (run_ops (normalize b) h0 empty_db) es) as (h & Hok & Hl & Hst).
  { intros conn' ev' p' Hin. apply (Hcl conn' ev' p'). apply in_or_app. by left. }
  fold (after cfg c b h0 es) in Hst. rewrite Hc, <- run_ops_app in Hst.
  unfold es1 in *. rewrite (after_packet cfg c b h0 es conn ev _ bound Hw). rewrite Hst in Hout |- *.
  unfold holds in Hm. rewrite Hst in Hm.
  refine (C73_then_bind T C W HT HC cfg c ev ev2 b (h0 ++ h) m bound id req r dd pw ah e v bound2 id2 q
    Hb _ _ Hm Hc Hev Hsend Hsay Hne Hp Hwf Hal Hpw Hpwne Hah He Hn Hsuf Hout Hs2).
  - by apply Forall_app.
  - rewrite !app_length in *. cbn [length] in *. lia.
Qed.
Print Assumptions C92_last_password.

(** ... after a delete answered with success nobody opens the account, with any
    password ... *)
Theorem C92_gone (T : Text) (C : Crypto) (W : Wire) (HT : TextOK T) (cfg : server_cfg) (c : bolt_cfg)
    (b : dn) (h0 : list (env * op)) (es es' : list (event (E:=env)))
    (conn : nat) (bound : str) (ev : renv env) (id : Z) (req : packet) (s : str) (dd : dn) (tag : N) (v : option str)
    (ev2 : renv env) (bound2 : str) (id2 : Z) (dn pw : str) (dd2 : list rdn) :
  let es1 := es ++ [EPacket conn ev (p_msg id req)] in
  sound c b h0 (es1 ++ es') -> spared cfg c b h0 (fold_dn dd) es1 es' ->
  w_conns (after cfg c b h0 es) !! conn = Some bound ->
  says_write req (OpDelete s) -> parse_dn s = Some dd -> wf_dn dd = true -> dd <> [] ->
  In (RFinal id tag 0 v) (r_out (handle cfg (bolt_handler c) ev bound (p_msg id req) (w_state (after cfg c b h0 es)))) ->
  parse_dn dn = Some dd2 -> wf_dn dd2 = true -> fold_dn dd2 = fold_dn dd -> re_send ev2 0 = true ->
  handle cfg (bolt_handler c) ev2 bound2 (p_msg id2 (enc_bind dn pw)) (w_state (after cfg c b h0 (es1 ++ es'))) =
    mkResult [RFinal id2 BindResponse 49 None] (Go bound2) (w_state (after cfg c b h0 (es1 ++ es'))).
Proof.
  intros es1 Hs Hsp Hw Hsay Hp Hwf Hdd Hin Hp2 Hwf2 Hf Hs2.
  pose proof (sound_app c b h0 _ _ Hs) as Hs1. pose proof (sound_app c b h0 _ _ Hs1) as Hs0.
  pose proof Hs1 as (Hb & Hc & _).
  destruct (sound_holds cfg c b h0 HT _ Hs0) as (m & Hm & _).
  destruct (sound_holds cfg c b h0 HT _ Hs1) as (m1 & Hm1 & Hu1).
  destruct (sound_holds cfg c b h0 HT _ Hs) as (m2 & Hm2 & _).
  assert (Ho : op_ok (OpDelete s)). { intros d1. rewrite Hp. by intros [= <-]. }
  destruct (C71_answer_truthful T C W HT cfg c ev bound b _ m id req (OpDelete s) tag 0 v Hb
    (sound_reachable cfg c b h0 HT es Hs0) Hm Hc Hsay Ho Hin) as [Hok _].
  destruct (Hok eq_refl) as (_ & m' & Hspec & Hm'). rewrite <- (after_packet cfg c b h0 es conn ev _ bound Hw) in Hm'.
  apply Hu1 in Hm'. subst m'. pose proof (kept cfg c b h0 HT _ es1 es' m1 m2 Hs Hsp Hm1 Hm2) as Hk.
  assert (Hnone : m1 !! fold_dn dd = None).
  { cbn [spec_op] in Hspec. rewrite Hp in Hspec. destruct dd as [|x p]; [done|]. unfold spec_delete in Hspec.
    repeat (case_match; try done). injection Hspec as <-. by rewrite lookup_delete. }
  destruct (C80_answer T C W HT cfg c ev2 b _ m2 bound2 id2 dn pw dd2 Hb (sound_reachable cfg c b h0 HT _ Hs) Hm2 Hc Hs2 Hp2 Hwf2)
    as (code & -> & H0 & H1 & H2).
  rewrite Hf, Hk, Hnone in H0, H1.
  assert (code <> 0%N).
  { intros Hx. apply H0 in Hx as [(-> & _)|(e & (_ & _ & ?) & _)]; [|done].
    unfold parse_dn in Hp2. rewrite (trim_dn_print _ HT) in Hp2 by constructor. injection Hp2 as <-. by destruct dd. }
  assert (code <> 1%N). { intros Hx. by apply H1 in Hx as (e & (_ & _ & ?) & _). }
  rewrite H2 by done. done.
Qed.
Print Assumptions C92_gone.

(** ... and a renamed user keeps the password under the new name (unless the old
    or new RDN is about passwords) and is unknown under the old one. *)
Theorem C92_renamed (T : Text) (C : Crypto) (W : Wire) (HT : TextOK T) (cfg : server_cfg) (c : bolt_cfg)
    (b : dn) (h0 : list (env * op)) (es : list (event (E:=env))) (m : dir) (e : entry)
    (conn : nat) (bound : str) (ev : renv env) (id : Z) (req : packet) (rq : moddn_req)
    (oldr newr : rdn) (p q : dn) (tag : N) (v : option str)
    (ev2 : renv env) (bound2 : str) (id2 : Z) (dn pw : str) (dd2 : list rdn) :
  let es1 := es ++ [EPacket conn ev (p_msg id req)] in
  sound c b h0 es1 -> holds cfg c b h0 es m ->
  w_conns (after cfg c b h0 es) !! conn = Some bound ->
  says_write req (OpModDn rq) -> parse_dn (md_dn rq) = Some (oldr :: p) -> parse_dn (md_newrdn rq) = Some (newr :: q) ->
  wf_dn (oldr :: p) = true -> wf_dn (newr :: q) = true ->
  m !! fold_dn (oldr :: p) = Some e -> names_ok (e_attrs e) ->
  (forall t x, In (t, x) (oldr ++ newr) -> fold t <> fold (B "userPassword")) ->
  b `suffix_of` fold_dn (newr :: p) ->
  In (RFinal id tag 0 v) (r_out (handle cfg (bolt_handler c) ev bound (p_msg id req) (w_state (after cfg c b h0 es)))) ->
  parse_dn dn = Some dd2 -> wf_dn dd2 = true -> re_send ev2 0 = true ->
  let answer := r_out (handle cfg (bolt_handler c) ev2 bound2 (p_msg id2 (enc_bind dn pw)) (w_state (after cfg c b h0 es1))) in
  (fold_dn dd2 = fold_dn (newr :: p) ->
     (answer = [RFinal id2 BindResponse 0 None] <-> pw <> [] /\ accepts pw (stored_password e))) /\
  (fold_dn dd2 = fold_dn (oldr :: p) -> answer = [RFinal id2 BindResponse 49 None]).
Proof.
  intros es1 Hs1 Hm Hw Hsay Hp Hq Hwf Hwq He Hn Hpwd Hsuf Hin Hp2 Hwf2 Hs2 answer.
  pose proof (sound_app c b h0 _ _ Hs1) as Hs0. pose proof Hs1 as (Hb & Hc & _).
  destruct (sound_holds cfg c b h0 HT _ Hs1) as (m1 & Hm1 & Hu1).
  assert (Ho : op_ok (OpModDn rq)). { split; intros d1; rewrite ?Hp, ?Hq; by intros [= <-]. }
  destruct (C71_answer_truthful T C W HT cfg c ev bound b _ m id req (OpModDn rq) tag 0 v Hb
    (sound_reachable cfg c b h0 HT es Hs0) Hm Hc Hsay Ho Hin) as [Hok _].
  destruct (Hok eq_refl) as (_ & m' & Hspec & Hm'). rewrite <- (after_packet cfg c b h0 es conn ev _ bound Hw) in Hm'.
  apply Hu1 in Hm'. subst m'.
  cbn [spec_op] in Hspec. rewrite Hp, Hq in Hspec. unfold spec_rename in Hspec.
  replace (fold_dn [newr] ++ tail (fold_dn (oldr :: p))) with (fold_dn (newr :: p)) in Hspec by done.
  destruct (bool_decide _) eqn:E1; [done|]. apply bool_decide_eq_false in E1. rewrite He in Hspec.
  destruct (is_leaf m (fold_dn (oldr :: p))) eqn:E2; [|done]. cbn [negb] in Hspec.
  destruct (apply_modify _ _) as [e'| | |] eqn:Em; try done. cbn [rbind] in Hspec.
  destruct (negb (name_fits _)); [done|]. injection Hspec as <-.
  assert (Hst : stored_password e' = stored_password e).
  { unfold stored_password. cbn [wf_dn forallb] in Hwf, Hwq. apply andb_true_iff in Hwf as [? _], Hwq as [? _].
    eapply (renamed_other HT e e' _ _ oldr newr (md_delold rq)); try done. by repeat constructor. }
  assert (Hkk : fold_dn (oldr :: p) <> fold_dn (newr :: p)). { intros Heq. apply E1. rewrite <- Heq, He. by eexists. }
  unfold answer. clear answer.
  destruct (C80_answer T C W HT cfg c ev2 b _ _ bound2 id2 dn pw dd2 Hb (sound_reachable cfg c b h0 HT _ Hs1) Hm1 Hc Hs2 Hp2 Hwf2)
    as (code & -> & H0 & H1 & H2). cbn [r_out].
  assert (Hdn : fold_dn dd2 <> [] -> dn <> []).
  { intros Hx ->. unfold parse_dn in Hp2. rewrite (trim_dn_print _ HT) in Hp2 by constructor. by injection Hp2 as <-. }
  split; intros Hf.
  - rewrite Hf, lookup_insert in H0. split.
    + intros [= Hcode]. apply H0 in Hcode as [(Hx & _)|(e1 & (Hpw & _ & [= <-]) & Ha)]; [by apply Hdn in Hx; [|by rewrite Hf]|].
      rewrite Hst in Ha. done.
    + intros [Hpw Ha]. assert (code = 0%N) as ->; [|done]. apply H0. right. exists e'.
      split; [|by rewrite Hst]. split; [done|]. split; [|done].
      rewrite (normalize_flat dd2 Hwf2), (normalize_flat b (base_wf _ Hb)), (base_folded _ Hb), Hf.
      apply flat_suffix; [apply Hb|done].
  - rewrite Hf, lookup_insert_ne, lookup_delete in H0, H1 by done. rewrite H2; [done| |].
    + intros Hx. apply H0 in Hx as [(Hx & _)|(e1 & (_ & _ & ?) & _)]; [|done]. by apply Hdn in Hx; [|by rewrite Hf].
    + intros Hx. by apply H1 in Hx as (e1 & (_ & _ & ?) & _).
Qed.
Print Assumptions C92_renamed.

(** C23, the values: after a rename the entry has the values it had, without those
    of the old RDN if they are to be deleted, and those of the new RDN (if the
    types in the old RDN are distinct) ... *)
Theorem C23_values (T : Text) (C : Crypto) (HT : TextOK T)
    (b : dn) (d d' : db) (m : dir) (ev : env) (r : moddn_req) (oldr newr : rdn) (p q : dn) (e : entry) :
  base_ok b -> reachable b d -> represents d m ->
  run_op (normalize b) ev (OpModDn r) d = (Done (Ok tt), d') ->
  parse_dn (md_dn r) = Some (oldr :: p) -> parse_dn (md_newrdn r) = Some (newr :: q) ->
  wf_dn (oldr :: p) = true -> wf_dn (newr :: q) = true ->
  m !! fold_dn (oldr :: p) = Some e -> names_ok (e_attrs e) -> NoDup (map (fun x => fold x.1) oldr) ->
  let among t v (l : rdn) := exists t' v', In (t', v') l /\ fold t = fold t' /\ fold v = fold v' in
  exists e', represents d' (<[fold_dn (newr :: p) := e']> (delete (fold_dn (oldr :: p)) m)) /\
    (forall t v, has_value t v (e_attrs e') <->
       (has_value t v (e_attrs e) /\ ~ (md_delold r = true /\ among t v oldr)) \/ among t v newr) /\
    (** attributes of other types stay as they are, in their order *)
    (forall P, (forall a, P a = true -> forall t v, In (t, v) (oldr ++ newr) -> fold (a_name a) <> fold t) ->
       bfilter P (e_attrs e') = bfilter P (e_attrs e)).
Proof.
  intros Hb Hr Hm Hrun Hp Hq Hwf Hwq He Hn Hnd among.
  assert (Ho : op_ok (OpModDn r)). { split; intros d1; rewrite ?Hp, ?Hq; by intros [= <-]. }
  destruct (op_ok_inv HT b d m ev (OpModDn r) d' Hb Hr Hm Ho Hrun) as (m' & Hs & Hm' & _).
  cbn [spec_op] in Hs. rewrite Hp, Hq in Hs. unfold spec_rename in Hs.
  replace (fold_dn [newr] ++ tail (fold_dn (oldr :: p))) with (fold_dn (newr :: p)) in Hs by done.
  destruct (bool_decide _) eqn:E1; [done|]. rewrite He in Hs.
  destruct (is_leaf m (fold_dn (oldr :: p))) eqn:E2; [|done]. cbn [negb] in Hs.
  destruct (apply_modify _ _) as [e'| | |] eqn:Em; try done. cbn [rbind] in Hs.
  destruct (negb (name_fits _)); [done|]. injection Hs as <-.
  cbn [wf_dn forallb] in Hwf, Hwq. apply andb_true_iff in Hwf as [Hwf _], Hwq as [Hwq _].
  exists e'. split; [done|]. split.
  - intros t v. by rewrite (renamed_values HT e e' _ oldr newr _ t v Hwf Hwq Hn Hnd Em).
  - intros P HP. destruct (modify_untouched _ _ _ Em) as [_ Hu]. cbn [m_changes e_attrs] in Hu.
    set (cs := (if md_delold r then _ else _) ++ _) in Hu.
    assert (Hcs : forall a, P a = true -> named_by cs a = false).
    { intros a Ha. apply not_true_iff_false. intros Hx. unfold named_by in Hx.
      apply existsb_exists in Hx as (ch & Hin & Hs). apply same_eq in Hs.
      apply in_app_or in Hin as [Hin|Hin].
      - destruct (md_delold r); [|done]. apply in_map_iff in Hin as ([t v] & <- & Hin).
        apply (HP a Ha t v); [apply in_or_app; by left|done].
      - apply in_map_iff in Hin as ([t v] & <- & Hin). apply (HP a Ha t v); [apply in_or_app; by right|done]. }
    assert (Hff : forall l, bfilter P (bfilter (fun a => negb (named_by cs a)) l) = bfilter P l).
    { induction l as [|a l IH]; [done|]. cbn [List.filter]. destruct (P a) eqn:Ea.
      - rewrite (Hcs a Ea). cbn [negb List.filter]. by rewrite Ea, IH.
      - destruct (negb _); cbn [List.filter]; by rewrite ?Ea, IH. }
    by rewrite <- (Hff (e_attrs e')), <- (Hff (e_attrs e)), Hu.
Qed.
Print Assumptions C23_values.
(** Ada gets the name cn=Ada L+sn=L, and loses the value of uid but keeps the
    password. *)
Example C23_values_case :
  let r := mkModDn (B "uid=ada,ou=people,o=base") (B "cn=Ada L+sn=L") true in
  (run_op (T:=ascii_text) (C:=toy) (normalize (T:=ascii_text) b0) no_faults (OpModDn r) d1).1 = Done (Ok tt) /\
  parse_dn (T:=ascii_text) (md_newrdn r) = Some [[(B "cn", B "Ada L"); (B "sn", B "L")]] /\
  m1 !! ([(B "uid", B "ada")] :: [(B "ou", B "people")] :: b0) = Some e_ada /\ names_ok (T:=ascii_text) (e_attrs e_ada) /\
  has_value (T:=ascii_text) (B "UID") (B "ada") (e_attrs e_ada).
Proof.
  split; [vm_compute; reflexivity|]. split; [vm_compute; reflexivity|]. split; [vm_compute; reflexivity|]. split.
  - split; [by repeat constructor|]. apply (bool_decide_unpack _). vm_compute. exact I.
  - exists (mkAttr (B "uid") [B "Ada"]), (B "Ada"). split; [by left|]. split; [vm_compute; reflexivity|]. split; [by left|vm_compute; reflexivity].
Qed.
(** ... but if the old RDN has two values of one type, all but the last of them
    stay although they are to be deleted. *)
Theorem C23_old_values_refuted : exists (T : Text) (C : Crypto) (b : dn) (d d' : db) (r : moddn_req) (oldr newr : rdn)
    (p : dn) (e e' : entry) (t v : str),
  TextOK T /\ base_ok b /\ reachable b d /\ op_ok (OpModDn r) /\ md_delold r = true /\
  parse_dn (md_dn r) = Some (oldr :: p) /\ parse_dn (md_newrdn r) = Some [newr] /\
  search d (md_dn r) 0 = Ok ([e], None) /\ names_ok (e_attrs e) /\
  run_op (normalize b) no_faults (OpModDn r) d = (Done (Ok tt), d') /\
  search d' (normalize (newr :: p)) 0 = Ok ([e'], None) /\
  In (t, v) oldr /\ (forall t' v', In (t', v') newr -> fold t' <> fold t) /\ has_value t v (e_attrs e').
Proof.
  exists ascii_text, toy, b0.
  pose (h := [good (OpPut e_base); good (OpPut e_people); good (OpPut (mkEntry (B "cn=a+cn=b,ou=people,o=base") [mkAttr (B "cn") [B "a"; B "b"]]))]).
  pose (r := mkModDn (B "cn=a+cn=b,ou=people,o=base") (B "uid=c") true).
  exists (run_ops (T:=ascii_text) (C:=toy) (normalize (T:=ascii_text) b0) h empty_db).
  exists (run_ops (T:=ascii_text) (C:=toy) (normalize (T:=ascii_text) b0) (h ++ [good (OpModDn r)]) empty_db).
  exists r, [(B "cn", B "a"); (B "cn", B "b")], [(B "uid", B "c")], ([(B "ou", B "people")] :: b0).
  exists (mkEntry (B "cn=a+cn=b,ou=people,o=base") [mkAttr (B "cn") [B "a"; B "b"]]).
  exists (mkEntry (B "uid=c,ou=people,o=base") [mkAttr (B "cn") [B "a"]; mkAttr (B "uid") [B "c"]]), (B "cn"), (B "a").
  split; [apply ascii_text_ok|]. split; [apply b0_ok|]. split.
  { exists h. split; [apply ops_okb_ok; vm_compute; reflexivity|]. split; [vm_compute; reflexivity|done]. }
  split; [apply op_okb_ok; vm_compute; reflexivity|]. split; [done|].
  split; [vm_compute; reflexivity|]. split; [vm_compute; reflexivity|]. split; [vm_compute; reflexivity|].
  split. { split; [by repeat constructor|]. apply NoDup_singleton. }
  split.
  { rewrite run_ops_app. cbn [run_ops good].
    assert (Hx : (run_op (T:=ascii_text) (C:=toy) (normalize (T:=ascii_text) b0) no_faults (OpModDn r)
      (run_ops (T:=ascii_text) (C:=toy) (normalize (T:=ascii_text) b0) h empty_db)).1 = Done (Ok tt)) by (vm_compute; reflexivity).
    destruct (run_op _ _ _ _) as [out d']. cbn [fst snd] in *. by rewrite Hx. }
  split; [vm_compute; reflexivity|]. split; [by left|]. split.
  { intros t' v' [[= <- <-]|[]]. vm_compute. done. }
  exists (mkAttr (B "cn") [B "a"]), (B "a"). split; [by left|]. split; [done|]. split; [by left|done].
Qed.
Print Assumptions C23_old_values_refuted.

(** A connection keeps its identity whatever happens on the others - also if the
    entry of its user is changed, renamed or deleted. *)
Theorem C92_session (T : Text) (C : Crypto) (W : Wire) (cfg : server_cfg) (c : bolt_cfg)
    (b : dn) (h0 : list (env * op)) (es es' : list (event (E:=env))) (conn : nat) :
  (forall e, In e es' -> match e with EOpen k | EPacket k _ _ | EClose k => k end <> conn) ->
  w_alive (after cfg c b h0 (es ++ es')) = true ->
  w_conns (after cfg c b h0 (es ++ es')) !! conn = w_conns (after cfg c b h0 es) !! conn.
Proof.
  induction es' as [|e es' IH] using rev_ind; intros Hno; [by rewrite app_nil_r|]. rewrite app_assoc.
  set (w := after cfg c b h0 (es ++ es')) in *.
  assert (after cfg c b h0 ((es ++ es') ++ [e]) = (step cfg (bolt_handler c) w e).1) as -> by apply run_snoc.
  assert (Hal : w_alive (step cfg (bolt_handler c) w e).1 = true -> w_alive w = true).
  { unfold step. destruct (w_alive w) eqn:E; [done|]. cbn [negb fst]. by rewrite E. }
  intros Ha. rewrite <- IH; [|intros x Hx; apply Hno; apply in_or_app; by left|by apply Hal].
  assert (He : match e with EOpen k | EPacket k _ _ | EClose k => k end <> conn).
  { apply Hno. apply in_or_app. right. by left. }
  revert Ha. unfold step. destruct (negb (w_alive w)); [done|]. destruct e as [j|j ev p|j].
  - destruct (w_conns w !! j); [done|]. intros _. cbn [fst w_conns]. by apply lookup_insert_ne.
  - destruct (w_conns w !! j); [|done]. cbn [fst].
    destruct (r_next _); [intros _; by apply lookup_insert_ne|intros _; by apply lookup_delete_ne|done].
  - intros _. cbn [fst w_conns]. by apply lookup_delete_ne.
Qed.
Print Assumptions C92_session.

Lemma in1 {A} (x : A) l : l = [x] -> In x l.
Proof. intros ->. by left. Qed.
Section case.
#[local] Existing Instances ascii_text toy wire1.
(** What the messages of the examples ask for. *)
Lemma asks_delete bound id dn o : asks bound (p_msg id (enc_delete dn)) o -> o = OpDelete dn.
Proof.
  intros (i & req & rest & id' & [= <- <- <-] & _ & [Hw|(r & hash & Hw & _)]).
  - by destruct Hw as [_ [[? _]|[[_ (x & (_ & <- & _) & ->)]|[[? _]|[? _]]]]].
  - by destruct Hw as (_ & ? & _).
Qed.
Lemma asks_add bound id a o : asks bound (p_msg id (enc_add a)) o ->
  exists r, parse_add (enc_add a) = Ok r /\ o = OpPut (entry_from_add r).
Proof.
  intros (i & req & rest & id' & [= <- <- <-] & _ & [Hw|(r & hash & Hw & _)]).
  - destruct Hw as [_ [[_ (r & Hr & ->)]|[[? _]|[[? _]|[? _]]]]]; try done. exists r. split; [by apply add_iff|done].
  - by destruct Hw as (_ & ? & _).
Qed.
Lemma asks_pw73 bound id o : asks bound (p_msg id pw73) o -> exists hash, o = OpPassword (mkPw carl1 [] hash).
Proof.
  intros (i & req & rest & id' & [= <- <- <-] & _ & [Hw|(r & hash & Hw & ->)]).
  - by destruct Hw as [_ [[? _]|[[? _]|[[? _]|[? _]]]]].
  - apply password_iff in Hw as (body & He & Hp); [|done|done]. exists hash.
    vm_compute in He. injection He as <-. vm_compute in Hp. injection Hp as <-. done.
Qed.
Lemma asks_bind bound id dn pw o : ~ asks bound (p_msg id (enc_bind dn pw)) o.
Proof.
  intros (i & req & rest & id' & [= <- <- <-] & _ & [Hw|(r & hash & Hw & _)]).
  - by destruct Hw as [_ [[? _]|[[? _]|[[? _]|[? _]]]]].
  - by destruct Hw as (_ & ? & _).
Qed.
Lemma clean_add id a r : parse_add (enc_add a) = Ok r -> dn_text_ok (e_dn (entry_from_add r)) ->
  clean (p_msg id (enc_add a)).
Proof.
  intros Hr Hn. split.
  - intros bound o _ (r' & Hr' & ->)%asks_add. rewrite Hr in Hr'. by injection Hr' as <-.
  - intros dn' pw' n (id' & req & v & x & y & (i & rest & [= <- <- <-] & _ & _) & ? & _) Hp. done.
Qed.
Lemma clean_pw73 id : clean (p_msg id pw73).
Proof.
  split.
  - intros bound o _ (hash & ->)%asks_pw73. intros dd. vm_compute. by intros [= <-].
  - intros dn' pw' n (id' & req & v & x & y & (i & rest & [= <- <- <-] & _ & _) & ? & _) Hp. done.
Qed.
Definition eve : add_req := mkAdd (B "uid=eve,ou=people,o=base") [(B "userPassword", [B "apple"])].
(** Carl binds on connection 1, the administrator on connection 0. *)
Definition es92 : list (event (E:=env)) :=
  [EOpen 0; EOpen 1; EOpen 2; EPacket 1 ev1 (p_msg 1 (enc_bind carl (B "pw")));
   EPacket 0 ev1 (p_msg 1 (enc_bind admin1 (B "secret")))].
(** After Carl has changed the password, Eve is added, an unknown connection
    tries to delete Carl, and Carl leaves. *)
Definition later92 : list (event (E:=env)) :=
  [EPacket 0 ev1 (p_msg 2 (enc_add eve)); EPacket 2 ev1 (p_msg 1 (enc_delete carl)); EClose 1].
Definition chg92 : event (E:=env) := EPacket 1 ev1 (p_msg 2 pw73).
Lemma carl_ok : dn_text_ok carl.
Proof. intros dd. vm_compute. by intros [= <-]. Qed.
Lemma bind_clean id dn pw n : parse_normalize dn = Some n -> dn_text_ok n -> clean (p_msg id (enc_bind dn pw)).
Proof. intros H1 H2. apply clean_bind. intros n'. rewrite H1. by intros [= <-]. Qed.
Example C92_case :
  sound c1 b0 h1 ((es92 ++ [chg92]) ++ later92) /\
  spared cfg1 c1 b0 h1 ([(B "uid", B "carl")] :: [(B "ou", B "people")] :: b0) (es92 ++ [chg92]) later92 /\
  w_conns (after cfg1 c1 b0 h1 es92) !! 1 = Some carl /\
  r_out (handle1 carl (p_msg 2 pw73) (w_state (after cfg1 c1 b0 h1 es92))) = [RFinal 2 ExtendedResponse 0 None] /\
  r_out (handle1 [] (p_msg 9 (enc_bind (B "UID=Carl, ou=people,o=base") (B "new")))
    (w_state (after cfg1 c1 b0 h1 ((es92 ++ [chg92]) ++ later92)))) = [RFinal 9 BindResponse 0 None] /\
  r_out (handle1 [] (p_msg 9 (enc_bind (B "UID=Carl, ou=people,o=base") (B "pw")))
    (w_state (after cfg1 c1 b0 h1 ((es92 ++ [chg92]) ++ later92)))) = [RFinal 9 BindResponse 49 None] /\
  r_out (handle1 [] (p_msg 9 (enc_bind (B "uid=eve,ou=people,o=base") (B "apple")))
    (w_state (after cfg1 c1 b0 h1 ((es92 ++ [chg92]) ++ later92)))) = [RFinal 9 BindResponse 0 None].
Proof.
  split; [|split].
  - split; [exact b0_ok|]. split; [reflexivity|]. split; [apply ops_okb_ok; vm_compute; reflexivity|]. split; [|vm_compute; reflexivity].
    intros conn ev p Hin. unfold es92, chg92, later92 in Hin. cbn [Datatypes.app In] in Hin.
    repeat (destruct Hin as [H|Hin]; [try discriminate H; injection H as <- <- <-|]); try done.
    + eapply bind_clean; [vm_compute; reflexivity|]. intros dd. vm_compute. by intros [= <-].
    + eapply bind_clean; [vm_compute; reflexivity|]. intros dd. vm_compute. by intros [= <-].
    + apply clean_pw73.
    + eapply clean_add; [vm_compute; reflexivity|]. intros dd. vm_compute. by intros [= <-].
    + apply clean_delete, carl_ok.
  - unfold later92. apply spared_cons; [|apply spared_cons; [|apply spared_cons; [done|apply spared_nil]]].
    + intros bound o _ Ha Hk. exfalso. apply asks_add in Ha as (r & Hr & ->).
      vm_compute in Hr. injection Hr as <-. revert Hk. vm_compute. by intros [|[]].
    + intros bound o Hw _ _. rewrite (after_packet _ _ _ _ _ _ _ _ _ Hw).
      assert (bound = []) as ->; [|apply C34_anonymous_request].
      assert (Hx : match w_conns (after cfg1 c1 b0 h1 ((es92 ++ [chg92]) ++ [EPacket 0 ev1 (p_msg 2 (enc_add eve))])) !! 2 with
        | Some [] => true | _ => false end = true) by (vm_compute; reflexivity).
      rewrite Hw in Hx. by destruct bound.
  - split; [vm_compute; reflexivity|]. split; [vm_compute; reflexivity|]. split; [vm_compute; reflexivity|].
    split; vm_compute; reflexivity.
Qed.

(** Carl is deleted, and another Carl added; Ada is renamed. *)
Definition carl' : add_req := mkAdd carl [(B "uid", [B "carl"]); (B "userPassword", [B "other"])].
Definition del92 : list (event (E:=env)) := [EPacket 0 ev1 (p_msg 2 (enc_delete carl))].
Definition new92 : list (event (E:=env)) := [EPacket 0 ev1 (p_msg 3 (enc_add carl'))].
Definition tries (es : list (event (E:=env))) (dn pw : string) : list response :=
  r_out (handle1 [] (p_msg 9 (enc_bind (B dn) (B pw))) (w_state (after cfg1 c1 b0 h1 es))).
Definition ren92 : packet := enc_moddn (mkModDn carl (B "uid=karl") true) None.
Example C92_gone_case :
  sound c1 b0 h1 ((es92 ++ del92) ++ []) /\ says_write (enc_delete carl) (OpDelete carl) /\
  r_out (handle1 admin1 (p_msg 2 (enc_delete carl)) (w_state (after cfg1 c1 b0 h1 es92))) = [RFinal 2 DelResponse 0 None] /\
  tries (es92 ++ del92) "UID=carl,ou=people,o=base" "pw" = [RFinal 9 BindResponse 49 None] /\
  says_write ren92 (OpModDn (mkModDn carl (B "uid=karl") true)) /\
  (let es := es92 ++ [EPacket 0 ev1 (p_msg 2 ren92)] in
   tries es "uid=carl,ou=people,o=base" "pw" = [RFinal 9 BindResponse 49 None] /\
   tries es "uid=Karl,ou=people,o=base" "pw" = [RFinal 9 BindResponse 0 None] /\
   tries es "uid=Karl,ou=people,o=base" "other" = [RFinal 9 BindResponse 49 None]).
Proof.
  split.
  { split; [exact b0_ok|]. split; [reflexivity|]. split; [apply ops_okb_ok; vm_compute; reflexivity|]. split; [|vm_compute; reflexivity].
    intros conn ev p Hin. unfold es92, del92 in Hin. cbn [Datatypes.app In] in Hin.
    repeat (destruct Hin as [H|Hin]; [try discriminate H; injection H as <- <- <-|]); try done.
    - eapply bind_clean; [vm_compute; reflexivity|]. intros dd. vm_compute. by intros [= <-].
    - eapply bind_clean; [vm_compute; reflexivity|]. intros dd. vm_compute. by intros [= <-].
    - apply clean_delete, carl_ok. }
  split. { split; [done|]. right; left. split; [done|]. exists carl. split; [|done]. split; [done|]. split; [done|].
    eexists. vm_compute. reflexivity. }
  split; [vm_compute; reflexivity|].
  split; [vm_compute; reflexivity|].
  split. { split; [done|]. right; right; right. split; [done|]. eexists. split; [|reflexivity]. apply moddn_iff. vm_compute. reflexivity. }
  split; [vm_compute; reflexivity|]. split; vm_compute; reflexivity.
Qed.
Lemma gone_carl pw : r_out (handle cfg1 (bolt_handler c1) ev1 [] (p_msg 9 (enc_bind carl pw)) (w_state (after cfg1 c1 b0 h1 (es92 ++ del92)))) =
  [RFinal 9 BindResponse 49 None].
Proof.
  destruct C92_gone_case as (Hs & Hsay & Hin & _).
  assert (Hw : w_conns (after cfg1 c1 b0 h1 es92) !! 0 = Some admin1) by (vm_compute; reflexivity).
  assert (Hp : parse_dn carl = Some ([(B "uid", B "carl")] :: [(B "ou", B "people")] :: b0)) by (vm_compute; reflexivity).
  pose proof (C92_gone ascii_text toy wire1 ascii_text_ok cfg1 c1 b0 h1 es92 [] 0 admin1 ev1 2 (enc_delete carl) carl _ DelResponse None
    ev1 [] 9 carl pw _ Hs (spared_nil _ _ _ _ _ _) Hw Hsay Hp eq_refl ltac:(discriminate) (in1 _ _ Hin) Hp eq_refl eq_refl eq_refl) as H.
  rewrite app_nil_r in H. exact (f_equal r_out H).
Qed.
Definition es92a : list (event (E:=env)) :=
  [EOpen 0; EOpen 1; EPacket 0 ev1 (p_msg 1 (enc_bind admin1 (B "secret")));
   EPacket 1 ev1 (p_msg 1 (enc_bind admin1 (B "secret")))].
Definition del92a : list (event (E:=env)) := [EPacket 0 ev1 (p_msg 2 (enc_delete admin1))].
Lemma sound92a : sound c1 b0 h1 (es92a ++ del92a).
Proof.
  split; [exact b0_ok|]. split; [reflexivity|]. split; [apply ops_okb_ok; vm_compute; reflexivity|]. split; [|vm_compute; reflexivity].
  intros conn ev p Hin. unfold es92a, del92a in Hin. cbn [Datatypes.app In] in Hin.
  repeat (destruct Hin as [H|Hin]; [try discriminate H; injection H as <- <- <-|]); try done.
  - eapply bind_clean; [vm_compute; reflexivity|]. intros dd. vm_compute. by intros [= <-].
  - eapply bind_clean; [vm_compute; reflexivity|]. intros dd. vm_compute. by intros [= <-].
  - apply clean_delete. intros dd. vm_compute. by intros [= <-].
Qed.
Lemma gone_admin pw : r_out (handle cfg1 (bolt_handler c1) ev1 [] (p_msg 9 (enc_bind (bc_admin c1) pw))
  (w_state (after cfg1 c1 b0 h1 (es92a ++ del92a)))) = [RFinal 9 BindResponse 49 None].
Proof.
  pose proof sound92a as Hs. rewrite <- (app_nil_r (es92a ++ del92a)) in Hs.
  assert (Hsay : says_write (enc_delete admin1) (OpDelete admin1)).
  { split; [done|]. right; left. split; [done|]. exists admin1. split; [|done]. split; [done|]. split; [done|].
    eexists. vm_compute. reflexivity. }
  assert (Hin : r_out (handle cfg1 (bolt_handler c1) ev1 admin1 (p_msg 2 (enc_delete admin1)) (w_state (after cfg1 c1 b0 h1 es92a))) =
    [RFinal 2 DelResponse 0 None]) by (vm_compute; reflexivity).
  assert (Hw : w_conns (after cfg1 c1 b0 h1 es92a) !! 0 = Some admin1) by (vm_compute; reflexivity).
  assert (Hp : parse_dn admin1 = Some ([(B "uid", B "ada")] :: [(B "ou", B "people")] :: b0)) by (vm_compute; reflexivity).
  pose proof (C92_gone ascii_text toy wire1 ascii_text_ok cfg1 c1 b0 h1 es92a [] 0 admin1 ev1 2 (enc_delete admin1) admin1 _ DelResponse None
    ev1 [] 9 admin1 pw _ Hs (spared_nil _ _ _ _ _ _) Hw Hsay Hp eq_refl ltac:(discriminate) (in1 _ _ Hin) Hp eq_refl eq_refl eq_refl) as H.
  rewrite app_nil_r in H. exact (f_equal r_out H).
Qed.
End case.

(** So a removed user stays: who is bound to a name when its entry is deleted is
    taken for whoever gets an entry of that name later, and can take over the
    new account without knowing its password ... *)
Theorem C92_successor_refuted : exists (T : Text) (C : Crypto) (W : Wire) (cfg : server_cfg) (c : bolt_cfg) (b : dn)
    (h0 : list (env * op)) (es es' es'' : list (event (E:=env))) (conn : nat) (ev : renv env) (p : packet)
    (name old mine his : str) (id : Z),
  TextOK T /\ sound c b h0 (es ++ es' ++ es'' ++ [EPacket conn ev p]) /\ name <> bc_admin c /\
  let opens es pw := r_out (handle cfg (bolt_handler c) ev [] (p_msg id (enc_bind name pw)) (w_state (after cfg c b h0 es))) =
    [RFinal id BindResponse 0 None] in
  opens es old /\ w_conns (after cfg c b h0 es) !! conn = Some name /\
  (** then [name] is deleted, by a message on another connection *)
  (forall pw, ~ opens (es ++ es') pw) /\
  (** and added anew with another password *)
  opens (es ++ es' ++ es'') his /\ ~ opens (es ++ es' ++ es'') old /\
  (forall e, In e (es' ++ es'') -> match e with EOpen k | EPacket k _ _ | EClose k => k end <> conn) /\
  (** and then changed by the old connection. *)
  opens (es ++ es' ++ es'' ++ [EPacket conn ev p]) mine /\ ~ opens (es ++ es' ++ es'' ++ [EPacket conn ev p]) his.
Proof.
  exists ascii_text, toy, wire1, cfg1, c1, b0, h1, es92, del92, new92, 1, ev1, (p_msg 4 pw73), carl, (B "pw"), (B "new"), (B "other"), 9%Z.
  split; [apply ascii_text_ok|]. split.
  { split; [exact b0_ok|]. split; [reflexivity|]. split; [apply ops_okb_ok; vm_compute; reflexivity|]. split; [|vm_compute; reflexivity].
    intros conn ev p Hin. unfold es92, del92, new92 in Hin. cbn [Datatypes.app In] in Hin.
    repeat (destruct Hin as [H|Hin]; [try discriminate H; injection H as <- <- <-|]); try done.
    - eapply bind_clean; [vm_compute; reflexivity|]. intros dd. vm_compute. by intros [= <-].
    - eapply bind_clean; [vm_compute; reflexivity|]. intros dd. vm_compute. by intros [= <-].
    - apply clean_delete, carl_ok.
    - eapply clean_add; [vm_compute; reflexivity|]. intros dd. vm_compute. by intros [= <-].
    - apply clean_pw73. }
  split; [by vm_compute|]. cbv zeta.
  split; [vm_compute; reflexivity|]. split; [vm_compute; reflexivity|]. split.
  { intros pw Hx. pose proof (gone_carl pw) as Hy. rewrite Hx in Hy. discriminate Hy. }
  split; [vm_compute; reflexivity|]. split; [vm_compute; discriminate|]. split.
  { intros e [<-|[<-|[]]]; done. }
  split; [vm_compute; reflexivity|vm_compute; discriminate].
Qed.
Print Assumptions C92_successor_refuted.
(** ... and an administrator who was deleted goes on as administrator. *)
Theorem C92_administrator_refuted : exists (T : Text) (C : Crypto) (W : Wire) (cfg : server_cfg) (c : bolt_cfg) (b : dn)
    (h0 : list (env * op)) (es es' : list (event (E:=env))) (conn : nat) (ev : renv env) (id : Z) (req : packet) (s : str) (tag : N),
  TextOK T /\ sound c b h0 (es ++ es') /\
  w_conns (after cfg c b h0 es) !! conn = Some (bc_admin c) /\
  (forall e, In e es' -> match e with EOpen k | EPacket k _ _ | EClose k => k end <> conn) /\
  (forall pw, r_out (handle cfg (bolt_handler c) ev [] (p_msg id (enc_bind (bc_admin c) pw)) (w_state (after cfg c b h0 (es ++ es')))) =
    [RFinal id BindResponse 49 None]) /\
  says_write req (OpDelete s) /\
  r_out (handle cfg (bolt_handler c) ev (bc_admin c) (p_msg id req) (w_state (after cfg c b h0 (es ++ es')))) = [RFinal id tag 0 None].
Proof.
  exists ascii_text, toy, wire1, cfg1, c1, b0, h1, es92a, del92a, 1, ev1, 9%Z, (enc_delete carl), carl, DelResponse.
  split; [apply ascii_text_ok|]. split; [exact sound92a|]. split; [vm_compute; reflexivity|]. split; [by intros e [<-|[]]|].
  split; [exact gone_admin|]. split; [apply C92_gone_case|]. vm_compute. reflexivity.
Qed.
Print Assumptions C92_administrator_refuted.
