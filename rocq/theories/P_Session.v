(** Properties C73 and C74: changing a password and searching by messages. *)
From Verif Require Import Bytes Text Dn DnProofs Res Entry EntryProofs Password PasswordProofs
  Db DbSpec IdProofs DbProofs DbOps DbSearch DbFacts DbMore P_Password P_Db
  Packet Filter FilterProofs P_Filter Handler Server ServerProofs CrashProofs P_Server
  Encode EncodeProofs E2e E2eProofs P_E2e SessionProofs.

(** The user a password request is about, on a connection bound to [bound]. *)
Definition pw_for (bound : str) (r : pw_req) : str :=
  match pw_user r with [] => bound | u => u end.
(** [pw] is the password asked for, or the generated one if none is given. *)
Definition pw_chosen (cfg : server_cfg) (ev : renv env) (r : pw_req) (pw : str) : Prop :=
  (pw_new r <> [] /\ pw = pw_new r) \/
  (pw_new r = [] /\ generate_password (sv_genlen cfg) (re_draws ev) = Ok pw).

(** C73.  A password request of a user for themselves, or of the administrator for
    anyone, stores a hash of the password that accepts this password only, or
    changes nothing and says so ... *)
Theorem C73_change (T : Text) (C : Crypto) (W : Wire) (HT : TextOK T) (HC : CryptoOK C) (cfg : server_cfg)
    (c : bolt_cfg) (ev : renv env) (b : dn) (d : db) (m : dir) (bound : str) (id : Z) (req : packet)
    (r : pw_req) (dd : dn) (pw h0 : str) :
  base_ok b -> reachable b d -> represents d m -> bc_base c = normalize b ->
  re_h ev = no_faults -> re_send ev 0 = true -> says_password req r -> bound <> [] ->
  parse_dn (pw_for bound r) = Some dd -> wf_dn dd = true ->
  normalize dd = bound \/ bound = bc_admin c ->
  pw_chosen cfg ev r pw -> argon2_hash pw (re_salt ev) = LOk h0 ->
  let res := handle cfg (bolt_handler c) ev bound (p_msg id req) d in
  exists h, h = B "{ARGON2}" ++ h0 /\ (forall q, validate q h = Ok true <-> q = pw) /\
  match spec_op b (OpPassword (mkPw (pw_for bound r) (pw_old r) h)) m with
  | Ok m' => r_out res = [RFinal id ExtendedResponse 0 (match pw_new r with [] => Some h | _ => None end)] /\
      r_next res = Go bound /\ represents (r_state res) m'
  | Err _ => res = mkResult [RFinal id ExtendedResponse 80 None] (Go bound) d
  | Panic => res = mkResult [] Dead d
  | Diverge => False
  end.
Proof.
  intros Hb Hr Hm Hc Hev Hs Hsay Hne Hp Hwf Hal Hpw Hh res. unfold res. clear res.
  assert (Hhash : hash_password pw (B "{ARGON2}") (re_salt ev) = Ok (B "{ARGON2}" ++ h0)).
  { unfold hash_password. change (seqb (B "{ARGON2}") [] || seqb (B "{ARGON2}") (B "{CLEARTEXT}")) with false.
    cbn match. rewrite seqb_refl, Hh. done. }
  exists (B "{ARGON2}" ++ h0). split; [done|]. set (h := B "{ARGON2}" ++ h0) in *. split.
  { intros q. destruct (C29_hash_then_validate T C HT HC pw _ _ _ q Hhash) as [[_ H]|[? _]]; [exact H|done]. }
  rewrite (password_handled cfg c ev bound id req r d Hsay).
  rewrite (extended_password cfg c ev bound req r pw h d Hsay Hne); [|by destruct Hpw as [[_ ?]|[? _]]|by destruct Hpw as [[? _]|[_ ?]]|done].
  set (o := OpPassword (mkPw (pw_for bound r) (pw_old r) h)).
  assert (Hbp : bolt_password c (re_h ev) bound (mkPw (match pw_user r with [] => bound | u => u end) (pw_old r) h) d =
    bolt_write c no_faults o (fun _ => (ResultOther, true)) d).
  { rewrite Hev. fold (pw_for bound r). unfold bolt_password. cbn [pw_user].
    assert (is_empty bound = false) as -> by by destruct bound.
    assert (is_empty (pw_for bound r) = false) as ->.
    { unfold pw_for. destruct (pw_user r); [by destruct bound|done]. }
    unfold parse_normalize. rewrite Hp. cbn [fmap option_fmap option_map].
    destruct Hal as [-> | Hal].
    - rewrite seqb_refl. done.
    - rewrite <- Hal at 1. rewrite seqb_refl. cbn [negb]. rewrite andb_false_r. done. }
  rewrite Hbp. unfold bolt_write. rewrite Hc.
  assert (Ho : op_ok o). { intros d1. cbn [pw_user]. rewrite Hp. by intros [= <-]. }
  pose proof (C13_database_refines_directory T C HT b d m o Hb Hr Hm Ho) as H13.
  destruct (spec_op b o m) as [m'|e| |] eqn:Es.
  - destruct H13 as (d' & -> & Hm'). change (Success =? Success)%N with true. cbn match.
    unfold send_final. rewrite Hs. cbn [app r_out r_next r_state]. by destruct (pw_new r).
  - rewrite H13. change (ResultOther =? Success)%N with false. cbn [negb]. cbn match.
    unfold send_final. rewrite Hs. done.
  - rewrite H13. done.
  - done.
Qed.
Print Assumptions C73_change.
(** ... after which the user can bind with the new password and no other ... *)
Theorem C73_then_bind (T : Text) (C : Crypto) (W : Wire) (HT : TextOK T) (HC : CryptoOK C) (cfg : server_cfg)
    (c : bolt_cfg) (ev ev2 : renv env) (b : dn) (hist : list (env * op)) (m : dir) (bound : str) (id : Z)
    (req : packet) (r : pw_req) (dd : dn) (pw h0 : str) (e : entry) (v : option str)
    (bound2 : str) (id2 : Z) (q : str) :
  base_ok b -> Forall (fun p => op_ok p.2) hist -> (N.of_nat (length hist) + 2 < 2 ^ 64)%N ->
  let d := run_ops (normalize b) hist empty_db in
  represents d m -> bc_base c = normalize b ->
  re_h ev = no_faults -> re_send ev 0 = true -> says_password req r -> bound <> [] ->
  parse_dn (pw_for bound r) = Some dd -> wf_dn dd = true ->
  normalize dd = bound \/ bound = bc_admin c ->
  pw_chosen cfg ev r pw -> pw <> [] -> argon2_hash pw (re_salt ev) = LOk h0 ->
  m !! fold_dn dd = Some e -> names_ok (e_attrs e) -> b `suffix_of` fold_dn dd ->
  let res := handle cfg (bolt_handler c) ev bound (p_msg id req) d in
  r_out res = [RFinal id ExtendedResponse 0 v] -> re_send ev2 0 = true ->
  (r_out (handle cfg (bolt_handler c) ev2 bound2 (p_msg id2 (enc_bind (pw_for bound r) q)) (r_state res)) =
     [RFinal id2 BindResponse 0 None] <-> q = pw).
Proof.
  intros Hb Hok Hlen d Hm Hc Hev Hs Hsay Hne Hp Hwf Hal Hpw Hpwne Hh He Hn Hsuf res Hres Hs2.
  assert (Hr : reachable b d). { exists hist. repeat split; [done|lia]. }
  destruct (C73_change T C W HT HC cfg c ev b d m bound id req r dd pw h0 Hb Hr Hm Hc Hev Hs Hsay Hne Hp Hwf Hal Hpw Hh)
    as (h & _ & Hval & Hcase).
  fold res in Hcase.
  assert (Hrr : reachable b (r_state res)).
  { destruct (handle_asks cfg c ev bound (p_msg id req) d) as [Hd|(o & Ha & Hd)]; fold res in Hd.
    - rewrite Hd. done.
    - exists (hist ++ [(re_h ev, o)]). split; [|split].
      + apply Forall_app. split; [done|]. constructor; [|done]. cbn [snd].
        destruct Ha as (i & req' & rest & id' & [= <- <- <-] & _ & [Hw|(r' & hash & Hsay' & ->)]).
        * destruct Hsay as (_ & Ht & _). destruct Hw as [_ [[Hx _]|[[Hx _]|[[Hx _]|[Hx _]]]]]; by rewrite Hx in Ht.
        * assert (r' = r) as ->.
          { pose proof Hsay as (Hcl & Ht & _).
            apply password_iff in Hsay as (body & H1 & H2); [|done|done].
            apply password_iff in Hsay' as (body' & H3 & H4); [|done|done].
            rewrite H1 in H3. injection H3 as <-. rewrite H2 in H4. by injection H4. }
          intros d1. cbn [pw_user]. fold (pw_for bound r). rewrite Hp. by intros [= <-].
      + rewrite app_length. cbn. lia.
      + rewrite run_ops_app. unfold d in Hd. rewrite Hc in Hd. exact Hd. }
  cbn [spec_op pw_user] in Hcase. rewrite Hp in Hcase. unfold spec_password in Hcase. rewrite He in Hcase.
  destruct (check_old e _) as [[]|x| |]; cbn [rbind] in Hcase;
    try (rewrite Hcase in Hres; done); [|done].
  cbn [pw_user pw_new] in Hcase.
  destruct (apply_modify e _) as [e'|x| |] eqn:Em; try (rewrite Hcase in Hres; done); [|done].
  destruct Hcase as (_ & _ & Hm').
  assert (Hst : stored_password e' = h).
  { unfold stored_password. apply (stored_single HT); [by repeat constructor| |].
    - apply apply_modify_inv in Em as (r1 & od & md & attrs & _ & _ & _ & Hch & ->). cbn [m_changes] in Hch.
      cbn [apply_changes] in Hch. destruct (apply_change _ _ _ _) as [a'| | |] eqn:Eac; try done.
      cbn in Hch. injection Hch as <-. cbn [e_attrs].
      unfold apply_change in Eac. cbn [c_op c_type c_vals] in Eac.
      destruct (replace_allowed _ _ _); [|done]. injection Eac as <-.
      apply replace_names_ok; [by repeat constructor|done].
    - by apply single_replace with (t := B "userPassword") (vs := [h]) in Em. }
  rewrite (bind_handled cfg c ev2 bound2 id2 _ q (r_state res) Hs2).
  rewrite (C33_bind_iff T C HT b (r_state res) _ c (re_h ev2) _ q dd Hb Hrr Hm' Hc Hp Hwf).
  assert (Hpn : is_Some (parse_normalize (pw_for bound r))).
  { unfold parse_normalize. rewrite Hp. by eexists. }
  assert (Hune : pw_for bound r <> []).
  { unfold pw_for. by destruct (pw_user r). }
  assert (Hacc : accepts q h <-> q = pw) by by rewrite <- (validate_accepts HT).
  split.
  - intros [[(? & _)|(_ & _ & e1 & He1 & Ha)] _]; [done|].
    rewrite lookup_insert in He1. injection He1 as <-. rewrite Hst in Ha. by apply Hacc.
  - intros ->. split; [|done]. right. split; [done|]. split.
    + rewrite (normalize_flat dd Hwf), (normalize_flat b (base_wf _ Hb)), (base_folded _ Hb).
      apply flat_suffix; [apply Hb|done].
    + exists e'. rewrite lookup_insert. split; [done|]. rewrite Hst. by apply Hacc.
Qed.
Print Assumptions C73_then_bind.
(** ... a generated password stays unknown: the value in the answer is not it,
    so it does not open the account ... *)
Theorem C73_generated_unknown (T : Text) (C : Crypto) (W : Wire) (cfg : server_cfg) (c : bolt_cfg)
    (ev : renv env) (d : db) (bound : str) (id : Z) (req : packet) (r : pw_req) (v : str) :
  says_password req r ->
  In (RFinal id ExtendedResponse 0 (Some v)) (r_out (handle cfg (bolt_handler c) ev bound (p_msg id req) d)) ->
  pw_new r = [] /\ exists pw, generate_password (sv_genlen cfg) (re_draws ev) = Ok pw /\ v <> pw.
Proof.
  intros Hsay. rewrite (password_handled cfg c ev bound id req r d Hsay).
  pose proof Hsay as (Hcl & Ht & _).
  apply password_iff in Hsay as (body & He & Hp); [|done|done].
  unfold handle_extended. rewrite He, seqb_refl. unfold handle_pwmod.
  assert (Hbad : forall code s (n : next), code <> 0%N ->
    ~ In (RFinal id ExtendedResponse 0 (Some v)) (r_out (send_final ev 0 [] (RFinal id ExtendedResponse code None) n (s : db)))).
  { intros code s n Hc. unfold send_final. destruct (re_send ev 0); cbn; [|by intros []]. by intros [[= ?]|[]]. }
  destruct (is_empty bound); [by intros ?%Hbad|]. rewrite Hp.
  destruct (pw_new r) as [|x l] eqn:En; cbn [is_empty].
  - destruct (generate_password (sv_genlen cfg) (re_draws ev)) as [pw|e| |] eqn:Eg;
      [|by intros ?%Hbad|by intros []|by intros []].
    destruct (hash_password pw (B "{ARGON2}") (re_salt ev)) as [h|e| |] eqn:Eh;
      [|by intros ?%Hbad|by intros []|by intros []].
    destruct (h_password _ _ _ _ _) as [[[code err]| |] s']; [|by intros []|by intros []].
    destruct (code =? Success)%N eqn:Ec.
    + change (negb (Success =? Success)%N && negb false) with false. cbn match.
      unfold send_final. destruct (re_send ev 0); cbn; [|by intros []]. intros [[= <-]|[]].
      split; [done|]. exists pw. split; [done|].
      unfold hash_password in Eh. change (seqb (B "{ARGON2}") [] || seqb (B "{ARGON2}") (B "{CLEARTEXT}")) with false in Eh.
      cbn match in Eh. rewrite seqb_refl in Eh. destruct (argon2_hash pw (re_salt ev)) as [h0| |]; try done.
      injection Eh as <-. intros Heq.
      destruct (C32_length_and_alphabet _ _ _ Eg) as (_ & Hall & _). rewrite <- Heq in Hall.
      apply Forall_inv in Hall. revert Hall. vm_compute. intuition discriminate.
    + rewrite Ec. cbn [negb andb]. destruct err; cbn [negb]; [|by intros []].
      apply N.eqb_neq in Ec. by intros ?%Hbad.
  - destruct (hash_password (x :: l) (B "{ARGON2}") (re_salt ev)) as [h|e| |] eqn:Eh;
      [|by intros ?%Hbad|by intros []|by intros []].
    destruct (h_password _ _ _ _ _) as [[[code err]| |] s']; [|by intros []|by intros []].
    destruct (code =? Success)%N eqn:Ec.
    + change (negb (Success =? Success)%N && negb false) with false. cbn match.
      unfold send_final. destruct (re_send ev 0); cbn; [|by intros []]. by intros [[= ?]|[]].
    + rewrite Ec. cbn [negb andb]. destruct err; cbn [negb]; [|by intros []].
      apply N.eqb_neq in Ec. by intros ?%Hbad.
Qed.
Print Assumptions C73_generated_unknown.
(** ... and without a bind, for a name that does not parse, and for requests that
    are no password request, nothing changes and the answer is an error. *)
Theorem C73_refused (T : Text) (C : Crypto) (W : Wire) (cfg : server_cfg) (c : bolt_cfg)
    (ev : renv env) (d : db) (bound : str) (id : Z) (req : packet) :
  re_send ev 0 = true -> p_cls req = ClassApplication -> p_tag req = ExtendedRequest ->
  let res := handle cfg (bolt_handler c) ev bound (p_msg id req) d in
  (forall r, says_password req r -> bound = [] -> res = mkResult [RFinal id ExtendedResponse 53 None] (Go bound) d) /\
  (forall r pw h, says_password req r -> bound <> [] -> pw_chosen cfg ev r pw ->
     hash_password pw (B "{ARGON2}") (re_salt ev) = Ok h -> parse_dn (pw_for bound r) = None ->
     res = mkResult [RFinal id ExtendedResponse 1 None] (Go bound) d) /\
  ((forall r, ~ says_password req r) ->
     exists code, In code [1; 53; 84]%N /\ res = mkResult [RFinal id ExtendedResponse code None] (Go bound) d).
Proof.
  intros Hs Hcl Ht res. unfold res. clear res.
  assert (Hd : handle cfg (bolt_handler c) ev bound (p_msg id req) d =
    match handle_extended cfg (bolt_handler c) ev bound req d with
    | (HRet (code, v), s') => send_final ev 0 [] (RFinal id ExtendedResponse code v) (Go bound) s'
    | (_, s') => mkResult [] Dead s'
    end).
  { unfold handle, p_msg. cbn [p_kids p_seq as_int p_int p_val].
    rewrite Hcl. change (negb (ClassApplication =? ClassApplication)%N) with false. cbn match.
    unfold dispatch. rewrite Ht. done. }
  split; [|split].
  - intros r Hsay ->. rewrite Hd. apply password_iff in Hsay as (body & He & Hp); [|done|done].
    unfold handle_extended. rewrite He, seqb_refl. cbn. unfold send_final. by rewrite Hs.
  - intros r pw h Hsay Hb Hpw Hh Hn. rewrite Hd.
    rewrite (extended_password cfg c ev bound req r pw h d Hsay Hb);
      [|by destruct Hpw as [[_ ?]|[? _]]|by destruct Hpw as [[? _]|[_ ?]]|done].
    fold (pw_for bound r). unfold bolt_password. cbn [pw_user].
    assert (is_empty bound = false) as -> by by destruct bound.
    assert (is_empty (pw_for bound r) = false) as ->.
    { unfold pw_for. destruct (pw_user r); [by destruct bound|done]. }
    unfold parse_normalize. rewrite Hn. cbn. unfold send_final. by rewrite Hs.
  - intros Hno. rewrite Hd. unfold handle_extended.
    destruct (parse_extended req) as [[oid body]|e| |] eqn:He.
    + destruct (seqb oid pwmod_oid) eqn:Eo.
      2:{ exists 1%N. split; [by left|]. unfold send_final. by rewrite Hs. }
      apply seqb_eq in Eo as ->. unfold handle_pwmod. destruct (is_empty bound) eqn:Eb.
      { exists 53%N. split; [by right; left|]. cbn. unfold send_final. by rewrite Hs. }
      destruct (parse_pwmod body) as [r|e| |] eqn:Ep.
      { destruct (Hno r). apply password_iff; [done|done|]. by exists body. }
      all: exists 84%N; split; [by right; right; left|].
      all: unfold parse_pwmod in Ep; destruct body as [b|]; [|done].
      all: destruct (decode_inner (p_data b)) as [inner|]; [|done].
      all: destruct (3 <? length (p_kids inner));
        [|destruct (pw_fields_else (p_kids inner) (mkPw [] [] [])) as [Hx|[r Hx]]; rewrite Hx in Ep].
      all: try done.
      all: injection Ep as <-; cbn; unfold send_final; by rewrite Hs.
    + exists 1%N. split; [by left|]. unfold send_final. by rewrite Hs.
    + exfalso. unfold parse_extended in He. destruct (p_kids req) as [|o rest]; [done|].
      destruct (1 <? length rest); [done|]. destruct (_ && _); [|done]. destruct rest; [done|].
      by destruct (_ && _).
    + exfalso. unfold parse_extended in He. destruct (p_kids req) as [|o rest]; [done|].
      destruct (1 <? length rest); [done|]. destruct (_ && _); [|done]. destruct rest; [done|].
      by destruct (_ && _).
Qed.
Print Assumptions C73_refused.

(** Carl changes their password; the inner packet of the examples' decoder names
    Carl and the password "new". *)
Definition carl1 : str := B "uid=carl,ou=people,o=base".
Definition pw73 : packet := enc_extended (B "1.3.6.1.4.1.4203.1.11.1") (Some (B "body")).
Example C73_case :
  says_password (W:=wire1) pw73 (mkPw carl1 [] (B "new")) /\
  pw_chosen cfg1 ev1 (mkPw carl1 [] (B "new")) (B "new") /\
  pw_chosen (mkServer true 2) (mkREnv no_faults [] [1; 73] (fun _ => true)) (mkPw [] [] []) (B "1.") /\
  argon2_hash (Crypto:=toy) (B "new") (re_salt ev1) = LOk (B "salt|new") /\
  r_out (handle1 carl1 (p_msg 4 pw73) d1) = [RFinal 4 ExtendedResponse 0 None] /\
  (let d' := r_state (handle1 carl1 (p_msg 4 pw73) d1) in
   r_out (handle1 [] (p_msg 5 (enc_bind carl1 (B "new"))) d') = [RFinal 5 BindResponse 0 None] /\
   r_out (handle1 [] (p_msg 5 (enc_bind carl1 (B "pw"))) d') = [RFinal 5 BindResponse 49 None]) /\
  r_out (handle1 [] (p_msg 4 pw73) d1) = [RFinal 4 ExtendedResponse 53 None].
Proof.
  split.
  { split; [done|]. split; [done|]. exists (p_ctx 0 (B "1.3.6.1.4.1.4203.1.11.1")), [p_ctx 1 (B "body")].
    repeat (split; [done|]). right. exists (p_ctx 1 (B "body")). repeat (split; [done|]). right.
    eexists. split; [reflexivity|]. split; [cbn; lia|]. split; [|reflexivity].
    constructor; [by split|]. constructor; [by split|]. constructor. }
  split. { left. done. }
  split. { right. split; [done|]. vm_compute. reflexivity. }
  vm_compute. repeat split.
Qed.

(** C74.  A search message is answered by the entries in scope that satisfy the
    filter, each once with the attributes asked for, and then by success; the
    directory is not changed, whoever asks. *)
Theorem C74_search (T : Text) (C : Crypto) (W : Wire) (HT : TextOK T) (cfg : server_cfg) (c : bolt_cfg)
    (ev : renv env) (b : dn) (d : db) (m : dir) (bound : str) (id : Z) (req : packet)
    (r : search_req) (f : flt) (dd : dn) :
  base_ok b -> reachable b d -> represents d m ->
  p_cls req = ClassApplication -> p_tag req = SearchRequest -> says_search req r ->
  compile_filter (sr_filter r) = Some (filter_packet f) -> sv_enforce cfg = true ->
  (forall k, re_send ev k = true) ->
  parse_dn (sr_base r) = Some dd -> wf_dn dd = true -> is_Some (m !! fold_dn dd) ->
  scope_ok (sr_scope r) -> names_plain (sr_scope r) dd m ->
  supported f = true -> (sr_size r <= 0)%Z ->
  exists (sent : list entry) (keep : entry -> bool),
    handle cfg (bolt_handler c) ev bound (p_msg id req) d =
      mkResult (map (fun e => REntry id (select_attributes (sr_attrs r) e)) sent ++
                [RFinal id SearchResultDone 0 None]) (Go bound) d /\
    (forall e, keep e = true <-> sat e f) /\
    sent ≡ₚ map snd (bfilter (fun p => in_scope (sr_scope r) (fold_dn dd) p.1 && keep p.2) (map_to_list m)).
Proof.
  intros Hb Hr Hm Hcl Ht Hsay Hf Hen Hs Hp Hwf Hdd Hsc Hnp Hsup Hz.
  destruct (C43_search_exact T C HT b d m r f dd Hb Hr Hm Hp Hwf Hdd Hsc Hnp Hsup Hz)
    as (es & sent & keep & Hsearch & Hloop & Hk & Hperm).
  exists sent, keep. split; [|done].
  unfold handle, p_msg. cbn [p_kids p_seq as_int p_int p_val].
  rewrite Hcl. change (negb (ClassApplication =? ClassApplication)%N) with false. cbn match.
  unfold dispatch. rewrite Ht.
  change (SearchRequest =? AddRequest)%N with false. change (SearchRequest =? BindRequest)%N with false.
  change (SearchRequest =? CompareRequest)%N with false. change (SearchRequest =? DelRequest)%N with false.
  change (SearchRequest =? ExtendedRequest)%N with false. change (SearchRequest =? ModifyDNRequest)%N with false.
  change (SearchRequest =? ModifyRequest)%N with false. change (SearchRequest =? SearchRequest)%N with true. cbn match.
  unfold handle_search. apply search_iff in Hsay. rewrite Hsay, Hen, Hf.
  cbn [h_search bolt_handler]. unfold bolt_search. rewrite Hsearch. cbn [f_err f_entries].
  assert (Hloop' : search_loop true (filter_packet f) r (re_send ev) es 0 =
    search_loop true (filter_packet f) r (fun _ => true) es 0).
  { generalize 0. clear - Hs. induction es as [|e es IH]; intros i; [done|]. cbn [search_loop]. rewrite Hs.
    destruct (apply_filter _ _) as [[]| | |]; try done. destruct (filter_scope _ _ _) as [[]| | |]; try done.
    all: by rewrite !IH. }
  rewrite Hloop', Hloop. unfold send_final. rewrite Hs, map_map. done.
Qed.
Print Assumptions C74_search.
Lemma d_search {T : Text} {C : Crypto} {W : Wire} {S E} (cfg : server_cfg) (h : handler S E) (ev : renv E) bound id s q :
  p_tag q = SearchRequest -> dispatch cfg h ev bound id q s =
  match handle_search cfg h ev bound q s with
  | (es, HRet o, s') =>
      send_final ev (Datatypes.S (length es)) (map (REntry id) es)
        (RFinal id SearchResultDone (match o with Some code => code | None => Success end) None)
        (match o with Some _ => Drop | None => Go bound end) s'
  | (es, _, s') => mkResult (map (REntry id) es) Dead s'
  end.
Proof. intros H. unfold dispatch. rewrite H. reflexivity. Qed.
(** With a limit on the number of entries: as many of them, and sizeLimitExceeded
    (4) exactly if there are more; the connection is then closed. *)
Theorem C74_limited (T : Text) (C : Crypto) (W : Wire) (HT : TextOK T) (cfg : server_cfg) (c : bolt_cfg)
    (ev : renv env) (b : dn) (d : db) (m : dir) (bound : str) (id : Z) (req : packet)
    (r : search_req) (f : flt) (dd : dn) :
  base_ok b -> reachable b d -> represents d m ->
  p_cls req = ClassApplication -> p_tag req = SearchRequest -> says_search req r ->
  compile_filter (sr_filter r) = Some (filter_packet f) -> sv_enforce cfg = true ->
  (forall k, re_send ev k = true) ->
  parse_dn (sr_base r) = Some dd -> wf_dn dd = true -> is_Some (m !! fold_dn dd) ->
  scope_ok (sr_scope r) -> names_plain (sr_scope r) dd m ->
  supported f = true -> (0 < sr_size r)%Z ->
  exists (found : list entry) (keep : entry -> bool),
    handle cfg (bolt_handler c) ev bound (p_msg id req) d =
      mkResult (map (fun e => REntry id (select_attributes (sr_attrs r) e)) (take (Z.to_nat (sr_size r)) found) ++
                [RFinal id SearchResultDone (if (Z.of_nat (length found) <=? sr_size r)%Z then 0 else 4) None])
        (if (Z.of_nat (length found) <=? sr_size r)%Z then Go bound else Drop) d /\
    (forall e, keep e = true <-> sat e f) /\
    found ≡ₚ map snd (bfilter (fun p => in_scope (sr_scope r) (fold_dn dd) p.1 && keep p.2) (map_to_list m)).
Proof.
  intros Hb Hr Hm Hcl Ht Hsay Hf Hen Hs Hp Hwf Hdd Hsc Hnp Hsup Hz.
  destruct (C43_search_exact T C HT b d m (mkSearch (sr_base r) (sr_scope r) 0 (sr_types r) (sr_filter r) (sr_attrs r)) f dd
    Hb Hr Hm Hp Hwf Hdd Hsc Hnp Hsup ltac:(done)) as (es & sent & keep & Hsearch & Hloop & Hk & Hperm).
  exists sent, keep. split; [|done].
  unfold handle, p_msg. cbn [p_kids p_seq as_int p_int p_val].
  rewrite Hcl. change (negb (ClassApplication =? ClassApplication)%N) with false. cbn match.
  rewrite d_search by done.
  unfold handle_search. apply search_iff in Hsay. rewrite Hsay, Hen, Hf.
  cbn [h_search bolt_handler sr_base sr_scope] in *. unfold bolt_search. rewrite Hsearch. cbn [f_err f_entries].
  assert (Hl : forall es i l, search_loop true (filter_packet f)
      (mkSearch (sr_base r) (sr_scope r) 0 (sr_types r) (sr_filter r) (sr_attrs r)) (fun _ => true) es i = (l, Ok tt) ->
      (Z.of_nat i <= sr_size r)%Z ->
      search_loop true (filter_packet f) r (re_send ev) es i =
        (take (Z.to_nat (sr_size r) - i) l,
         if (Z.of_nat i + Z.of_nat (length l) <=? sr_size r)%Z then Ok tt else perr SizeLimitExceeded)).
  { clear - Hs Hz. induction es as [|e es IH]; intros i l; cbn [search_loop sr_base sr_scope sr_size sr_attrs].
    - intros [= <-] Hi. rewrite take_nil. cbn [length]. rewrite (proj2 (Z.leb_le _ _)) by lia. done.
    - destruct (apply_filter _ e) as [[]| | |]; [|by apply IH|done..].
      destruct (filter_scope _ _ _) as [[]| | |]; [|by apply IH|done..].
      change (0 <? 0)%Z with false. cbn [andb].
      destruct (search_loop _ _ (mkSearch _ _ _ _ _ _) _ es (S i)) as [l' x] eqn:El. intros [= <- ->] Hi.
      rewrite Hs. destruct (sr_size r <=? Z.of_nat i)%Z eqn:Ei.
      + rewrite (proj2 (Z.ltb_lt _ _)) by done. cbn [andb]. apply Z.leb_le in Ei.
        replace (Z.to_nat (sr_size r) - i) with 0 by lia. cbn [take length].
        rewrite (proj2 (Z.leb_gt _ _)) by lia. done.
      + rewrite andb_false_r. apply Z.leb_gt in Ei. rewrite (IH (S i) l' El) by lia.
        replace (Z.to_nat (sr_size r) - i) with (S (Z.to_nat (sr_size r) - S i)) by lia. cbn [take length].
        f_equal. replace (Z.of_nat (S i) + Z.of_nat (length l'))%Z with (Z.of_nat i + Z.of_nat (S (length l')))%Z by lia. done. }
  rewrite (Hl es 0 _ Hloop) by lia. rewrite Nat.sub_0_r, map_length. change (Z.of_nat 0) with 0%Z. rewrite Z.add_0_l. cbn [sr_attrs].
  unfold send_final, perr. rewrite firstn_map.
  destruct (Z.of_nat (length sent) <=? sr_size r)%Z; cbn beta iota zeta; by rewrite Hs, map_map.
Qed.
Print Assumptions C74_limited.
(** A base that cannot be parsed or is not there, and a scope other than the three,
    give success without any entry. *)
Theorem C74_nothing (T : Text) (C : Crypto) (W : Wire) (HT : TextOK T) (cfg : server_cfg) (c : bolt_cfg)
    (ev : renv env) (b : dn) (d : db) (m : dir) (bound : str) (id : Z) (req : packet) (r : search_req) (flt : packet) :
  base_ok b -> reachable b d -> represents d m ->
  p_cls req = ClassApplication -> p_tag req = SearchRequest -> says_search req r ->
  compile_filter (sr_filter r) = Some flt -> (forall k, re_send ev k = true) ->
  parse_dn (sr_base r) = None \/
  (exists dd, parse_dn (sr_base r) = Some dd /\ wf_dn dd = true /\ m !! fold_dn dd = None) \/
  (exists dd, parse_dn (sr_base r) = Some dd /\ wf_dn dd = true /\ ~ scope_ok (sr_scope r)) ->
  handle cfg (bolt_handler c) ev bound (p_msg id req) d =
    mkResult [RFinal id SearchResultDone 0 None] (Go bound) d.
Proof.
  intros Hb Hr Hm Hcl Ht Hsay Hf Hs Hcase.
  unfold handle, p_msg. cbn [p_kids p_seq as_int p_int p_val].
  rewrite Hcl. change (negb (ClassApplication =? ClassApplication)%N) with false. cbn match.
  rewrite d_search by done.
  unfold handle_search. apply search_iff in Hsay. rewrite Hsay, Hf.
  cbn [h_search bolt_handler]. unfold bolt_search.
  assert (Hsearch : exists x, search d (sr_base r) (sr_scope r) = Ok ([], x)).
  { destruct Hcase as [Hn|Hcase]; [unfold search, parse_normalize; rewrite Hn; by eexists|].
    destruct (decide (scope_ok (sr_scope r))) as [Hsc|Hsc].
    - destruct Hcase as [(dd & Hp & Hwf & Hn)|(dd & _ & _ & ?)]; [|done].
      eexists. by apply (C43_missing_base T C HT b d m (sr_base r) (sr_scope r) dd).
    - assert (exists dd, parse_dn (sr_base r) = Some dd) as (dd & Hp) by (destruct Hcase as [(dd & ? & _)|(dd & ? & _)]; by exists dd).
      unfold search, parse_normalize. rewrite Hp. cbn [fmap option_fmap option_map].
      destruct (reach_sim HT b d m Hb Hr Hm) as [_ (g & Hg & _)].
      assert (Hid : exists i, get_id (normalize dd) d = Ok i).
      { destruct (search_calm b d g (sr_base r) 0 Hb Hg) as (es & x & Hx). unfold search, parse_normalize in Hx. rewrite Hp in Hx.
        cbn [fmap option_fmap option_map] in Hx. destruct (get_id (normalize dd) d) as [i| | |]; by eauto. }
      destruct Hid as (i & ->). cbn [rbind]. destruct (i =? 0)%N; [by eexists|].
      assert (Hz : (sr_scope r <> 0 /\ sr_scope r <> 1 /\ sr_scope r <> 2)%Z).
      { unfold scope_ok in Hsc. change ScopeBase with 0%Z in *. change ScopeOne with 1%Z in *. change ScopeSub with 2%Z in *. tauto. }
      change ScopeBase with 0%Z. change ScopeOne with 1%Z. change ScopeSub with 2%Z.
      rewrite !(proj2 (Z.eqb_neq _ _)) by tauto. by eexists. }
  destruct Hsearch as (x & ->). cbn [f_err f_entries search_loop].
  unfold send_final. destruct (sv_enforce cfg); by rewrite Hs.
Qed.
Print Assumptions C74_nothing.
(** A packet that states no search, or a filter that cannot be compiled, gives
    operationsError, whatever the handler, and the connection is closed. *)
Theorem C74_malformed (T : Text) (C : Crypto) (W : Wire) (S E : Type) (cfg : server_cfg) (h : handler S E)
    (ev : renv E) (bound : str) (id : Z) (req : packet) (s : S) :
  p_cls req = ClassApplication -> p_tag req = SearchRequest -> re_send ev 1 = true ->
  (forall r, ~ says_search req r) \/
  (sv_enforce cfg = true /\ exists r, says_search req r /\ compile_filter (sr_filter r) = None) ->
  handle cfg h ev bound (p_msg id req) s = mkResult [RFinal id SearchResultDone 1 None] Drop s.
Proof.
  intros Hcl Ht Hs Hcase.
  unfold handle, p_msg. cbn [p_kids p_seq as_int p_int p_val].
  rewrite Hcl. change (negb (ClassApplication =? ClassApplication)%N) with false. cbn match.
  rewrite d_search by done. unfold handle_search.
  destruct Hcase as [Hno|(Hen & r & Hsay & Hf)].
  - destruct (parse_search_calm req) as [H1 H2]. destruct (parse_search req) as [r|x| |] eqn:Er; [|..]; try done.
    + by destruct (Hno r); apply search_iff.
    + unfold send_final. cbn [length]. by rewrite Hs.
  - apply search_iff in Hsay. rewrite Hsay, Hen, Hf. unfold send_final. cbn [length]. by rewrite Hs.
Qed.
Print Assumptions C74_malformed.
(** In particular, reading one entry. *)
Theorem C74_read (T : Text) (C : Crypto) (W : Wire) (HT : TextOK T) (cfg : server_cfg) (c : bolt_cfg)
    (ev : renv env) (b : dn) (d : db) (m : dir) (bound : str) (id : Z) (req : packet)
    (r : search_req) (f : flt) (dd : dn) (e : entry) :
  base_ok b -> reachable b d -> represents d m ->
  p_cls req = ClassApplication -> p_tag req = SearchRequest -> says_search req r ->
  compile_filter (sr_filter r) = Some (filter_packet f) -> sv_enforce cfg = true ->
  (forall k, re_send ev k = true) ->
  parse_dn (sr_base r) = Some dd -> wf_dn dd = true -> m !! fold_dn dd = Some e ->
  sr_scope r = 0%Z -> names_plain 0 dd m -> supported f = true -> (sr_size r <= 0)%Z ->
  let out := r_out (handle cfg (bolt_handler c) ev bound (p_msg id req) d) in
  (sat e f -> out = [REntry id (select_attributes (sr_attrs r) e); RFinal id SearchResultDone 0 None]) /\
  (~ sat e f -> out = [RFinal id SearchResultDone 0 None]).
Proof.
  intros Hb Hr Hm Hcl Ht Hsay Hf Hen Hs Hp Hwf He Hsc Hnp Hsup Hz out. unfold out. clear out.
  destruct (C74_search T C W HT cfg c ev b d m bound id req r f dd) as (sent & keep & -> & Hk & Hperm); try done.
  { left. by rewrite Hsc. } { by rewrite Hsc. }
  cbn [r_out]. rewrite Hsc in Hperm.
  assert (Hl : bfilter (fun p => in_scope 0 (fold_dn dd) p.1 && keep p.2) (map_to_list m) =
    if keep e then [(fold_dn dd, e)] else []).
  { assert (Hin : (fold_dn dd, e) ∈ map_to_list m) by by apply elem_of_map_to_list.
    pose proof (NoDup_fst_map_to_list m) as Hnd. clear - Hin Hnd.
    induction (map_to_list m) as [|[k x] l IH]; [by apply elem_of_nil in Hin|].
    cbn [fmap list_fmap fst] in Hnd. apply NoDup_cons in Hnd as [Hk Hnd]. cbn [List.filter fst snd].
    unfold in_scope at 1. cbn [Z.eqb]. destruct (bool_decide_reflect (k = fold_dn dd)) as [->|Hne].
    - assert (x = e) as ->.
      { apply elem_of_cons in Hin as [[= ->]|Hin]; [done|]. destruct Hk. by apply (elem_of_list_fmap_1 fst) in Hin. }
      assert (bfilter (fun p => in_scope 0 (fold_dn dd) p.1 && keep p.2) l = []) as ->.
      { clear - Hk. induction l as [|[k x] l IH]; [done|]. cbn [fmap list_fmap fst] in Hk.
        apply not_elem_of_cons in Hk as [Hne Hk]. cbn [List.filter fst snd]. unfold in_scope at 1. cbn [Z.eqb].
        rewrite bool_decide_eq_false_2 by done. cbn [andb]. by apply IH. }
      cbn [andb]. by destruct (keep e).
    - cbn [andb]. apply elem_of_cons in Hin as [[= ? _]|Hin]; [done|]. by apply IH. }
  rewrite Hl in Hperm. split.
  - intros Hsat. apply Hk in Hsat. rewrite Hsat in Hperm. cbn in Hperm.
    apply Permutation_sym, Permutation_length_1_inv in Hperm as ->. done.
  - intros Hns. destruct (keep e) eqn:Ek; [by apply Hk in Ek|]. cbn in Hperm.
    apply Permutation_sym, Permutation_nil in Hperm as ->. done.
Qed.
Print Assumptions C74_read.

(** What the administrator has added with success, anyone can read on any
    connection. *)
Theorem C74_add_then_read (T : Text) (C : Crypto) (W : Wire) (HT : TextOK T) (cfg : server_cfg) (c : bolt_cfg)
    (ev ev2 : renv env) (b : dn) (hist : list (env * op)) (m : dir) (bound : str) (id id2 : Z)
    (req req2 : packet) (a : add_req) (r : search_req) (f : flt) (da dd : dn) (bound2 : str) :
  base_ok b -> Forall (fun p => op_ok p.2) hist -> (N.of_nat (length hist) + 2 < 2 ^ 64)%N ->
  let d := run_ops (normalize b) hist empty_db in
  represents d m -> bc_base c = normalize b ->
  p_cls req = ClassApplication -> p_tag req = AddRequest -> says_add req a ->
  parse_dn (ad_dn a) = Some da -> wf_dn da = true ->
  let res := handle cfg (bolt_handler c) ev bound (p_msg id req) d in
  r_out res = [RFinal id AddResponse 0 None] ->
  p_cls req2 = ClassApplication -> p_tag req2 = SearchRequest -> says_search req2 r ->
  compile_filter (sr_filter r) = Some (filter_packet f) -> sv_enforce cfg = true ->
  (forall k, re_send ev2 k = true) ->
  parse_dn (sr_base r) = Some dd -> wf_dn dd = true -> fold_dn dd = fold_dn da ->
  sr_scope r = 0%Z -> names_plain 0 dd (<[fold_dn da := entry_from_add a]> m) ->
  supported f = true -> (sr_size r <= 0)%Z -> sat (entry_from_add a) f ->
  r_out (handle cfg (bolt_handler c) ev2 bound2 (p_msg id2 req2) (r_state res)) =
    [REntry id2 (select_attributes (sr_attrs r) (entry_from_add a)); RFinal id2 SearchResultDone 0 None].
Proof.
  intros Hb Hok Hlen d Hm Hc Hcl Ht Hsay Hpa Hwa res Hres Hcl2 Ht2 Hsay2 Hf Hen Hs Hp Hwf Heq Hsc Hnp Hsup Hz Hsat.
  assert (Hr : reachable b d). { exists hist. repeat split; [done|lia]. }
  set (o := OpPut (entry_from_add a)).
  assert (Hw : says_write req o). { split; [done|]. left. split; [done|]. by exists a. }
  assert (Ho : op_ok o). { intros d1. cbn. rewrite Hpa. by intros [= <-]. }
  destruct (C71_answer_truthful T C W HT cfg c ev bound b d m id req o AddResponse 0 None Hb Hr Hm Hc Hw Ho) as [Htrue _].
  { fold res. rewrite Hres. by left. }
  destruct Htrue as (_ & m' & Hspec & Hm'); [done|]. fold res in Hm'.
  assert (m' = <[fold_dn da := entry_from_add a]> m) as ->.
  { unfold o in Hspec. cbn [spec_op] in Hspec. change (e_dn (entry_from_add a)) with (ad_dn a) in Hspec. rewrite Hpa in Hspec.
    destruct da as [|x l]; [done|]. unfold spec_put in Hspec.
    destruct (negb (has_suffix _ _)); [done|]. destruct (bool_decide (is_Some _)); [done|].
    destruct (_ && _); [done|]. destruct (negb (name_fits _)); [done|]. by injection Hspec as <-. }
  assert (Hrr : reachable b (r_state res)).
  { destruct (handle_asks cfg c ev bound (p_msg id req) d) as [Hd|(o' & Ha & Hd)]; fold res in Hd.
    - by rewrite Hd.
    - exists (hist ++ [(re_h ev, o')]). split; [|split].
      + apply Forall_app. split; [done|]. constructor; [|done]. cbn [snd].
        destruct Ha as (i & req' & rest & id' & [= <- <- <-] & _ & [Hw'|(r' & hash & Hsay' & ->)]).
        * destruct Hw' as [_ [[_ (a' & Ha' & ->)]|[[Hx _]|[[Hx _]|[Hx _]]]]]; try by rewrite Hx in Ht.
          assert (a' = a) as ->; [|done].
          apply add_iff in Ha', Hsay. rewrite Hsay in Ha'. by injection Ha'.
        * destruct Hsay' as (_ & Hx & _). by rewrite Hx in Ht.
      + rewrite app_length. cbn. lia.
      + rewrite run_ops_app. unfold d in Hd. rewrite Hc in Hd. exact Hd. }
  destruct (C74_read T C W HT cfg c ev2 b (r_state res) _ bound2 id2 req2 r f dd (entry_from_add a)
    Hb Hrr Hm' Hcl2 Ht2 Hsay2 Hf Hen Hs Hp Hwf) as [H _]; try done.
  - rewrite Heq. apply lookup_insert.
  - by apply H.
Qed.
Print Assumptions C74_add_then_read.

(** The examples' decoder takes every filter for (uid=[*]); Dora is added and
    read. *)
Definition dora : add_req := mkAdd (B "uid=dora,ou=people,o=base") [(B "uid", [B "dora"]); (B "cn", [B "Dora"])].
Definition read_dora : search_req := mkSearch (B "UID=Dora,ou=people,o=base") 0 0 false (B "(uid=x)") [B "cn"].
Example C74_case :
  says_search (W:=wire1) (enc_search read_dora 0 0 (filter_packet (FPres (B "uid")))) read_dora /\
  compile_filter (Wire:=wire1) (sr_filter read_dora) = Some (filter_packet (FPres (B "uid"))) /\
  sat (T:=ascii_text) (entry_from_add dora) (FPres (B "uid")) /\
  r_out (handle1 admin1 (p_msg 3 (enc_add dora)) d1) = [RFinal 3 AddResponse 0 None] /\
  r_out (handle1 [] (p_msg 1 (enc_search read_dora 0 0 (filter_packet (FPres (B "uid")))))
           (r_state (handle1 admin1 (p_msg 3 (enc_add dora)) d1))) =
    [REntry 1 (mkEntry (B "uid=dora,ou=people,o=base") [mkAttr (B "cn") [B "Dora"]]); RFinal 1 SearchResultDone 0 None] /\
  length (r_out (handle1 [] (p_msg 1 (enc_search (mkSearch (B "o=base") 2 0 false (B "(uid=x)") []) 0 0 (filter_packet (FPres (B "uid"))))) d1)) = 3 /\
  (let res := handle1 [] (p_msg 1 (enc_search (mkSearch (B "o=base") 2 1 false (B "(uid=x)") []) 0 0 (filter_packet (FPres (B "uid"))))) d1 in
   length (r_out res) = 2 /\ last (r_out res) = Some (RFinal 1 SearchResultDone 4 None) /\ r_next res = Drop) /\
  r_out (handle1 [] (p_msg 1 (enc_search (mkSearch (B "o=nowhere") 2 1 false (B "(uid=x)") []) 0 0 (filter_packet (FPres (B "uid"))))) d1) =
    [RFinal 1 SearchResultDone 0 None] /\
  r_out (handle1 [] (p_msg 1 (p_op SearchRequest [])) d1) = [RFinal 1 SearchResultDone 1 None].
Proof.
  split. { by apply search_iff. }
  split; [done|].
  split. { exists (mkAttr (B "uid") [B "dora"]). vm_compute. auto. }
  vm_compute. repeat split.
Qed.
