(** Property C99: the server on the database backend is an abstract LDAP server
    whose state is a directory and, for each connection, the name it is bound to. *)
From Verif Require Import Bytes Text Dn DnProofs Res Entry EntryProofs Password PasswordProofs
  Db DbSpec IdProofs DbProofs DbOps DbSearch DbFacts DbMore P_Password P_Db
  Packet Filter FilterProofs P_Filter Handler Server ServerProofs CrashProofs P_Server
  Encode EncodeProofs E2e E2eProofs P_E2e SessionProofs P_Session P_Bind
  AccountProofs P_Account TwinProofs P_Twin Conns ConnsProofs P_Conns P_Malformed P_Judge P_Place P_Unmade.

Section spec.
Context {T : Text} {C : Crypto} {W : Wire}.
Variables (cfg : server_cfg) (c : bolt_cfg) (b : dn).

(** The abstract server: what may be sent ([out]) in reply to the request [req]
    with the message identifier [id], on a connection bound to [bound], when the
    directory is [m]; what becomes of the connection ([n]) and of the directory
    ([m']).  There is no database here: everything is said by [m]. *)
Section serves.
Variables (ev : renv env) (id : Z) (bound : str) (m : dir) (req : packet)
  (out : list response) (n : next) (m' : dir).

(** One final response with this type and code, and nothing else happens. *)
Definition just (tag code : N) : Prop := out = [RFinal id tag code None] /\ n = Go bound /\ m' = m.
(** The process ends without a response. *)
Definition crash : Prop := out = [] /\ n = Dead /\ m' = m.

Definition serves_bind : Prop :=
  (forall dn pw, says_bind req dn pw ->
     (dn <> [] -> parse_dn dn = None -> just BindResponse 34) /\
     (forall dd, parse_dn dn = Some dd -> wf_dn dd = true ->
        let known e := pw <> [] /\ has_suffix (normalize dd) (normalize b) = true /\ m !! fold_dn dd = Some e in
        let good := (dn = [] /\ pw = [] /\ bc_anon c = true) \/ exists e, known e /\ accepts pw (stored_password e) in
        let bad := exists e, known e /\ chokes pw (stored_password e) in
        (good /\ out = [RFinal id BindResponse 0 None] /\ n = Go (normalize dd) /\ m' = m) \/
        (bad /\ just BindResponse 1) \/
        (~ good /\ ~ bad /\ just BindResponse 49))) /\
  (p_cls req = ClassApplication -> p_tag req = BindRequest -> (forall dn pw, ~ says_bind req dn pw) ->
     exists code, In code [1; 2; 48]%N /\ just BindResponse code).

Definition serves_write : Prop :=
  (forall o, says_write req o ->
     (bound = [] \/ bound <> bc_admin c -> just (write_response o) 50) /\
     (bound = bc_admin c -> bound <> [] ->
        match spec_op b o m with
        | Ok m1 => out = [RFinal id (write_response o) 0 None] /\ n = Go bound /\ m' = m1
        | Err e => just (write_response o) (result_code o e)
        | Panic => crash
        | Diverge => False
        end)) /\
  (p_cls req = ClassApplication -> In (p_tag req) [AddRequest; DelRequest; ModifyRequest; ModifyDNRequest] ->
     (forall o, ~ says_write req o) ->
     (bound = [] -> just (response_tag (p_tag req)) 50) /\
     (bound <> [] -> (exists code, In code [2; 53; 84]%N /\ just (response_tag (p_tag req)) code) \/
        (p_tag req = ModifyRequest /\ crash))).

Definition serves_password : Prop :=
  (forall r, says_password req r ->
     (bound = [] -> just ExtendedResponse 53) /\
     (forall pw h0, bound <> [] -> pw_chosen cfg ev r pw -> argon2_hash pw (re_salt ev) = LOk h0 ->
        (parse_dn (pw_for bound r) = None -> just ExtendedResponse 1) /\
        (forall dd, parse_dn (pw_for bound r) = Some dd -> wf_dn dd = true ->
           (normalize dd <> bound -> bound <> bc_admin c -> crash) /\
           (normalize dd = bound \/ bound = bc_admin c ->
              exists h, h = B "{ARGON2}" ++ h0 /\ (forall q, validate q h = Ok true <-> q = pw) /\
              match spec_op b (OpPassword (mkPw (pw_for bound r) (pw_old r) h)) m with
              | Ok m1 => out = [RFinal id ExtendedResponse 0 (match pw_new r with [] => Some h | _ => None end)] /\
                  n = Go bound /\ m' = m1
              | Err _ => just ExtendedResponse 80
              | Panic => crash
              | Diverge => False
              end)))) /\
  (p_cls req = ClassApplication -> p_tag req = ExtendedRequest -> (forall r, ~ says_password req r) ->
     exists code, In code [1; 53; 84]%N /\ just ExtendedResponse code).

Definition serves_search : Prop :=
  (p_cls req = ClassApplication -> p_tag req = SearchRequest -> m' = m) /\
  (forall r f, p_cls req = ClassApplication -> p_tag req = SearchRequest -> says_search req r ->
     compile_filter (sr_filter r) = Some (filter_packet f) ->
     (parse_dn (sr_base r) = None -> just SearchResultDone 0) /\
     (forall dd, parse_dn (sr_base r) = Some dd -> wf_dn dd = true ->
        (m !! fold_dn dd = None \/ ~ scope_ok (sr_scope r) -> just SearchResultDone 0) /\
        (is_Some (m !! fold_dn dd) -> scope_ok (sr_scope r) -> names_plain (sr_scope r) dd m -> supported f = true ->
           exists (found : list entry) (keep : entry -> bool),
             (forall e, keep e = true <-> sat e f) /\
             found ≡ₚ map snd (bfilter (fun p => in_scope (sr_scope r) (fold_dn dd) p.1 && keep p.2) (map_to_list m)) /\
             let more := (0 <? sr_size r)%Z && (sr_size r <? Z.of_nat (length found))%Z in
             out = map (fun e => REntry id (select_attributes (sr_attrs r) e))
                     (if more then take (Z.to_nat (sr_size r)) found else found) ++
                   [RFinal id SearchResultDone (if more then 4 else 0) None] /\
             n = if more then Drop else Go bound))) /\
  (p_cls req = ClassApplication -> p_tag req = SearchRequest ->
     (forall r, ~ says_search req r) \/ (exists r, says_search req r /\ compile_filter (sr_filter r) = None) ->
     out = [RFinal id SearchResultDone 1 None] /\ n = Drop).

Definition serves_rest : Prop :=
  (p_cls req = ClassApplication -> p_tag req = CompareRequest ->
     out = [RFinal id CompareRequest 1 None] /\ n = Drop /\ m' = m) /\
  (p_cls req <> ClassApplication \/
   ~ In (p_tag req) [AddRequest; BindRequest; CompareRequest; DelRequest; ExtendedRequest; ModifyDNRequest; ModifyRequest; SearchRequest] ->
     out = [] /\ n = Drop /\ m' = m).

(** A search with any filter, whether its comparisons are supported or not, and any
    names: the entries in scope are considered (C106, C107) one after the other up to
    the first that is not decided or that would go over the limit. *)
Definition serves_any_search : Prop :=
  forall r f dd, p_cls req = ClassApplication -> p_tag req = SearchRequest -> says_search req r ->
    compile_filter (sr_filter r) = Some (filter_packet f) ->
    parse_dn (sr_base r) = Some dd -> wf_dn dd = true -> is_Some (m !! fold_dn dd) ->
    scope_ok (sr_scope r) ->
    exists (es seen rest : list entry) (keep : entry -> bool),
      es ≡ₚ map snd (bfilter (fun p => in_scope (sr_scope r) (fold_dn dd) p.1) (map_to_list m)) /\ es = seen ++ rest /\
      (forall e, In e seen -> considered dd (sr_scope r) e f (if keep e then Yes else No)) /\
      let sent := bfilter keep seen in
      let entries := map (fun e => REntry id (select_attributes (sr_attrs r) e)) sent in
      let done_ code := entries ++ [RFinal id SearchResultDone code None] in
      ((0 < sr_size r)%Z -> (Z.of_nat (length sent) <= sr_size r)%Z) /\
      match rest with
      | [] => out = done_ 0%N /\ n = Go bound
      | e :: _ =>
          (considered dd (sr_scope r) e f Yes /\ (0 < sr_size r)%Z /\ Z.of_nat (length sent) = sr_size r /\ out = done_ 4%N /\ n = Drop) \/
          (considered dd (sr_scope r) e f Stuck /\ out = done_ 1%N /\ n = Drop) \/
          (considered dd (sr_scope r) e f Fatal /\ out = entries /\ n = Dead)
      end.

(** A malformed request gets the answer of its verdict ([fault], C105); those of
    anonymous clients that write or change a password are refused unread. *)
Definition serves_fault : Prop :=
  sentenced id bound req out n /\ forall v, p_cls req = ClassApplication -> fault req v -> m' = m.

(** A password change for which no password can be generated or hashed (C108). *)
Definition serves_unmade : Prop :=
  forall r v, says_password req r -> bound <> [] -> fair (re_draws ev) ->
    unmade (sv_genlen cfg) (re_draws ev) (re_salt ev) (pw_new r) v ->
    (out, n) = sentence id ExtendedResponse bound v /\ m' = m.

Definition serves : Prop :=
  serves_bind /\ serves_write /\ serves_password /\ serves_search /\ serves_rest /\ serves_any_search /\ serves_fault /\
  serves_unmade.
End serves.

(** The state of the abstract server and its steps. *)
Record site := mkSite { s_conns : gmap nat str; s_dir : dir; s_alive : bool }.
Inductive site_step : site -> event (E:=env) -> list response -> site -> Prop :=
| st_dead cs m e : site_step (mkSite cs m false) e [] (mkSite cs m false)
| st_open cs m k : cs !! k = None -> site_step (mkSite cs m true) (EOpen k) [] (mkSite (<[k := []]> cs) m true)
| st_again cs m k bound : cs !! k = Some bound -> site_step (mkSite cs m true) (EOpen k) [] (mkSite cs m true)
| st_close cs m k : site_step (mkSite cs m true) (EClose k) [] (mkSite (delete k cs) m true)
| st_nobody cs m k ev p : cs !! k = None -> site_step (mkSite cs m true) (EPacket k ev p) [] (mkSite cs m true)
| st_serve cs m k ev id req bound out n m' :
    cs !! k = Some bound -> serves ev id bound m req out n m' ->
    site_step (mkSite cs m true) (EPacket k ev (p_msg id req)) out
      match n with
      | Go bound' => mkSite (<[k := bound']> cs) m' true
      | Drop => mkSite (delete k cs) m' true
      | Dead => mkSite ∅ m' false
      end.
Inductive site_run : site -> list (event (E:=env)) -> list (list response) -> site -> Prop :=
| sr_nil s : site_run s [] [] s
| sr_cons s e out s1 es outs s2 : site_step s e out s1 -> site_run s1 es outs s2 -> site_run s (e :: es) (out :: outs) s2.

(** The server's state shows this abstract state. *)
Definition shows (w : world (S:=db)) (s : site) : Prop :=
  w_conns w = s_conns s /\ w_alive w = s_alive s /\ represents (w_state w) (s_dir s).
(** The environment of a message: no I/O errors of the database, and the
    responses can be written. *)
Definition calm (ev : renv env) : Prop := re_h ev = no_faults /\ forall k, re_send ev k = true.
(** The events: every packet is a message identifier and a request, without controls. *)
Definition plain_messages (es : list (event (E:=env))) : Prop :=
  forall k ev p, In (EPacket k ev p) es -> calm ev /\ exists id req, p = p_msg id req.
End spec.

Section proofs.
Context {T : Text} {C : Crypto} {W : Wire}.

Lemma bind_as_encoded cfg c (ev : renv env) bound id req dn pw d :
  says_bind req dn pw ->
  handle cfg (bolt_handler c) ev bound (p_msg id req) d = handle cfg (bolt_handler c) ev bound (p_msg id (enc_bind dn pw)) d.
Proof using Type.
  intros (Hc & Ht & v & x & a & Hk & Hv & Hx & Ha & Hd).
  unfold handle, p_msg. cbn [p_kids p_seq as_int p_int p_val]. rewrite Hc.
  change (negb (p_cls (enc_bind dn pw) =? ClassApplication)%N) with false.
  change (negb (ClassApplication =? ClassApplication)%N) with false. cbn match.
  unfold dispatch. rewrite Ht. change (p_tag (enc_bind dn pw)) with BindRequest.
  change (BindRequest =? AddRequest)%N with false. change (BindRequest =? BindRequest)%N with true. cbn match.
  assert (handle_bind (bolt_handler c) ev req d = handle_bind (bolt_handler c) ev (enc_bind dn pw) d) as ->.
  { unfold handle_bind. rewrite Hk, Hv. change (p_kids (enc_bind dn pw)) with [p_int 3; p_octets dn; p_ctx 0 pw].
    cbn match. change (as_int (p_val (p_int 3))) with (Some 3%Z). change (as_int (VInt 3)) with (Some 3%Z). cbn match.
    rewrite Hx, Ha, Hd. reflexivity. }
  rewrite Hk. change (p_kids (enc_bind dn pw)) with [p_int 3; p_octets dn; p_ctx 0 pw]. rewrite Hx. reflexivity.
Qed.
Lemma bind_stated (req : packet) id dn pw : p_cls req = ClassApplication ->
  simple_bind (p_msg id req) dn pw <-> says_bind req dn pw.
Proof using Type.
  intros Hc. split.
  - intros (id' & req' & v & x & a & (i & rest & Hk & _ & _) & Ht & Hrest). cbn [p_kids p_msg p_seq] in Hk.
    injection Hk as <- <- <-. split; [done|]. split; [done|]. by exists v, x, a.
  - intros (_ & Ht & v & x & a & Hrest). exists id, req, v, x, a. split; [|done]. exists (p_int id), []. done.
Qed.
Lemma not_asked cfg c (ev : renv env) bound id req d :
  (forall o, ~ says_write req o) -> (forall r, ~ says_password req r) ->
  r_state (handle cfg (bolt_handler c) ev bound (p_msg id req) d) = d.
Proof using Type.
  intros Hw Hp. destruct (handle_asks cfg c ev bound (p_msg id req) d) as [H|(o & (i & req' & rest & id' & [= <- <- <-] & _ & Ha) & _)]; [done|].
  exfalso. destruct Ha as [Ha|(r & h & Ha & _)]; [by eapply Hw|by eapply Hp].
Qed.
Lemma tag_no_write req : ~ In (p_tag req) [AddRequest; DelRequest; ModifyRequest; ModifyDNRequest] -> forall o, ~ says_write req o.
Proof using Type.
  intros H o (_ & [[Ht _]|[[Ht _]|[[Ht _]|[Ht _]]]]); apply H; rewrite Ht; cbn [In]; auto 10.
Qed.
Lemma tag_no_password req : p_tag req <> ExtendedRequest -> forall r, ~ says_password req r.
Proof using Type. by intros H r (_ & Ht & _). Qed.

(** One request. *)
Lemma request_served (HT : TextOK T) (HC : CryptoOK C) cfg c b d m m' (ev : renv env) id bound req :
  base_ok b -> reachable b d -> represents d m -> bc_base c = normalize b -> bc_admin c <> [] -> sv_enforce cfg = true ->
  calm ev -> dn_text_ok bound -> clean (p_msg id req) ->
  let r := handle cfg (bolt_handler c) ev bound (p_msg id req) d in
  represents (r_state r) m' -> serves cfg c b ev id bound m req (r_out r) (r_next r) m'.
Proof using Type.
  intros Hb Hr Hm Hbase Hadm Hen [Hev Hs] Hbo [Hcl _] r Hm'.
  assert (Huniq : forall m1, represents (r_state r) m1 -> m' = m1).
  { intros m1 H1. by eapply (represents_unique HT). }
  assert (Hkeep : r_state r = d -> m' = m) by (intros E; apply Huniq; by rewrite E).
  assert (Hjust : forall tag code, r = mkResult [RFinal id tag code None] (Go bound) d ->
    just id bound m (r_out r) (r_next r) m' tag code).
  { intros tag code E. assert (m' = m) as -> by (apply Hkeep; by rewrite E). rewrite E. done. }
  assert (Hcrash : r = mkResult [] Dead d -> crash m (r_out r) (r_next r) m').
  { intros E. assert (m' = m) as -> by (apply Hkeep; by rewrite E). rewrite E. done. }
  assert (Hask : forall o, asks bound (p_msg id req) o -> op_ok o) by (intros o; by apply Hcl).
  split; [|split; [|split; [|split; [|split; [|split; [|split]]]]]].
  - (* bind *) split.
    + intros dn pw Hsay. assert (Er : r = handle cfg (bolt_handler c) ev bound (p_msg id (enc_bind dn pw)) d)
        by (by apply bind_as_encoded). split.
      * intros Hne Hp. apply Hjust. rewrite Er. by apply C80_syntax.
      * intros dd Hp Hwf known good bad.
        destruct (C80_answer T C W HT cfg c ev b d m bound id dn pw dd) as (code & Hh & H0 & H1 & Hx); try done.
        rewrite <- Er in Hh. assert (m' = m) as Hmm by (apply Hkeep; by rewrite Hh).
        destruct (decide (code = 0%N)) as [->|N0].
        { left. split; [by apply H0|]. rewrite Hh. done. }
        destruct (decide (code = 1%N)) as [->|N1].
        { right; left. split; [by apply H1|]. apply Hjust. rewrite Hh. done. }
        right; right. split; [by intros ?%H0|]. split; [by intros ?%H1|]. apply Hjust. rewrite Hh.
        by rewrite (Hx N0 N1).
    + intros Hc Ht Hno. destruct (C80_malformed T C W _ _ cfg (bolt_handler c) ev bound id req d) as (code & Hin & Hh); try done.
      { intros dn pw Hsb. apply (Hno dn pw). by apply (bind_stated req id). }
      exists code. split; [done|]. by apply Hjust.
  - (* write *) split.
    + intros o Hsay. split.
      * intros Hnot. apply Hjust. by apply C71_others_refused.
      * intros -> Hne. pose proof (C71_write T C W HT cfg c ev b d m id req o Hb Hr Hm Hbase Hadm Hev (Hs 0) Hsay) as H71.
        cbv zeta in H71. fold r in H71.
        assert (Ho : op_ok o). { apply Hask. exists (p_int id), req, [], id. split; [done|]. split; [done|]. by left. }
        specialize (H71 Ho). destruct (spec_op b o m) as [m1|e| |].
        { destruct H71 as (Ho1 & Hn1 & Hr1). rewrite Ho1, Hn1. split; [done|]. split; [done|]. by apply Huniq. }
        { by apply Hjust. } { by apply Hcrash. } { done. }
    + intros Hc Hin Hno. split.
      * intros Hbe. apply Hjust. unfold r, handle, p_msg. cbn [p_kids p_seq as_int p_int p_val].
        rewrite Hc. change (negb (ClassApplication =? ClassApplication)%N) with false. cbn match. rewrite Hbe.
        unfold dispatch. destruct Hin as [Ht|[Ht|[Ht|[Ht|[]]]]]; rewrite <- Ht; unfold finish, send_final;
          rewrite Hs; reflexivity.
      * intros Hne. destruct (C71_malformed T C W cfg c ev bound d id req (p_tag req) (Hs 0) Hne Hc eq_refl Hin Hno)
          as [(code & Hi & Hh)|[Ht Hh]].
        { left. exists code. split; [done|]. by apply Hjust. }
        right. split; [done|]. by apply Hcrash.
  - (* password *)
    assert (Hx : p_cls req = ClassApplication -> p_tag req = ExtendedRequest -> _)
      by exact (C73_refused T C W cfg c ev d bound id req (Hs 0)).
    cbv zeta in Hx. fold r in Hx. split.
    + intros q Hsay. destruct Hx as (X1 & X2 & _); [apply Hsay|apply Hsay|]. split.
      * intros Hbe. apply Hjust. by apply (X1 q).
      * intros pw h0 Hne Hpw Hh0.
        assert (Hhash : hash_password pw (B "{ARGON2}") (re_salt ev) = Ok (B "{ARGON2}" ++ h0)).
        { unfold hash_password. change (seqb (B "{ARGON2}") [] || seqb (B "{ARGON2}") (B "{CLEARTEXT}")) with false.
          cbn match. rewrite seqb_refl, Hh0. done. }
        split.
        { intros Hp. apply Hjust. by eapply X2. }
        intros dd Hp Hwf. split.
        { intros Hno Hna. apply Hcrash. unfold r. rewrite (password_handled cfg c ev bound id req q d Hsay).
          rewrite (extended_password cfg c ev bound req q pw (B "{ARGON2}" ++ h0) d Hsay Hne);
            [|by destruct Hpw as [[_ ?]|[? _]]|by destruct Hpw as [[? _]|[_ ?]]|exact Hhash].
          fold (pw_for bound q). unfold bolt_password. cbn [pw_user].
          assert (is_empty bound = false) as -> by by destruct bound.
          assert (is_empty (pw_for bound q) = false) as ->.
          { unfold pw_for. destruct (pw_user q); [by destruct bound|done]. }
          unfold parse_normalize. rewrite Hp. cbn [fmap option_fmap option_map].
          rewrite (proj2 (seqb_neq bound (normalize dd))) by congruence. rewrite (proj2 (seqb_neq bound (bc_admin c))) by done. done. }
        intros Hal. destruct (C73_change T C W HT HC cfg c ev b d m bound id req q dd pw h0) as (h & Eh & Hv & Hres); try done.
        exists h. split; [done|]. split; [done|]. fold r in Hres. destruct (spec_op b _ m) as [m1|e| |].
        { destruct Hres as (Ho1 & Hn1 & Hr1). rewrite Ho1, Hn1. split; [done|]. split; [done|]. by apply Huniq. }
        { by apply Hjust. } { by apply Hcrash. } { done. }
    + intros Hc Ht Hno. destruct Hx as (_ & _ & X3); [done|done|]. destruct (X3 Hno) as (code & Hi & Hh).
      exists code. split; [done|]. by apply Hjust.
  - (* search *)
    assert (Hst : p_tag req = SearchRequest -> m' = m).
    { intros Ht. apply Hkeep. apply not_asked; [apply tag_no_write|apply tag_no_password]; rewrite Ht; [|done].
      cbn. intros [?|[?|[?|[?|[]]]]]; done. }
    split; [by intros _ Ht; apply Hst|]. split.
    + intros q f Hc Ht Hsay Hf. split.
      { intros Hp. apply Hjust. eapply (C74_nothing T C W HT cfg c ev b); [done..|]. by left. }
      intros dd Hp Hwf. split.
      { intros Hx. apply Hjust. eapply (C74_nothing T C W HT cfg c ev b); [done..|]. right.
        destruct Hx; [left|right]; by exists dd. }
      intros Hin Hsc Hnp Hsup. destruct (Z_le_gt_dec (sr_size q) 0) as [Hz|Hz].
      * destruct (C74_search T C W HT cfg c ev b d m bound id req q f dd) as (sent & keep & Hh & Hk & Hperm); try done.
        exists sent, keep. split; [done|]. split; [done|]. cbv zeta.
        assert ((0 <? sr_size q)%Z = false) as -> by (apply Z.ltb_ge; lia). cbn [andb].
        unfold r. rewrite Hh. done.
      * destruct (C74_limited T C W HT cfg c ev b d m bound id req q f dd) as (sent & keep & Hh & Hk & Hperm); try done; [lia|].
        exists sent, keep. split; [done|]. split; [done|]. cbv zeta.
        assert ((0 <? sr_size q)%Z = true) as -> by (apply Z.ltb_lt; lia). cbn [andb].
        unfold r. rewrite Hh. destruct (Z.leb_spec (Z.of_nat (length sent)) (sr_size q)) as [Hl|Hl].
        { rewrite (proj2 (Z.ltb_ge _ _)) by lia. cbn [r_out r_next]. rewrite take_ge by lia. done. }
        { rewrite (proj2 (Z.ltb_lt _ _)) by lia. done. }
    + intros Hc Ht Hx. assert (Hh : r = mkResult [RFinal id SearchResultDone 1 None] Drop d).
      { apply C74_malformed; try done. destruct Hx; [by left|by right]. }
      rewrite Hh. done.
  - (* the rest *) split.
    + intros Hc Ht. assert (Hh : r = mkResult [RFinal id CompareRequest 1 None] Drop d).
      { unfold r, handle, p_msg. cbn [p_kids p_seq as_int p_int p_val]. rewrite Hc.
        change (negb (ClassApplication =? ClassApplication)%N) with false. cbn match. unfold dispatch. rewrite Ht.
        unfold send_final. rewrite Hs. reflexivity. }
      assert (m' = m) as -> by (apply Hkeep; by rewrite Hh). rewrite Hh. done.
    + intros Hx. assert (Hh : r = mkResult [] Drop d).
      { unfold r, handle, p_msg. cbn [p_kids p_seq as_int p_int p_val].
        destruct (p_cls req =? ClassApplication)%N eqn:Ec; [|done]. apply N.eqb_eq in Ec. cbn [negb].
        destruct Hx as [?|Hx]; [done|]. unfold dispatch. cbn [In] in Hx.
        rewrite !(proj2 (N.eqb_neq _ _)) by (intros E; apply Hx; rewrite E; auto 10). done. }
      assert (m' = m) as -> by (apply Hkeep; by rewrite Hh). rewrite Hh. done.
  - (* any search *) intros q f dd Hc Ht Hsay Hf Hp Hwf Hin Hsc.
    destruct (C107_search T C W HT cfg c ev b d m bound id req q f dd) as (es & seen & rest & keep & H1 & H2 & H3 & H4); try done.
    exists es, seen, rest, keep. split; [done|]. split; [done|]. split; [done|]. cbv zeta in H4 |- *. fold r in H4.
    destruct H4 as [H4 H5]. split; [done|]. destruct rest as [|e rest]; [by rewrite H5|].
    destruct H5 as [(J & L0 & L & ->)|[(J & ->)|(J & ->)]]; [left|right; left|right; right]; done.
  - (* malformed *) destruct (sentence_handled cfg (bolt_handler c) ev id bound req d Hs) as [H1 H2].
    split; [exact H1|]. intros v Hc Hf. apply Hkeep. by eapply H2.
  - (* no password *) intros q v Hsay Hne Hfair Hv.
    assert (Hh : r = mkResult (sentence id ExtendedResponse bound v).1 (sentence id ExtendedResponse bound v).2 d).
    { eapply C108_answer; [apply Hs|done| |done..]. by exists (p_int id), []. }
    split; [rewrite Hh; cbn [r_out r_next]; by destruct (sentence id ExtendedResponse bound v)|]. apply Hkeep. by rewrite Hh.
Qed.

(** One event. *)
Lemma step_shown (HT : TextOK T) (HC : CryptoOK C) cfg c b h0 es e s :
  sound c b h0 (es ++ [e]) -> bc_admin c <> [] -> sv_enforce cfg = true -> plain_messages [e] ->
  shows (after cfg c b h0 es) s ->
  exists s', site_step cfg c b s e (step cfg (bolt_handler c) (after cfg c b h0 es) e).2 s' /\
    shows (after cfg c b h0 (es ++ [e])) s'.
Proof using Type.
  intros Hs Hadm Hen Hpl (Hcs & Ha & Hd).
  destruct (sound_holds cfg c b h0 HT (es ++ [e]) Hs) as (m' & Hm' & _). unfold holds in Hm'.
  pose proof (sound_app _ _ _ es [e] Hs) as Hs0.
  pose proof (sound_reachable cfg c b h0 HT es Hs0) as Hr.
  assert (Hb : forall k bound, w_conns (after cfg c b h0 es) !! k = Some bound -> dn_text_ok bound).
  { intros k bound. by eapply (sound_bound cfg c b h0 HT). }
  assert (Hafter : after cfg c b h0 (es ++ [e]) = (step cfg (bolt_handler c) (after cfg c b h0 es) e).1).
  { unfold after. by rewrite run_snoc. }
  rewrite Hafter in *. clear Hafter. set (w := after cfg c b h0 es) in *.
  destruct s as [cs m al]. cbn [s_conns s_alive s_dir] in *. unfold step in *. rewrite Ha in *.
  destruct al; cbn [negb] in *; [|exists (mkSite cs m false); split; [constructor|done]].
  destruct e as [k|k ev p|k].
  - rewrite Hcs in *. destruct (cs !! k) as [bound|] eqn:Ek; cbn [fst snd] in *.
    + exists (mkSite cs m true). split; [by econstructor|done].
    + exists (mkSite (<[k:=[]]> cs) m true). split; [by constructor|]. done.
  - rewrite Hcs in *. destruct (cs !! k) as [bound|] eqn:Ek; cbn [fst snd] in *.
    2:{ exists (mkSite cs m true). split; [by constructor|done]. }
    destruct (Hpl k ev p) as (Hcalm & id & req & ->); [by left|].
    assert (Hcl : clean (p_msg id req)).
    { destruct Hs as (_ & _ & _ & Hcl & _). apply (Hcl k ev). apply in_or_app. right. by left. }
    set (r := handle cfg (bolt_handler c) ev bound (p_msg id req) (w_state w)) in *.
    assert (Hrep : represents (r_state r) m') by by destruct (r_next r).
    eexists. split.
    { eapply st_serve; [done|]. eapply (request_served HT HC cfg c b); try done; [apply Hs|apply Hs|by eapply Hb]. }
    fold r. destruct (r_next r); done.
  - cbn [fst snd] in *. exists (mkSite (delete k cs) m true). split; [constructor|]. split; [cbn; by rewrite Hcs|done].
Qed.
Lemma run_shown (HT : TextOK T) (HC : CryptoOK C) cfg c b h0 es' : forall es s,
  sound c b h0 (es ++ es') -> bc_admin c <> [] -> sv_enforce cfg = true -> plain_messages es' ->
  shows (after cfg c b h0 es) s ->
  exists s', site_run cfg c b s es' (outputs cfg c (after cfg c b h0 es) es') s' /\
    shows (after cfg c b h0 (es ++ es')) s'.
Proof using Type.
  induction es' as [|e es' IH]; intros es s Hs Hadm Hen Hpl Hsh.
  { exists s. rewrite app_nil_r. split; [constructor|done]. }
  assert (Hsplit : es ++ e :: es' = (es ++ [e]) ++ es') by by rewrite <- app_assoc.
  rewrite Hsplit in Hs. destruct (step_shown HT HC cfg c b h0 es e s) as (s1 & Hst & Hsh1); try done.
  { by eapply sound_app. }
  { intros k ev p [->|[]]. apply (Hpl k ev p). by left. }
  destruct (IH (es ++ [e]) s1) as (s2 & Hrun & Hsh2); try done.
  { intros k ev p Hin. apply (Hpl k ev p). by right. }
  exists s2. rewrite Hsplit. split; [|done]. cbn [outputs]. econstructor; [exact Hst|].
  assert ((step cfg (bolt_handler c) (after cfg c b h0 es) e).1 = after cfg c b h0 (es ++ [e])) as ->; [|done].
  unfold after. by rewrite run_snoc.
Qed.
End proofs.

(** C99.  Every run of the server is a run of the abstract server, with the same
    responses to every event, and shows its state in the end. *)
Theorem C99_refines (T : Text) (C : Crypto) (W : Wire) (HT : TextOK T) (HC : CryptoOK C) (cfg : server_cfg) (c : bolt_cfg)
    (b : dn) (h0 : list (env * op)) (m0 : dir) (es : list (event (E:=env))) :
  sound c b h0 es -> bc_admin c <> [] -> sv_enforce cfg = true -> plain_messages es ->
  represents (run_ops (normalize b) h0 empty_db) m0 ->
  exists s, site_run cfg c b (mkSite ∅ m0 true) es (outputs cfg c (start (run_ops (normalize b) h0 empty_db)) es) s /\
    shows (run cfg (bolt_handler c) (start (run_ops (normalize b) h0 empty_db)) es) s.
Proof.
  intros Hs Hadm Hen Hpl Hm0. by apply (run_shown HT HC cfg c b h0 es [] (mkSite ∅ m0 true)).
Qed.
Print Assumptions C99_refines.
(** The abstract server leaves no choice: binds, writes, password changes, malformed
    and the other requests have one outcome; an unlimited search has one up to the order of the
    entries. *)
Theorem C99_settled (T : Text) (C : Crypto) (W : Wire) (HT : TextOK T) (cfg : server_cfg) (c : bolt_cfg) (b : dn)
    (ev : renv env) (id : Z) (bound : str) (m : dir) (req : packet)
    (out1 out2 : list response) (n1 n2 : next) (m1 m2 : dir) :
  serves cfg c b ev id bound m req out1 n1 m1 -> serves cfg c b ev id bound m req out2 n2 m2 ->
  ((exists o, says_write req o) \/
   (exists dn pw, says_bind req dn pw /\
      ((dn <> [] /\ parse_dn dn = None) \/ exists dd, parse_dn dn = Some dd /\ wf_dn dd = true)) \/
   p_cls req <> ClassApplication \/ p_tag req = CompareRequest \/
   (p_cls req = ClassApplication /\ exists v, fault req v) \/
   (exists r, says_password req r /\
      (bound = [] \/ (fair (re_draws ev) /\ exists v, unmade (sv_genlen cfg) (re_draws ev) (re_salt ev) (pw_new r) v) \/
       exists pw h0, pw_chosen cfg ev r pw /\ argon2_hash pw (re_salt ev) = LOk h0 /\
         (parse_dn (pw_for bound r) = None \/ exists dd, parse_dn (pw_for bound r) = Some dd /\ wf_dn dd = true))) ->
     out1 = out2 /\ n1 = n2 /\ m1 = m2) /\
  (forall r f, p_cls req = ClassApplication -> p_tag req = SearchRequest -> says_search req r ->
     compile_filter (sr_filter r) = Some (filter_packet f) -> supported f = true -> (sr_size r <= 0)%Z ->
     parse_dn (sr_base r) = None \/
     (exists dd, parse_dn (sr_base r) = Some dd /\ wf_dn dd = true /\
        (m !! fold_dn dd = None \/ ~ scope_ok (sr_scope r) \/
         is_Some (m !! fold_dn dd) /\ scope_ok (sr_scope r) /\ names_plain (sr_scope r) dd m)) ->
     out1 ≡ₚ out2 /\ n1 = n2 /\ m1 = m2 /\ last out1 = last out2).
Proof.
  intros (B1 & W1 & P1 & S1 & R1 & _ & F1 & Um1) (B2 & W2 & P2 & S2 & R2 & _ & F2 & Um2).
  assert (Hj : forall tag code, just id bound m out1 n1 m1 tag code -> just id bound m out2 n2 m2 tag code ->
    out1 = out2 /\ n1 = n2 /\ m1 = m2).
  { intros tag code (-> & -> & ->) (-> & -> & ->). done. }
  assert (Hk : crash m out1 n1 m1 -> crash m out2 n2 m2 -> out1 = out2 /\ n1 = n2 /\ m1 = m2).
  { intros (-> & -> & ->) (-> & -> & ->). done. }
  split.
  - intros [(o & Ho)|[(dn & pw & Hb & Hd)|Hx]].
    + destruct W1 as [W1 _], W2 as [W2 _]. destruct (W1 o Ho) as [X1 Y1], (W2 o Ho) as [X2 Y2].
      destruct (decide (bound = [])) as [Hbe|Hne]; [eapply Hj; [apply X1|apply X2]; by left|].
      destruct (decide (bound = bc_admin c)) as [Ha|Hna]; [|eapply Hj; [apply X1|apply X2]; by right].
      specialize (Y1 Ha Hne). specialize (Y2 Ha Hne). destruct (spec_op b o m).
      * destruct Y1 as (-> & -> & ->), Y2 as (-> & -> & ->). done.
      * by eapply Hj.
      * by apply Hk.
      * done.
    + destruct B1 as [B1 _], B2 as [B2 _]. destruct (B1 dn pw Hb) as [X1 Y1], (B2 dn pw Hb) as [X2 Y2].
      destruct Hd as [[H1 H2]|(dd & H1 & H2)]; [eapply Hj; [by apply X1|by apply X2]|].
      specialize (Y1 dd H1 H2). specialize (Y2 dd H1 H2). cbv zeta in Y1, Y2.
      assert (Hex : ((dn = [] /\ pw = [] /\ bc_anon c = true) \/
          exists e, (pw <> [] /\ has_suffix (normalize dd) (normalize b) = true /\ m !! fold_dn dd = Some e) /\ accepts pw (stored_password e)) ->
        ~ exists e, (pw <> [] /\ has_suffix (normalize dd) (normalize b) = true /\ m !! fold_dn dd = Some e) /\ chokes pw (stored_password e)).
      { intros Hg (e & (Hp & _ & He) & Hc). destruct Hg as [(_ & ? & _)|(e' & (_ & _ & He') & Ha)]; [done|].
        assert (e' = e) as -> by congruence.
        apply (C30_validation_not_fail_open T C HT) in Ha. apply (C31_validation_panics_exactly T C HT) in Hc. congruence. }
      destruct Y1 as [(G1 & -> & -> & ->)|[(D1 & J1)|(N1 & M1 & J1)]], Y2 as [(G2 & -> & -> & ->)|[(D2 & J2)|(N2 & M2 & J2)]];
        try done; try (by eapply Hj); exfalso; by apply Hex.
    + destruct R1 as [R1 Q1], R2 as [R2 Q2].
      destruct (decide (p_cls req = ClassApplication)) as [Hc|Hc].
      * destruct Hx as [?|[Ht|[(_ & v & Hv)|(q & Hsay & Hq)]]]; [done| | |].
        3:{ destruct P1 as [P1 _], P2 as [P2 _]. destruct (P1 q Hsay) as [X1 Y1], (P2 q Hsay) as [X2 Y2].
            destruct (decide (bound = [])) as [Hbe|Hne]; [by eapply Hj; [apply X1|apply X2]|].
            destruct Hq as [?|[(Hfair & v & Hv)|(pw & h0 & Hpw & Hh & Hd)]]; [done| |].
            { destruct (Um1 q v Hsay Hne Hfair Hv) as [G1 ->], (Um2 q v Hsay Hne Hfair Hv) as [G2 ->].
              rewrite <- G1 in G2. by injection G2 as -> ->. }
            destruct (Y1 pw h0 Hne Hpw Hh) as [I1 J1], (Y2 pw h0 Hne Hpw Hh) as [I2 J2].
            destruct Hd as [Hd|(dd & Hd & Hwf)]; [by eapply Hj; [apply I1|apply I2]|].
            destruct (J1 dd Hd Hwf) as [K1 L1], (J2 dd Hd Hwf) as [K2 L2].
            assert (Hal : (normalize dd = bound \/ bound = bc_admin c) \/ (normalize dd <> bound /\ bound <> bc_admin c)).
            { destruct (decide (normalize dd = bound)); [by left; left|]. destruct (decide (bound = bc_admin c)); [by left; right|by right]. }
            destruct Hal as [Hal|[Hn1 Hn2]]; [|by apply Hk; [apply K1|apply K2]].
            destruct (L1 Hal) as (h1 & -> & _ & Z1), (L2 Hal) as (h2 & -> & _ & Z2). destruct (spec_op b _ m).
            - destruct Z1 as (-> & -> & ->), Z2 as (-> & -> & ->). done.
            - by eapply Hj.
            - by apply Hk.
            - done. }
        2:{ destruct F1 as [F1 M1], F2 as [F2 M2]. rewrite (M1 v Hc Hv), (M2 v Hc Hv).
            by destruct (sentenced_once id bound req out1 out2 n1 n2 v F1 F2 Hc Hv) as [-> ->]. }
        destruct (R1 Hc Ht) as (-> & -> & ->), (R2 Hc Ht) as (-> & -> & ->). done.
      * destruct (Q1 (or_introl Hc)) as (-> & -> & ->), (Q2 (or_introl Hc)) as (-> & -> & ->). done.
  - intros r f Hc Ht Hsay Hf Hsup Hz Hcase.
    assert (Hj' : forall tag code, just id bound m out1 n1 m1 tag code -> just id bound m out2 n2 m2 tag code ->
      out1 ≡ₚ out2 /\ n1 = n2 /\ m1 = m2 /\ last out1 = last out2).
    { intros tag code J1 J2. destruct (Hj _ _ J1 J2) as (-> & -> & ->). done. }
    destruct S1 as (M1 & S1 & _), S2 as (M2 & S2 & _). rewrite (M1 Hc Ht), (M2 Hc Ht) in *.
    destruct (S1 r f Hc Ht Hsay Hf) as [X1 Y1], (S2 r f Hc Ht Hsay Hf) as [X2 Y2].
    destruct Hcase as [Hp|(dd & Hp & Hwf & Hcase)]; [by eapply Hj'; [apply X1|apply X2]|].
    destruct (Y1 dd Hp Hwf) as [U1 V1], (Y2 dd Hp Hwf) as [U2 V2].
    destruct Hcase as [Hm|[Hs|(Hi & Hs & Hn)]].
    + eapply Hj'; [apply U1|apply U2]; by left.
    + eapply Hj'; [apply U1|apply U2]; by right.
    + destruct (V1 Hi Hs Hn Hsup) as (f1 & k1 & K1 & P1' & O1), (V2 Hi Hs Hn Hsup) as (f2 & k2 & K2 & P2' & O2).
      cbv zeta in O1, O2. rewrite (proj2 (Z.ltb_ge 0 (sr_size r)) Hz) in O1, O2. cbn [andb] in O1, O2.
      destruct O1 as [-> ->], O2 as [-> ->]. rewrite !last_snoc. split; [|done]. apply Permutation_app_tail, Permutation_map.
      rewrite P1', P2'. apply Permutation_refl'. f_equal. apply filter_ext. intros p. f_equal.
      destruct (k1 p.2) eqn:E1, (k2 p.2) eqn:E2; try done.
      * apply K1, K2 in E1. congruence.
      * apply K2, K1 in E2. congruence.
Qed.
Print Assumptions C99_settled.
(** Searches without limit, with any filter and any names: only the order of the
    entries is open; if one of them is undecided, only how many are sent before the
    error. *)
Theorem C99_searches_settled (T : Text) (C : Crypto) (W : Wire) (cfg : server_cfg) (c : bolt_cfg) (b : dn)
    (ev : renv env) (id : Z) (bound : str) (m : dir) (req : packet)
    (out1 out2 : list response) (n1 n2 : next) (m1 m2 : dir) (r : search_req) (f : flt) (dd : dn) :
  serves cfg c b ev id bound m req out1 n1 m1 -> serves cfg c b ev id bound m req out2 n2 m2 ->
  p_cls req = ClassApplication -> p_tag req = SearchRequest -> says_search req r ->
  compile_filter (sr_filter r) = Some (filter_packet f) -> (sr_size r <= 0)%Z ->
  parse_dn (sr_base r) = Some dd -> wf_dn dd = true -> is_Some (m !! fold_dn dd) -> scope_ok (sr_scope r) ->
  let below := map snd (bfilter (fun p => in_scope (sr_scope r) (fold_dn dd) p.1) (map_to_list m)) in
  let J e := considered dd (sr_scope r) e f in
  m1 = m /\ m2 = m /\
  ((forall e, In e below -> J e Yes \/ J e No) ->
     out1 ≡ₚ out2 /\ n1 = Go bound /\ n2 = Go bound /\ last out1 = last out2) /\
  (forall e, In e below -> J e Stuck -> (forall e', In e' below -> ~ J e' Fatal) ->
     n1 = Drop /\ n2 = Drop /\ last out1 = Some (RFinal id SearchResultDone 1 None) /\ last out2 = last out1) /\
  (forall e, In e below -> J e Fatal -> (forall e', In e' below -> ~ J e' Stuck) -> n1 = Dead /\ n2 = Dead).
Proof.
  intros (_ & _ & _ & A1 & _ & H1 & _) (_ & _ & _ & A2 & _ & H2 & _) Hc Ht Hsay Hf Hz Hp Hwf Hin Hsc below J.
  destruct A1 as [M1 _], A2 as [M2 _]. specialize (M1 Hc Ht). specialize (M2 Hc Ht). split; [done|]. split; [done|].
  assert (Hdet : forall e j j', J e j -> J e j' -> j = j') by (intros e j j'; apply considered_once).
  destruct (H1 r f dd Hc Ht Hsay Hf Hp Hwf Hin Hsc) as (es1 & seen1 & rest1 & keep1 & P1 & E1 & K1 & _ & X1).
  destruct (H2 r f dd Hc Ht Hsay Hf Hp Hwf Hin Hsc) as (es2 & seen2 & rest2 & keep2 & P2 & E2 & K2 & _ & X2).
  fold below in P1, P2.
  assert (Hsub : forall es seen rest e, es ≡ₚ below -> es = seen ++ rest -> In e seen \/ In e rest -> In e below).
  { intros es seen rest e HP -> He. eapply Permutation_in; [exact HP|]. by apply in_or_app. }
  assert (Hend : forall es (seen rest : list entry) e, es ≡ₚ below -> es = seen ++ rest -> rest = [] -> In e below -> In e seen).
  { intros es seen rest e HP -> -> He. rewrite app_nil_r in HP. eapply Permutation_in; [symmetry; exact HP|done]. }
  assert (Hno : forall (keep : entry -> bool) e j, J e (if keep e then Yes else No) -> J e j -> j = Stuck \/ j = Fatal -> False).
  { intros keep e j A1 A2 Hj. pose proof (Hdet _ _ _ A1 A2) as E. destruct (keep e), Hj; congruence. }
  split; [|split].
  - intros Hyn.
    assert (Hnil : forall es seen (rest : list entry) (keep : entry -> bool) out n, es ≡ₚ below -> es = seen ++ rest ->
      let done_ code := map (fun e => REntry id (select_attributes (sr_attrs r) e)) (bfilter keep seen) ++ [RFinal id SearchResultDone code None] in
      match rest with
      | [] => out = done_ 0%N /\ n = Go bound
      | e :: _ =>
          (J e Yes /\ (0 < sr_size r)%Z /\ Z.of_nat (length (bfilter keep seen)) = sr_size r /\ out = done_ 4%N /\ n = Drop) \/
          (J e Stuck /\ out = done_ 1%N /\ n = Drop) \/
          (J e Fatal /\ out = map (fun e => REntry id (select_attributes (sr_attrs r) e)) (bfilter keep seen) /\ n = Dead)
      end -> seen = es /\ out = done_ 0%N /\ n = Go bound).
    { intros es seen rest keep out n HP HE done_ HX. destruct rest as [|e rest].
      - rewrite app_nil_r in HE. by destruct HX as [-> ->].
      - exfalso. assert (He : In e below) by (eapply (Hsub es seen (e :: rest)); [done..|by right; left]).
        destruct HX as [(_ & ? & _)|[(A & _)|(A & _)]]; [lia| |];
          destruct (Hyn e He) as [Y|Y]; pose proof (Hdet _ _ _ A Y); done. }
    destruct (Hnil es1 seen1 rest1 keep1 out1 n1 P1 E1 X1) as (S1 & -> & ->).
    destruct (Hnil es2 seen2 rest2 keep2 out2 n2 P2 E2 X2) as (S2 & -> & ->). subst seen1 seen2.
    split; [|split; [done|split; [done|by rewrite !last_snoc]]].
    apply Permutation_app_tail, Permutation_map.
    assert (Hsame : forall e, In e es2 -> keep1 e = keep2 e).
    { intros e He. assert (He1 : In e es1) by (eapply Permutation_in; [rewrite P1; exact P2|done]).
      pose proof (Hdet _ _ _ (K1 e He1) (K2 e He)). by destruct (keep1 e), (keep2 e). }
    transitivity (bfilter keep1 es2).
    + apply bfilter_perm. by rewrite P1, P2.
    + clear -Hsame. induction es2 as [|x l IH]; [done|]. cbn. rewrite (Hsame x) by (by left).
      destruct (keep2 x); [apply perm_skip|]; apply IH; intros e He; apply Hsame; by right.
  - intros e He Hst Hnf.
    assert (Hone : forall es seen (rest : list entry) (keep : entry -> bool) out n, es ≡ₚ below -> es = seen ++ rest ->
      (forall e, In e seen -> J e (if keep e then Yes else No)) ->
      let done_ code := map (fun e => REntry id (select_attributes (sr_attrs r) e)) (bfilter keep seen) ++ [RFinal id SearchResultDone code None] in
      match rest with
      | [] => out = done_ 0%N /\ n = Go bound
      | e :: _ =>
          (J e Yes /\ (0 < sr_size r)%Z /\ Z.of_nat (length (bfilter keep seen)) = sr_size r /\ out = done_ 4%N /\ n = Drop) \/
          (J e Stuck /\ out = done_ 1%N /\ n = Drop) \/
          (J e Fatal /\ out = map (fun e => REntry id (select_attributes (sr_attrs r) e)) (bfilter keep seen) /\ n = Dead)
      end -> n = Drop /\ last out = Some (RFinal id SearchResultDone 1 None)).
    { intros es seen rest keep out n HP HE HK done_ HX. destruct rest as [|x rest].
      - exfalso. eapply Hno; [apply HK, (Hend es seen [] e HP HE eq_refl He)|exact Hst|by left].
      - destruct HX as [(_ & ? & _)|[(_ & -> & ->)|(A & _)]]; [lia|split; [done|apply last_snoc]|].
        exfalso. eapply Hnf; [|exact A]. eapply (Hsub es seen (x :: rest)); [done..|by right; left]. }
    destruct (Hone es1 seen1 rest1 keep1 out1 n1 P1 E1 K1 X1) as [-> L1].
    destruct (Hone es2 seen2 rest2 keep2 out2 n2 P2 E2 K2 X2) as [-> L2].
    split; [done|]. split; [done|]. split; [done|]. by rewrite L1, L2.
  - intros e He Hft Hns.
    assert (Hone : forall es seen (rest : list entry) (keep : entry -> bool) (out : list response) n, es ≡ₚ below -> es = seen ++ rest ->
      (forall e, In e seen -> J e (if keep e then Yes else No)) ->
      let done_ code := map (fun e => REntry id (select_attributes (sr_attrs r) e)) (bfilter keep seen) ++ [RFinal id SearchResultDone code None] in
      match rest with
      | [] => out = done_ 0%N /\ n = Go bound
      | e :: _ =>
          (J e Yes /\ (0 < sr_size r)%Z /\ Z.of_nat (length (bfilter keep seen)) = sr_size r /\ out = done_ 4%N /\ n = Drop) \/
          (J e Stuck /\ out = done_ 1%N /\ n = Drop) \/
          (J e Fatal /\ out = map (fun e => REntry id (select_attributes (sr_attrs r) e)) (bfilter keep seen) /\ n = Dead)
      end -> n = Dead).
    { intros es seen rest keep out n HP HE HK done_ HX. destruct rest as [|x rest].
      - exfalso. eapply Hno; [apply HK, (Hend es seen [] e HP HE eq_refl He)|exact Hft|by right].
      - destruct HX as [(_ & ? & _)|[(A & _)|(_ & _ & ->)]]; [lia| |done].
        exfalso. eapply Hns; [|exact A]. eapply (Hsub es seen (x :: rest)); [done..|by right; left]. }
    split; [exact (Hone es1 seen1 rest1 keep1 out1 n1 P1 E1 K1 X1)|exact (Hone es2 seen2 rest2 keep2 out2 n2 P2 E2 K2 X2)].
Qed.
Print Assumptions C99_searches_settled.

(** The responses to the events of connection [k]. *)
Fixpoint sent_to (k : nat) (es : list (event (E:=env))) (outs : list (list response)) : list response :=
  match es, outs with
  | e :: es', out :: outs' =>
      (if match e with EOpen j | EPacket j _ _ | EClose j => j end =? k then out else []) ++ sent_to k es' outs'
  | _, _ => []
  end.
Lemma written_outputs {T : Text} {C : Crypto} {W : Wire} cfg c k es : forall w,
  written cfg c k w es = sent_to k es (outputs cfg c w es).
Proof.
  induction es as [|e es IH]; intros w; [done|]. cbn [written outputs sent_to].
  destruct (step cfg (bolt_handler c) w e) as [w' out]. cbn [fst snd]. rewrite IH. by destruct e.
Qed.
(** ... and so is every run in which the connections are served at the same time:
    for some order of the requests that keeps the order of each client, the
    abstract server answers as the clients were answered and ends with the
    directory the database ends with. *)
Theorem C99_concurrent (T : Text) (C : Crypto) (W : Wire) (HT : TextOK T) (HC : CryptoOK C) (cfg : server_cfg) (c : bolt_cfg)
    (b : dn) (h0 : list (env * op)) (m0 : dir) (w : cworld) (h : list (nat * (renv env * packet))) :
  base_ok b -> bc_base c = normalize b -> Forall (fun p => op_ok p.2) h0 ->
  (N.of_nat (length h0 + length (cw_log w)) + 1 < 2 ^ 64)%N ->
  bc_admin c <> [] -> sv_enforce cfg = true ->
  represents (run_ops (normalize b) h0 empty_db) m0 ->
  served cfg c (run_ops (normalize b) h0 empty_db) w h ->
  (forall k ev p, In (k, (ev, p)) h -> clean p /\ calm ev /\ exists id req, p = p_msg id req) ->
  exists (es : list (event (E:=env))) (outs : list (list response)) (s : site),
    site_run cfg c b (mkSite ∅ m0 true) es outs s /\
    (forall k, exists last, read_on k h = asked_on k es ++ last /\ length last <= 1 /\
       (cw_alive w = true -> match cw_conns w !! k with Some x => quiet_conn x | None => True end -> last = [])) /\
    represents (cw_db w) (s_dir s) /\
    (cw_alive w = true -> s_alive s = true /\
       forall k x, cw_conns w !! k = Some x -> quiet_conn x ->
         cn_sent x = sent_to k es outs /\
         s_conns s !! k = match cn_phase x with PClosed => None | _ => Some (cn_bound x) end).
Proof.
  intros Hb Hc Hh0 Hlen Hadm Hen Hm0 Hsv Hp. set (d0 := run_ops (normalize b) h0 empty_db) in *.
  destruct (C85_serial T C W cfg c d0 w (served_steps _ _ _ _ _ Hsv)) as (Hst & Hal & Hq). cbv zeta in Hst, Hal, Hq.
  assert (Hin : forall k ev p, In (EPacket k ev p) (cw_log w) -> In (k, (ev, p)) h).
  { intros k ev p Hin. destruct (C85_requests T C W cfg c d0 w h k Hsv) as [_ (last & Hr & _)].
    assert (Ha : In (ev, p) (asked_on k (cw_log w))).
    { clear -Hin. unfold asked_on. apply elem_of_list_In, elem_of_list_omap. exists (EPacket k ev p).
      split; [by apply elem_of_list_In|]. by rewrite Nat.eqb_refl. }
    assert (Hin' : (ev, p) ∈ read_on k h). { rewrite Hr. apply elem_of_list_In, in_or_app. by left. }
    apply elem_of_list_omap in Hin' as ((j & q) & Hj & Hq'). cbn [fst snd] in Hq'.
    destruct (j =? k) eqn:E; [|done]. apply Nat.eqb_eq in E as ->. injection Hq' as ->. by apply elem_of_list_In. }
  destruct (C99_refines T C W HT HC cfg c b h0 m0 (cw_log w)) as (s & Hrun & Hcs & Ha & Hd); try done.
  { split; [done|]. split; [done|]. split; [done|]. split; [|done]. intros k ev p ?. by eapply Hp, Hin. }
  { intros k ev p Hi. apply Hin, Hp in Hi as (_ & ? & ?). done. }
  fold d0 in Hrun, Hcs, Ha, Hd. exists (cw_log w), (outputs cfg c (start d0) (cw_log w)), s.
  split; [done|]. split.
  { intros k. destruct (C85_requests T C W cfg c d0 w h k Hsv) as [_ H]. exact H. }
  split; [by rewrite <- Hst|]. intros Hw. split; [rewrite <- Ha; by apply Hal|].
  intros k x Hk Hx. destruct (Hq Hw k x Hk Hx) as [H1 H2]. split; [by rewrite <- written_outputs|]. by rewrite <- Hcs.
Qed.
Print Assumptions C99_concurrent.

(** Schedules (P_Conns.v) as runs that read packets; for the example. *)
Definition turn_reads (t : turn) : list (nat * (renv env * packet)) :=
  match t with TPacket k ev p => [(k, (ev, p))] | _ => [] end.
Lemma take_turn_served {T : Text} {C : Crypto} {W : Wire} cfg c d w h t w' :
  served cfg c d w h -> take_turn cfg c w t = Some w' -> served cfg c d w' (h ++ turn_reads t).
Proof.
  intros Hs Ht. pose proof (take_turn_step cfg c w t w' Ht) as Hst.
  assert (Hother : forall k x, cw_conns w' = put w k x -> (forall ev p, cn_phase x <> PAsked ev p) -> served cfg c d w' h).
  { intros k x Hw Hx. eapply sv_other; [exact Hs|exact Hst|]. intros (j & y & y' & ev & p & Hj & Hj' & Hy & Hy').
    rewrite Hw in Hj'. unfold put in Hj'. destruct (decide (j = k)) as [->|Hne].
    - rewrite lookup_insert in Hj'. injection Hj' as <-. by eapply Hx.
    - rewrite lookup_insert_ne in Hj' by done. rewrite Hj in Hj'. injection Hj' as <-. by rewrite Hy in Hy'. }
  unfold take_turn in Ht. destruct (cw_alive w) eqn:Ha; [|done]. destruct t as [k|k|k ev p|k]; cbn [turn_reads]; rewrite ?app_nil_r.
  - destruct (cw_conns w !! k) eqn:Hk; [done|]. injection Ht as <-. by eapply Hother.
  - destruct (cw_conns w !! k) as [[b [] out]|] eqn:Hk; try done. injection Ht as <-. by eapply Hother.
  - destruct (cw_conns w !! k) as [[b [] out]|] eqn:Hk; try done. injection Ht as <-. rewrite app_nil_r. by apply sv_read.
  - destruct (cw_conns w !! k) as [[b [|ev p|ev p e o snap|ev p base scope snap|[|r rest] [b'| |]|] out]|] eqn:Hk; try done.
    + destruct (wants cfg c ev b p) as [[e o|base scope]|] eqn:Hwa.
      * destruct (cw_lock w) eqn:Hl; [done|]. injection Ht as <-. by eapply Hother.
      * injection Ht as <-. by eapply Hother.
      * destruct (continues cfg c ev b p None) as [rest n] eqn:Hco. injection Ht as <-. by eapply Hother.
    + destruct (run_op (bc_base c) e o snap) as [[r|] d'] eqn:Hr; [|done].
      destruct (continues cfg c ev b p (Some (RUpdate (Done r)))) as [rest n] eqn:Hco. injection Ht as <-. by eapply Hother.
    + destruct (continues cfg c ev b p (Some (RView (search snap base scope)))) as [rest n] eqn:Hco.
      injection Ht as <-. by eapply Hother.
    + injection Ht as <-. by eapply Hother.
    + injection Ht as <-. by eapply Hother.
    + injection Ht as <-. by eapply Hother.
    + injection Ht as <-. by eapply Hother.
    + injection Ht as <-. by eapply Hother.
Qed.
Lemma take_turns_served {T : Text} {C : Crypto} {W : Wire} cfg c d ts : forall w h w',
  served cfg c d w h -> take_turns cfg c w ts = Some w' -> served cfg c d w' (h ++ concat (map turn_reads ts)).
Proof.
  induction ts as [|t ts IH]; intros w h w' Hs; cbn [take_turns map concat].
  - intros [= <-]. by rewrite app_nil_r.
  - destruct (take_turn cfg c w t) as [w1|] eqn:E; [|done]. intros Ht. rewrite app_assoc. eapply IH; [|exact Ht].
    by eapply take_turn_served.
Qed.

Section case.
#[local] Existing Instances ascii_text toy wire1.
(** The session of C92 followed by a comparison and an unknown request. *)
Definition es99 : list (event (E:=env)) :=
  ((es92 ++ [chg92]) ++ later92) ++ [EPacket 2 ev1 (p_msg 4 (p_op CompareRequest []));
    EOpen 3; EPacket 3 ev1 (p_msg 1 (enc_bind (B "Uid=carl,OU=people, o=base") (B "new")));
    EPacket 3 ev1 (p_msg 2 (p_op 25 []))].
Lemma clean_op {W' : Wire} id tag kids : ~ In tag [AddRequest; BindRequest; DelRequest; ExtendedRequest; ModifyDNRequest; ModifyRequest] ->
  clean (W:=W') (p_msg id (p_op tag kids)).
Proof.
  intros Ht. split.
  - intros bound o _ (i & req & rest & id' & [= <- <- <-] & _ & [Hw|(r & hash & Hw & _)]); exfalso; apply Ht.
    + destruct Hw as [_ [[E _]|[[E _]|[[E _]|[E _]]]]]; cbn [p_op p_tag] in E; rewrite E; cbn [In]; auto 10.
    + destruct Hw as (_ & E & _). cbn [p_op p_tag] in E. rewrite E. cbn [In]. auto 10.
  - intros dn' pw' n (id' & req & v & x & y & (i & rest & [= <- <- <-] & _ & _) & E & _) Hp. exfalso. apply Ht.
    cbn [p_op p_tag] in E. rewrite E. cbn [In]. auto 10.
Qed.
Example C99_case :
  sound c1 b0 h1 es99 /\ bc_admin c1 <> [] /\ sv_enforce cfg1 = true /\ plain_messages es99 /\
  represents (run_ops (normalize b0) h1 empty_db) m1 /\
  exists s, site_run cfg1 c1 b0 (mkSite ∅ m1 true) es99
    [[]; []; []; [RFinal 1 BindResponse 0 None]; [RFinal 1 BindResponse 0 None]; [RFinal 2 ExtendedResponse 0 None];
     [RFinal 2 AddResponse 0 None]; [RFinal 1 DelResponse 50 None]; []; [RFinal 4 CompareRequest 1 None]; [];
     [RFinal 1 BindResponse 0 None]; []] s /\
    s_conns s = {[0 := admin1]} /\ s_alive s = true.
Proof.
  assert (H1 : sound c1 b0 h1 es99).
  { split; [exact b0_ok|]. split; [reflexivity|]. split; [apply ops_okb_ok; vm_compute; reflexivity|]. split; [|vm_compute; reflexivity].
    intros conn ev p Hin. unfold es99 in Hin. apply in_app_or in Hin as [Hin|Hin].
    - destruct C92_case as ((_ & _ & _ & Hcl & _) & _). by apply (Hcl conn ev p).
    - cbn [In] in Hin. repeat (destruct Hin as [H|Hin]; [try discriminate H; injection H as <- <- <-|]); try done.
      + apply clean_op. vm_compute. intros Hi. repeat destruct Hi as [Hi|Hi]; done.
      + eapply bind_clean; [vm_compute; reflexivity|]. intros dd. vm_compute. by intros [= <-].
      + apply clean_op. vm_compute. intros Hi. repeat destruct Hi as [Hi|Hi]; done. }
  assert (H2 : bc_admin c1 <> []) by (vm_compute; discriminate).
  assert (H3 : sv_enforce cfg1 = true) by reflexivity.
  assert (H4 : plain_messages es99).
  { intros k ev p Hin. unfold es99, es92, chg92, later92 in Hin. cbn [Datatypes.app In] in Hin.
    assert (Hc : calm ev1) by (split; [reflexivity|intros n; reflexivity]).
    repeat (destruct Hin as [Hin|Hin]; [first [discriminate Hin|injection Hin as _ <- <-; split; [exact Hc|do 2 eexists; reflexivity]]|]). destruct Hin. }
  split; [exact H1|]. split; [exact H2|]. split; [exact H3|]. split; [exact H4|]. split; [exact d1_m1|].
  destruct (C99_refines ascii_text toy wire1 ascii_text_ok toy_ok cfg1 c1 b0 h1 m1 es99) as (s & Hrun & Hs); [done..|exact d1_m1|].
  exists s. destruct Hs as (Hc & Ha & _). split; [|split].
  - assert (E : outputs cfg1 c1 (start (run_ops (normalize b0) h1 empty_db)) es99 = _) by (vm_compute; reflexivity).
    rewrite E in Hrun. exact Hrun.
  - rewrite <- Hc. apply map_eq. intros k.
    assert (Hdom : map_to_list (w_conns (run cfg1 (bolt_handler c1) (start (run_ops (normalize b0) h1 empty_db)) es99)) = [(0, admin1)])
      by (vm_compute; reflexivity).
    rewrite <- (list_to_map_to_list (w_conns _)), Hdom. done.
  - rewrite <- Ha. vm_compute. reflexivity.
Qed.
(** The hypotheses of C99_settled: an anonymous client is refused, and the
    abstract server can do nothing else. *)
Example C99_settled_case :
  serves cfg1 c1 b0 ev1 1 [] m1 (enc_delete carl) [RFinal 1 DelResponse 50 None] (Go []) m1 /\
  (exists o, says_write (enc_delete carl) o) /\
  forall out n m', serves cfg1 c1 b0 ev1 1 [] m1 (enc_delete carl) out n m' ->
    out = [RFinal 1 DelResponse 50 None] /\ n = Go [] /\ m' = m1.
Proof.
  assert (Hw : exists o, says_write (enc_delete carl) o) by (exists (OpDelete carl); apply C92_gone_case).
  assert (Hs : serves cfg1 c1 b0 ev1 1 [] m1 (enc_delete carl) [RFinal 1 DelResponse 50 None] (Go []) m1).
  { assert (Hr : reachable b0 d1).
    { exists h1. split; [apply ops_okb_ok; vm_compute; reflexivity|]. split; vm_compute; reflexivity. }
    apply (request_served ascii_text_ok toy_ok cfg1 c1 b0 d1 m1 m1 ev1 1 [] (enc_delete carl) b0_ok Hr d1_m1);
      [vm_compute; reflexivity|vm_compute; discriminate|reflexivity|split; [reflexivity|intros n; reflexivity]| |
       apply clean_delete, carl_ok|exact d1_m1].
    intros dd. vm_compute. by intros [= <-]. }
  split; [exact Hs|]. split; [exact Hw|]. intros out n m' H.
  apply (C99_settled ascii_text toy wire1 ascii_text_ok cfg1 c1 b0 ev1 1 [] m1 (enc_delete carl) _ _ _ _ _ _ H Hs). by left.
Qed.
Lemma placed_fatal {T' : Text} b scope e : ~ placed (T:=T') b scope e Fatal.
Proof.
  intros Hp. remember Fatal as j eqn:E. destruct Hp as [|d _ _|p rest s _ _ _ _| | |]; try discriminate E.
  - by destruct (dn_eqfold d b).
  - by destruct (dn_eqfold s b).
Qed.
(** The search of C106_case: in whatever order the entries come, it ends with an
    operations error. *)
Example C99_searches_settled_case :
  let req := enc_search read106 0 0 (filter_packet f106) in
  let below := map snd (bfilter (fun p => in_scope 2 (fold_dn b0) p.1) (map_to_list m1)) in
  serves (W:=wire106) cfg1 c1 b0 ev1 1 [] m1 req [REntry 1 e_ada; RFinal 1 SearchResultDone 1 None] Drop m1 /\
  In e_carl below /\ considered b0 2 e_carl f106 Stuck /\ (forall e, In e below -> ~ considered b0 2 e f106 Fatal) /\
  forall out n m', serves (W:=wire106) cfg1 c1 b0 ev1 1 [] m1 req out n m' ->
    n = Drop /\ last out = Some (RFinal 1 SearchResultDone 1 None) /\ m' = m1.
Proof.
  intros req below. destruct C106_case as (_ & _ & Hcarl & Hsay & _ & Hout & Hnext).
  assert (Hs : serves (W:=wire106) cfg1 c1 b0 ev1 1 [] m1 req [REntry 1 e_ada; RFinal 1 SearchResultDone 1 None] Drop m1).
  { rewrite <- Hout, <- Hnext.
    assert (Hr : reachable b0 d1).
    { exists h1. split; [apply ops_okb_ok; vm_compute; reflexivity|]. split; vm_compute; reflexivity. }
    apply (request_served (W:=wire106) ascii_text_ok toy_ok cfg1 c1 b0 d1 m1 m1 ev1 1 [] req b0_ok Hr d1_m1);
      [vm_compute; reflexivity|vm_compute; discriminate|reflexivity|split; [reflexivity|intros n; reflexivity]| |
       |exact d1_m1].
    - intros dd. vm_compute. by intros [= <-].
    - apply (clean_op (W':=wire106)). vm_compute. intros Hi. repeat destruct Hi as [Hi|Hi]; done. }
  split; [exact Hs|].
  assert (Hin : In e_carl below).
  { unfold below. rewrite in_map_iff. exists ([(B "uid", B "carl")] :: [(B "ou", B "people")] :: b0, e_carl). split; [reflexivity|].
    rewrite filter_In. split; [|vm_compute; reflexivity]. rewrite <- elem_of_list_In, elem_of_map_to_list. vm_compute. reflexivity. }
  split; [exact Hin|].
  assert (Hst : considered b0 2 e_carl f106 Stuck) by (by apply c_filter).
  split; [exact Hst|].
  assert (Hnf : forall e, In e below -> ~ considered b0 2 e f106 Fatal).
  { intros e He Hc. remember Fatal as j eqn:Ej. destruct Hc as [j Hj _|j _ Hp]; subst j.
    - pose proof (C106_filter ascii_text f106 e Fatal Hj) as Hf. clear Hj. revert Hf.
      assert (Hb : forallb (fun p => match apply_filter (filter_packet f106) p.2 with Panic => false | _ => true end) l1 = true) by (vm_compute; reflexivity).
      unfold below in He. rewrite in_map_iff in He. destruct He as ([k e'] & <- & He). rewrite filter_In in He. destruct He as [He _].
      rewrite <- elem_of_list_In, elem_of_map_to_list in He. apply elem_of_list_to_map_2 in He. rewrite elem_of_list_In in He.
      rewrite List.forallb_forall in Hb. specialize (Hb _ He). intros E. by rewrite E in Hb.
    - by apply placed_fatal in Hp. }
  split; [exact Hnf|]. intros out n m' H.
  destruct (C99_searches_settled ascii_text toy wire106 cfg1 c1 b0 ev1 1 [] m1 req _ _ _ _ _ _ read106 f106 b0 H Hs) as (Hm & _ & _ & Hx & _);
    [done|done|exact Hsay|done|done|vm_compute; reflexivity|vm_compute; reflexivity|vm_compute; eauto|by right; right|].
  destruct (Hx e_carl Hin Hst Hnf) as (Hn & _ & Hl & _). split; [exact Hn|]. split; [exact Hl|exact Hm].
Qed.
(** The interleaved run of C85_case as a run of the abstract server. *)
Example C99_concurrent_case :
  exists w, run85 turns85 = Some w /\ served cfg1 c1 d1 w (concat (map turn_reads turns85)) /\
  (forall k ev p, In (k, (ev, p)) (concat (map turn_reads turns85)) -> clean p /\ calm ev /\ exists id req, p = p_msg id req) /\
  (N.of_nat (length h1 + length (cw_log w)) + 1 < 2 ^ 64)%N /\
  exists es outs s, site_run cfg1 c1 b0 (mkSite ∅ m1 true) es outs s /\ represents (cw_db w) (s_dir s) /\
    sent_to 1 es outs = [REntry 3 e_carl; RFinal 3 SearchResultDone 0 None] /\
    sent_to 2 es outs = [RFinal 1 BindResponse 0 None; RFinal 2 DelResponse 53 None].
Proof.
  destruct (run85 turns85) as [w|] eqn:E.
  2:{ exfalso. apply (f_equal (fun o => match o with Some _ => true | None => false end)) in E. revert E. vm_compute. done. }
  exists w. split; [done|].
  assert (Hsv : served cfg1 c1 d1 w (concat (map turn_reads turns85))).
  { apply (take_turns_served cfg1 c1 d1 turns85 (cstart d1) [] w); [apply sv_start|exact E]. }
  split; [exact Hsv|].
  assert (Hp : forall k ev p, In (k, (ev, p)) (concat (map turn_reads turns85)) -> clean p /\ calm ev /\ exists id req, p = p_msg id req).
  { intros k ev p Hin. unfold turns85 in Hin. cbn [map concat turn_reads Datatypes.app In] in Hin.
    assert (Hc : calm ev1) by (split; [reflexivity|intros n; reflexivity]).
    assert (Hb : clean bind85).
    { eapply bind_clean; [vm_compute; reflexivity|]. intros dd. vm_compute. by intros [= <-]. }
    assert (Hd : clean del85) by apply clean_delete, carl_ok.
    assert (Hf : clean find85).
    { apply clean_op. vm_compute. intros Hi. repeat destruct Hi as [Hi|Hi]; done. }
    repeat (destruct Hin as [Hin|Hin]; [injection Hin as _ <- <-; split; [assumption|split; [exact Hc|do 2 eexists; reflexivity]]|]).
    destruct Hin. }
  split; [exact Hp|].
  assert (H : forall A (f : cworld -> A), f w = f (match run85 turns85 with Some w => w | None => cstart d1 end)) by by rewrite E.
  assert (Hl : (N.of_nat (length h1 + length (cw_log w)) + 1 < 2 ^ 64)%N).
  { rewrite (H _ (fun w => length (cw_log w))). vm_compute. reflexivity. }
  split; [exact Hl|].
  destruct (C99_concurrent ascii_text toy wire1 ascii_text_ok toy_ok cfg1 c1 b0 h1 m1 w (concat (map turn_reads turns85)))
    as (es & outs & s & Hrun & _ & Hd & Hal); [exact b0_ok|vm_compute; reflexivity|apply ops_okb_ok; vm_compute; reflexivity|exact Hl|
      vm_compute; discriminate|reflexivity|exact d1_m1|exact Hsv|exact Hp|].
  exists es, outs, s. split; [exact Hrun|]. split; [exact Hd|].
  destruct Hal as [_ Hq].
  { rewrite (H _ cw_alive). vm_compute. reflexivity. }
  assert (Hk : forall k, match cw_conns w !! k with Some x => cn_phase x = PIdle -> sent_to k es outs = cn_sent x | None => True end).
  { intros k. destruct (cw_conns w !! k) as [x|] eqn:Ek; [|done]. intros Hi. symmetry. by apply (Hq k x Ek); left. }
  split.
  - pose proof (Hk 1) as H1. rewrite (H _ (fun w => cw_conns w !! 1)) in H1. revert H1. vm_compute. intros H1. by apply H1.
  - pose proof (Hk 2) as H1. rewrite (H _ (fun w => cw_conns w !! 2)) in H1. revert H1. vm_compute. intros H1. by apply H1.
Qed.
End case.
