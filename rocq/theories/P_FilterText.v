(** Property C84: the filter a search is answered by is the filter the client
    sent, through the text the server turns it into and back. *)
From Verif Require Import Bytes Text Dn DnProofs Res Entry EntryProofs Password PasswordProofs P_Password
  Db DbSpec IdProofs DbProofs DbOps DbSearch DbFacts DbMore P_Db
  Packet Filter FilterProofs ScopeProofs P_Filter Handler Server ServerProofs CrashProofs P_Server
  Encode EncodeProofs E2e E2eProofs P_E2e SessionProofs P_Session Ldif LdifProofs LdifMore P_Ldif P_LdifMsg
  Ber FilterText FilterTextProofs.

(** A search request with its filter as a packet: [r] without regard to its
    filter, which is what [f] says. *)
Definition asks_search (p : packet) (r : search_req) (f : packet) : Prop :=
  exists b s a z t o l da ti, p_kids p = [b; s; a; z; t; o; f; l] /\
    says_text b (sr_base r) /\ p_val s = VInt (sr_scope r) /\ p_val a = VInt da /\
    p_val z = VInt (sr_size r) /\ p_val t = VInt ti /\
    (p_val o = VBool (sr_types r) \/ p_val o = VNil /\ sr_types r = false) /\
    Forall2 says_text (p_kids l) (sr_attrs r).
Definition with_text (r : search_req) (s : str) : search_req :=
  mkSearch (sr_base r) (sr_scope r) (sr_size r) (sr_types r) s (sr_attrs r).

(** C84.  Every filter RFC 4511 allows, without the dnAttributes flag and a
    matching rule called "dn", survives: whatever values it asserts, the text
    made of its packet is read as the same filter. *)
Theorem C84_sent (f : flt) (p : packet) :
  regular f -> says_flt f p -> exists s, decompile p = Some s /\ compile s = Some f.
Proof.
  intros Hr Hp. destruct (filter_travels f p Hr Hp) as (t & Ht & Hc).
  eexists. split; [exact Ht|]. unfold compile. change (aeqb "("%char "("%char) with true. cbn match.
  specialize (Hc (S (length t)) []). rewrite app_nil_r in Hc. rewrite Hc by lia. done.
Qed.
Print Assumptions C84_sent.

Lemma asks_says dc req r p s :
  asks_search req r p -> decompile p = Some s -> says_search (W:=go_wire dc) req (with_text r s).
Proof.
  intros (b & sc & a & z & t & o & l & da & ti & Hk & H1 & H2 & H3 & H4 & H5 & H6 & H7) Hs.
  exists b, sc, a, z, t, o, p, l, da, ti. by repeat split.
Qed.

(** A search of the database is answered by the filter in the message: all
    entries in scope that satisfy it, the requested attributes of them, then
    success. *)
Theorem C84_search (T : Text) (C : Crypto) (dc : packet -> res control) (HT : TextOK T) (cfg : server_cfg) (c : bolt_cfg)
    (ev : renv env) (b : dn) (d : db) (m : dir) (bound : str) (id : Z) (req p : packet)
    (r : search_req) (f : flt) (dd : dn) :
  base_ok b -> reachable b d -> represents d m ->
  p_cls req = ClassApplication -> p_tag req = SearchRequest -> asks_search req r p -> says_flt f p -> regular f ->
  sv_enforce cfg = true -> (forall k, re_send ev k = true) ->
  parse_dn (sr_base r) = Some dd -> wf_dn dd = true -> is_Some (m !! fold_dn dd) ->
  scope_ok (sr_scope r) -> names_plain (sr_scope r) dd m ->
  supported f = true -> (sr_size r <= 0)%Z ->
  exists (sent : list entry) (keep : entry -> bool),
    handle (W:=go_wire dc) cfg (bolt_handler c) ev bound (p_msg id req) d =
      mkResult (map (fun e => REntry id (select_attributes (sr_attrs r) e)) sent ++
                [RFinal id SearchResultDone 0 None]) (Go bound) d /\
    (forall e, keep e = true <-> sat e f) /\
    sent ≡ₚ map snd (bfilter (fun q => in_scope (sr_scope r) (fold_dn dd) q.1 && keep q.2) (map_to_list m)).
Proof.
  intros Hb Hr Hm Hcl Ht Ha Hp Hreg Hen Hs Hdn Hwf Hdd Hsc Hnp Hsup Hz.
  destruct (C84_sent f p Hreg Hp) as (s & Hd & Hc).
  apply (C74_search T C (go_wire dc) HT cfg c ev b d m bound id req (with_text r s) f dd); try done.
  - by apply (asks_says _ _ _ p).
  - cbn [compile_filter go_wire sr_filter with_text]. by rewrite Hc.
Qed.
Print Assumptions C84_search.

(** ... and so is a search of a dataset of LDIF files. *)
Theorem C84_ldif (T : Text) (C : Crypto) (dc : packet -> res control) (Tr : Trees) (HT : TextOK T) (HTr : TreesOK Tr)
    (attrs : list (str * str)) (records : list (option entry)) (d : dataset) (c : ldif_cfg) (cfg : server_cfg)
    (ev : renv bool) (bound : str) (id : Z) (req p : packet) (r : search_req) (f : flt) (b : dn) :
  build attrs records = Some d ->
  p_cls req = ClassApplication -> p_tag req = SearchRequest -> asks_search req r p -> says_flt f p -> regular f ->
  sv_enforce cfg = false -> (forall k, re_send ev k = true) ->
  ldif_allowed c (re_h ev) bound -> (exists t, to_lower (sr_base r) = t ++ lc_base c) ->
  supported f = true -> index_safe f -> parse_dn (sr_base r) = Some b ->
  Forall ascii_entry (records_of records) ->
  (forall e, In (Some e) records -> served_plain (sr_scope r) b (to_lower (e_dn e))) ->
  exists (keep : entry -> bool) (l : list entry),
    (forall e, In (Some e) records -> (keep e = true <-> answers r b f e)) /\
    Permutation l (map (fun e => select_attributes (sr_attrs r) (served e)) (bfilter keep (records_of records))) /\
    let n := Z.to_nat (sr_size r mod 2 ^ 32) in
    handle (W:=go_wire dc) cfg (ldif_handler (W:=go_wire dc) c) ev bound (p_msg id req) d =
      mkResult (map (REntry id) (if (0 <? sr_size r)%Z then take (Nat.max 1 n) l else l) ++
                [RFinal id SearchResultDone 0 None]) (Go bound) d.
Proof.
  intros Hbu Hcl Ht Ha Hp Hreg Hen Hs Hal Hbl Hsup Hsafe Hpd Hasc Hpl.
  destruct (C84_sent f p Hreg Hp) as (s & Hd & Hc).
  apply (C82_search T C (go_wire dc) Tr HT HTr attrs records d c cfg ev bound id req (with_text r s) f b); try done.
  - by apply (asks_says _ _ _ p).
  - cbn [compile_filter go_wire sr_filter with_text]. by rewrite Hc.
Qed.
Print Assumptions C84_ldif.

(** The texts compiled are those of filters, so what C37 asks of the library
    holds: the requests listed there are the only ones that end the process. *)
Theorem C84_only_listed (T : Text) (C : Crypto) (dc : packet -> res control) (HT : TextOK T) (cfg : server_cfg)
    (c : bolt_cfg) (b : dn) (d : db) (ev : renv env) (bound : str) (p : packet) :
  base_ok b -> reachable b d ->
  e_commit (re_h ev) <> CrashBefore -> e_commit (re_h ev) <> CrashAfter ->
  (0 <= sv_genlen cfg)%Z -> Forall (fun i => i < 74) (re_draws ev) ->
  (forall pw salt, argon2_hash pw salt <> LPanic) ->
  r_next (handle (W:=go_wire dc) cfg (bolt_handler c) ev bound p d) = Dead ->
  fatal (W:=go_wire dc) bare_sub cfg c ev bound p d.
Proof.
  intros Hb Hr H1 H2 H3 H4 H5. apply (C37_only_listed T C (go_wire dc) HT cfg c b); try done.
  repeat (split; [done|]). intros s q. cbn [compile_filter go_wire].
  destruct (compile s) as [f|]; [|done]. intros [= <-]. by exists f.
Qed.
Print Assumptions C84_only_listed.

(** A substrings filter whose one component is empty (as text: a, "=" and two stars) loses it
    and has none left: the process ends if there is an entry to compare.  No bind
    is needed. *)
Theorem C84_crash (T : Text) (C : Crypto) (dc : packet -> res control) (HT : TextOK T) (cfg : server_cfg)
    (c : bolt_cfg) (b : dn) (d : db) (ev : renv env) (bound : str) (id : Z) (req p : packet) (r : search_req) (a : str)
    (es : list entry) x :
  base_ok b -> reachable b d ->
  e_commit (re_h ev) <> CrashBefore -> e_commit (re_h ev) <> CrashAfter ->
  (0 <= sv_genlen cfg)%Z -> Forall (fun i => i < 74) (re_draws ev) ->
  (forall pw salt, argon2_hash pw salt <> LPanic) ->
  p_cls req = ClassApplication -> p_tag req = SearchRequest -> asks_search req r p -> named a ->
  says_flt (FSub a [(1%N, [])]) p -> sv_enforce cfg = true ->
  search d (sr_base r) (sr_scope r) = Ok (es, x) -> es <> [] ->
  r_next (handle (W:=go_wire dc) cfg (bolt_handler c) ev bound (p_msg id req) d) = Dead.
Proof.
  intros Hb Hr H1 H2 H3 H4 H5 Hcl Ht Ha Hn Hp Hen Hse Hes.
  assert (Hd : decompile p = Some (B "(" ++ a ++ B "=**)")).
  { destruct p as [cl co tag v da ks]. cbn [says_flt p_tag p_kids] in Hp.
    destruct Hp as (-> & k1 & k2 & -> & <- & Hps). 
    assert (Hq : exists q, p_kids k2 = [q] /\ p_tag q = 1%N /\ p_data q = []).
    { destruct (p_kids k2) as [|q [|q2 l]]; [by inversion Hps|..]; apply Forall2_cons in Hps as [[Hq1 Hq2] Hl]; [by exists q|].
      inversion Hl. }
    destruct Hq as (q & Hk2 & Hq1 & Hq2).
    cbn [decompile]. change (4 =? FAndTag)%N with false. change (4 =? FOrTag)%N with false. change (4 =? FNotTag)%N with false.
    change (4 =? FSubstringsTag)%N with true. cbn match.
    rewrite Hk2. cbn [sub_text]. rewrite Hq1, Hq2. cbn [escape_filter flat_map].
    change (true && negb (1 =? SubInitial)%N) with true. change (1 =? SubFinal)%N with false. cbn match.
    rewrite <- app_assoc. reflexivity. }
  assert (Hc : compile (B "(" ++ a ++ B "=**)") = Some (FSub a [])).
  { unfold compile. change (B "(" ++ a ++ B "=**)") with ("("%char :: a ++ B "=**)"). change (aeqb "("%char "("%char) with true. cbn match.
    assert (Hl : leaf_loop (S (length (a ++ B "=**)"))) leaf_start (a ++ B "=**)") =
      Some (mkLeaf (Some KEq) a [] (B "**") false RCond, [])).
    { replace (S (length (a ++ B "=**)"))) with (length a + 5) by (rewrite app_length; cbn [length B String.list_ascii_of_string]; lia).
      unfold leaf_start. rewrite leaf_name by done. cbn [app]. reflexivity. }
    assert (Hfirst : exists ch s', a ++ B "=**)" = ch :: s' /\ is_ascii ch = true /\
      Forall (fun y => aeqb ch y = false) ["("%char; "&"%char; "|"%char; "!"%char]).
    { destruct a as [|ch a'].
      - eexists _, _. split; [reflexivity|]. split; [done|by repeat constructor].
      - unfold named in Hn. apply Forall_cons in Hn as [Hn _]. apply name_facts in Hn as [H6 H7].
        repeat (apply Forall_cons in H7 as [? H7]). eexists _, _. split; [reflexivity|]. split; [done|]. by repeat constructor. }
    destruct Hfirst as (ch & s' & Es & H6 & H7). rewrite Es in *. rewrite leaf_at by done. rewrite Hl. reflexivity. }
  apply (C37_listed_crash T C (go_wire dc) HT cfg c b); try done.
  { repeat (split; [done|]). intros s q. cbn [compile_filter go_wire].
    destruct (compile s) as [f|]; [|done]. intros [= <-]. by exists f. }
  apply (fatal_filter _ _ _ _ _ _ _ id req (with_text r (B "(" ++ a ++ B "=**)")) (FSub a []) es x); try done.
  - eexists _, []. by split.
  - intros (i & rq & cs & rest & k & [=] & _).
  - apply search_iff. by apply (asks_says _ _ _ p).
  - cbn [compile_filter go_wire sr_filter with_text]. by rewrite Hc.
Qed.
Print Assumptions C84_crash.

(** Refused with operationsError (1), the connection dropped: an unknown choice
    of filter, and an extensible match with the dnAttributes flag, for the value
    of a context-specific element is never decoded. *)
Theorem C84_refused (T : Text) (C : Crypto) (dc : packet -> res control) (S E : Type) (cfg : server_cfg) (h : handler S E)
    (ev : renv E) (bound : str) (id : Z) (req p : packet) (r : search_req) (s : S) :
  p_cls req = ClassApplication -> p_tag req = SearchRequest -> re_send ev 1 = true -> asks_search req r p ->
  (p_tag p = 9%N /\ exists k, In k (p_kids p) /\ p_tag k = 4%N /\ p_val k = VNil) \/
  ((9 < p_tag p)%N /\ sv_enforce cfg = true) ->
  handle (W:=go_wire dc) cfg h ev bound (p_msg id req) s = mkResult [RFinal id SearchResultDone 1 None] Drop s.
Proof.
  intros Hcl Ht Hs Ha Hcase. apply C74_malformed; [done..|].
  destruct p as [cl co tag v da ks]. cbn [p_tag p_kids] in Hcase.
  destruct Hcase as [(-> & k & Hk & Hkt & Hkv)|[Htag Hen]].
  - left. intros r' (b & sc & al & z & t & o & f & l & dal & ti & Hk' & H). 
    destruct Ha as (b1 & sc1 & al1 & z1 & t1 & o1 & l1 & da1 & ti1 & Hk1 & _).
    rewrite Hk1 in Hk'. injection Hk' as <- <- <- <- <- <- <- <-.
    destruct H as (_ & _ & _ & _ & _ & _ & Hd & _). cbn [decompile_filter go_wire] in Hd.
    assert (Hx : forall y, ext_fields ks y = None).
    { clear - Hk Hkt Hkv. induction ks as [|q l IH]; [done|]. intros [[[ru ty] va] dn]. cbn [ext_fields].
      destruct Hk as [->|Hk].
      - rewrite Hkt, Hkv. reflexivity.
      - destruct (p_tag q =? 1)%N; [by apply IH|]. destruct (p_tag q =? 2)%N; [by apply IH|].
        destruct (p_tag q =? 3)%N; [by apply IH|]. destruct (p_tag q =? 4)%N; [|by apply IH].
        destruct (as_bool (p_val q)); [by apply IH|done]. }
    cbn [decompile] in Hd. rewrite Hx in Hd. done.
  - right. split; [done|]. exists (with_text r (B "()")). split.
    + apply (asks_says _ _ _ (Pkt cl co tag v da ks)); [done|]. cbn [decompile].
      repeat match goal with |- context [(tag =? ?n)%N] => replace (tag =? n)%N with false by (symmetry; apply N.eqb_neq; vm_compute in Htag |- *; intros ->; done) end.
      reflexivity.
    + reflexivity.
Qed.
Print Assumptions C84_refused.

(** Beyond what RFC 4511 allows the claim fails: the attribute description is not
    escaped, so that the text of one assertion may be read as several. *)
Theorem C84_injection_refuted :
  exists f p s g e, says_flt f p /\ decompile p = Some s /\ compile s = Some g /\
    sat (T:=ascii_text) e g /\ ~ sat (T:=ascii_text) e f.
Proof.
  set (a := B "uid=x)(cn"). set (f := FAnd [FEq a (B "y")]).
  set (p := Pkt 2 true 0 VNil [] [Pkt 2 true 3 VNil [] [p_octets a; p_octets (B "y")]]).
  exists f, p, (B "(&(uid=x)(cn=y))"), (FAnd [FEq (B "uid") (B "x"); FEq (B "cn") (B "y")]),
    (mkEntry [] [mkAttr (B "uid") [B "x"]; mkAttr (B "cn") [B "y"]]).
  split. { cbn. repeat split; eexists _, _; repeat split. }
  split; [vm_compute; reflexivity|]. split; [vm_compute; reflexivity|].
  split.
  - apply sat_and. repeat constructor; apply match_equality_sat; vm_compute; reflexivity.
  - unfold f. rewrite sat_and. intros H. inversion_clear H as [|? ? H1 H2]. apply match_equality_sat in H1.
    vm_compute in H1. discriminate.
Qed.
Print Assumptions C84_injection_refuted.

(** The octets of (&(uid=ca* )(!(cn=a\2ab))) as a client sends them, from the
    wire to the answer; then the text of a filter with a component left empty. *)
Definition octets84 : str := map ascii_of_N [
  160; 26; 164; 11; 4; 3; 117; 105; 100; 48; 4; 128; 2; 99; 97;
  162; 11; 163; 9; 4; 2; 99; 110; 4; 3; 97; 42; 98]%N.
Definition f84 : flt := FAnd [FSub (B "uid") [(0%N, B "ca")]; FNot (FEq (B "cn") (B "a*b"))].
Definition packet84 : packet := match read_packet octets84 with Some (p, _) => p | None => p_octets [] end.
Definition req84 (p : packet) : packet := enc_search (mkSearch (B "ou=people,o=base") 1 0 false [] [B "uid"]) 0 0 p.
Definition wire84 : Wire := go_wire (fun _ => Ok KOther).
Definition serve84 (p : packet) : result (S:=db) :=
  handle (T:=ascii_text) (C:=toy) (W:=wire84) cfg1 (bolt_handler (T:=ascii_text) (C:=toy) c1) ev1 [] (p_msg 3 (req84 p)) d1.
Definition sub84 (tag : N) : packet :=
  Pkt ClassContext true 4 VNil [] [p_octets (B "uid"); p_seq [p_ctx tag []]].
Example C84_case :
  regular f84 /\ supported f84 = true /\ says_flt f84 packet84 /\
  asks_search (req84 packet84) (mkSearch (B "ou=people,o=base") 1 0 false (B "ignored") [B "uid"]) packet84 /\
  decompile packet84 = Some (B "(&(uid=ca*)(!(cn=a\2ab)))") /\
  compile (B "(&(uid=ca*)(!(cn=a\2ab)))") = Some f84 /\
  (r_out (serve84 packet84), r_next (serve84 packet84)) =
    ([REntry 3 (mkEntry (B "uid=carl,ou=people,o=base") [mkAttr (B "uid") [B "carl"]]);
      RFinal 3 SearchResultDone 0 None], Go []) /\
  says_flt (FSub (B "uid") [(1%N, [])]) (sub84 1) /\
  decompile (sub84 1) = Some (B "(uid=**)") /\ r_next (serve84 (sub84 1)) = Dead /\
  (* an empty initial component is read as presence *)
  decompile (sub84 0) = Some (B "(uid=*)") /\ length (r_out (serve84 (sub84 0))) = 3 /\
  (* the dnAttributes flag, an unknown choice *)
  r_out (serve84 (Pkt ClassContext true 9 VNil [] [p_ctx 2 (B "uid"); p_ctx 3 (B "carl"); p_ctx 4 [ascii_of_N 255]])) =
    [RFinal 3 SearchResultDone 1 None] /\
  r_out (serve84 (Pkt ClassContext true 11 VNil [] [])) = [RFinal 3 SearchResultDone 1 None].
Proof.
  split. { cbn. unfold named. repeat split; try (repeat constructor; fail); [discriminate|].
    right. eexists _, []. split; [reflexivity|]. split; [discriminate|constructor]. }
  split; [done|].
  split. { unfold packet84. vm_compute. repeat split; repeat eexists; repeat constructor. }
  split. { eexists _, _, _, _, _, _, _, _, _. split; [reflexivity|]. repeat split. { by left. } repeat constructor. }
  do 2 (split; [vm_compute; reflexivity|]). split; [vm_compute; reflexivity|].
  split. { cbn. split; [done|]. eexists _, _. split; [reflexivity|]. split; [done|]. by repeat constructor. }
  repeat split; vm_compute; reflexivity.
Qed.

(** The text is read as UTF-8 (RFC 3629): one code point after the other, none of
    the surrogates, nothing above 10FFFF, no longer form than needed; U+FFFD is
    taken for a failure. *)
Definition utf8 (v : N) : str :=
  let tail k := ascii_of_N (128 + (v / 64 ^ k) mod 64) in
  if (v <? 128)%N then [ascii_of_N v]
  else if (v <? 2048)%N then [ascii_of_N (192 + v / 64 ^ 1); tail 0%N]
  else if (v <? 65536)%N then [ascii_of_N (224 + v / 64 ^ 2); tail 1%N; tail 0%N]
  else [ascii_of_N (240 + v / 64 ^ 3); tail 2%N; tail 1%N; tail 0%N].
Definition scalar (v : N) : Prop := (v < 55296 \/ 57344 <= v < 1114112)%N.
Lemma byte_at c n : (n < 256)%N -> ascii_of_N n = c <-> code c = n.
Proof. intros Hn. split; [intros <-; by apply code_ascii|intros <-; apply ascii_code]. Qed.
Lemma code_lt c : (code c < 256)%N.
Proof. apply N_ascii_bounded. Qed.
Lemma utf8_1 v : (v < 128)%N -> utf8 v = [ascii_of_N v].
Proof. intros H. unfold utf8. by rewrite (proj2 (N.ltb_lt _ _) H). Qed.
Lemma utf8_2 v : (128 <= v < 2048)%N -> utf8 v = [ascii_of_N (192 + v / 64); ascii_of_N (128 + v mod 64)].
Proof.
  intros [H H']. unfold utf8. rewrite (proj2 (N.ltb_ge _ _) H), (proj2 (N.ltb_lt _ _) H').
  change (64 ^ 1)%N with 64%N. change (64 ^ 0)%N with 1%N. by rewrite N.div_1_r.
Qed.
Lemma utf8_3 v : (2048 <= v < 65536)%N ->
  utf8 v = [ascii_of_N (224 + v / 4096); ascii_of_N (128 + v / 64 mod 64); ascii_of_N (128 + v mod 64)].
Proof.
  intros [H H']. unfold utf8. rewrite (proj2 (N.ltb_ge v 128)) by lia. rewrite (proj2 (N.ltb_ge _ _) H), (proj2 (N.ltb_lt _ _) H').
  change (64 ^ 2)%N with 4096%N. change (64 ^ 1)%N with 64%N. change (64 ^ 0)%N with 1%N. by rewrite N.div_1_r.
Qed.
Lemma utf8_4 v : (65536 <= v)%N ->
  utf8 v = [ascii_of_N (240 + v / 262144); ascii_of_N (128 + v / 4096 mod 64); ascii_of_N (128 + v / 64 mod 64); ascii_of_N (128 + v mod 64)].
Proof.
  intros H. unfold utf8. rewrite (proj2 (N.ltb_ge v 128)), (proj2 (N.ltb_ge v 2048)) by lia. rewrite (proj2 (N.ltb_ge _ _) H).
  change (64 ^ 3)%N with 262144%N. change (64 ^ 2)%N with 4096%N. change (64 ^ 1)%N with 64%N. change (64 ^ 0)%N with 1%N. by rewrite N.div_1_r.
Qed.
Ltac div_facts v :=
  pose proof (N.div_mod v 64 ltac:(lia)); pose proof (N.mod_lt v 64 ltac:(lia));
  pose proof (N.div_mod (v / 64) 64 ltac:(lia)); pose proof (N.mod_lt (v / 64) 64 ltac:(lia));
  pose proof (N.div_mod (v / 4096) 64 ltac:(lia)); pose proof (N.mod_lt (v / 4096) 64 ltac:(lia));
  assert (v / 4096 = v / 64 / 64)%N by (rewrite N.div_div by lia; done);
  assert (v / 262144 = v / 4096 / 64)%N by (rewrite N.div_div by lia; done).
Theorem C84_runes (s r s1 : str) :
  rune s = Some (r, s1) <-> exists v, scalar v /\ v <> 65533%N /\ r = utf8 v /\ s = r ++ s1.
Proof.
  unfold scalar. split.
  - unfold rune. destruct s as [|c s]; [done|]. pose proof (code_lt c) as Hc.
    destruct (N.ltb_spec (code c) 128) as [H|H].
    { intros [= <- <-]. exists (code c). rewrite utf8_1 by done. rewrite ascii_code. repeat split; lia. }
    destruct (N.ltb_spec (code c) 194) as [H1|H1]; [done|].
    destruct (N.ltb_spec (code c) 224) as [H2|H2].
    { destruct s as [|d s]; [done|]. unfold cont, byte_in.
      destruct (N.leb_spec 128 (code d)); [|done]. destruct (N.leb_spec (code d) 191); [|done]. intros [= <- <-].
      set (v := ((code c - 192) * 64 + (code d - 128))%N).
      assert (Hv : (v / 64 = code c - 192)%N) by (unfold v; rewrite N.div_add_l by lia; rewrite N.div_small by lia; lia).
      exists v. rewrite utf8_2 by (unfold v; lia). div_facts v.
      assert (Hm : (v mod 64 = code d - 128)%N) by (unfold v in *; lia).
      split; [unfold v; lia|]. split; [unfold v; lia|]. split; [|done].
      rewrite Hv, Hm. replace (192 + (code c - 192))%N with (code c) by lia. replace (128 + (code d - 128))%N with (code d) by lia.
      by rewrite !ascii_code. }
    destruct (N.ltb_spec (code c) 240) as [H3|H3].
    { destruct s as [|d [|e s]]; [done..|]. unfold cont, byte_in.
      destruct (N.leb_spec (if (code c =? 224)%N then 160 else 128) (code d)) as [D1|]; [|done].
      destruct (N.leb_spec (code d) (if (code c =? 237)%N then 159 else 191)) as [D2|]; [|done].
      destruct (N.leb_spec 128 (code e)); [|done]. destruct (N.leb_spec (code e) 191); [|done]. cbn [andb].
      destruct (negb ((code c =? 239)%N && (code d =? 191)%N && (code e =? 189)%N)) eqn:En; [|done]. intros [= <- <-].
      assert (Hd : (128 <= code d <= 191)%N) by (destruct (code c =? 224)%N, (code c =? 237)%N; lia).
      set (v := ((code c - 224) * 4096 + (code d - 128) * 64 + (code e - 128))%N).
      assert (Hv : (v / 64 = (code c - 224) * 64 + (code d - 128))%N).
      { unfold v. replace ((code c - 224) * 4096 + (code d - 128) * 64)%N with (((code c - 224) * 64 + (code d - 128)) * 64)%N by lia.
        rewrite N.div_add_l by lia. rewrite N.div_small by lia. lia. }
      assert (Hv2 : (v / 64 / 64 = code c - 224)%N) by (rewrite Hv, N.div_add_l by lia; rewrite N.div_small by lia; lia).
      div_facts v. assert (Hlow : (2048 <= v)%N) by (unfold v; destruct (N.eqb_spec (code c) 224); lia).
      exists v. rewrite utf8_3 by (unfold v in *; lia).
      split. { unfold v. destruct (N.eqb_spec (code c) 237); lia. }
      split. { intros Hx. assert (Hc9 : code c = 239%N) by (rewrite Hx in Hv2; vm_compute in Hv2; lia).
        assert (Hd9 : code d = 191%N) by (rewrite Hx, Hc9 in Hv; vm_compute in Hv; lia).
        assert (He9 : code e = 189%N) by (unfold v in Hx; lia). by rewrite Hc9, Hd9, He9 in En. }
      split; [|done].
      replace (224 + v / 4096)%N with (code c) by lia. replace (128 + v / 64 mod 64)%N with (code d) by lia.
      replace (128 + v mod 64)%N with (code e) by (unfold v in *; lia). by rewrite !ascii_code. }
    destruct (N.ltb_spec (code c) 245) as [H4|H4]; [|done].
    destruct s as [|d [|e [|g s]]]; [done..|]. unfold cont, byte_in.
    destruct (N.leb_spec (if (code c =? 240)%N then 144 else 128) (code d)) as [D1|]; [|done].
    destruct (N.leb_spec (code d) (if (code c =? 244)%N then 143 else 191)) as [D2|]; [|done].
    destruct (N.leb_spec 128 (code e)); [|done]. destruct (N.leb_spec (code e) 191); [|done].
    destruct (N.leb_spec 128 (code g)); [|done]. destruct (N.leb_spec (code g) 191); [|done]. cbn [andb]. intros [= <- <-].
    assert (Hd : (128 <= code d <= 191)%N) by (destruct (code c =? 240)%N, (code c =? 244)%N; lia).
    set (v := ((code c - 240) * 262144 + (code d - 128) * 4096 + (code e - 128) * 64 + (code g - 128))%N).
    assert (Hv : (v / 64 = (code c - 240) * 4096 + (code d - 128) * 64 + (code e - 128))%N).
    { unfold v. replace ((code c - 240) * 262144 + (code d - 128) * 4096 + (code e - 128) * 64)%N
        with (((code c - 240) * 4096 + (code d - 128) * 64 + (code e - 128)) * 64)%N by lia.
      rewrite N.div_add_l by lia. rewrite N.div_small by lia. lia. }
    assert (Hv2 : (v / 64 / 64 = (code c - 240) * 64 + (code d - 128))%N).
    { rewrite Hv. replace ((code c - 240) * 4096 + (code d - 128) * 64)%N with (((code c - 240) * 64 + (code d - 128)) * 64)%N by lia.
      rewrite N.div_add_l by lia. rewrite N.div_small by lia. lia. }
    assert (Hv3 : (v / 64 / 64 / 64 = code c - 240)%N) by (rewrite Hv2, N.div_add_l by lia; rewrite N.div_small by lia; lia).
    div_facts v. assert (Hlow : (65536 <= v)%N) by (unfold v; destruct (N.eqb_spec (code c) 240); lia).
    exists v. rewrite utf8_4 by done.
    split. { unfold v. destruct (N.eqb_spec (code c) 244); lia. }
    split; [lia|]. split; [|done].
    assert (E4 : (v / 4096 / 64 = code c - 240)%N) by congruence.
    replace (240 + v / 262144)%N with (code c) by lia. replace (128 + v / 4096 mod 64)%N with (code d) by lia.
    replace (128 + v / 64 mod 64)%N with (code e) by lia.
    replace (128 + v mod 64)%N with (code g) by (unfold v in *; lia). by rewrite !ascii_code.
  - intros (v & Hs & Hne & -> & ->). div_facts v.
    destruct (N.lt_ge_cases v 128) as [L1|L1].
    { rewrite utf8_1 by done. cbn [Datatypes.app]. unfold rune. rewrite code_ascii by lia. by rewrite (proj2 (N.ltb_lt _ _) L1). }
    destruct (N.lt_ge_cases v 2048) as [L2|L2].
    { rewrite utf8_2 by done. cbn [Datatypes.app]. unfold rune, cont, byte_in. rewrite !code_ascii by lia.
      rewrite (proj2 (N.ltb_ge _ 128)), (proj2 (N.ltb_ge _ 194)), (proj2 (N.ltb_lt _ 224)) by lia.
      rewrite (proj2 (N.leb_le 128 _)), (proj2 (N.leb_le _ 191)) by lia. done. }
    destruct (N.lt_ge_cases v 65536) as [L3|L3].
    { rewrite utf8_3 by done. cbn [Datatypes.app]. unfold rune, cont, byte_in. rewrite !code_ascii by lia.
      rewrite (proj2 (N.ltb_ge _ 128)), (proj2 (N.ltb_ge _ 194)), (proj2 (N.ltb_ge _ 224)), (proj2 (N.ltb_lt _ 240)) by lia.
      rewrite (proj2 (N.leb_le 128 _)), (proj2 (N.leb_le (128 + v mod 64) 191)) by lia.
      rewrite (proj2 (N.leb_le (if (224 + v / 4096 =? 224)%N then 160 else 128) _)) by (destruct (N.eqb_spec (224 + v / 4096) 224); lia).
      rewrite (proj2 (N.leb_le _ (if (224 + v / 4096 =? 237)%N then 159 else 191))) by (destruct (N.eqb_spec (224 + v / 4096) 237); lia).
      cbn [andb]. destruct (N.eqb_spec (224 + v / 4096) 239); [|done]. destruct (N.eqb_spec (128 + v / 64 mod 64) 191); [|done].
      destruct (N.eqb_spec (128 + v mod 64) 189); [lia|done]. }
    rewrite utf8_4 by done. cbn [Datatypes.app]. unfold rune, cont, byte_in. rewrite !code_ascii by lia.
    rewrite (proj2 (N.ltb_ge _ 128)), (proj2 (N.ltb_ge _ 194)), (proj2 (N.ltb_ge _ 224)), (proj2 (N.ltb_ge _ 240)), (proj2 (N.ltb_lt _ 245)) by lia.
    rewrite (proj2 (N.leb_le 128 (128 + v / 64 mod 64))), (proj2 (N.leb_le (128 + v / 64 mod 64) 191)) by lia.
    rewrite (proj2 (N.leb_le 128 (128 + v mod 64))), (proj2 (N.leb_le (128 + v mod 64) 191)) by lia.
    rewrite (proj2 (N.leb_le (if (240 + v / 262144 =? 240)%N then 144 else 128) _)) by (destruct (N.eqb_spec (240 + v / 262144) 240); lia).
    rewrite (proj2 (N.leb_le _ (if (240 + v / 262144 =? 244)%N then 143 else 191))) by (destruct (N.eqb_spec (240 + v / 262144) 244); lia).
    done.
Qed.
Print Assumptions C84_runes.
Example C84_runes_case :
  rune (utf8 233 ++ B "t") = Some (utf8 233, B "t") /\ rune (utf8 8364) = Some (utf8 8364, []) /\
  rune (utf8 128512) = Some (utf8 128512, []) /\ rune (utf8 65533) = None /\ rune (drop 1 (utf8 233)) = None.
Proof. repeat split; vm_compute; reflexivity. Qed.
