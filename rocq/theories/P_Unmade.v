(** Property C108: a password change for which no password can be generated or
    hashed. *)
From Verif Require Import Bytes Text Dn DnProofs Res Entry EntryProofs Password PasswordProofs P_Password P_Db
  Db DbSpec Packet Filter Handler Server ServerProofs Encode EncodeProofs E2e E2eProofs CrashProofs
  P_Filter P_Server P_E2e P_Bind P_Malformed.

Section unmade.
Context {C : Crypto} (genlen : Z) (draws : list nat) (salt new : str).
(** The password [pw] to be hashed: the one of the request, or as many characters
    as configured, each drawn at random. *)
Definition settled_on (pw : str) : Prop :=
  (new <> [] /\ pw = new) \/
  (new = [] /\ exists ds rest, draws = ds ++ rest /\ Z.of_nat (length ds) = genlen /\
     Forall2 (fun x k => pw_chars !! k = Some x) pw ds).
(** Why there is none: a negative length, a random source that fails before there
    are enough characters, and a failure or a panic of the hash function. *)
Inductive unmade : verdict -> Prop :=
| um_length : new = [] -> (genlen < 0)%Z -> unmade Crash
| um_random : new = [] -> (Z.of_nat (length draws) < genlen)%Z -> unmade (Refuse 1)
| um_refused pw : settled_on pw -> argon2_hash pw salt = LErr -> unmade (Refuse 1)
| um_panic pw : settled_on pw -> argon2_hash pw salt = LPanic -> unmade Crash.
(** rand.Int(rand.Reader, n) is below n. *)
Definition fair : Prop := Forall (fun k => k < length pw_chars) draws.

Lemma gen_ok n ds pw : gen_loop n ds = Ok pw <->
  exists u rest, ds = u ++ rest /\ length u = n /\ Forall2 (fun x k => pw_chars !! k = Some x) pw u.
Proof using Type.
  revert ds pw. induction n as [|n IH]; intros ds pw; cbn [gen_loop].
  - split.
    + intros [= <-]. exists [], ds. by repeat constructor.
    + intros (u & rest & -> & Hl & H). destruct u; [|done]. by inversion H.
  - destruct ds as [|k ds].
    + split; [done|]. intros (u & rest & Hu & Hl & _). by destruct u.
    + split.
      * destruct (pw_chars !! k) as [x|] eqn:Ex; [|done]. destruct (gen_loop n ds) as [s| | |] eqn:Eg; try done.
        cbn [rbind]. intros [= <-]. apply IH in Eg as (u & rest & -> & Hl & H). exists (k :: u), rest.
        split; [done|]. split; [cbn; by rewrite Hl|]. by constructor.
      * intros ([|k' u] & rest & Hu & Hl & H); [done|]. injection Hu as <- ->. inversion H as [|x ? pw' ? Hx H']; subst.
        rewrite Hx. assert (gen_loop n (u ++ rest) = Ok pw') as ->; [|done]. apply IH. exists u, rest.
        split; [done|]. split; [by injection Hl|done].
Qed.
Lemma gen_short n ds : Forall (fun k => k < length pw_chars) ds -> length ds < n -> gen_loop n ds = Err EOther.
Proof using Type.
  revert n. induction ds as [|k ds IH]; intros [|n] Hf Hl; cbn [length] in Hl; [lia|done|lia|]. cbn [gen_loop].
  apply Forall_cons in Hf as [Hk Hf]. apply lookup_lt_is_Some in Hk as [x ->]. rewrite IH by (done || lia). done.
Qed.
Lemma settled_iff pw : settled_on pw <->
  (if is_empty new then generate_password genlen draws else Ok new) = Ok pw.
Proof using Type.
  unfold settled_on. destruct new as [|x l] eqn:En; cbn [is_empty].
  - unfold generate_password. split.
    + intros [[? _]|(_ & ds & rest & -> & Hl & H)]; [done|]. rewrite (proj2 (Z.ltb_ge _ _)) by lia.
      apply gen_ok. exists ds, rest. split; [done|]. split; [lia|done].
    + destruct (Z.ltb_spec genlen 0) as [|Hg]; [done|]. intros (u & rest & -> & Hl & H)%gen_ok.
      right. split; [done|]. exists u, rest. split; [done|]. split; [lia|done].
  - split; [intros [[_ ->]|[? _]]; done|]. intros [= <-]. by left.
Qed.
End unmade.

(** C108.  The answer is the one of the reason, whatever the backend ... *)
Theorem C108_answer (T : Text) (C : Crypto) (W : Wire) (S E : Type) (cfg : server_cfg) (h : handler S E) (ev : renv E)
    (bound : str) (p : packet) (id : Z) (req : packet) (r : pw_req) (v : verdict) (s : S) :
  re_send ev 0 = true -> bound <> [] -> carries p id req -> says_password req r -> fair (re_draws ev) ->
  unmade (sv_genlen cfg) (re_draws ev) (re_salt ev) (pw_new r) v ->
  handle cfg h ev bound p s =
    mkResult (sentence id ExtendedResponse bound v).1 (sentence id ExtendedResponse bound v).2 s.
Proof.
  intros Hs Hb Hca Hsay Hfair Hv. pose proof Hsay as (Hc & Ht & _).
  rewrite (carried cfg h ev p id req bound s Hc Hca). unfold dispatch. rewrite Ht.
  cbv [AddRequest BindRequest CompareRequest DelRequest ExtendedRequest ModifyDNRequest ModifyRequest SearchRequest N.eqb Pos.eqb]; cbn match.
  apply password_iff in Hsay as (body & He & Hbody); [|done|done].
  unfold handle_extended. rewrite He, seqb_refl. unfold handle_pwmod.
  assert (is_empty bound = false) as -> by by destruct bound. rewrite Hbody.
  destruct Hv as [Hn Hg|Hn Hg|pw Hpw Hh|pw Hpw Hh].
  - rewrite Hn. cbn [is_empty]. unfold generate_password. by rewrite (proj2 (Z.ltb_lt _ _) Hg).
  - rewrite Hn. cbn [is_empty]. unfold generate_password. rewrite (proj2 (Z.ltb_ge _ _)) by lia.
    rewrite (gen_short (Z.to_nat (sv_genlen cfg)) (re_draws ev) Hfair) by lia. cbn. unfold send_final. by rewrite Hs.
  - apply settled_iff in Hpw. rewrite Hpw. unfold hash_password.
    change (seqb (B "{ARGON2}") [] || seqb (B "{ARGON2}") (B "{CLEARTEXT}")) with false. cbn match.
    rewrite seqb_refl, Hh. cbn. unfold send_final. by rewrite Hs.
  - apply settled_iff in Hpw. rewrite Hpw. unfold hash_password.
    change (seqb (B "{ARGON2}") [] || seqb (B "{ARGON2}") (B "{CLEARTEXT}")) with false. cbn match.
    by rewrite seqb_refl, Hh.
Qed.
Print Assumptions C108_answer.
(** ... and either there is one password with its hash, or there is one reason. *)
Theorem C108_complete (C : Crypto) (genlen : Z) (draws : list nat) (salt new : str) :
  fair draws ->
  ((exists pw hash, settled_on genlen draws new pw /\ argon2_hash pw salt = LOk hash) \/
   exists v, unmade genlen draws salt new v) /\
  (forall pw pw', settled_on genlen draws new pw -> settled_on genlen draws new pw' -> pw = pw') /\
  (forall v v', unmade genlen draws salt new v -> unmade genlen draws salt new v' -> v = v') /\
  (forall v pw hash, unmade genlen draws salt new v -> settled_on genlen draws new pw -> argon2_hash pw salt <> LOk hash).
Proof.
  intros Hfair.
  assert (Hfun : forall pw pw', settled_on genlen draws new pw -> settled_on genlen draws new pw' -> pw = pw').
  { intros pw pw' H1%settled_iff H2%settled_iff. congruence. }
  assert (Hlen : forall pw, new = [] -> settled_on genlen draws new pw -> (0 <= genlen <= Z.of_nat (length draws))%Z).
  { intros pw Hn [[? _]|(_ & ds & rest & -> & Hl & _)]; [done|]. rewrite app_length. lia. }
  split; [|split; [exact Hfun|split]].
  - assert (Hpw : (exists pw, settled_on genlen draws new pw) \/ (new = [] /\ ((genlen < 0)%Z \/ (Z.of_nat (length draws) < genlen)%Z))).
    { destruct (decide (new = [])) as [Hn|Hn]; [|left; exists new; by left].
      destruct (Z_lt_le_dec genlen 0) as [|H0]; [right; auto|].
      destruct (Z_lt_le_dec (Z.of_nat (length draws)) genlen) as [|H1]; [right; auto|]. left.
      assert (Hx : exists pw, Forall2 (fun x k => pw_chars !! k = Some x) pw (take (Z.to_nat genlen) draws)).
      { assert (Hf : fair (take (Z.to_nat genlen) draws)) by by apply Forall_take.
        clear -Hf. induction Hf as [|k ds Hk _ [pw IH]]; [by exists []|].
        apply lookup_lt_is_Some in Hk as [x Hx]. exists (x :: pw). by constructor. }
      destruct Hx as [pw Hx]. exists pw. right. split; [done|]. exists (take (Z.to_nat genlen) draws), (drop (Z.to_nat genlen) draws).
      split; [by rewrite take_drop|]. split; [rewrite take_length; lia|done]. }
    destruct Hpw as [[pw Hpw]|[Hn [H|H]]].
    + destruct (argon2_hash pw salt) as [hash| |] eqn:E.
      * left. eauto.
      * right. exists (Refuse 1). by eapply um_refused.
      * right. exists Crash. by eapply um_panic.
    + right. exists Crash. by apply um_length.
    + right. exists (Refuse 1). by apply um_random.
  - intros v v' H1 H2.
    destruct H1 as [N1 G1|N1 G1|pw1 S1 A1|pw1 S1 A1], H2 as [N2 G2|N2 G2|pw2 S2 A2|pw2 S2 A2]; try done; exfalso;
      first [lia | specialize (Hlen _ N1 S2); lia | specialize (Hlen _ N2 S1); lia | rewrite (Hfun _ _ S1 S2) in A1; congruence].
  - intros v pw hash Hv Hpw Hh. destruct Hv as [N1 G1|N1 G1|pw1 S1 A1|pw1 S1 A1].
    + specialize (Hlen _ N1 Hpw). lia.
    + specialize (Hlen _ N1 Hpw). lia.
    + rewrite (Hfun _ _ S1 Hpw) in A1. congruence.
    + rewrite (Hfun _ _ S1 Hpw) in A1. congruence.
Qed.
Print Assumptions C108_complete.

(** A length of -1, a random source that gives two of four characters, and the hash
    function that wants a salt of four bytes. *)
Section case.
#[local] Existing Instances ascii_text toy wire1.
Definition wire108 : Wire := {|
  decompile_filter _ := None; compile_filter _ := None; decode_inner _ := None; decode_control _ := Ok KOther |}.
Definition ask108 : packet := p_op ExtendedRequest [p_ctx 0 (B "1.3.6.1.4.1.4203.1.11.1")].
Definition ev108 (salt : str) (draws : list nat) : renv env := mkREnv no_faults salt draws (fun _ => true).
Definition out108 (len : Z) (salt : str) (draws : list nat) : result (S:=db) :=
  handle (W:=wire108) (mkServer true len) (bolt_handler c1) (ev108 salt draws) admin1 (p_msg 5 ask108) d1.
Example C108_case :
  says_password (W:=wire108) ask108 (mkPw [] [] []) /\ carries (W:=wire108) (p_msg 5 ask108) 5 ask108 /\ fair [3; 73] /\
  unmade (-1) [3; 73] (B "salt") [] Crash /\ unmade 4 [3; 73] (B "salt") [] (Refuse 1) /\
  unmade 2 [3; 73] (B "sal") [] (Refuse 1) /\ settled_on 2 [3; 73] [] (B "3.") /\
  r_next (out108 (-1) (B "salt") [3; 73]) = Dead /\
  r_out (out108 4 (B "salt") [3; 73]) = [RFinal 5 ExtendedResponse 1 None] /\
  r_out (out108 2 (B "sal") [3; 73]) = [RFinal 5 ExtendedResponse 1 None] /\
  r_out (out108 2 (B "salt") [3; 73]) = [RFinal 5 ExtendedResponse 0 (Some (B "{ARGON2}salt|3."))].
Proof.
  assert (Hset : settled_on 2 [3; 73] [] (B "3.")).
  { right. split; [done|]. exists [3; 73], []. split; [done|]. split; [done|]. repeat constructor. }
  split. { split; [done|]. split; [done|]. exists (p_ctx 0 (B "1.3.6.1.4.1.4203.1.11.1")), []. repeat (split; [done|]). by left. }
  split; [by exists (p_int 5), []|]. split. { repeat constructor; cbn; lia. }
  split; [by apply um_length|]. split; [by apply um_random|].
  split; [by apply (um_refused _ _ _ _ (B "3."))|]. split; [done|]. vm_compute. repeat split.
Qed.
End case.
