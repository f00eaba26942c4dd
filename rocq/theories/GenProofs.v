(** Proofs about Gen.v. *)
From Coq Require Import DecimalString.
From Verif Require Import Bytes Text Res Password PasswordProofs Source SourceProofs TemplateProofs Gen.

(** The number written in a field; None if the field is empty. *)
Definition field (s : str) : option Z := if is_empty s then None else parse_int s.
Definition numeric (s : str) : Prop := s = [] \/ exists z, parse_int s = Some z.
Lemma number_of_ok s x : number_of s = Ok x <-> x = field s /\ numeric s.
Proof.
  unfold number_of, field, numeric. destruct s as [|c s]; cbn [is_empty].
  - split; [intros [= <-]; auto|]. by intros [-> _].
  - destruct (parse_int (c :: s)) as [n|].
    + split; [intros [= <-]; eauto|]. by intros [-> _].
    + split; [done|]. intros [_ [?|[z ?]]]; done.
Qed.
Lemma at_least_spec x n : (n <= at_least x n)%Z /\ (forall m, x = Some m -> (m <= at_least x n)%Z) /\
  (at_least x n = n \/ x = Some (at_least x n)).
Proof.
  unfold at_least. destruct x as [m|].
  - destruct (Z.ltb_spec n m); split; [lia| |lia|]; (split; [intros ? [= <-]; lia|auto]).
  - split; [lia|]. split; [done|auto].
Qed.
Lemma explicit_spec us c xs c' : explicit us c = Ok (xs, c') ->
  xs = map (fun u => (field (u_uid u), field (u_gid u))) us /\ (c <= c')%Z /\
  (forall u n, In u us -> field (u_uid u) = Some n \/ field (u_gid u) = Some n -> (n <= c')%Z) /\
  (c' = c \/ exists u, In u us /\ (field (u_uid u) = Some c' \/ field (u_gid u) = Some c')).
Proof.
  revert c xs. induction us as [|u us IH]; intros c xs; cbn [explicit].
  - intros [= <- <-]. split; [done|]. split; [lia|]. split; [done|auto].
  - destruct (number_of (u_uid u)) as [x| | |] eqn:E1; cbn [rbind]; try done. apply number_of_ok in E1 as [-> _].
    destruct (number_of (u_gid u)) as [y| | |] eqn:E2; cbn [rbind]; try done. apply number_of_ok in E2 as [-> _].
    destruct (explicit us _) as [[xs' c2]| | |] eqn:E3; cbn [rbind]; try done. intros [= <- <-]. cbn [fst snd] in *.
    destruct (IH _ _ E3) as (-> & H1 & H2 & H3).
    destruct (at_least_spec (field (u_uid u)) c) as (A1 & A2 & A3).
    destruct (at_least_spec (field (u_gid u)) (at_least (field (u_uid u)) c)) as (B1 & B2 & B3).
    split; [done|]. split; [lia|]. split.
    + intros v n [<-|Hv] Hn; [|by eapply H2]. destruct Hn as [Hn|Hn]; [apply A2 in Hn|apply B2 in Hn]; lia.
    + destruct H3 as [->|(v & Hv & Hn)]; [|right; exists v; split; [by right|done]].
      destruct B3 as [->|B3]; [|right; exists u; split; [by left|auto]]. destruct A3 as [->|A3]; [auto|right; exists u; split; [by left|auto]].
Qed.
Lemma explicit_ok us c : (exists r, explicit us c = Ok r) <-> Forall (fun u => numeric (u_uid u) /\ numeric (u_gid u)) us.
Proof.
  revert c. induction us as [|u us IH]; intros c; cbn [explicit]; [split; eauto; constructor|].
  split.
  - intros [r H]. destruct (number_of (u_uid u)) as [x| | |] eqn:E1; cbn [rbind] in H; try done. apply number_of_ok in E1 as [-> ?].
    destruct (number_of (u_gid u)) as [y| | |] eqn:E2; cbn [rbind] in H; try done. apply number_of_ok in E2 as [-> ?].
    destruct (explicit us _) as [r'| | |] eqn:E3; cbn [rbind] in H; try done. constructor; [done|]. eapply IH. eauto.
  - intros H. apply Forall_cons in H as [[H1 H2] H].
    rewrite (proj2 (number_of_ok (u_uid u) (field (u_uid u)))) by done. cbn [rbind].
    rewrite (proj2 (number_of_ok (u_gid u) (field (u_gid u)))) by done. cbn [rbind].
    destruct (proj2 (IH (at_least (field (u_gid u)) (at_least (field (u_uid u)) c))) H) as [r ->]. cbn [rbind]. eauto.
Qed.

Lemma i64_id z : (- 2 ^ 63 <= z < 2 ^ 63)%Z -> i64 z = z.
Proof. intros H. unfold i64. rewrite Z.mod_small by lia. lia. Qed.

Section print.
Context {T : Text} {C : Crypto}.
Context (scheme maildomain : str).

Definition xs_of (us : list user) := combine us (map (fun u => (field (u_uid u), field (u_gid u))) us).
(** What is printed for each user, with numbers in range. *)
Lemma print_spec salts us counter auto :
  (1000 <= counter)%Z -> (counter + Z.of_nat (length us) < 2 ^ 63)%Z ->
  (forall u n, In u us -> field (u_uid u) = Some n \/ field (u_gid u) = Some n -> (n <= counter)%Z) ->
  (forall u, In u us -> field (u_uid u) <> Some 0%Z) ->
  NoDup (omap (fun u => field (u_uid u)) us) ->
  let out := (print_users scheme maildomain salts (xs_of us) counter auto).1 in
  map (fun o => o.1.1) out `prefix_of` us /\
  NoDup (map snd out) /\
  Forall (fun o => let '(u, d, n) := o in
     match field (u_uid u) with Some m => n = m | None => (counter < n <= counter + Z.of_nat (length us))%Z end /\
     match field (u_gid u) with Some m => d_gid d = m | None => (counter < d_gid d <= counter + Z.of_nat (length us))%Z end /\
     d_uid d = n) out.
Proof.
  revert counter auto. induction us as [|u us IH]; intros counter auto Hc Hlen Hle Hnz Hnd; cbn zeta.
  - cbn. split; [done|]. split; [constructor|constructor].
  - unfold xs_of. cbn [map combine print_users]. unfold one_user. cbn [fst snd].
    destruct (if is_empty (u_passwd u) then Ok (u_name u) else hash_password (u_passwd u) scheme (salts (u_line u))) as [pw|e| |];
      cbn [rbind]; [|by split; [apply prefix_nil|]; split; constructor..].
    destruct (names_of maildomain u) as [[[mail cn] given] sn].
    set (counter' := match (field (u_uid u), field (u_gid u)) with (Some _, Some _) => counter | _ => i64 (counter + 1) end).
    cbn [length] in Hlen.
    assert (Hc' : (counter <= counter' <= counter + 1)%Z /\ (field (u_uid u) = None \/ field (u_gid u) = None -> counter' = (counter + 1)%Z)).
    { unfold counter'. rewrite !i64_id by lia. destruct (field (u_uid u)), (field (u_gid u)); split; try lia. intros [?|?]; done. }
    clearbody counter'. destruct Hc' as [Hc1 Hc2].
    set (uid := default counter' (field (u_uid u))).
    assert (Hu0 : (uid =? 0)%Z = false).
    { unfold uid. destruct (field (u_uid u)) as [m|] eqn:E; cbn [from_option id]; [|lia].
      apply Z.eqb_neq. intros ->. by apply (Hnz u); [left|]. }
    rewrite Hu0.
    assert (Hnd' : NoDup (omap (fun u => field (u_uid u)) us) /\ forall m, field (u_uid u) = Some m -> m ∉ omap (fun u => field (u_uid u)) us).
    { cbn [omap list_omap] in Hnd. destruct (field (u_uid u)) as [m|]; [|by split]. apply NoDup_cons in Hnd as [H1 H2].
      split; [done|]. by intros ? [= <-]. }
    destruct (IH counter' auto) as (IH1 & IH2 & IH3).
    { lia. }
    { lia. }
    { intros v n Hv Hn. specialize (Hle v n ltac:(by right) Hn). lia. }
    { intros v Hv. apply Hnz. by right. }
    { apply Hnd'. }
    unfold xs_of in IH1, IH2, IH3.
    destruct (print_users scheme maildomain salts (combine us _) counter' auto) as [out r]. cbn [fst snd map] in *.
    split; [by apply prefix_cons|]. split.
    + apply NoDup_cons. split; [|done]. intros Hin. apply elem_of_list_In, in_map_iff in Hin as ([[v d] n] & Hn & Hin). cbn [snd] in Hn.
      rewrite List.Forall_forall in IH3. pose proof (IH3 _ Hin) as (Hv & _ & _).
      assert (Hvu : In v us).
      { destruct IH1 as [rest E]. rewrite E. apply in_or_app. left. apply in_map_iff. by exists (v, d, n). }
      unfold uid in Hn. destruct (field (u_uid u)) as [m|] eqn:E; cbn [from_option id] in Hn.
      * destruct (field (u_uid v)) as [m'|] eqn:Ev.
        -- apply (proj2 Hnd' m eq_refl). apply elem_of_list_omap. exists v. split; [by apply elem_of_list_In|]. rewrite Ev. f_equal. congruence.
        -- specialize (Hle u m ltac:(by left) (or_introl E)). lia.
      * specialize (Hc2 (or_introl eq_refl)). destruct (field (u_uid v)) as [m'|] eqn:Ev; [|lia].
        specialize (Hle v m' ltac:(by right) (or_introl Ev)). lia.
    + constructor.
      * cbn [d_uid d_gid]. split; [|split; [|done]].
        -- unfold uid. destruct (field (u_uid u)); cbn [from_option id]; [done|]. rewrite Hc2 by auto. cbn [length]. lia.
        -- destruct (field (u_gid u)); cbn [from_option id]; [done|]. rewrite Hc2 by auto. cbn [length]. lia.
      * eapply Forall_impl; [exact IH3|]. intros [[v d] n] (H1 & H2 & H3). cbn [length]. split; [|split; [|done]].
        -- destruct (field (u_uid v)); [done|lia].
        -- destruct (field (u_gid v)); [done|lia].
Qed.

(** What goes into each entry apart from the numbers. *)
Lemma print_each salts us counter auto :
  Forall (fun o => let '(u, d, n) := o in
     In u (map fst us) /\
     (if is_empty (u_passwd u) then Ok (u_name u) else hash_password (u_passwd u) scheme (salts (u_line u))) = Ok (d_password d) /\
     names_of maildomain u = (d_mail d, d_cn d, d_given d, d_sn d)) (print_users scheme maildomain salts us counter auto).1.
Proof.
  revert counter auto. induction us as [|[u x] us IH]; intros counter auto; cbn [print_users]; [constructor|]. unfold one_user.
  destruct (if is_empty (u_passwd u) then Ok (u_name u) else hash_password (u_passwd u) scheme (salts (u_line u))) as [pw|e| |] eqn:E;
    cbn [rbind]; [|by constructor..].
  destruct (names_of maildomain u) as [[[mail cn] given] sn] eqn:En.
  match goal with |- context [print_users _ _ _ us ?a ?b] => specialize (IH a b); destruct (print_users scheme maildomain salts us a b) as [out r] end.
  cbn [fst] in *. constructor; [cbn; split; [by left|]; split; [done|done]|].
  eapply Forall_impl; [exact IH|]. intros [[v d] n] (H1 & H2). split; [by right|done].
Qed.
(** The run ends well exactly if every password can be hashed; then every user is printed. *)
Lemma print_ok salts us counter auto out : print_users scheme maildomain salts us counter auto = (out, Ok tt) ->
  map (fun o => o.1.1) out = map fst us.
Proof.
  revert counter auto out. induction us as [|[u x] us IH]; intros counter auto out; cbn [print_users]; [by intros [= <-]|].
  unfold one_user. destruct (if is_empty (u_passwd u) then Ok (u_name u) else hash_password (u_passwd u) scheme (salts (u_line u))) as [pw|e| |];
    cbn [rbind]; try done.
  destruct (names_of maildomain u) as [[[mail cn] given] sn].
  match goal with |- context [print_users _ _ _ us ?a ?b] => specialize (IH a b); destruct (print_users scheme maildomain salts us a b) as [out' r] end.
  intros [= <- ->]. cbn [map fst]. f_equal. by apply IH.
Qed.

Lemma field_spec s n : field s = Some n <-> parse_int s = Some n.
Proof. destruct s; unfold field; cbn [is_empty]; [|done]. by split. Qed.
Lemma distinct_uids us :
  (forall i j u v n, us !! i = Some u -> us !! j = Some v -> parse_int (u_uid u) = Some n -> parse_int (u_uid v) = Some n -> i = j) ->
  NoDup (omap (fun u => field (u_uid u)) us).
Proof.
  induction us as [|u us IH]; [constructor|]. intros Hd.
  assert (Hrest : NoDup (omap (fun u => field (u_uid u)) us)).
  { apply IH. intros i j a b n Hi Hj Ha Hb. assert (S i = S j); [|lia]. by eapply (Hd (S i) (S j)). }
  cbn. destruct (field (u_uid u)) as [n|] eqn:En; [|done]. apply NoDup_cons. split; [|done].
  intros Hin. apply elem_of_list_omap in Hin as (v & Hv & Hn). apply elem_of_list_lookup in Hv as [j Hj].
  apply field_spec in En, Hn. specialize (Hd 0 (S j) u v n eq_refl Hj En Hn). done.
Qed.
Lemma newusers_spec strength least salts file us :
  parse_passwd strength least file = Ok us ->
  (1000 + Z.of_nat (length us) < 2 ^ 63)%Z ->
  (forall u n, In u us -> parse_int (u_uid u) = Some n \/ parse_int (u_gid u) = Some n -> (n + Z.of_nat (length us) < 2 ^ 63)%Z) ->
  (forall u, In u us -> parse_int (u_uid u) <> Some 0%Z) ->
  (forall i j u v n, us !! i = Some u -> us !! j = Some v -> parse_int (u_uid u) = Some n -> parse_int (u_uid v) = Some n -> i = j) ->
  let out := (newusers strength least scheme maildomain salts file).1 in
  map (fun o => o.1.1) out `prefix_of` us /\
  ((newusers strength least scheme maildomain salts file).2 = Ok tt -> map (fun o => o.1.1) out = us) /\
  NoDup (map snd out) /\
  exists c, (1000 <= c)%Z /\
  (forall v n, In v us -> parse_int (u_uid v) = Some n \/ parse_int (u_gid v) = Some n -> (n <= c)%Z) /\
  (out <> [] -> Forall (fun u => numeric (u_uid u) /\ numeric (u_gid u)) us) /\
  Forall (fun o => let '(u, d, n) := o in
     match field (u_uid u) with Some m => n = m | None => (c < n <= c + Z.of_nat (length us))%Z end /\
     match field (u_gid u) with Some m => d_gid d = m | None => (c < d_gid d <= c + Z.of_nat (length us))%Z end /\
     d_uid d = n) out.
Proof.
  intros Hus Hlen Hsmall Hnz Hd. unfold newusers. rewrite Hus. cbn [rbind].
  assert (Hnum : (exists r, explicit us 1000 = Ok r) -> Forall (fun u => numeric (u_uid u) /\ numeric (u_gid u)) us) by apply explicit_ok.
  destruct (explicit us 1000) as [[xs c]|e| |] eqn:E; cbn [rbind fst snd].
  - specialize (Hnum (ex_intro _ _ eq_refl)).
    apply explicit_spec in E as (-> & Hc & Hle & Hc2).
    pose proof (print_spec salts us c 1000 Hc) as H. cbn zeta in H. unfold xs_of in H.
    destruct H as (H1 & H2 & H3).
    + destruct Hc2 as [->|(w & Hw & Hn)]; [done|]. apply (Hsmall w); [done|]. by rewrite <- !field_spec.
    + done.
    + intros w Hw Hn. apply field_spec in Hn. by apply (Hnz w).
    + by apply distinct_uids.
    + split; [done|]. split.
      { intros Hr. destruct (print_users _ _ _ _ _ _) as [out r] eqn:Ep. cbn [fst snd] in *. subst r. apply print_ok in Ep. rewrite Ep.
        clear. induction us as [|u us IH]; cbn; [done|by rewrite IH]. }
      split; [done|]. exists c. split; [done|]. split; [|split; [done|done]].
      intros v n Hv Hn. apply (Hle v); [done|]. by rewrite !field_spec.
  - split; [apply prefix_nil|]. split; [done|]. split; [constructor|].
    exists (2 ^ 63)%Z. split; [lia|]. split; [|split; [done|constructor]]. intros v n Hv Hn. specialize (Hsmall v n Hv Hn). lia.
  - split; [apply prefix_nil|]. split; [done|]. split; [constructor|].
    exists (2 ^ 63)%Z. split; [lia|]. split; [|split; [done|constructor]]. intros v n Hv Hn. specialize (Hsmall v n Hv Hn). lia.
  - split; [apply prefix_nil|]. split; [done|]. split; [constructor|].
    exists (2 ^ 63)%Z. split; [lia|]. split; [|split; [done|constructor]]. intros v n Hv Hn. specialize (Hsmall v n Hv Hn). lia.
Qed.
End print.

(** * Parsing *)
Section parsing.
Context {T : Text}.
Context (strength : str -> Z) (least : Z).
Definition skipped (line : str) : bool := is_empty (trim_dn line) || is_comment (trim_dn line).
Definition fields (line : str) : list str := Bytes.split ":"%char (trim_dn line).
Definition weak (pw : str) : bool := negb (is_empty pw) && (strength pw <? least)%Z.
Definition good_line (line : str) : Prop := 7 <= length (fields line) /\ (forall pw, fields line !! 1 = Some pw -> weak pw = false).
(** The lines that count, with their numbers. *)
Fixpoint relevant (n : nat) (lines : list str) : list (nat * str) :=
  match lines with
  | [] => []
  | l :: ls => if skipped l then relevant (S n) ls else (n, l) :: relevant (S n) ls
  end.
Definition reads (nl : nat * str) (u : user) : Prop :=
  u_line u = nl.1 /\ exists d s rest, fields nl.2 = [u_name u; u_passwd u; u_uid u; u_gid u; u_gecos u] ++ d :: s :: rest.
Lemma parse_user_skipped n l : parse_user strength least n l = None <-> skipped l = true.
Proof. unfold parse_user, skipped. by destruct (is_empty (trim_dn l) || is_comment (trim_dn l)). Qed.
Lemma parse_user_cases n l : skipped l = false ->
  (exists u, parse_user strength least n l = Some (Ok u) /\ reads (n, l) u /\ good_line l /\ weak (u_passwd u) = false) \/
  (parse_user strength least n l = Some (Err EOther) /\ (length (fields l) < 5 \/ 7 <= length (fields l) /\ exists pw, fields l !! 1 = Some pw /\ weak pw = true)) \/
  (parse_user strength least n l = Some Panic /\ 5 <= length (fields l) < 7).
Proof.
  unfold skipped, parse_user, good_line, reads. intros ->. unfold fields. cbn [fst snd].
  destruct (Bytes.split ":"%char (trim_dn l)) as [|f0 [|f1 [|f2 [|f3 [|f4 [|f5 [|f6 rest]]]]]]];
    try (right; left; split; [done|]; left; cbn; lia); try (right; right; split; [done|]; cbn; lia).
  fold (weak f1). destruct (weak f1) eqn:E.
  - right. left. split; [done|]. right. split; [cbn; lia|]. by exists f1.
  - left. exists (mkUser n f0 f1 f2 f3 f4). split; [done|]. split; [split; [done|]; by exists f5, f6, rest|]. split; [|done]. split; [cbn; lia|]. by intros pw [= <-].
Qed.
Lemma parse_users_ok n lines us : parse_users strength least n lines = Ok us <->
  Forall2 reads (relevant n lines) us /\ Forall (fun nl => good_line nl.2) (relevant n lines).
Proof.
  revert n us. induction lines as [|l ls IH]; intros n us; cbn [parse_users relevant].
  - split; [intros [= <-]; by constructor|]. intros [H _]. by inversion H.
  - destruct (skipped l) eqn:Es.
    + rewrite (proj2 (parse_user_skipped n l)) by done. apply IH.
    + destruct (parse_user_cases n l Es) as [(u & -> & Hr & Hg & _)|[[-> Hb]|[-> Hb]]]; cbn [rbind].
      * destruct (parse_users strength least (S n) ls) as [us'|e| |] eqn:E; cbn [rbind].
        -- destruct (proj1 (IH (S n) us') E) as [H1 H2]. split.
           ++ intros [= <-]. split; by constructor.
           ++ intros [H3 _]. inversion H3 as [|? v ? vs Hv Hvs]; subst. f_equal. f_equal.
              ** destruct Hr as (R1 & d & s & r & R2), Hv as (V1 & d' & s' & r' & V2). rewrite R2 in V2. destruct u, v. cbn in *. congruence.
              ** assert (Ok us' = Ok vs) as [= ->]; [|done]. rewrite <- E. by apply IH.
        -- split; [done|]. intros [H1 H2]. inversion H1 as [|? v ? vs Hv Hvs]; subst. apply Forall_cons in H2 as [_ H2].
           by rewrite (proj2 (IH (S n) vs) (conj Hvs H2)) in E.
        -- split; [done|]. intros [H1 H2]. inversion H1 as [|? v ? vs Hv Hvs]; subst. apply Forall_cons in H2 as [_ H2].
           by rewrite (proj2 (IH (S n) vs) (conj Hvs H2)) in E.
        -- split; [done|]. intros [H1 H2]. inversion H1 as [|? v ? vs Hv Hvs]; subst. apply Forall_cons in H2 as [_ H2].
           by rewrite (proj2 (IH (S n) vs) (conj Hvs H2)) in E.
      * split; [done|]. intros [_ H]. apply Forall_cons in H as [[H1 H2] _]. cbn in H1, H2. destruct Hb as [Hb|(Hb & pw & Hp & Hw)]; [lia|].
        by rewrite (H2 _ Hp) in Hw.
      * split; [done|]. intros [_ H]. apply Forall_cons in H as [[H1 H2] _]. cbn in H1. lia.
Qed.
Lemma parse_users_panic n lines : parse_users strength least n lines = Panic <->
  exists before nl after, relevant n lines = before ++ nl :: after /\ Forall (fun x => good_line x.2) before /\ 5 <= length (fields nl.2) < 7.
Proof.
  revert n. induction lines as [|l ls IH]; intros n; cbn [parse_users relevant].
  - split; [done|]. intros (b & nl & a & E & _). by destruct b.
  - destruct (skipped l) eqn:Es.
    + rewrite (proj2 (parse_user_skipped n l)) by done. apply IH.
    + destruct (parse_user_cases n l Es) as [(u & -> & Hr & Hg & _)|[[-> Hb]|[-> Hb]]]; cbn [rbind].
      * destruct (parse_users strength least (S n) ls) as [us'|e| |] eqn:E; cbn [rbind]; (split; [|]); try done.
        all: try (intros (b & nl & a & E2 & Hb & Hn); destruct b as [|y b]; cbn in E2; injection E2 as <- E2;
                  [destruct Hg; cbn in Hn; lia|]; apply Forall_cons in Hb as [_ Hb];
                  assert (E3 : parse_users strength least (S n) ls = Panic) by (apply IH; eauto 10); congruence).
        intros _. destruct (proj1 (IH (S n)) E) as (b & nl & a & E2 & Hb & Hn). exists ((n, l) :: b), nl, a. rewrite E2. split; [done|]. split; [by constructor|done].
      * split; [done|]. intros (b & nl & a & E2 & Hf & Hn). exfalso. destruct b as [|y b]; cbn in E2; injection E2 as <- E2; cbn in *.
        -- destruct Hb as [Hb|(Hb & _)]; lia.
        -- apply Forall_cons in Hf as [[H1 H2] _]. cbn in *. destruct Hb as [Hb|(Hb & pw & Hp & Hw)]; [lia|]. by rewrite (H2 _ Hp) in Hw.
      * split; [|done]. intros _. exists [], (n, l), (relevant (S n) ls). split; [done|]. split; [constructor|done].
Qed.
End parsing.

(** * The printed lines *)
Definition nolf (s : str) : Prop := Forall (fun x => aeqb lf x = false) s.
Lemma uint_nolf d : nolf (B (NilEmpty.string_of_uint d)).
Proof. induction d; cbn; constructor; done || exact IHd. Qed.
Lemma dec_nolf z : nolf (dec z).
Proof.
  unfold dec, NilZero.string_of_int. destruct (Z.to_int z) as [d|d].
  - unfold NilZero.string_of_uint. destruct d; try apply uint_nolf. repeat constructor.
  - cbn. constructor; [done|]. unfold NilZero.string_of_uint. destruct d; try apply uint_nolf. repeat constructor.
Qed.
Lemma nolf_app a b : nolf (a ++ b) <-> nolf a /\ nolf b.
Proof. apply Forall_app. Qed.
Lemma nolf_split c s : nolf s -> Forall nolf (Bytes.split c s).
Proof.
  intros H. rewrite <- (join_split c s) in H. revert H. induction (Bytes.split c s) as [|p l IH]; [constructor|].
  intros H. destruct l as [|q l]; [by repeat constructor|].
  change (Bytes.join [c] (p :: q :: l)) with (p ++ [c] ++ Bytes.join [c] (q :: l)) in H.
  apply nolf_app in H as [H1 H2]. apply nolf_app in H2 as [_ H2]. constructor; [done|]. by apply IH.
Qed.
Lemma split_lines c lines : Forall (Forall (fun x => aeqb c x = false)) lines ->
  Bytes.split c (List.concat (map (fun l => l ++ [c]) lines)) = lines ++ [[]].
Proof.
  intros H. induction H as [|l ls Hl _ IH]; [done|]. cbn [map List.concat]. rewrite <- app_assoc. cbn [app].
  rewrite split_app_sep by done. by rewrite IH.
Qed.
Lemma concat_map_concat {A} (f : A -> str) (ll : list (list A)) :
  List.concat (map (fun l => List.concat (map f l)) ll) = List.concat (map f (List.concat ll)).
Proof. induction ll as [|l ll IH]; [done|]. cbn. by rewrite IH, map_app, concat_app. Qed.

Section lines.
Context {T : Text} {C : Crypto}.
Context (strength : str -> Z) (least : Z) (scheme maildomain : str).
Context (trim_infix : forall s, exists a b, s = a ++ trim_dn s ++ b).
Context (argon_nolf : forall p salt h, argon2_hash p salt = LOk h -> nolf h).
Context (domain_nolf : nolf maildomain).

Lemma nolf_trim s : nolf s -> nolf (trim_dn s).
Proof using trim_infix. destruct (trim_infix s) as (a & b & E). rewrite E at 1. rewrite !nolf_app. by intros (_ & H & _). Qed.
Lemma hash_nolf p salt h : nolf p -> hash_password p scheme salt = Ok h -> nolf h.
Proof using argon_nolf.
  intros Hp. unfold hash_password. destruct (seqb scheme [] || seqb scheme (B "{CLEARTEXT}")); [by intros [= <-]|].
  destruct (seqb scheme (B "{ARGON2}")); [|done]. destruct (argon2_hash p salt) as [x| |] eqn:E; try done.
  intros [= <-]. apply argon_nolf in E. repeat (apply List.Forall_cons; [done|]). done.
Qed.
Lemma splitn_nolf c n s : nolf s -> Forall nolf (splitn c n s).
Proof.
  intros H. revert s H. induction n as [|n IH]; intros s H; cbn [splitn]; [constructor|].
  destruct n; [by repeat constructor|].
  destruct (index_of c s) as [i|]; [|by repeat constructor].
  constructor; [by apply Forall_take|]. apply IH. by apply Forall_drop.
Qed.
Lemma names_nolf u : nolf (u_name u) -> nolf (u_gecos u) ->
  let '(mail, cn, given, sn) := names_of maildomain u in Forall nolf mail /\ nolf cn /\ nolf given /\ nolf sn.
Proof using domain_nolf.
  intros Hn Hg. unfold names_of. destruct (is_empty (u_gecos u)); [repeat split; done || constructor|].
  pose proof (nolf_split ","%char _ Hg) as H. destruct (Bytes.split ","%char (u_gecos u)) as [|full rest]; [repeat split; constructor|].
  apply Forall_cons in H as [Hf Hr]. pose proof (splitn_nolf " "%char 2 full Hf) as Hs.
  assert (Hm : Forall nolf (flat_map (mail_of maildomain) rest)).
  { apply List.Forall_forall. intros m Hin. apply in_flat_map in Hin as (v & Hv & Hin). rewrite List.Forall_forall in Hr. specialize (Hr v Hv).
    unfold mail_of in Hin. destruct (is_email v); [|done]. destruct Hin as [<-|[]]. destruct (_ && _); [|done].
    apply nolf_app. split; [by apply Forall_take|]. repeat constructor. }
  destruct (splitn " "%char 2 full) as [|a [|b [|? ?]]]; repeat split; try done; try constructor.
  - by apply Forall_cons in Hs as [? _].
  - by apply Forall_cons in Hs as [_ [? _]%Forall_cons].
Qed.
Definition user_ok (u : user) : Prop := nolf (u_name u) /\ nolf (u_passwd u) /\ nolf (u_gecos u).
Lemma user_lines_nolf u d number : user_ok u -> nolf (d_password d) -> Forall nolf (d_mail d) -> nolf (d_cn d) -> nolf (d_given d) -> nolf (d_sn d) ->
  Forall nolf (user_lines u d number).
Proof using trim_infix.
  intros (H1 & H2 & H3) Hp Hm Hc Hg Hs. unfold user_lines, user_dn, base_dn, opt_line.
  assert (Hopt : forall name v, nolf name -> nolf v -> Forall nolf (if is_empty v then [] else [name ++ B ": " ++ v])).
  { intros name v Hn Hv. destruct (is_empty v); [constructor|]. constructor; [|constructor]. apply nolf_app. split; [done|]. apply nolf_app. split; [repeat constructor|done]. }
  repeat (apply Forall_app; split).
  - repeat (apply List.Forall_cons; [rewrite ?nolf_app; repeat split; first [done | apply dec_nolf | by apply nolf_trim | repeat constructor]|]). constructor.
  - destruct (d_gid d =? 0)%Z; [constructor|]. constructor; [|constructor]. apply nolf_app. split; [repeat constructor|apply dec_nolf].
  - apply Hopt; [repeat constructor|done].
  - constructor; [|constructor]. rewrite !nolf_app. repeat split; first [done|repeat constructor].
  - apply List.Forall_forall. intros l Hl. apply in_map_iff in Hl as (m & <- & Hin). rewrite List.Forall_forall in Hm. apply nolf_app. split; [repeat constructor|by apply Hm].
  - constructor; [|constructor]. apply nolf_app. split; [repeat constructor|done].
  - apply Hopt; [repeat constructor|done].
  - apply Hopt; [repeat constructor|done].
  - repeat constructor.
Qed.
Lemma parsed_ok file us : parse_passwd strength least file = Ok us -> Forall user_ok us.
Proof using trim_infix.
  unfold parse_passwd. intros H. apply parse_users_ok in H as [H _].
  pose proof (scan_lines_no_lf file) as Hl. revert us H. generalize 1.
  induction (scan_lines file) as [|l ls IH]; intros n us H; cbn [relevant] in H; [by inversion H|].
  apply Forall_cons in Hl as [Hl Hls]. specialize (IH Hls). destruct (skipped l); [by eapply IH|].
  inversion H as [|? u ? us' Hu Hus]; subst. constructor; [|by eapply IH].
  destruct Hu as (_ & d & s & rest & E). cbn [snd] in E.
  assert (Hf : Forall nolf (fields l)) by (apply nolf_split, nolf_trim, Hl).
  rewrite E in Hf. rewrite List.Forall_forall in Hf. repeat split; apply Hf; cbn; auto 10.
Qed.
Lemma newusers_lines salts file :
  let out := (newusers strength least scheme maildomain salts file).1 in
  Bytes.split lf (printed out) = List.concat (map (fun o => user_lines o.1.1 o.1.2 o.2) out) ++ [[]].
Proof using trim_infix argon_nolf domain_nolf.
  intros out. unfold printed. rewrite <- (map_map (fun o => user_lines o.1.1 o.1.2 o.2) (fun ls => List.concat (map (fun l => l ++ [lf]) ls))).
  rewrite concat_map_concat. apply split_lines.
  assert (H : Forall (fun o => Forall nolf (user_lines o.1.1 o.1.2 o.2)) out).
  { subst out. unfold newusers. destruct (parse_passwd strength least file) as [us|e| |] eqn:E; cbn [rbind]; try constructor.
    destruct (explicit us 1000) as [[xs c]|e| |]; cbn [rbind]; try constructor. cbn [fst snd].
    pose proof (print_each scheme maildomain salts (combine us xs) c 1000) as Hp. apply parsed_ok in E.
    eapply Forall_impl; [exact Hp|]. intros [[u d] n] (Hin & Hpw & Hnames). cbn [fst snd].
    assert (Hu : user_ok u).
    { rewrite List.Forall_forall in E. apply E. apply in_map_iff in Hin as ([v x] & <- & Hin). by apply in_combine_l in Hin. }
    pose proof Hu as (H1 & H2 & H3). pose proof (names_nolf u H1 H3) as Hn. rewrite Hnames in Hn. destruct Hn as (N1 & N2 & N3 & N4).
    apply user_lines_nolf; try done. destruct (is_empty (u_passwd u)); [by injection Hpw as <-|eapply hash_nolf; [exact H2|exact Hpw]]. }
  clearbody out. induction H as [|o out Ho _ IH]; [constructor|]. cbn [map List.concat]. apply Forall_app. by split.
Qed.
End lines.
