(** C87: command lines, environment and settings. *)
From Verif Require Import Bytes Text Dn Res Entry Password Db Packet Filter Handler Server Ldif Startup Source Gen Passwd Life Cmdline.

(** * Specification vocabulary *)

Section grammar.
Context (number : fkind -> str -> option Z) (kind : str -> option fkind) (short : ascii -> option str).

(** The values a kind of flag may have. *)
Definition allows (k : fkind) (v : str) : Prop :=
  match k with
  | KStr => True
  | KBool => In v [B "1"; B "t"; B "T"; B "TRUE"; B "true"; B "True"; B "0"; B "f"; B "F"; B "FALSE"; B "false"; B "False"]
  | _ => exists z, number k v = Some z
  end.
(** A name that can follow two dashes. *)
Definition spelled (n : str) : Prop := n <> [] /\ ~ In "="%char n /\ head n <> Some "-"%char.
Definition operand (s : str) : Prop := s = B "-" \/ head s <> Some "-"%char.
(** Letters after one dash: flags that are switched on, and at the end possibly a
    flag with a value in the same argument, or one whose value is the next. *)
Inductive group : str -> list (str * str) -> option (fkind * str) -> Prop :=
| g_end : group [] [] None
| g_test s : group (B "test." ++ s) [] None
| g_on c n s l o :
    short c = Some n -> kind n = Some KBool -> (forall v, c :: s <> B "test." ++ v) -> (forall x v, s <> "="%char :: x :: v) ->
    group s l o -> group (c :: s) ((n, B "true") :: l) o
| g_eq c n k v :
    short c = Some n -> kind n = Some k -> v <> [] -> allows k v -> group (c :: "="%char :: v) [(n, v)] None
| g_joined c n k v :
    short c = Some n -> kind n = Some k -> k <> KBool -> v <> [] -> (forall x w, v <> "="%char :: x :: w) ->
    (forall w, c :: v <> B "test." ++ w) -> allows k v -> group (c :: v) [(n, v)] None
| g_next c n k : short c = Some n -> kind n = Some k -> k <> KBool -> group [c] [] (Some (k, n)).
(** A command line: the flags it gives, in order, and its operands. *)
Inductive line : list str -> list (str * str) -> list str -> Prop :=
| l_end : line [] [] []
| l_rest args : line (B "--" :: args) [] args
| l_operand s args l p : operand s -> line args l p -> line (s :: args) l (s :: p)
| l_eq n k v args l p :
    spelled n -> kind n = Some k -> allows k v -> line args l p -> line ((B "--" ++ n ++ B "=" ++ v) :: args) ((n, v) :: l) p
| l_on n args l p : spelled n -> kind n = Some KBool -> line args l p -> line ((B "--" ++ n) :: args) ((n, B "true") :: l) p
| l_next n k v args l p :
    spelled n -> kind n = Some k -> k <> KBool -> allows k v -> line args l p -> line ((B "--" ++ n) :: v :: args) ((n, v) :: l) p
| l_group c s l args l' p :
    c <> "-"%char -> group (c :: s) l None -> line args l' p -> line (("-"%char :: c :: s) :: args) (l ++ l') p
| l_group_next c s l k n v args l' p :
    c <> "-"%char -> group (c :: s) l (Some (k, n)) -> allows k v -> line args l' p ->
    line (("-"%char :: c :: s) :: v :: args) (l ++ (n, v) :: l') p.
End grammar.

(** The value that a flag is given last; a flag that is not given. *)
Definition last_value (n : str) (l : list (str * str)) (v : str) : Prop :=
  exists l1 l2, l = l1 ++ (n, v) :: l2 /\ ~ In n (map fst l2).
Definition absent (n : str) (l : list (str * str)) : Prop := ~ In n (map fst l).
Definition switched_on (n : str) (l : list (str * str)) : Prop :=
  exists v, last_value n l v /\ In v [B "1"; B "t"; B "T"; B "TRUE"; B "true"; B "True"].

(** * Proofs about the parser *)

Lemma parse_bool_some s : (exists b, parse_bool s = Some b) <-> allows (fun _ _ => None) KBool s.
Proof.
  cbn [allows]. unfold parse_bool. split.
  - intros [b H].
    destruct (existsb (seqb s) [B "1"; B "t"; B "T"; B "TRUE"; B "true"; B "True"]) eqn:E1.
    + apply existsb_exists in E1 as (x & Hx & ->%seqb_eq). cbn in *. naive_solver.
    + destruct (existsb (seqb s) [B "0"; B "f"; B "F"; B "FALSE"; B "false"; B "False"]) eqn:E2; [|done].
      apply existsb_exists in E2 as (x & Hx & ->%seqb_eq). cbn in *. naive_solver.
  - intros H. cbn in H. repeat (destruct H as [<-|H]; [by eexists; vm_compute|]). done.
Qed.
Lemma valid_allows number k v : valid number k v = true <-> allows number k v.
Proof.
  unfold valid. destruct k.
  - rewrite <- (parse_bool_some v). destruct (parse_bool v); [naive_solver|]. split; [done|by intros [? ?]].
  - done.
  - cbn [allows]. destruct (number KInt v); [naive_solver|]. split; [done|by intros [? ?]].
  - cbn [allows]. destruct (number KUint32 v); [naive_solver|]. split; [done|by intros [? ?]].
  - cbn [allows]. destruct (number KUint8 v); [naive_solver|]. split; [done|by intros [? ?]].
Qed.
Lemma cut_at_some sep s a b : cut_at sep s = (a, Some b) <-> s = a ++ sep :: b /\ ~ In sep a.
Proof.
  revert a. induction s as [|c s IH]; intros a; cbn [cut_at].
  { split; [done|]. by intros [H _]; destruct a. }
  destruct (aeqb c sep) eqn:E.
  - apply aeqb_eq in E as ->. split.
    + intros [= <- <-]. split; [done|by intros []].
    + intros [H Hn]. destruct a as [|x a]; [by injection H as ->|]. injection H as <- _. destruct Hn. by left.
  - apply aeqb_neq in E. destruct (cut_at sep s) as [a' b'] eqn:Ec. split.
    + intros [= <- ->]. destruct (IH a') as [[-> Hn] _]; [done|]. split; [done|]. by intros [?|?].
    + intros [H Hn]. destruct a as [|x a]; injection H as <- ->; [done|].
      destruct (IH a) as [_ H]. assert (Hx : (a', b') = (a, Some b)) by (apply H; split; [done|]; intros ?; apply Hn; by right).
      by injection Hx as -> ->.
Qed.
Lemma cut_at_none sep s a : cut_at sep s = (a, None) <-> s = a /\ ~ In sep a.
Proof.
  revert a. induction s as [|c s IH]; intros a; cbn [cut_at].
  { split; [intros [= <-]; split; [done|by intros []]|]. by intros [<- _]. }
  destruct (aeqb c sep) eqn:E.
  - apply aeqb_eq in E as ->. split; [done|]. intros [<- Hn]. destruct Hn. by left.
  - apply aeqb_neq in E. destruct (cut_at sep s) as [a' b'] eqn:Ec. split.
    + intros [= <- ->]. destruct (IH a') as [[-> Hn] _]; [done|]. split; [done|]. by intros [?|?].
    + intros [<- Hn]. destruct (IH s) as [_ H]. assert (Hx : (a', b') = (s, None)) by (apply H; split; [done|]; intros ?; apply Hn; by right).
      by injection Hx as -> ->.
Qed.
Lemma takes_value_spec k : takes_value k = true <-> k <> KBool.
Proof. by destruct k. Qed.

Section parser.
Context (number : fkind -> str -> option Z) (fs : flagset).
Notation kind := (fs_kind fs).
Notation short := (fs_short fs).
Notation group := (group number kind short).
Notation line := (line number kind short).

Lemma set_to_flags k n v l : set_to number k n v = AFlags l <-> allows number k v /\ l = [(n, v)].
Proof using Type.
  unfold set_to. destruct (valid number k v) eqn:E.
  - apply valid_allows in E. split; [by intros [= <-]|by intros [_ ->]].
  - split; [done|]. intros [H%valid_allows _]. congruence.
Qed.
Lemma set_to_next k n v l k' n' : set_to number k n v <> ANext l k' n'.
Proof using Type. unfold set_to. by destruct (valid number k v). Qed.

Lemma long_flags s l : long_arg number fs s = AFlags l <->
  (exists n k v, s = n ++ "="%char :: v /\ spelled n /\ kind n = Some k /\ allows number k v /\ l = [(n, v)]) \/
  (spelled s /\ kind s = Some KBool /\ l = [(s, B "true")]).
Proof using Type.
  unfold long_arg. destruct s as [|c s].
  { split; [done|]. intros [(n & k & v & H & _)|[[H _] _]]; [by destruct n|done]. }
  destruct (aeqb c "-"%char || aeqb c "="%char) eqn:E.
  { split; [done|]. intros H. exfalso. apply orb_prop in E as [E%aeqb_eq|E%aeqb_eq]; subst c.
    - destruct H as [(n & k & v & H & (Hn & _ & Hh) & _)|[(_ & _ & Hh) _]]; [|done]. destruct n; [done|]. by injection H as <- _.
    - destruct H as [(n & k & v & H & (Hn & Hi & _) & _)|[(_ & Hi & _) _]]; [|apply Hi; by left].
      destruct n; [done|]. injection H as <- _. apply Hi. by left. }
  apply orb_false_iff in E as [E1%aeqb_neq E2%aeqb_neq].
  assert (Hd : forall n x, c :: s = n ++ x -> n <> [] -> head n <> Some "-"%char).
  { intros [|y n] x H Hn; [done|]. injection H as <- _. intros [= ->]. done. }
  destruct (cut_at "="%char (c :: s)) as [n [v|]] eqn:Ec.
  - apply cut_at_some in Ec as [Hs Hn].
    assert (Hne : n <> []) by (intros ->; injection Hs as ? _; done).
    destruct (kind n) as [k|] eqn:Ek.
    + rewrite set_to_flags. split.
      * intros [Ha ->]. left. exists n, k, v. repeat split; try done. by eapply Hd.
      * intros [(n' & k' & v' & Hs' & (Hn' & Hi' & _) & Hk' & Ha & ->)|((_ & Hi & _) & _)].
        -- assert (Hc : cut_at "="%char (c :: s) = (n', Some v')) by by apply cut_at_some.
           assert (Hc' : cut_at "="%char (c :: s) = (n, Some v)) by by apply cut_at_some.
           rewrite Hc in Hc'. injection Hc' as -> ->. rewrite Ek in Hk'. injection Hk' as ->. done.
        -- destruct Hi. rewrite Hs. apply in_app_iff. right. by left.
    + split; [done|]. intros [(n' & k' & v' & Hs' & (Hn' & Hi' & _) & Hk' & Ha & ->)|((_ & Hi & _) & _)].
      * assert (Hc : cut_at "="%char (c :: s) = (n', Some v')) by by apply cut_at_some.
        assert (Hc' : cut_at "="%char (c :: s) = (n, Some v)) by by apply cut_at_some.
        rewrite Hc in Hc'. injection Hc' as -> ->. congruence.
      * destruct Hi. rewrite Hs. apply in_app_iff. right. by left.
  - apply cut_at_none in Ec as [<- Hn]. split.
    + destruct (kind (c :: s)) as [k|] eqn:Ek; [|done]. destruct (takes_value k) eqn:Et; [done|]. intros [= <-].
      right. split; [split; [done|split; [done|]]|]. { by intros [= ->]. } split; [|done]. by destruct k.
    + intros [(n' & k' & v' & Hs' & _)|(_ & -> & ->)]; [|done].
      destruct Hn. rewrite Hs'. apply in_app_iff. right. by left.
Qed.
Lemma long_next s l k n : long_arg number fs s = ANext l k n <-> l = [] /\ n = s /\ spelled s /\ kind s = Some k /\ k <> KBool.
Proof using Type.
  unfold long_arg. destruct s as [|c s].
  { split; [done|]. by intros (_ & _ & (H & _) & _). }
  destruct (aeqb c "-"%char || aeqb c "="%char) eqn:E.
  { split; [done|]. intros (_ & _ & (_ & Hi & Hh) & _). exfalso. apply orb_prop in E as [E%aeqb_eq|E%aeqb_eq]; subst c; [done|].
    apply Hi. by left. }
  apply orb_false_iff in E as [E1%aeqb_neq E2%aeqb_neq].
  destruct (cut_at "="%char (c :: s)) as [n' [v|]] eqn:Ec.
  - apply cut_at_some in Ec as [Hs Hn]. split.
    + destruct (kind n'); [|done]. intros H. by apply set_to_next in H.
    + intros (_ & _ & (_ & Hi & _) & _). destruct Hi. rewrite Hs. apply in_app_iff. right. by left.
  - apply cut_at_none in Ec as [<- Hn]. split.
    + destruct (kind (c :: s)) as [k'|] eqn:Ek; [|done]. destruct (takes_value k') eqn:Et; [|done]. intros [= <- -> <-].
      apply takes_value_spec in Et. repeat split; try done. by intros [= ->].
    + intros (-> & -> & _ & -> & Ht%takes_value_spec). by rewrite Ht.
Qed.

(** What a result of [short_args] means. *)
Definition found_group (a : arg) : option (list (str * str) * option (fkind * str)) :=
  match a with AFlags l => Some (l, None) | ANext l k n => Some (l, Some (k, n)) | _ => None end.
Lemma found_more l a : found_group (more l a) = '(l', o) ← found_group a; Some (l ++ l', o).
Proof using Type. by destruct a. Qed.
Lemma group_cons c s l o : group (c :: s) l o -> (forall v, c :: s <> B "test." ++ v) ->
  exists n k, short c = Some n /\ kind n = Some k /\
    ((k = KBool /\ (forall x v, s <> "="%char :: x :: v) /\ exists l', group s l' o /\ l = (n, B "true") :: l') \/
     (exists v, s = "="%char :: v /\ v <> [] /\ allows number k v /\ l = [(n, v)] /\ o = None) \/
     (k <> KBool /\ s <> [] /\ (forall x w, s <> "="%char :: x :: w) /\ allows number k s /\ l = [(n, s)] /\ o = None) \/
     (k <> KBool /\ s = [] /\ l = [] /\ o = Some (k, n))).
Proof using Type.
  intros H Ht. inversion H; subst.
  - by edestruct Ht.
  - exists n, KBool. repeat split; try done. left. split; [done|]. split; [done|]. by eexists.
  - exists n, k. repeat split; try done. right. left. by eexists.
  - exists n, k. repeat split; try done. right. right. left. done.
  - exists n, k. repeat split; try done. right. right. right. done.
Qed.
Lemma short_found s l o : found_group (short_args number fs s) = Some (l, o) <-> group s l o.
Proof using Type.
  revert l. induction s as [|c s IH]; intros l.
  { cbn. split; [by intros [= <- <-]; constructor|]. intros H. by inversion H. }
  change (short_args number fs (c :: s)) with
    (if has_prefix (c :: s) (B "test.") then AFlags []
     else match short c with
     | None => ABad
     | Some n => match kind n with
       | None => ABad
       | Some k =>
                match s with
                | e :: ((_ :: _) as v) =>
                    if aeqb e "="%char then set_to number k n v
                    else if takes_value k then set_to number k n s else more [(n, B "true")] (short_args number fs s)
                | _ =>
                    if takes_value k then (if is_empty s then ANext [] k n else set_to number k n s)
                    else more [(n, B "true")] (short_args number fs s)
                end
       end end).
  destruct (has_prefix (c :: s) (B "test.")) eqn:Ep.
  { apply has_prefix_spec in Ep as [v Hv]. rewrite Hv. split; [intros [= <- <-]; constructor|].
    intros H. remember (B "test." ++ v) as w eqn:Hw. destruct H as [|v'|c' n' s' l' o' _ _ Hn _ _|c' n' k' v' _ _ _ _|c' n' k' v' _ _ _ _ _ Hn _|c' n' k' _ _ _];
      try done; by edestruct Hn. }
  assert (Ht : forall v, c :: s <> B "test." ++ v).
  { intros v Hv. rewrite (proj2 (has_prefix_spec _ _)) in Ep; [done|by exists v]. }
  destruct (short c) as [n|] eqn:Es.
  2:{ split; [done|]. intros H. destruct (group_cons c s l o H Ht) as (n & k & H1 & _). congruence. }
  destruct (kind n) as [k|] eqn:Ek.
  2:{ split; [done|]. intros H. destruct (group_cons c s l o H Ht) as (n' & k & H1 & H2 & _). rewrite Es in H1. injection H1 as <-. congruence. }
  assert (Hof : group (c :: s) l o <->
    ((k = KBool /\ (forall x v, s <> "="%char :: x :: v) /\ exists l', group s l' o /\ l = (n, B "true") :: l') \/
     (exists v, s = "="%char :: v /\ v <> [] /\ allows number k v /\ l = [(n, v)] /\ o = None) \/
     (k <> KBool /\ s <> [] /\ (forall x w, s <> "="%char :: x :: w) /\ allows number k s /\ l = [(n, s)] /\ o = None) \/
     (k <> KBool /\ s = [] /\ l = [] /\ o = Some (k, n)))).
  { split.
    - intros H. destruct (group_cons c s l o H Ht) as (n' & k' & H1 & H2 & H3). rewrite Es in H1. injection H1 as <-.
      rewrite Ek in H2. by injection H2 as <-.
    - intros [(-> & Hs & l' & Hg & ->)|[(v & -> & Hv & Ha & -> & ->)|[(Hk & Hs & Hn & Ha & -> & ->)|(Hk & -> & -> & ->)]]];
        [by constructor|by econstructor|by econstructor|by econstructor]. }
  rewrite Hof.
  assert (Hset : forall v, found_group (set_to number k n v) = Some (l, o) <-> allows number k v /\ l = [(n, v)] /\ o = None).
  { intros v. unfold set_to. destruct (valid number k v) eqn:E; cbn [found_group].
    - apply valid_allows in E. split; [by intros [= <- <-]|by intros (_ & -> & ->)].
    - split; [done|]. intros (H%valid_allows & _). congruence. }
  assert (Hon : found_group (more [(n, B "true")] (short_args number fs s)) = Some (l, o) <-> exists l', group s l' o /\ l = (n, B "true") :: l').
  { rewrite found_more. split.
    - destruct (found_group (short_args number fs s)) as [[l' o']|] eqn:E; [|done]. cbn. intros [= <- ->].
      exists l'. split; [|done]. by apply IH.
    - intros (l' & Hg%IH & ->). rewrite Hg. done. }
  clear Hof IH. destruct s as [|e [|x v]].
  - destruct (takes_value k) eqn:Et; cbn [is_empty].
    + apply takes_value_spec in Et. cbn [found_group]. split.
      * intros [= <- <-]. right. right. right. done.
      * intros [(? & _)|[(? & ? & _)|[(_ & ? & _)|(_ & _ & -> & ->)]]]; done.
    + assert (k = KBool) as -> by by destruct k. rewrite Hon. split.
      * intros H. left. done.
      * intros [(_ & _ & H)|[(? & ? & _)|[(? & _)|(? & _)]]]; done.
  - destruct (takes_value k) eqn:Et; cbn [is_empty].
    + apply takes_value_spec in Et. rewrite Hset. split.
      * intros H. right. right. left. repeat split; try done; by destruct H as (? & ? & ?).
      * intros [(? & _)|[(v & [= -> <-] & ? & _)|[(_ & _ & _ & H)|(_ & ? & _)]]]; done.
    + assert (k = KBool) as -> by by destruct k. rewrite Hon. split.
      * intros H. left. done.
      * intros [(_ & _ & H)|[(v & [= -> <-] & ? & _)|[(? & _)|(? & _)]]]; done.
  - destruct (aeqb e "="%char) eqn:Ee.
    + apply aeqb_eq in Ee as ->. rewrite Hset. split.
      * intros H. right. left. exists (x :: v). by destruct H as (? & ? & ?).
      * intros [(_ & H & _)|[(w & [= <-] & _ & H)|[(_ & _ & H & _)|(_ & ? & _)]]]; [by edestruct H|done|by edestruct H|done].
    + apply aeqb_neq in Ee. assert (He : forall x' v', e :: x :: v <> "="%char :: x' :: v') by (intros ? ? [= ? _ _]; done).
      destruct (takes_value k) eqn:Et.
      * apply takes_value_spec in Et. rewrite Hset. split.
        -- intros H. right. right. left. by destruct H as (? & ? & ?).
        -- intros [(? & _)|[(w & [= ? _] & _)|[(_ & _ & _ & H)|(_ & ? & _)]]]; done.
      * assert (k = KBool) as -> by by destruct k. rewrite Hon. split.
        -- intros H. left. done.
        -- intros [(_ & _ & H)|[(w & [= ? _] & _)|[(? & _)|(? & _)]]]; done.
Qed.
Lemma short_flags s l : short_args number fs s = AFlags l <-> group s l None.
Proof using Type.
  rewrite <- short_found. destruct (short_args number fs s); cbn [found_group]; split; intros H; try done; by injection H as <-.
Qed.
Lemma short_next s l k n : short_args number fs s = ANext l k n <-> group s l (Some (k, n)).
Proof using Type.
  rewrite <- short_found. destruct (short_args number fs s); cbn [found_group]; split; intros H; try done; by injection H as <- <- <-.
Qed.
Lemma short_not s : match short_args number fs s with APlain | AEnd => False | _ => True end.
Proof using Type.
  destruct s as [|c s]; [done|]. cbn [short_args]. destruct (has_prefix _ _); [done|]. destruct (short c) as [n|]; [|done].
  destruct (kind n) as [k|]; [|done].
  assert (Hm : forall l a, match more l a with APlain | AEnd => False | _ => True end) by by intros ? [].
  assert (Hs : forall v, match set_to number k n v with APlain | AEnd => False | _ => True end) by (intros v; unfold set_to; by destruct (valid number k v)).
  destruct s as [|e [|x v]].
  - destruct (takes_value k); [done|apply Hm].
  - destruct (takes_value k); [apply Hs|apply Hm].
  - destruct (aeqb e "="%char); [apply Hs|]. destruct (takes_value k); [apply Hs|apply Hm].
Qed.
Lemma long_not s : match long_arg number fs s with APlain | AEnd => False | _ => True end.
Proof using Type.
  unfold long_arg. destruct s as [|c s]; [done|]. destruct (_ || _); [done|]. destruct (cut_at _ _) as [n [v|]]; destruct (kind n) as [k|]; try done.
  - unfold set_to. by destruct (valid number k v).
  - by destruct (takes_value k).
Qed.

(** The grammar and the parser. *)
Lemma line_parsed args l p : line args l p -> parse_args number fs args = Some (l, p).
Proof using Type.
  intros H. induction H as [|args|s args l p Ho H IH|n k v args l p Hs Hk Ha H IH|n args l p Hs Hk H IH|n k v args l p Hs Hk Hb Ha H IH|
    c s l args l' p Hc Hg H IH|c s l k n v args l' p Hc Hg Ha H IH].
  - done.
  - done.
  - cbn [parse_args]. assert (Hp : arg_of number fs s = APlain).
    { unfold arg_of. destruct s as [|d [|e s]]; [done..|]. destruct (aeqb d "-"%char) eqn:E; [|done].
      apply aeqb_eq in E as ->. by destruct Ho as [Ho|Ho]. }
    rewrite Hp, IH. done.
  - cbn [parse_args]. assert (Hp : arg_of number fs (B "--" ++ n ++ B "=" ++ v) = AFlags [(n, v)]).
    { change (B "--" ++ n ++ B "=" ++ v) with ("-"%char :: "-"%char :: (n ++ "="%char :: v)). cbn [arg_of]. rewrite aeqb_refl. cbn [negb].
      replace (is_empty (n ++ "="%char :: v)) with false by by destruct n.
      apply long_flags. left. exists n, k, v. done. }
    rewrite Hp, IH. done.
  - cbn [parse_args]. assert (Hp : arg_of number fs (B "--" ++ n) = AFlags [(n, B "true")]).
    { change (B "--" ++ n) with ("-"%char :: "-"%char :: n). cbn [arg_of]. rewrite aeqb_refl. cbn [negb].
      replace (is_empty n) with false by (destruct n; [by destruct Hs|done]). apply long_flags. by right. }
    rewrite Hp, IH. done.
  - cbn [parse_args]. assert (Hp : arg_of number fs (B "--" ++ n) = ANext [] k n).
    { change (B "--" ++ n) with ("-"%char :: "-"%char :: n). cbn [arg_of]. rewrite aeqb_refl. cbn [negb].
      replace (is_empty n) with false by (destruct n; [by destruct Hs|done]). by apply long_next. }
    rewrite Hp. apply valid_allows in Ha. rewrite Ha, IH. done.
  - cbn [parse_args]. assert (Hp : arg_of number fs ("-"%char :: c :: s) = AFlags l).
    { cbn [arg_of]. rewrite aeqb_refl. cbn [negb]. apply aeqb_neq in Hc. rewrite Hc. by apply short_flags. }
    rewrite Hp, IH. done.
  - cbn [parse_args]. assert (Hp : arg_of number fs ("-"%char :: c :: s) = ANext l k n).
    { cbn [arg_of]. rewrite aeqb_refl. cbn [negb]. apply aeqb_neq in Hc. rewrite Hc. by apply short_next. }
    rewrite Hp. apply valid_allows in Ha. rewrite Ha, IH. done.
Qed.
Lemma parsed_line args l p : parse_args number fs args = Some (l, p) -> line args l p.
Proof using Type.
  remember (length args) as m eqn:Hm. assert (Hle : length args <= m) by lia. clear Hm.
  revert args l p Hle. induction m as [|m IH]; intros args l p Hle.
  { destruct args; [|cbn in Hle; lia]. intros [= <- <-]. constructor. }
  destruct args as [|s args]; [intros [= <- <-]; constructor|]. cbn [length] in Hle. cbn [parse_args].
  destruct (arg_of number fs s) as [| | |l0|l0 k n] eqn:Ea.
  - destruct (parse_args number fs args) as [[l' p']|] eqn:E; [|done]. cbn. intros [= <- <-].
    constructor; [|apply IH; [lia|done]].
    unfold arg_of in Ea. destruct s as [|d [|e s]]; [by right| |].
    { destruct (decide (d = "-"%char)) as [->|]; [by left|]. right. by intros [= ->]. }
    destruct (aeqb d "-"%char) eqn:Ed; cbn [negb] in Ea; [|apply aeqb_neq in Ed; right; by intros [= ->]].
    exfalso. destruct (aeqb e "-"%char).
    + destruct (is_empty s); [done|]. pose proof (long_not s) as H. by rewrite Ea in H.
    + pose proof (short_not (e :: s)) as H. by rewrite Ea in H.
  - intros [= <- <-]. unfold arg_of in Ea. destruct s as [|d [|e s]]; [done..|].
    destruct (aeqb d "-"%char) eqn:Ed; cbn [negb] in Ea; [|done]. apply aeqb_eq in Ed as ->.
    destruct (aeqb e "-"%char) eqn:Ee.
    + apply aeqb_eq in Ee as ->. destruct s; cbn [is_empty] in Ea; [constructor|]. pose proof (long_not (a :: s)) as H. by rewrite Ea in H.
    + pose proof (short_not (e :: s)) as H. by rewrite Ea in H.
  - done.
  - destruct (parse_args number fs args) as [[l' p']|] eqn:E; [|done]. cbn. intros [= <- <-].
    assert (Hl : line args l' p') by (apply IH; [lia|done]).
    unfold arg_of in Ea. destruct s as [|d [|e s]]; [done..|].
    destruct (aeqb d "-"%char) eqn:Ed; cbn [negb] in Ea; [|done]. apply aeqb_eq in Ed as ->.
    destruct (aeqb e "-"%char) eqn:Ee.
    + apply aeqb_eq in Ee as ->. destruct (is_empty s); [done|].
      apply long_flags in Ea as [(n & k & v & -> & Hs & Hk & Ha & ->)|(Hs & Hk & ->)].
      * by apply (l_eq number kind short n k v args l' p').
      * by apply (l_on number kind short s args l' p').
    + apply aeqb_neq in Ee. apply short_flags in Ea. by constructor.
  - destruct args as [|v args]; [done|]. destruct (valid number k v) eqn:Ev; [|done]. apply valid_allows in Ev.
    destruct (parse_args number fs args) as [[l' p']|] eqn:E; [|done]. cbn. intros [= <- <-]. cbn [length] in Hle.
    assert (Hl : line args l' p') by (apply IH; [lia|done]).
    unfold arg_of in Ea. destruct s as [|d [|e s]]; [done..|].
    destruct (aeqb d "-"%char) eqn:Ed; cbn [negb] in Ea; [|done]. apply aeqb_eq in Ed as ->.
    destruct (aeqb e "-"%char) eqn:Ee.
    + apply aeqb_eq in Ee as ->. destruct (is_empty s); [done|]. apply long_next in Ea as (-> & -> & Hs & Hk & Hb).
      by apply (l_next number kind short s k v args l' p').
    + apply aeqb_neq in Ee. apply short_next in Ea. by apply (l_group_next number kind short e s l0 k n v args l' p').
Qed.
End parser.

(** * C87 *)

Lemma given_last n l v : given n l = Some v <-> last_value n l v.
Proof.
  unfold given. induction l as [|[m w] l IH] using rev_ind.
  - split; [done|]. intros (l1 & l2 & H & _). by destruct l1.
  - rewrite foldl_app. cbn [foldl fst snd]. destruct (seqb m n) eqn:E.
    + apply seqb_eq in E as ->. split.
      * intros [= ->]. exists l, []. split; [done|by intros []].
      * intros (l1 & l2 & H & Hn). destruct l2 as [|x l2 _] using rev_ind.
        -- by apply app_inj_tail in H as [_ [= ->]].
        -- rewrite app_comm_cons, app_assoc in H. apply app_inj_tail in H as [_ <-]. destruct Hn.
           rewrite map_app. apply in_app_iff. right. by left.
    + apply seqb_neq in E. rewrite IH. split.
      * intros (l1 & l2 & -> & Hn). exists l1, (l2 ++ [(m, w)]). split; [by rewrite <- app_assoc|].
        rewrite map_app, in_app_iff. by intros [?|[?|[]]].
      * intros (l1 & l2 & H & Hn). destruct l2 as [|x l2 _] using rev_ind.
        -- apply app_inj_tail in H as [_ [= -> _]]. done.
        -- rewrite app_comm_cons, app_assoc in H. apply app_inj_tail in H as [-> <-]. exists l1, l2. split; [done|].
           intros Hi. apply Hn. rewrite map_app. apply in_app_iff. by left.
Qed.
Lemma given_absent n l : given n l = None <-> absent n l.
Proof.
  unfold given, absent. induction l as [|[m w] l IH] using rev_ind; [by split; [intros _ []|]|].
  rewrite foldl_app, map_app. cbn [foldl fst snd]. rewrite in_app_iff. cbn [map fst In]. destruct (seqb m n) eqn:E.
  - apply seqb_eq in E as ->. split; [done|]. intros H. destruct H. right. by left.
  - apply seqb_neq in E. rewrite IH. naive_solver.
Qed.
Lemma on_given n l : default false (given_bool n l) = true <-> switched_on n l.
Proof.
  unfold given_bool, switched_on. destruct (given n l) as [v|] eqn:E; cbn.
  - apply given_last in E. unfold parse_bool.
    destruct (existsb (seqb v) [B "1"; B "t"; B "T"; B "TRUE"; B "true"; B "True"]) eqn:E1.
    + apply existsb_exists in E1 as (x & Hx & ->%seqb_eq). split; [|done]. intros _. by exists x.
    + split; [by destruct (existsb (seqb v) [B "0"; B "f"; B "F"; B "FALSE"; B "false"; B "False"])|]. intros (v' & H & Hi). apply given_last in E, H. rewrite E in H. injection H as <-.
      exfalso. assert (Hx : existsb (seqb v) [B "1"; B "t"; B "T"; B "TRUE"; B "true"; B "True"] = true); [|congruence].
      apply existsb_exists. exists v. split; [exact Hi|apply seqb_refl].
  - split; [done|]. intros (v & H%given_last & _). congruence.
Qed.

(** The arguments accepted are those of the grammar, and they mean what it says:
    for every table of flags. *)
Theorem C87_syntax (number : fkind -> str -> option Z) (fs : flagset) (args : list str) (l : list (str * str)) (p : list str) :
  parse_args number fs args = Some (l, p) <-> line number (fs_kind fs) (fs_short fs) args l p.
Proof. split; [apply parsed_line|apply line_parsed]. Qed.
Print Assumptions C87_syntax.

(** The settings by flag, environment variable and built-in value. *)
Definition texts : list (str * option str * str * (settings -> str)) :=
  [(B "log-level", None, B "info", s_level);
   (B "ldap-handler", None, B "ldif", fun s => cf_handler (server_config s));
   (B "ldap-listen", Some (B "IDMD_DEFAULT_LDAP_LISTEN"), B "127.0.0.1:10389", fun s => cf_listen (server_config s));
   (B "ldaps-listen", Some (B "IDMD_DEFAULT_LDAPS_LISTEN"), [], fun s => cf_listen_tls (server_config s));
   (B "tls-cert-file", Some (B "IDMD_DEFAULT_TLS_CERT_FILE"), [], fun s => cf_cert (server_config s));
   (B "tls-key-file", Some (B "IDMD_DEFAULT_TLS_KEY_FILE"), [], fun s => cf_key (server_config s));
   (B "ldap-base-dn", Some (B "IDMD_DEFAULT_LDAP_BASEDN"), B "dc=lg,dc=local", fun s => cf_base (server_config s));
   (B "ldap-admin-dn", Some (B "IDMD_DEFAULT_LDAP_ADMINDN"), [], fun s => cf_admin (server_config s));
   (B "boltdb-file", Some (B "IDMD_DEFAULT_BOLTDB_FILE"), B "idmbolt.db", fun s => cf_boltfile (server_config s));
   (B "ldif-main", Some (B "IDMD_DEFAULT_LDIF_MAIN_PATH"), [], fun s => cf_ldif_main (server_config s));
   (B "ldif-config", Some (B "IDMD_DEFAULT_LDIF_CONFIG_PATH"), [], fun s => cf_ldif_config (server_config s));
   (B "ldif-template-default-company", Some (B "IDMD_DEFAULT_LDIF_TEMPLATE_COMPANY"), B "Default", s_company);
   (B "ldif-template-default-mail-domain", Some (B "IDMD_DEFAULT_LDIF_TEMPLATE_MAIL_DOMAIN"), B "lg.local", s_domain);
   (B "pprof-listen", None, B "127.0.0.1:6060", s_pprof_at);
   (B "metrics-listen", None, B "127.0.0.1:6389", s_metrics_at)].
Definition switches : list (str * bool * (settings -> bool)) :=
  [(B "log-timestamp", true, s_stamp); (B "systemd-notify", false, s_notify);
   (B "ldap-allow-local-anonymous", false, fun s => cf_anon (server_config s));
   (B "with-pprof", false, s_pprof); (B "with-metrics", false, s_metrics)].
(** A flag that is given decides, then a variable that is not empty, then the
    built-in value; switches have no variable. *)
Definition by_line (getenv : str -> str) (l : list (str * str)) (s : settings) : Prop :=
  (forall flag var def get, In (flag, var, def, get) texts ->
     (forall v, last_value flag l v -> get s = v) /\
     (absent flag l -> match var with Some x => getenv x <> [] | None => False end ->
        get s = match var with Some x => getenv x | None => [] end) /\
     (absent flag l -> match var with Some x => getenv x = [] | None => True end -> get s = def)) /\
  (forall flag def get, In (flag, def, get) switches ->
     (get s = true <-> switched_on flag l \/ (absent flag l /\ def = true))).
Lemma group_allows number kind short s l o : group number kind short s l o ->
  Forall (fun x => exists k, kind x.1 = Some k /\ allows number k x.2) l.
Proof.
  intros H. induction H; try by constructor.
  - constructor; [|done]. exists KBool. split; [done|]. cbn. tauto.
  - constructor; [|done]. by exists k.
  - constructor; [|done]. by exists k.
Qed.
Lemma group_next_kind number kind short s l k n : group number kind short s l (Some (k, n)) -> kind n = Some k.
Proof. intros H. remember (Some (k, n)) as o eqn:Ho. induction H; try done; [auto|]. by injection Ho as -> ->. Qed.
Lemma line_allows number kind short args l p : line number kind short args l p ->
  Forall (fun x => exists k, kind x.1 = Some k /\ allows number k x.2) l.
Proof.
  intros H. induction H; try by constructor. 1: done.
  - constructor; [|done]. by exists k.
  - constructor; [|done]. exists KBool. split; [done|]. cbn. tauto.
  - constructor; [|done]. by exists k.
  - apply Forall_app. split; [|done]. by eapply group_allows.
  - apply Forall_app. split; [by eapply group_allows|]. constructor; [|done]. exists k. split; [|done].
    by eapply group_next_kind.
Qed.
Lemma text_rule (getenv : str -> str) flag (var : option str) def l d : d = match var with Some x => or_else (getenv x) def | None => def end ->
  (forall v, last_value flag l v -> default d (given flag l) = v) /\
  (absent flag l -> match var with Some x => getenv x <> [] | None => False end ->
     default d (given flag l) = match var with Some x => getenv x | None => [] end) /\
  (absent flag l -> match var with Some x => getenv x = [] | None => True end -> default d (given flag l) = def).
Proof.
  intros ->. split; [|split].
  - intros v ->%given_last. done.
  - intros ->%given_absent. destruct var as [x|]; [|done]. cbn. unfold or_else. by destruct (getenv x).
  - intros ->%given_absent. destruct var as [x|]; [|done]. cbn. intros ->. done.
Qed.
Lemma switch_rule number args l p flag def : parse_args number serve_flags args = Some (l, p) ->
  fs_kind serve_flags flag = Some KBool ->
  (default def (given_bool flag l) = true <-> switched_on flag l \/ (absent flag l /\ def = true)).
Proof.
  intros Hp Hk. pose proof (line_allows _ _ _ _ _ _ (parsed_line _ _ _ _ _ Hp)) as Hl.
  pose proof (on_given flag l) as Hon. unfold given_bool in *.
  destruct (given flag l) as [v|] eqn:E; cbn [option_bind mbind] in *.
  - assert (Hv : exists b, parse_bool v = Some b).
    { apply given_last in E as (l1 & l2 & -> & _). apply Forall_app in Hl as [_ Hl]. apply Forall_cons_1 in Hl as [(k & Hk' & Ha) _].
      cbn [fst snd] in *. rewrite Hk in Hk'. injection Hk' as <-. by apply parse_bool_some. }
    destruct Hv as [b Hb]. cbn in *. rewrite Hb in *. cbn in *. rewrite Hon. split; [by left|]. intros [H|[H _]]; [done|].
    apply given_absent in H. congruence.
  - cbn. apply given_absent in E as Ea. split; [by right|]. intros [(v & H%given_last & _)|[_ H]]; [congruence|done].
Qed.
Lemma set_by_line number args l p (getenv : str -> str) : parse_args number serve_flags args = Some (l, p) ->
  by_line getenv l (set_flags l (set_defaults getenv builtin)).
Proof.
  intros Hp. split.
  - intros flag var def get H. unfold texts in H. cbn [In] in H.
    assert (He : forall x, getenv x = or_else (getenv x) []) by (intros x; unfold or_else; by destruct (getenv x)).
    destruct H as [H|[H|[H|[H|[H|[H|[H|[H|[H|[H|[H|[H|[H|[H|[H|[]]]]]]]]]]]]]]]];
      injection H as <- <- <- <-; first [exact (text_rule getenv _ None _ l _ eq_refl)|exact (text_rule getenv _ (Some _) _ l _ eq_refl)|exact (text_rule getenv _ (Some _) _ l _ (He _))].
  - intros flag def get H. unfold switches in H. cbn [In] in H.
    destruct H as [H|[H|[H|[H|[H|[]]]]]]; injection H as <- <- <-; by apply (switch_rule number args l p).
Qed.

(** What [idmd serve] does with a command line and an environment: a server is made
    from exactly these settings, or the command ends with the code that says why. *)
Definition levels : list str := [B "panic"; B "fatal"; B "error"; B "warn"; B "warning"; B "info"; B "debug"; B "trace"].
Lemma level_known (T : Text) l : level_ok l = true <-> In (to_lower l) levels.
Proof.
  unfold level_ok. change [B "panic"; B "fatal"; B "error"; B "warn"; B "warning"; B "info"; B "debug"; B "trace"] with levels.
  rewrite existsb_exists. split; [by intros (x & H & <-%seqb_eq)|]. intros H. eexists. split; [done|apply seqb_refl].
Qed.
Theorem C87_serve (T : Text) number attrs main extra stored (getenv : str -> str) (args : list str) :
  let command := line number (fs_kind serve_flags) (fs_short serve_flags) args in
  let secure s := s_tls s = [] \/ (s_cert s <> [] /\ s_key s <> []) in
  let made s := new_server attrs (main s) (extra s) (stored s) (server_config s) in
  match serve_cmd number attrs main extra stored getenv args with
  | Serves s cfg b =>
      exists l p, command l p /\ by_line getenv l s /\ ~ switched_on (B "help") l /\
        secure s /\ In (to_lower (s_level s)) levels /\ made s = Some (cfg, b)
  | Ends code =>
      (code = 1 /\ forall l p, ~ command l p) \/
      (exists l p s, command l p /\ by_line getenv l s /\
        ((code = 0 /\ switched_on (B "help") l) \/
         (~ switched_on (B "help") l /\
           ((code = 1 /\ ~ secure s) \/
            (code = 64 /\ secure s /\ (~ In (to_lower (s_level s)) levels \/ made s = None))))))
  end.
Proof.
  intros command secure made. unfold serve_cmd.
  destruct (parse_args number serve_flags args) as [[l p]|] eqn:Hp.
  2:{ left. split; [done|]. intros l p H. apply (line_parsed number serve_flags) in H. congruence. }
  pose proof (parsed_line _ _ _ _ _ Hp) as Hl. pose proof (set_by_line _ _ _ _ getenv Hp) as Hb.
  set (s := set_flags l (set_defaults getenv builtin)) in *. cbv zeta.
  assert (Ht : tls_ok (server_config s) = true <-> secure s).
  { unfold tls_ok, secure, server_config. cbn [cf_listen_tls cf_cert cf_key]. clearbody s.
    destruct (s_tls s), (s_cert s), (s_key s); cbn; naive_solver. }
  pose proof (level_known T (s_level s)) as Hv. fold (made s). clearbody s.
  destruct (default false (given_bool (B "help") l)) eqn:Eh.
  { apply on_given in Eh. right. exists l, p, s. split; [done|]. split; [done|]. by left. }
  assert (Hh : ~ switched_on (B "help") l) by (intros H%on_given; congruence).
  destruct (tls_ok (server_config s)) eqn:Et; cbn [negb].
  - destruct Ht as [Ht _]. specialize (Ht eq_refl). destruct (level_ok (s_level s)) eqn:Ev.
    + destruct Hv as [Hv _]. specialize (Hv eq_refl). destruct (made s) as [[cfg b]|] eqn:Em.
      * exists l, p. done.
      * right. exists l, p, s. split; [done|]. split; [done|]. right. split; [done|]. right. split; [done|]. split; [done|]. by right.
    + right. exists l, p, s. split; [done|]. split; [done|]. right. split; [done|]. right. split; [done|]. split; [done|]. left.
      intros H%Hv. congruence.
  - right. exists l, p, s. split; [done|]. split; [done|]. right. split; [done|]. left. split; [done|].
    intros H%Ht. congruence.
Qed.
Print Assumptions C87_serve.

(** What is served besides: metrics and profiles exactly if their switch is on and
    there is an address for them. *)
Theorem C87_extras (number : fkind -> str -> option Z) (args : list str) l p getenv s a :
  line number (fs_kind serve_flags) (fs_short serve_flags) args l p -> by_line getenv l s ->
  (metrics_at s = Some a <-> switched_on (B "with-metrics") l /\ s_metrics_at s = a /\ a <> []) /\
  (pprof_at s = Some a <-> switched_on (B "with-pprof") l /\ s_pprof_at s = a /\ a <> []).
Proof.
  intros _ [_ Hs]. unfold metrics_at, pprof_at.
  pose proof (Hs (B "with-metrics") false s_metrics) as Hm. pose proof (Hs (B "with-pprof") false s_pprof) as Hq.
  assert (G : forall (b : bool) (x : str) (P : Prop), (b = true <-> P) -> ((if b && negb (is_empty x) then Some x else None) = Some a <-> P /\ x = a /\ a <> [])).
  { intros b x P <-. destruct b; [|naive_solver]. destruct x; cbn; naive_solver. }
  split; apply G.
  - rewrite Hm; [|cbn; tauto]. naive_solver.
  - rewrite Hq; [|cbn; tauto]. naive_solver.
Qed.
Print Assumptions C87_extras.

(** The tools for the database file. *)
Definition value_or (n : str) (l : list (str * str)) (def v : str) : Prop := last_value n l v \/ (absent n l /\ v = def).
Lemma given_or n l d v : default d (given n l) = v <-> value_or n l d v.
Proof.
  unfold value_or. rewrite <- given_last, <- given_absent. destruct (given n l) as [w|]; cbn; naive_solver.
Qed.
Theorem C87_load (T : Text) number (args : list str) file base input :
  load_args number args = BRuns file base input <->
  exists l p i, line number (fs_kind load_flags) (fs_short load_flags) args l p /\ ~ switched_on (B "help") l /\
    last_value (B "input-file") l i /\ input = Some i /\ last_value (B "ldap-base-dn") l base /\
    value_or (B "boltdb-file") l [] file /\
    exists level, value_or (B "log-level") l (B "info") level /\ In (to_lower level) levels.
Proof.
  unfold load_args. setoid_rewrite <- (C87_syntax number load_flags). setoid_rewrite <- given_last. setoid_rewrite <- on_given.
  setoid_rewrite <- given_or. setoid_rewrite <- (level_known T).
  destruct (parse_args number load_flags args) as [[l p]|]; [|naive_solver].
  destruct (default false (given_bool (B "help") l)) eqn:Eh; [naive_solver congruence|].
  destruct (given (B "input-file") l) as [i|] eqn:Ei; [|split; [done|]; intros (? & ? & ? & [= <- <-] & ?); naive_solver congruence].
  destruct (given (B "ldap-base-dn") l) as [b|] eqn:Eb; [|split; [done|]; intros (? & ? & ? & [= <- <-] & ?); naive_solver congruence].
  destruct (level_ok (default (B "info") (given (B "log-level") l))) eqn:Ev.
  - split.
    + intros [= <- <- <-]. exists l, p, i. rewrite Eh, Ei, Eb. repeat split; try done. by eexists.
    + intros (? & ? & ? & [= <- <-] & _ & Hi & -> & Hb & <- & _). rewrite Ei in Hi. rewrite Eb in Hb. congruence.
  - split; [done|]. intros (? & ? & ? & [= <- <-] & _ & _ & _ & _ & _ & lv & <- & Hv). congruence.
Qed.
Print Assumptions C87_load.
Theorem C87_export (T : Text) number (args : list str) file base input :
  export_args number args = BRuns file base input <->
  input = None /\ exists l p, line number (fs_kind export_flags) (fs_short export_flags) args l p /\ ~ switched_on (B "help") l /\
    last_value (B "ldap-base-dn") l base /\ value_or (B "boltdb-file") l [] file /\
    exists level, value_or (B "log-level") l (B "info") level /\ In (to_lower level) levels.
Proof.
  unfold export_args. setoid_rewrite <- (C87_syntax number export_flags). setoid_rewrite <- given_last. setoid_rewrite <- on_given.
  setoid_rewrite <- given_or. setoid_rewrite <- (level_known T).
  destruct (parse_args number export_flags args) as [[l p]|]; [|naive_solver].
  destruct (default false (given_bool (B "help") l)) eqn:Eh; [naive_solver congruence|].
  destruct (given (B "ldap-base-dn") l) as [b|] eqn:Eb; [|split; [done|]; intros (_ & ? & ? & [= <- <-] & ?); naive_solver congruence].
  destruct (level_ok (default (B "info") (given (B "log-level") l))) eqn:Ev.
  - split.
    + intros [= <- <- <-]. split; [done|]. exists l, p. rewrite Eh, Eb. repeat split; try done. by eexists.
    + intros (-> & ? & ? & [= <- <-] & _ & Hb & <- & _). rewrite Eb in Hb. congruence.
  - split; [done|]. intros (_ & ? & ? & [= <- <-] & _ & _ & _ & lv & <- & Hv). congruence.
Qed.
Print Assumptions C87_export.

(** The generators. *)
Definition means (v : str) (b : bool) : Prop :=
  if b then In v [B "1"; B "t"; B "T"; B "TRUE"; B "true"; B "True"]
  else In v [B "0"; B "f"; B "F"; B "FALSE"; B "false"; B "False"].
Lemma parse_bool_means v b : parse_bool v = Some b <-> means v b.
Proof.
  unfold parse_bool, means. split.
  - destruct (existsb (seqb v) [B "1"; B "t"; B "T"; B "TRUE"; B "true"; B "True"]) eqn:E1.
    + apply existsb_exists in E1 as (x & Hx & ->%seqb_eq). by intros [= <-].
    + destruct (existsb (seqb v) [B "0"; B "f"; B "F"; B "FALSE"; B "false"; B "False"]) eqn:E2; [|done].
      apply existsb_exists in E2 as (x & Hx & ->%seqb_eq). by intros [= <-].
  - destruct b; intros H; cbn [In] in H; repeat (destruct H as [<-|H]; [vm_compute; reflexivity|]); done.
Qed.
Definition number_or (number : fkind -> str -> option Z) (n : str) (l : list (str * str)) (def z : Z) : Prop :=
  (exists v, last_value n l v /\ number KInt v = Some z) \/ (absent n l /\ z = def).
Lemma given_number number fs args l p n d z : parse_args number fs args = Some (l, p) -> fs_kind fs n = Some KInt ->
  (default d (given n l ≫= number KInt) = z <-> number_or number n l d z).
Proof.
  intros Hp Hk. pose proof (line_allows _ _ _ _ _ _ (parsed_line _ _ _ _ _ Hp)) as Hl.
  unfold number_or. destruct (given n l) as [v|] eqn:E; cbn.
  - assert (Hv : exists z, number KInt v = Some z).
    { apply given_last in E as (l1 & l2 & -> & _). apply Forall_app in Hl as [_ Hl]. apply Forall_cons_1 in Hl as [(k & Hk' & Ha) _].
      cbn [fst snd] in *. rewrite Hk in Hk'. by injection Hk' as <-. }
    destruct Hv as [y Hy]. rewrite Hy. cbn. split.
    + intros <-. left. exists v. split; [by apply given_last|done].
    + intros [(v' & H%given_last & Hz)|[H%given_absent _]]; congruence.
  - apply given_absent in E as Ea. split; [by right|]. intros [(v' & H%given_last & Hz)|[_ H]]; [congruence|done].
Qed.
Theorem C87_newusers (number : fkind -> str -> option Z) (args : list str) file scheme least :
  newusers_args number args = GRuns file scheme least <->
  exists l f, line number (fs_kind newusers_flags) (fs_short newusers_flags) args l [f] /\ ~ switched_on (B "help") l /\
    value_or (B "format") l (B "ldif") (B "ldif") /\ file = (if decide (f = B "-") then None else Some f) /\
    value_or (B "password-scheme") l (B "{ARGON2}") scheme /\ number_or number (B "min-password-strength") l 3 least.
Proof.
  unfold newusers_args. setoid_rewrite <- (C87_syntax number newusers_flags). setoid_rewrite <- on_given. setoid_rewrite <- given_or.
  destruct (parse_args number newusers_flags args) as [[l p]|] eqn:Hp; [|naive_solver].
  destruct (default false (given_bool (B "help") l)) eqn:Eh.
  { split; [done|]. intros (? & ? & [= <- ->] & H & _). congruence. }
  destruct p as [|f [|? ?]]; [naive_solver| |naive_solver].
  pose proof (given_number number newusers_flags args l [f] (B "min-password-strength") 3%Z least Hp eq_refl) as Hn.
  assert (Hf : (if seqb f (B "-") then None else Some f) = (if decide (f = B "-") then None else Some f)).
  { destruct (decide (f = B "-")) as [->|Hne]; [done|]. by rewrite (proj2 (seqb_neq _ _) Hne). }
  destruct (seqb (default (B "ldif") (given (B "format") l)) (B "ldif")) eqn:Ef.
  - apply seqb_eq in Ef. split.
    + intros [= <- <- Hz]. apply Hn in Hz. exists l, f. rewrite Eh. by repeat split.
    + intros (? & ? & [= <- <-] & _ & _ & -> & <- & Hz%Hn). by rewrite Hf, Hz.
  - apply seqb_neq in Ef. split; [done|]. by intros (? & ? & [= <- <-] & _ & H & _).
Qed.
Print Assumptions C87_newusers.
Theorem C87_passwd (number : fkind -> str -> option Z) (file : str -> option str) (args : list str) :
  let command := line number (fs_kind passwd_flags) (fs_short passwd_flags) args in
  match passwd_args number file args with
  | inl code =>
      (code = 1 /\ forall l p, ~ command l p) \/
      (exists l p, command l p /\ ((code = 0 /\ switched_on (B "help") l) \/ (code = 1 /\ ~ switched_on (B "help") l /\ p <> [])))
  | inr fl =>
      exists l, command l [] /\ ~ switched_on (B "help") l /\
        (forall v, f_secret fl = Some v <-> last_value (B "secret") l v) /\
        (forall c, f_file fl = Some c <-> exists n, last_value (B "secret-file") l n /\ c = file n) /\
        (forall b, f_generate fl = Some b <-> exists v, last_value (B "generate") l v /\ means v b) /\
        value_or (B "password-scheme") l (B "{ARGON2}") (f_scheme fl) /\
        (f_omit fl = true <-> switched_on (B "omit-newline") l) /\
        number_or number (B "min-password-strength") l 3 (f_least fl)
  end.
Proof.
  intros command. unfold passwd_args. destruct (parse_args number passwd_flags args) as [[l p]|] eqn:Hp.
  2:{ left. split; [done|]. intros l p H. apply (line_parsed number passwd_flags) in H. congruence. }
  pose proof (parsed_line _ _ _ _ _ Hp) as Hl. fold command in Hl.
  destruct (default false (given_bool (B "help") l)) eqn:Eh.
  { apply on_given in Eh. right. exists l, p. split; [done|]. by left. }
  assert (Hh : ~ switched_on (B "help") l) by (intros H%on_given; congruence).
  destruct p as [|f p].
  2:{ right. exists l, (f :: p). split; [done|]. by right. }
  exists l. split; [done|]. split; [done|]. cbn [f_secret f_file f_generate f_scheme f_omit f_least].
  split; [intros v; apply given_last|]. split.
  { intros c. setoid_rewrite <- given_last. destruct (given (B "secret-file") l) as [n|]; cbn; naive_solver. }
  split.
  { intros b. setoid_rewrite <- given_last. unfold given_bool. setoid_rewrite <- parse_bool_means.
    destruct (given (B "generate") l) as [v|]; cbn; naive_solver. }
  split; [by apply given_or|]. split; [apply on_given|]. by apply (given_number number passwd_flags args l []).
Qed.
Print Assumptions C87_passwd.

(** The flags of each command: those with a value in the tables above, the switches,
    and help; of the tools the ones listed.  Letters stand for flags of
    [gen passwd] only, apart from that for help. *)
Lemma kind_in_spec t n k : NoDup ((B "help", KBool) :: t).*1 -> (fs_kind (flags_of t []) n = Some k <-> In (n, k) ((B "help", KBool) :: t)).
Proof.
  unfold flags_of, kind_in. cbn [fs_kind]. generalize ((B "help", KBool) :: t). clear t. intros t Hd.
  induction t as [|[m j] t IH]; [done|]. cbn [fmap list_fmap fst] in Hd. apply NoDup_cons in Hd as [Hm Hd]. cbn [List.find In fst].
  destruct (seqb m n) eqn:E.
  - apply seqb_eq in E as ->. cbn. split; [intros [= ->]; by left|]. intros [[= ->]|H]; [done|]. destruct Hm.
    apply elem_of_list_fmap. exists (n, k). split; [done|]. by apply elem_of_list_In.
  - apply seqb_neq in E. rewrite (IH Hd). split; [by right|]. intros [[= -> ->]|H]; done.
Qed.
Lemma short_in_spec t c n : NoDup (("h"%char, B "help") :: t).*1 -> (fs_short (flags_of [] t) c = Some n <-> In (c, n) (("h"%char, B "help") :: t)).
Proof.
  unfold flags_of, short_in. cbn [fs_short]. generalize (("h"%char, B "help") :: t). clear t. intros t Hd.
  induction t as [|[m j] t IH]; [done|]. cbn [fmap list_fmap fst] in Hd. apply NoDup_cons in Hd as [Hm Hd]. cbn [List.find In fst].
  destruct (aeqb m c) eqn:E.
  - apply aeqb_eq in E as ->. cbn. split; [intros [= ->]; by left|]. intros [[= ->]|H]; [done|]. destruct Hm.
    apply elem_of_list_fmap. exists (c, n). split; [done|]. by apply elem_of_list_In.
  - assert (m <> c) by (intros ->; revert E; unfold aeqb; by rewrite Ascii.eqb_refl). rewrite (IH Hd). split; [by right|]. intros [[= -> ->]|H']; done.
Qed.
Definition argon2_flags : list (str * fkind) :=
  [(B "argon2-memory", KUint32); (B "argon2-iterations", KUint32); (B "argon2-lanes", KUint8)].
Theorem C87_flags (n : str) (k : fkind) (c : ascii) :
  let kinds (t : list (str * fkind)) := In (n, k) ((B "help", KBool) :: t) in
  (fs_kind serve_flags n = Some k <->
     kinds ((fun x : str * option str * str * (settings -> str) => (x.1.1.1, KStr)) <$> texts) \/
     kinds ((fun x : str * bool * (settings -> bool) => (x.1.1, KBool)) <$> switches)) /\
  (fs_kind export_flags n = Some k <-> kinds [(B "log-level", KStr); (B "boltdb-file", KStr); (B "ldap-base-dn", KStr)]) /\
  (fs_kind load_flags n = Some k <-> fs_kind export_flags n = Some k \/ (B "input-file", KStr) = (n, k)) /\
  (fs_kind newusers_flags n = Some k <->
     kinds (argon2_flags ++ [(B "format", KStr); (B "password-scheme", KStr); (B "min-password-strength", KInt)])) /\
  (fs_kind passwd_flags n = Some k <->
     kinds (argon2_flags ++ [(B "password-scheme", KStr); (B "min-password-strength", KInt); (B "secret", KStr); (B "secret-file", KStr);
                             (B "generate", KBool); (B "omit-newline", KBool)])) /\
  (forall f, In f [serve_flags; export_flags; load_flags; newusers_flags] -> fs_short f c = Some n <-> c = "h"%char /\ n = B "help") /\
  (fs_short passwd_flags c = Some n <->
     In (c, n) [("h"%char, B "help"); ("s"%char, B "secret"); ("g"%char, B "generate"); ("T"%char, B "secret-file"); ("n"%char, B "omit-newline")]).
Proof.
  assert (K : forall f t, fs_kind f = kind_in t -> NoDup ((B "help", KBool) :: t).*1 -> (fs_kind f n = Some k <-> In (n, k) ((B "help", KBool) :: t))).
  { intros f t Hf Hd. rewrite Hf. exact (kind_in_spec t n k Hd). }
  assert (S : forall f t, fs_short f = short_in t -> NoDup (("h"%char, B "help") :: t).*1 -> (fs_short f c = Some n <-> In (c, n) (("h"%char, B "help") :: t))).
  { intros f t Hf Hd. rewrite Hf. exact (short_in_spec t c n Hd). }
  cbv zeta.
  rewrite (K serve_flags _ eq_refl) by (apply (bool_decide_unpack _); vm_compute; exact I).
  rewrite (K export_flags _ eq_refl) by (apply (bool_decide_unpack _); vm_compute; exact I).
  rewrite (K load_flags _ eq_refl) by (apply (bool_decide_unpack _); vm_compute; exact I).
  rewrite (K newusers_flags _ eq_refl) by (apply (bool_decide_unpack _); vm_compute; exact I).
  rewrite (K passwd_flags _ eq_refl) by (apply (bool_decide_unpack _); vm_compute; exact I).
  rewrite (S passwd_flags _ eq_refl) by (apply (bool_decide_unpack _); vm_compute; exact I).
  split; [|split; [done|split; [|split; [|split; [|split]]]]].
  - unfold texts, switches. cbn [fmap list_fmap fst In]. tauto.
  - cbn [In]. tauto.
  - unfold argon2_flags. cbn [Datatypes.app In]. tauto.
  - unfold argon2_flags. cbn [Datatypes.app In]. tauto.
  - intros f Hf. cbn [In] in Hf. assert (fs_short f = short_in []) as E by naive_solver.
    rewrite (S f [] E) by (apply (bool_decide_unpack _); vm_compute; exact I). cbn [In]. naive_solver.
  - done.
Qed.
Print Assumptions C87_flags.

(** Every other line ends the tool at once, with code 0 exactly if it asks for help. *)
Theorem C87_codes (T : Text) (number : fkind -> str -> option Z) (args : list str) (code : nat) :
  (load_args number args = BEnds code ->
     (code = 0 <-> exists l p, line number (fs_kind load_flags) (fs_short load_flags) args l p /\ switched_on (B "help") l) /\ code <= 1) /\
  (export_args number args = BEnds code ->
     (code = 0 <-> exists l p, line number (fs_kind export_flags) (fs_short export_flags) args l p /\ switched_on (B "help") l) /\ code <= 1) /\
  (newusers_args number args = GEnds code ->
     (code = 0 <-> exists l p, line number (fs_kind newusers_flags) (fs_short newusers_flags) args l p /\ switched_on (B "help") l) /\ code <= 1).
Proof.
  unfold load_args, export_args, newusers_args.
  setoid_rewrite <- (C87_syntax number load_flags). setoid_rewrite <- (C87_syntax number export_flags). setoid_rewrite <- (C87_syntax number newusers_flags).
  setoid_rewrite <- on_given.
  assert (Y : forall (r : option (list (str * str) * list str)) l p, r = Some (l, p) -> default false (given_bool (B "help") l) = true ->
    forall n, 0 = n -> (n = 0 <-> exists l p, r = Some (l, p) /\ default false (given_bool (B "help") l) = true) /\ n <= 1).
  { intros r l p -> H n <-. split; [|lia]. split; [|done]. intros _. by exists l, p. }
  assert (N : forall (r : option (list (str * str) * list str)), (forall l p, r = Some (l, p) -> default false (given_bool (B "help") l) = false) ->
    forall n, 1 = n -> (n = 0 <-> exists l p, r = Some (l, p) /\ default false (given_bool (B "help") l) = true) /\ n <= 1).
  { intros r H n <-. split; [|lia]. split; [done|]. intros (l & p & Hr & Hh). rewrite (H _ _ Hr) in Hh. done. }
  split; [|split].
  - destruct (parse_args number load_flags args) as [[l p]|]; [|intros [= E]; by apply N].
    destruct (default false (given_bool (B "help") l)) eqn:Eh; [intros [= E]; by eapply Y|].
    assert (Hn : forall l' p', Some (l, p) = Some (l', p') -> default false (given_bool (B "help") l') = false) by (intros ? ? [= <- <-]; done).
    destruct (given (B "input-file") l); [|intros [= E]; by apply N].
    destruct (given (B "ldap-base-dn") l); [|intros [= E]; by apply N].
    destruct (level_ok _); [done|intros [= E]; by apply N].
  - destruct (parse_args number export_flags args) as [[l p]|]; [|intros [= E]; by apply N].
    destruct (default false (given_bool (B "help") l)) eqn:Eh; [intros [= E]; by eapply Y|].
    assert (Hn : forall l' p', Some (l, p) = Some (l', p') -> default false (given_bool (B "help") l') = false) by (intros ? ? [= <- <-]; done).
    destruct (given (B "ldap-base-dn") l); [|intros [= E]; by apply N].
    destruct (level_ok _); [done|intros [= E]; by apply N].
  - destruct (parse_args number newusers_flags args) as [[l p]|]; [|intros [= E]; by apply N].
    destruct (default false (given_bool (B "help") l)) eqn:Eh; [intros [= E]; by eapply Y|].
    assert (Hn : forall l' p', Some (l, p) = Some (l', p') -> default false (given_bool (B "help") l') = false) by (intros ? ? [= <- <-]; done).
    destruct p as [|f [|? ?]]; [intros [= E]; by apply N| |intros [= E]; by apply N].
    destruct (seqb _ _); [done|intros [= E]; by apply N].
Qed.
Print Assumptions C87_codes.

(** A switch takes no value from the next argument, and [idmd serve] ignores
    operands: anonymous binds are allowed by a line that says false. *)
Theorem C87_word_refuted : exists args l p, forall number getenv s,
  args = [B "--ldap-allow-local-anonymous"; B "false"] /\
  line number (fs_kind serve_flags) (fs_short serve_flags) args l p /\ p = [B "false"] /\
  (by_line getenv l s -> cf_anon (server_config s) = true).
Proof.
  exists [B "--ldap-allow-local-anonymous"; B "false"], [(B "ldap-allow-local-anonymous", B "true")], [B "false"].
  intros number getenv s. split; [done|]. split; [apply parsed_line; vm_compute; reflexivity|]. split; [done|].
  intros [_ H]. apply (H (B "ldap-allow-local-anonymous") false (fun s => cf_anon (server_config s))); [cbn; tauto|].
  left. exists (B "true"). split; [|cbn; tauto]. exists [], []. split; [done|by intros []].
Qed.
Print Assumptions C87_word_refuted.

(** Cases. *)
Definition no_number (_ : fkind) (v : str) : option Z := if seqb v (B "2") then Some 2%Z else None.
Definition env87 (x : str) : str :=
  if seqb x (B "IDMD_DEFAULT_LDAP_BASEDN") then B "o=base" else if seqb x (B "IDMD_DEFAULT_LDAPS_LISTEN") then B ":636" else [].
Definition args87 : list str :=
  [B "--ldap-handler"; B "ldif"; B "extra"; B "--ldaps-listen="; B "--ldap-handler=boltdb"; B "--boltdb-file"; B "--odd"; B "--with-metrics";
   B "--"; B "--help"].
Example C87_case :
  (exists l, line no_number (fs_kind serve_flags) (fs_short serve_flags) args87 l [B "extra"; B "--help"] /\
     last_value (B "ldap-handler") l (B "boltdb") /\ ~ switched_on (B "help") l) /\
  match serve_cmd (T:=ascii_text) no_number [] (fun _ => None) (fun _ => None) (fun s => if seqb (s_bolt s) (B "--odd") then Some empty_db else None) env87 args87 with
  | Serves s cfg (BBolt _ base _) => s_handler s = B "boltdb" /\ s_tls s = [] /\ base = B "o=base" /\ metrics_at s = Some (B "127.0.0.1:6389")
  | _ => False
  end /\
  serve_cmd (T:=ascii_text) no_number [] (fun _ => None) (fun _ => None) (fun _ => None) env87 [] = Ends 1 /\
  serve_cmd (T:=ascii_text) no_number [] (fun _ => None) (fun _ => None) (fun _ => None) env87 [B "--ldaps-listen"; []] = Ends 64 /\
  serve_cmd (T:=ascii_text) no_number [] (fun _ => None) (fun _ => None) (fun _ => None) env87 [B "-h"] = Ends 0 /\
  serve_cmd (T:=ascii_text) no_number [] (fun _ => None) (fun _ => None) (fun _ => None) env87 [B "--ldap-handlr=boltdb"] = Ends 1.
Proof.
  split.
  - eexists. split; [apply parsed_line; vm_compute; reflexivity|]. split.
    + apply given_last. vm_compute. reflexivity.
    + intros H%on_given. revert H. vm_compute. done.
  - vm_compute. done.
Qed.
Example C87_tools_case :
  load_args (T:=ascii_text) no_number [B "--input-file=in.ldif"; B "--ldap-base-dn"; B "o=base"; B "--log-level=WARN"] = BRuns [] (B "o=base") (Some (B "in.ldif")) /\
  load_args (T:=ascii_text) no_number [B "--input-file=in.ldif"] = BEnds 1 /\
  export_args (T:=ascii_text) no_number [B "--ldap-base-dn="; B "--boltdb-file=x"] = BRuns (B "x") [] None /\
  newusers_args no_number [B "-"; B "--min-password-strength"; B "2"] = GRuns None (B "{ARGON2}") 2 /\
  passwd_args no_number (fun _ => None) [B "-nsab=c"; B "-T=f"] = inr (mkFlags (Some (B "ab=c")) (Some None) None (B "{ARGON2}") true 3) /\
  passwd_args no_number (fun _ => None) [B "-gx"] = inl 1.
Proof. vm_compute. done. Qed.
