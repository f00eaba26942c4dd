(** Proofs about Template.v. *)
From Verif Require Import Bytes Res Template.

(** * Paths *)
(** Walking a path from a directory, given by its components from the root. *)
Definition go1 (d : list str) (p : str) : list str :=
  if is_empty p || seqb p (B ".") then d else if seqb p (B "..") then removelast d else d ++ [p].
Definition go_path (d parts : list str) : list str := foldl go1 d parts.
Definition no_slash (s : str) : Prop := Forall (fun x => aeqb slash x = false) s.
Definition plain (p : str) : Prop := p <> [] /\ p <> B "." /\ p <> B ".." /\ no_slash p.

Lemma split_app c a b : Bytes.split c (a ++ c :: b) = Bytes.split c a ++ Bytes.split c b.
Proof.
  induction a as [|d a IH]; cbn.
  - assert (aeqb c c = true) as -> by apply Ascii.eqb_refl. done.
  - destruct (aeqb c d); [by rewrite IH|]. rewrite IH. destruct (Bytes.split c a) as [|h t] eqn:E; [by apply split_nonempty in E|done].
Qed.
Lemma split_parts c s : Forall (Forall (fun x => aeqb c x = false)) (Bytes.split c s).
Proof.
  induction s as [|d s IH]; cbn; [by repeat constructor|].
  destruct (aeqb c d) eqn:E; [by constructor|].
  destruct (Bytes.split c s) as [|h t]; [by repeat constructor|].
  apply Forall_cons in IH as [H1 H2]. constructor; [by constructor|done].
Qed.
Lemma split_no_slash s : Forall no_slash (Bytes.split slash s).
Proof. apply split_parts. Qed.
Lemma split_slash s : Bytes.split slash (slash :: s) = [] :: Bytes.split slash s.
Proof. done. Qed.
Lemma split_join l : l <> [] -> Forall no_slash l -> Bytes.split slash (Bytes.join [slash] l) = l.
Proof.
  intros Hn H. induction H as [|p l Hp Hl IH]; [done|]. destruct l as [|q l].
  - cbn. by apply split_no_sep.
  - change (Bytes.join [slash] (p :: q :: l)) with (p ++ slash :: Bytes.join [slash] (q :: l)).
    rewrite split_app, IH by done. rewrite (split_no_sep slash p) by done. done.
Qed.
Lemma go_plain d l : Forall plain l -> go_path d l = d ++ l.
Proof.
  intros H. revert d. induction H as [|p l (H1 & H2 & H3 & H4) _ IH]; intros d; cbn [go_path foldl]; [by rewrite app_nil_r|].
  change (foldl go1 (go1 d p) l) with (go_path (go1 d p) l). rewrite IH. unfold go1.
  destruct p as [|c p]; [done|]. cbn [is_empty orb]. rewrite !(proj2 (seqb_neq _ _)) by done. by rewrite <- app_assoc.
Qed.
Lemma go_path_app d a b : go_path d (a ++ b) = go_path (go_path d a) b.
Proof. unfold go_path. by rewrite foldl_app. Qed.
Lemma go_empties d n : go_path d (replicate n []) = d.
Proof. induction n; [done|]. done. Qed.
Lemma clean_rooted stack parts : Forall plain stack -> Forall no_slash parts ->
  clean_parts true stack parts = go_path (rev stack) parts /\ Forall plain (clean_parts true stack parts).
Proof.
  intros Hs H. revert stack Hs. induction H as [|p ps Hp _ IH]; intros stack Hs; cbn [clean_parts].
  - split; [done|]. by apply Forall_rev.
  - cbn [go_path foldl]. change (foldl go1 (go1 (rev stack) p) ps) with (go_path (go1 (rev stack) p) ps). unfold go1.
    destruct (is_empty p || seqb p (B ".")) eqn:E1; [by apply IH|].
    destruct (seqb p (B "..")) eqn:E2.
    + destruct stack as [|q stack]; [by apply (IH [])|]. apply Forall_cons in Hs as [Hq Hs].
      rewrite (proj2 (seqb_neq q (B ".."))) by apply Hq. cbn [rev]. rewrite removelast_last. by apply IH.
    + apply (IH (p :: stack)). constructor; [|done]. apply orb_false_iff in E1 as [E1 E3].
      split; [by destruct p|]. split; [by apply seqb_neq|]. split; [by apply seqb_neq|done].
Qed.
Lemma clean_abs q : is_abs q = true -> exists kept, clean q = slash :: Bytes.join [slash] kept /\ Forall plain kept /\
  kept = go_path [] (Bytes.split slash q).
Proof.
  intros H. unfold clean. rewrite H. destruct (clean_rooted [] (Bytes.split slash q) ltac:(constructor) (split_no_slash q)) as [H1 H2].
  eexists. split; [done|]. split; [done|]. exact H1.
Qed.
Lemma rtrim_ch_spec c s : exists n, s = rtrim_ch c s ++ replicate n c.
Proof.
  unfold rtrim_ch. assert (H : exists n, rev s = replicate n c ++ ltrim_ch c (rev s)).
  { induction (rev s) as [|d l [n IH]]; [by exists 0|]. cbn [ltrim_ch]. destruct (aeqb d c) eqn:E; [|by exists 0].
    apply aeqb_eq in E. subst d. exists (S n). cbn [replicate app]. f_equal. exact IH. }
  destruct H as [n H]. exists n. apply (f_equal (@rev ascii)) in H. rewrite rev_involutive, rev_app_distr in H.
  rewrite H at 1. f_equal. clear H. induction n; [done|]. cbn [replicate rev]. rewrite IHn. apply (replicate_cons_app n c) || (symmetry; apply replicate_cons_app).
Qed.
Lemma split_slashes b n : Bytes.split slash (b ++ replicate n slash) = Bytes.split slash b ++ replicate n [].
Proof.
  revert b. induction n as [|n IH]; intros b; cbn [replicate]; [by rewrite !app_nil_r|].
  rewrite split_app. f_equal. specialize (IH []). by rewrite !app_nil_l in IH || (cbn in IH; by rewrite IH).
Qed.

(** The name opened. *)
Lemma opened cwd base fn p : (forall d, cwd = Some d -> is_abs d = true) -> file_to_open cwd base fn = Some p ->
  exists rel, go_path [] (Bytes.split slash p) = go_path [] (Bytes.split slash base) ++ rel /\ is_abs p = true /\ is_abs base = true /\
    Forall plain rel /\ (rel <> [] \/ p = [slash] /\ go_path [] (Bytes.split slash base) = []) /\ clean p = p.
Proof.
  intros Hcwd. unfold file_to_open. destruct (is_empty base) eqn:Hne; [done|].
  set (fn2 := if is_abs (clean fn) then clean fn else join_path base (clean fn)).
  destruct (abs_path cwd fn2) as [p'|] eqn:Ea; [|done]. destruct (has_prefix p' _) eqn:Hp; [|done]. intros [= ->].
  assert (Hc : exists kept, p = slash :: Bytes.join [slash] kept /\ Forall plain kept).
  { unfold abs_path in Ea. destruct (is_abs fn2) eqn:Ef.
    - inversion Ea. destruct (clean_abs fn2 Ef) as (kept & H1 & H2 & _). eauto.
    - destruct cwd as [d|]; [|done]. inversion Ea. unfold join_path.
      assert (Hd : is_abs (d ++ slash :: fn2) = true). { specialize (Hcwd d eq_refl). unfold is_abs in *. destruct d as [|x d]; [done|exact Hcwd]. }
      destruct (clean_abs _ Hd) as (kept & H1 & H2 & _). eauto. }
  clear Ea fn2. destruct Hc as (kept & -> & Hk). apply has_prefix_spec in Hp as [r Hr].
  destruct (rtrim_ch_spec slash base) as [n Hb]. set (b := rtrim_ch slash base) in *. clearbody b.
  assert (Hns : Forall no_slash kept) by (eapply Forall_impl; [done|]; intros x Hx; apply Hx).
  assert (Hcl : clean (slash :: Bytes.join [slash] kept) = slash :: Bytes.join [slash] kept).
  { destruct (clean_abs (slash :: Bytes.join [slash] kept) eq_refl) as (k2 & -> & _ & Hk2). f_equal. f_equal.
    rewrite Hk2. rewrite split_slash.
    destruct kept as [|k ks]; [done|]. rewrite split_join by done. change (go_path [] ([] :: k :: ks)) with (go_path [] (k :: ks)).
    by rewrite go_plain. }
  assert (Hgo : go_path [] (Bytes.split slash (slash :: Bytes.join [slash] kept)) = kept).
  { rewrite split_slash.
    destruct kept as [|k ks]; [done|]. rewrite split_join by done. change (go_path [] ([] :: k :: ks)) with (go_path [] (k :: ks)).
    by rewrite go_plain. }
  rewrite Hgo, Hcl. destruct b as [|c b'].
  - (* the base is made of slashes *)
    cbn [app] in Hb, Hr. assert (Hbase : go_path [] (Bytes.split slash base) = []).
    { rewrite Hb. change (replicate n slash) with ([] ++ replicate n slash). rewrite split_slashes. cbn [Bytes.split app].
      apply (go_empties [] (S n)). }
    exists kept. rewrite Hbase. split; [done|]. split; [done|]. split.
    { rewrite Hb. destruct n; [|done]. by rewrite Hb in Hne. }
    split; [done|]. split; [|done]. destruct kept; [right; done|left; done].
  - cbn [app] in Hr. rewrite <- app_assoc in Hr. cbn [app] in Hr. injection Hr as <- Hj.
    assert (Hkn : kept <> []) by (intros ->; by destruct b').
    assert (Hsp : kept = Bytes.split slash b' ++ Bytes.split slash r) by (rewrite <- split_app, <- Hj; by rewrite split_join).
    assert (Hbase : go_path [] (Bytes.split slash base) = Bytes.split slash b').
    { rewrite Hb, split_slashes, go_path_app, go_empties. rewrite split_slash.
      change (go_path [] ([] :: Bytes.split slash b')) with (go_path [] (Bytes.split slash b')).
      rewrite go_plain; [done|]. rewrite Hsp in Hk. by apply Forall_app in Hk as [? _]. }
    exists (Bytes.split slash r). rewrite Hbase. split; [done|]. split; [done|]. split; [by rewrite Hb|].
    split; [rewrite Hsp in Hk; by apply Forall_app in Hk as [_ ?]|]. split; [left; apply split_nonempty|done].
Qed.

(** Everything inside can be named. *)
Lemma clean_relative l : l <> [] -> Forall plain l -> clean (Bytes.join [slash] l) = Bytes.join [slash] l.
Proof.
  intros Hn H. assert (Hns : Forall no_slash l) by (eapply Forall_impl; [done|]; intros x Hx; apply Hx).
  assert (Ha : is_abs (Bytes.join [slash] l) = false).
  { destruct l as [|p l]; [done|]. apply Forall_cons in H as [(Hp & _ & _ & Hs) _].
    destruct p as [|c p]; [done|]. apply Forall_cons in Hs as [Hs _]. unfold is_abs.
    destruct l; cbn [Bytes.join app has_prefix]; by rewrite Hs. }
  unfold clean. rewrite Ha, split_join by done.
  assert (Hc : forall stack, clean_parts false stack l = rev stack ++ l).
  { clear Hn Hns Ha. induction H as [|p l (H1 & H2 & H3 & H4) _ IH]; intros stack; cbn [clean_parts]; [by rewrite app_nil_r|].
    rewrite !(proj2 (seqb_neq _ _)) by done. destruct p as [|c p]; [done|]. cbn [is_empty orb]. rewrite IH. cbn [rev].
    by rewrite <- app_assoc. }
  rewrite Hc. cbn [rev app]. by destruct l.
Qed.
Lemma join_last_ch l : l <> [] -> Forall plain l -> exists s c, Bytes.join [slash] l = s ++ [c] /\ aeqb slash c = false.
Proof.
  intros Hn H. induction H as [|p l Hp H IH]; [done|]. destruct l as [|q l].
  - destruct Hp as (Hp & _ & _ & Hs). cbn [Bytes.join]. destruct p as [|c s] using rev_ind; [done|]. exists s, c. split; [done|].
    apply Forall_app in Hs as [_ Hs]. by apply Forall_cons in Hs as [? _].
  - destruct (IH ltac:(done)) as (s & c & E & Hc). exists (p ++ slash :: s), c. split; [|done].
    change (Bytes.join [slash] (p :: q :: l)) with (p ++ slash :: Bytes.join [slash] (q :: l)). rewrite E. by rewrite <- app_assoc.
Qed.
Lemma rtrim_ch_keep c s d : aeqb c d = false -> rtrim_ch c (s ++ [d]) = s ++ [d].
Proof.
  intros H. unfold rtrim_ch. rewrite rev_app_distr. cbn [rev app ltrim_ch].
  assert (aeqb d c = false) as -> by (unfold aeqb in *; by rewrite Ascii.eqb_sym). cbn [rev]. by rewrite rev_involutive.
Qed.
Lemma join_app a b : a <> [] -> b <> [] -> Bytes.join [slash] (a ++ b) = Bytes.join [slash] a ++ slash :: Bytes.join [slash] b.
Proof.
  intros Ha Hb. induction a as [|p a IH]; [done|]. destruct a as [|q a].
  - destruct b; [done|]. done.
  - change (Bytes.join [slash] ((p :: q :: a) ++ b)) with (p ++ slash :: Bytes.join [slash] ((q :: a) ++ b)).
    rewrite IH by done. change (Bytes.join [slash] (p :: q :: a)) with (p ++ slash :: Bytes.join [slash] (q :: a)). by rewrite <- app_assoc.
Qed.
Lemma can_open cwd bs rel : Forall plain bs -> rel <> [] -> Forall plain rel ->
  file_to_open cwd (slash :: Bytes.join [slash] bs) (Bytes.join [slash] rel) = Some (slash :: Bytes.join [slash] (bs ++ rel)).
Proof.
  intros Hb Hn Hr. unfold file_to_open. cbn [is_empty]. rewrite (clean_relative rel) by done.
  assert (Hns : forall l, Forall plain l -> Forall no_slash l) by (intros l Hl; eapply Forall_impl; [done|]; intros x Hx; apply Hx).
  assert (Ha : is_abs (Bytes.join [slash] rel) = false).
  { destruct rel as [|p l]; [done|]. apply Forall_cons in Hr as [(Hp & _ & _ & Hs) _].
    destruct p as [|c p]; [done|]. apply Forall_cons in Hs as [Hs _]. unfold is_abs.
    destruct l; cbn [Bytes.join app has_prefix]; by rewrite Hs. }
  rewrite Ha. unfold join_path.
  assert (Hgo : forall l, Forall plain l -> go_path [] (Bytes.split slash (slash :: Bytes.join [slash] l)) = l).
  { intros l Hl. rewrite split_slash. destruct l as [|k ks]; [done|]. rewrite split_join by auto.
    change (go_path [] ([] :: k :: ks)) with (go_path [] (k :: ks)). by rewrite go_plain. }
  assert (Hj : clean ((slash :: Bytes.join [slash] bs) ++ slash :: Bytes.join [slash] rel) = slash :: Bytes.join [slash] (bs ++ rel)).
  { destruct (clean_abs ((slash :: Bytes.join [slash] bs) ++ slash :: Bytes.join [slash] rel) eq_refl) as (kept & -> & _ & ->).
    rewrite split_app, go_path_app, Hgo, split_join by auto. by rewrite go_plain. }
  rewrite Hj. unfold abs_path. change (is_abs (slash :: Bytes.join [slash] (bs ++ rel))) with true. cbn iota.
  assert (Hp : Forall plain (bs ++ rel)) by (by apply Forall_app).
  destruct (clean_abs (slash :: Bytes.join [slash] (bs ++ rel)) eq_refl) as (kept & -> & _ & ->). rewrite Hgo by done.
  assert (Hpre : has_prefix (slash :: Bytes.join [slash] (bs ++ rel)) (rtrim_ch slash (slash :: Bytes.join [slash] bs) ++ [slash]) = true).
  { apply has_prefix_spec. destruct bs as [|b bs]; [by exists (Bytes.join [slash] rel)|]. exists (Bytes.join [slash] rel).
    rewrite join_app by done. destruct (join_last_ch (b :: bs) ltac:(done) Hb) as (s & c & E & Hc). rewrite E.
    rewrite (app_comm_cons s [c] slash), rtrim_ch_keep by done. cbn [app]. by rewrite <- !app_assoc. }
  by rewrite Hpre.
Qed.

(** * Base64 *)
(** Decoding, as a reference: groups of four characters, '=' only at the end. *)
Definition b64_val (c : ascii) : option N := N.of_nat <$> index_of c b64_alphabet.
Fixpoint unb64 (s : str) : option str :=
  match s with
  | [] => Some []
  | a :: b :: c :: d :: s' =>
      match b64_val a, b64_val b, b64_val c, b64_val d with
      | Some x, Some y, Some z, Some w =>
          let n := (x * 262144 + y * 4096 + z * 64 + w)%N in
          match unb64 s' with
          | Some r => Some (ascii_of_N (n / 65536) :: ascii_of_N (n / 256 mod 256) :: ascii_of_N (n mod 256) :: r)
          | None => None
          end
      | Some x, Some y, Some z, None =>
          if aeqb d "="%char && is_empty s' then
            let n := (x * 262144 + y * 4096 + z * 64)%N in Some [ascii_of_N (n / 65536); ascii_of_N (n / 256 mod 256)]
          else None
      | Some x, Some y, None, None =>
          if aeqb c "="%char && aeqb d "="%char && is_empty s' then
            let n := (x * 262144 + y * 4096)%N in Some [ascii_of_N (n / 65536)]
          else None
      | _, _, _, _ => None
      end
  | _ => None
  end.
Lemma b64_val_char n : (n < 64)%N -> b64_val (b64_char n) = Some n.
Proof.
  intros H. assert (Ha : forallb (fun k => match b64_val (b64_char (N.of_nat k)) with Some m => (m =? N.of_nat k)%N | None => false end) (seq 0 64) = true)
    by (vm_compute; reflexivity).
  rewrite forallb_forall in Ha. specialize (Ha (N.to_nat n) ltac:(apply in_seq; lia)). rewrite N2Nat.id in Ha.
  destruct (b64_val _); [|done]. apply N.eqb_eq in Ha. by subst.
Qed.
Lemma b64_val_pad : b64_val "="%char = None.
Proof. by vm_compute. Qed.
Lemma chunk3 {A} (P : list A -> Prop) : P [] -> (forall a, P [a]) -> (forall a b, P [a; b]) ->
  (forall a b c s, P s -> P (a :: b :: c :: s)) -> forall s, P s.
Proof.
  intros H0 H1 H2 H3 s. assert (H : forall n s, length s <= n -> P s).
  { intros n. induction n as [|n IH]; intros [|a [|b [|c l]]] Hl; auto; cbn in Hl; try lia. apply H3, IH. lia. }
  by apply (H (length s)).
Qed.
Lemma div_lt n d k : (0 < d)%N -> (n < d * k)%N -> (n / d < k)%N.
Proof. intros Hd H. apply N.div_lt_upper_bound; lia. Qed.
Lemma unb64_b64 s : unb64 (b64 s) = Some s.
Proof.
  pattern s. apply chunk3; clear s.
  - done.
  - intros a. pose proof (code_bound a) as Ha. cbn [b64 unb64]. cbn zeta.
    set (n := (code a * 65536)%N). rewrite b64_val_pad, !b64_val_char by (first [apply N.mod_lt; lia | apply div_lt; unfold n; lia]).
    cbn [aeqb is_empty andb]. cbn. f_equal. f_equal. rewrite <- (ascii_code a). f_equal.
    unfold n. clear n. zify. Z.to_euclidean_division_equations. lia.
  - intros a b. pose proof (code_bound a) as Ha. pose proof (code_bound b) as Hb. cbn [b64 unb64]. cbn zeta.
    set (n := (code a * 65536 + code b * 256)%N). rewrite b64_val_pad, !b64_val_char by (first [apply N.mod_lt; lia | apply div_lt; unfold n; lia]).
    cbn. f_equal. f_equal; [|f_equal]; [rewrite <- (ascii_code a)|rewrite <- (ascii_code b)]; f_equal;
      unfold n; clear n; zify; Z.to_euclidean_division_equations; lia.
  - intros a b c s IH. pose proof (code_bound a) as Ha. pose proof (code_bound b) as Hb. pose proof (code_bound c) as Hc.
    cbn [b64 app b64_group unb64]. cbn zeta.
    set (n := (code a * 65536 + code b * 256 + code c)%N). rewrite !b64_val_char by (first [apply N.mod_lt; lia | apply div_lt; unfold n; lia]).
    rewrite IH.
    assert (Hn : (n / 262144 * 262144 + n / 4096 mod 64 * 4096 + n / 64 mod 64 * 64 + n mod 64)%N = n).
    { clearbody n. clear. zify. Z.to_euclidean_division_equations. lia. }
    rewrite Hn. f_equal. f_equal; [|f_equal; [|f_equal]];
      [rewrite <- (ascii_code a)|rewrite <- (ascii_code b)|rewrite <- (ascii_code c)]; f_equal;
      unfold n; clear Hn n; zify; Z.to_euclidean_division_equations; lia.
Qed.
Lemma enc_groups_out s out : en_out (enc_groups s out) = out ++ b64 (take (3 * (length s / 3)) s) /\
  en_rest (enc_groups s out) = drop (3 * (length s / 3)) s.
Proof.
  revert out. pattern s. apply chunk3; clear s; [by intros; cbn; rewrite app_nil_r..|].
  intros a b c s IH out. cbn [enc_groups length]. destruct (IH (out ++ b64_group a b c)) as [-> ->].
  replace (S (S (S (length s))) / 3) with (S (length s / 3)).
  2:{ replace (S (S (S (length s)))) with (length s + 1 * 3) by lia. rewrite Nat.div_add by lia. lia. }
  replace (3 * S (length s / 3)) with (S (S (S (3 * (length s / 3))))) by lia. cbn [take drop b64]. by rewrite <- app_assoc.
Qed.
Lemma b64_app s t : length s mod 3 = 0 -> b64 (s ++ t) = b64 s ++ b64 t.
Proof.
  pattern s. apply chunk3; clear s; [done|done|done|]. intros a b c s IH H. cbn [app b64]. rewrite IH, <- app_assoc; [done|].
  cbn [length] in H. replace (S (S (S (length s)))) with (length s + 1 * 3) in H by lia. by rewrite Nat.mod_add in H.
Qed.
(** However the file comes in pieces. *)
Lemma encoder_all ps e data : en_out e = b64 (take (3 * (length data / 3)) data) -> en_rest e = drop (3 * (length data / 3)) data ->
  let all := data ++ List.concat ps in
  en_out (foldl enc_write e ps) = b64 (take (3 * (length all / 3)) all) /\
  en_rest (foldl enc_write e ps) = drop (3 * (length all / 3)) all.
Proof.
  revert e data. induction ps as [|p ps IH]; intros e data Ho Hr; cbn [List.concat foldl]; [by rewrite app_nil_r|].
  rewrite app_assoc. apply IH.
  - unfold enc_write. rewrite (proj1 (enc_groups_out _ _)), Ho, Hr.
    set (k := length data / 3). assert (Hk : 3 * k <= length data) by (pose proof (Nat.mul_div_le (length data) 3); lia).
    rewrite <- b64_app by (rewrite take_length, Nat.min_l by done; rewrite Nat.mul_comm; apply Nat.mod_mul; lia). f_equal.
    assert (Hlen : 3 * (length (data ++ p) / 3) = 3 * k + 3 * (length (drop (3 * k) data ++ p) / 3)).
    { rewrite !app_length, drop_length. replace (length data + length p) with ((length data - 3 * k + length p) + k * 3) by lia.
      rewrite Nat.div_add by lia. lia. }
    rewrite Hlen. set (j := 3 * (length (drop (3 * k) data ++ p) / 3)). clearbody j.
    assert (E : data ++ p = take (3 * k) data ++ (drop (3 * k) data ++ p)) by (by rewrite app_assoc, take_drop).
    rewrite E. symmetry. apply take_add_app. rewrite take_length. lia.
  - unfold enc_write. rewrite (proj2 (enc_groups_out _ _)), Hr.
    set (k := length data / 3). assert (Hk : 3 * k <= length data) by (pose proof (Nat.mul_div_le (length data) 3); lia).
    assert (Hlen : 3 * (length (data ++ p) / 3) = 3 * k + 3 * (length (drop (3 * k) data ++ p) / 3)).
    { rewrite !app_length, drop_length. replace (length data + length p) with ((length data - 3 * k + length p) + k * 3) by lia.
      rewrite Nat.div_add by lia. lia. }
    rewrite Hlen, <- drop_drop. f_equal. by rewrite drop_app_le.
Qed.

(** * AutoIncrement *)
Lemma auto_values n calls : Forall (fun c => c = None) calls -> (0 <= n)%Z -> (n + Z.of_nat (length calls) < 2 ^ 64)%Z ->
  auto_increment n calls = map (fun k => (n + 1 + Z.of_nat k)%Z) (seq 0 (length calls)).
Proof.
  intros H. revert n. induction H as [|c cs -> _ IH]; intros n H0 H1; [done|]. cbn [auto_increment length seq map].
  cbn [length] in H1. rewrite Z.mod_small by lia. rewrite IH by lia. f_equal; [lia|]. rewrite <- seq_shift, map_map. apply map_ext. intros k. lia.
Qed.
