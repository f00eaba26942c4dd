(** Byte strings and the small part of Go's [strings], [bytes] and
    [encoding/hex] packages that the modelled code calls.

    A Go string (or []byte) is a [list ascii]; [B "..."] writes a literal. *)
From Coq Require Export Ascii String NArith ZArith Lia.
From stdpp Require Export countable.
From stdpp Require strings.
From stdpp Require Export prelude.
Require Import ZifyBool ZifyNat ZifyN.
Set Default Proof Using "Type".

Open Scope list_scope.

(** Go [string] / [[]byte]. *)
Notation str := (list ascii).

(** The boolean list filter (std++ shadows the name). *)
Notation bfilter := List.filter.

Global Existing Instance strings.ascii_eq_dec.
Global Existing Instance strings.ascii_countable.

(** Literal syntax. *)
Definition B (s : string) : str := list_ascii_of_string s.
Arguments B s%string_scope.

(** Go's [==] on strings and bytes. *)
Definition aeqb (a b : ascii) : bool := Ascii.eqb a b.
Fixpoint seqb (a b : str) : bool :=
  match a, b with
  | [], [] => true
  | x :: a', y :: b' => aeqb x y && seqb a' b'
  | _, _ => false
  end.

(** [s == ""], [len(s) == 0]. *)
Definition is_empty {A} (s : list A) : bool :=
  match s with [] => true | _ => false end.

(** strings.HasPrefix(s, p). *)
Fixpoint has_prefix (s p : str) {struct p} : bool :=
  match p, s with
  | [], _ => true
  | c :: p', d :: s' => aeqb c d && has_prefix s' p'
  | _ :: _, [] => false
  end.

(** strings.HasSuffix(s, p). *)
Definition has_suffix (s p : str) : bool :=
  has_prefix (rev s) (rev p).

(** strings.Contains(s, p). *)
Fixpoint contains (s p : str) : bool :=
  has_prefix s p || match s with [] => false | _ :: s' => contains s' p end.

(** strings.Index(s, string(c)) for a single byte: offset of the first [c]. *)
Fixpoint index_of (c : ascii) (s : str) : option nat :=
  match s with
  | [] => None
  | d :: s' => if aeqb c d then Some 0 else S <$> index_of c s'
  end.

(** strings.Split(s, string(c)) for a single byte separator: always at least
    one part. *)
Fixpoint split (c : ascii) (s : str) : list str :=
  match s with
  | [] => [[]]
  | d :: s' =>
      if aeqb c d then [] :: split c s'
      else match split c s' with
           | [] => [[d]]
           | h :: t => (d :: h) :: t
           end
  end.

(** strings.Join(parts, sep). *)
Fixpoint join (sep : str) (parts : list str) : str :=
  match parts with
  | [] => []
  | [p] => p
  | p :: ps => p ++ sep ++ join sep ps
  end.

(** strings.SplitN(s, string(c), n): at most [n] parts, n > 0. *)
Fixpoint splitn (c : ascii) (n : nat) (s : str) : list str :=
  match n with
  | 0 => []
  | 1 => [s]
  | S n' =>
      match index_of c s with
      | None => [s]
      | Some i => take i s :: splitn c n' (drop (S i) s)
      end
  end.

(** strings.Trim(s, " ") and its two halves. *)
Definition space : ascii := " "%char.
Fixpoint ltrim (s : str) : str :=
  match s with
  | c :: s' => if aeqb c space then ltrim s' else s
  | [] => []
  end.
Definition rtrim (s : str) : str := rev (ltrim (rev s)).
Definition trim_sp (s : str) : str := rtrim (ltrim s).

(** strings.TrimRight(s, string(c)). *)
Fixpoint ltrim_ch (c : ascii) (s : str) : str :=
  match s with
  | d :: s' => if aeqb d c then ltrim_ch c s' else s
  | [] => []
  end.
Definition rtrim_ch (c : ascii) (s : str) : str := rev (ltrim_ch c (rev s)).

(** Byte comparisons [char < ' '] etc. *)
Definition code (c : ascii) : N := N_of_ascii c.
Definition is_ascii (c : ascii) : bool := (code c <? 128)%N.
Definition is_print (c : ascii) : bool := (32 <=? code c)%N && (code c <=? 126)%N.
Definition is_upper (c : ascii) : bool := (65 <=? code c)%N && (code c <=? 90)%N.
Definition is_lower (c : ascii) : bool := (97 <=? code c)%N && (code c <=? 122)%N.
Definition is_digit (c : ascii) : bool := (48 <=? code c)%N && (code c <=? 57)%N.

(** ASCII case mapping of one byte. *)
Definition lower_ch (c : ascii) : ascii :=
  if is_upper c then ascii_of_N (code c + 32)%N else c.
Definition upper_ch (c : ascii) : ascii :=
  if is_lower c then ascii_of_N (code c - 32)%N else c.
Definition lower_ascii (s : str) : str := map lower_ch s.
Definition upper_ascii (s : str) : str := map upper_ch s.

(** encoding/hex: EncodeToString of one byte (lower-case digits) and Decode of
    one digit pair (either case). *)
Definition hex_digit (n : N) : ascii :=
  if (n <? 10)%N then ascii_of_N (48 + n) else ascii_of_N (87 + n).
Definition hex_enc (c : ascii) : str :=
  [hex_digit (code c / 16)%N; hex_digit (code c mod 16)%N].
Definition hex_val (c : ascii) : option N :=
  let n := code c in
  if is_digit c then Some (n - 48)%N
  else if ((97 <=? n) && (n <=? 102))%N then Some (n - 87)%N
  else if ((65 <=? n) && (n <=? 70))%N then Some (n - 55)%N
  else None.
Definition hex_dec (a b : ascii) : option ascii :=
  match hex_val a, hex_val b with
  | Some x, Some y => Some (ascii_of_N (16 * x + y))
  | _, _ => None
  end.

(** * Lemmas *)

(** Deciding a property of one byte by running it on all 256 bytes. *)
Definition all_ascii : list ascii := map ascii_of_nat (seq 0 256).
Lemma all_ascii_complete c : In c all_ascii.
Proof.
  unfold all_ascii. apply in_map_iff. exists (nat_of_ascii c).
  rewrite ascii_nat_embedding. split; [done|].
  apply in_seq. pose proof (nat_ascii_bounded c). lia.
Qed.
Lemma ascii_forall (P : ascii -> bool) :
  forallb P all_ascii = true -> forall c, P c = true.
Proof.
  intros H c. rewrite forallb_forall in H. apply H, all_ascii_complete.
Qed.

Lemma aeqb_eq a b : aeqb a b = true <-> a = b.
Proof. apply Ascii.eqb_eq. Qed.
Lemma aeqb_neq a b : aeqb a b = false <-> a <> b.
Proof. apply Ascii.eqb_neq. Qed.
Lemma aeqb_refl a : aeqb a a = true.
Proof. by apply aeqb_eq. Qed.
Lemma seqb_eq a b : seqb a b = true <-> a = b.
Proof.
  revert b. induction a as [|x a IH]; intros [|y b]; simpl; split; intros H; try done.
  - apply andb_true_iff in H as [H1 H2]. apply aeqb_eq in H1 as ->.
    by apply IH in H2 as ->.
  - injection H as -> ->. rewrite aeqb_refl. simpl. by apply IH.
Qed.
Lemma seqb_refl a : seqb a a = true.
Proof. by apply seqb_eq. Qed.
Lemma seqb_neq a b : seqb a b = false <-> a <> b.
Proof.
  rewrite <- not_true_iff_false, seqb_eq. done.
Qed.
Lemma seqb_sym a b : seqb a b = seqb b a.
Proof.
  destruct (seqb a b) eqn:E.
  - apply seqb_eq in E as ->. by rewrite seqb_refl.
  - symmetry. apply seqb_neq. apply seqb_neq in E. congruence.
Qed.

Lemma is_empty_true {A} (s : list A) : is_empty s = true <-> s = [].
Proof. by destruct s. Qed.
Lemma is_empty_false {A} (s : list A) : is_empty s = false <-> s <> [].
Proof. by destruct s. Qed.

Lemma has_prefix_spec s p : has_prefix s p = true <-> exists t, s = p ++ t.
Proof.
  revert s. induction p as [|c p IH]; intros s; simpl.
  - split; [intros _; by exists s | done].
  - destruct s as [|d s]; simpl.
    + split; [done | by intros [t ?]].
    + rewrite andb_true_iff, aeqb_eq, IH. split.
      * intros [-> [t ->]]. by exists t.
      * intros [t [= -> ->]]. split; [done|]. by exists t.
Qed.
Lemma has_suffix_spec s p : has_suffix s p = true <-> exists t, s = t ++ p.
Proof.
  unfold has_suffix. rewrite has_prefix_spec. split.
  - intros [t H]. exists (rev t).
    rewrite <- (rev_involutive s), H, rev_app_distr, rev_involutive. done.
  - intros [t ->]. exists (rev t). by rewrite rev_app_distr.
Qed.
Lemma has_suffix_app t p : has_suffix (t ++ p) p = true.
Proof. apply has_suffix_spec. by exists t. Qed.
Lemma has_suffix_refl p : has_suffix p p = true.
Proof. apply has_suffix_spec. by exists []. Qed.
Lemma has_suffix_nil s : has_suffix s [] = true.
Proof. apply has_suffix_spec. exists s. by rewrite app_nil_r. Qed.
Lemma has_prefix_nil s : has_prefix s [] = true.
Proof. by destruct s. Qed.
Lemma contains_spec s p : contains s p = true <-> exists a b, s = a ++ p ++ b.
Proof.
  revert p. induction s as [|c s IH]; intros p; simpl; rewrite orb_true_iff, has_prefix_spec.
  - split.
    + intros [[t H]|?]; [|done]. exists [], t. done.
    + intros (a & b & H). left. destruct a; [by exists b|done].
  - rewrite IH. split.
    + intros [[t H]|(a & b & ->)]; [by exists [], t|]. by exists (c :: a), b.
    + intros (a & b & H). destruct a as [|x a]; simpl in H.
      * left. by exists b.
      * right. injection H as -> ->. by exists a, b.
Qed.

Lemma split_nonempty c s : split c s <> [].
Proof.
  induction s as [|d s IH]; simpl; [done|].
  destruct (aeqb c d); [done|]. by destruct (split c s).
Qed.
Lemma join_split c s : join [c] (split c s) = s.
Proof.
  induction s as [|d s IH]; simpl; [done|].
  destruct (aeqb c d) eqn:E.
  - apply aeqb_eq in E as ->. pose proof (split_nonempty d s) as Hn.
    destruct (split d s) as [|h t] eqn:Es; [done|]. simpl. by f_equal.
  - pose proof (split_nonempty c s) as Hn.
    destruct (split c s) as [|h t]; [done|].
    destruct t; simpl in *; by f_equal.
Qed.
Lemma split_no_sep c s : Forall (fun x => aeqb c x = false) s -> split c s = [s].
Proof.
  induction 1 as [|d s Hd Hs IH]; simpl; [done|]. by rewrite Hd, IH.
Qed.
Lemma split_app_sep c a b :
  Forall (fun x => aeqb c x = false) a ->
  split c (a ++ c :: b) = a :: split c b.
Proof.
  induction 1 as [|d s Hd Hs IH]; simpl; [by rewrite aeqb_refl|].
  by rewrite Hd, IH.
Qed.

Lemma code_bound c : (code c < 256)%N.
Proof. apply N_ascii_bounded. Qed.
Lemma ascii_code c : ascii_of_N (code c) = c.
Proof. apply ascii_N_embedding. Qed.
Lemma code_inj a b : code a = code b -> a = b.
Proof. intros H. by rewrite <- (ascii_code a), H, ascii_code. Qed.

Lemma hex_roundtrip c :
  match hex_enc c with [a; b] => hex_dec a b = Some c | _ => False end.
Proof.
  assert (H : (match hex_enc c with
          | [a; b] => match hex_dec a b with Some d => aeqb d c | None => false end
          | _ => false end) = true).
  { revert c. apply ascii_forall. vm_compute. reflexivity. }
  destruct (hex_enc c) as [|a [|b [|? ?]]] eqn:E; try done.
  destruct (hex_dec a b); [|done]. by apply aeqb_eq in H as ->.
Qed.

Lemma lower_ch_idem c : lower_ch (lower_ch c) = lower_ch c.
Proof.
  apply aeqb_eq. revert c. apply ascii_forall. vm_compute. reflexivity.
Qed.
Lemma lower_ascii_idem s : lower_ascii (lower_ascii s) = lower_ascii s.
Proof.
  unfold lower_ascii. rewrite map_map. apply map_ext. apply lower_ch_idem.
Qed.
Lemma lower_ascii_app a b : lower_ascii (a ++ b) = lower_ascii a ++ lower_ascii b.
Proof. apply map_app. Qed.

Lemma ltrim_nospace s :
  match s with [] => True | c :: _ => c <> space end -> ltrim s = s.
Proof.
  destruct s as [|c s]; simpl; [done|]. intros H.
  apply aeqb_neq in H. by rewrite H.
Qed.
Lemma rtrim_nospace s :
  match rev s with [] => True | c :: _ => c <> space end -> rtrim s = s.
Proof.
  intros H. unfold rtrim. rewrite ltrim_nospace by done. apply rev_involutive.
Qed.
Lemma rtrim_snoc_space s :
  match rev s with [] => True | c :: _ => c <> space end ->
  rtrim (s ++ [space]) = s.
Proof.
  intros H. unfold rtrim. rewrite rev_app_distr. simpl.
  rewrite ltrim_nospace by done. apply rev_involutive.
Qed.
Lemma forallb_Forall {A} (f : A -> bool) l :
  forallb f l = true <-> Forall (fun x => f x = true) l.
Proof.
  induction l as [|x l IH]; simpl.
  - split; [constructor|done].
  - rewrite andb_true_iff, Forall_cons, IH. done.
Qed.
Lemma Forall_revl {A} (P : A -> Prop) l : Forall P l -> Forall P (rev l).
Proof.
  intros H. rewrite List.Forall_forall in *. intros x Hx. apply H.
  by apply in_rev.
Qed.
Lemma snoc_ne {A} (l : list A) x : l ++ [x] <> [].
Proof. by destruct l. Qed.
