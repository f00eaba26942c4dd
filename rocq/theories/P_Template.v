(** Properties C56, C57 and C66: template functions. *)
From Verif Require Import Bytes Res Template TemplateProofs.

(** The directory or file a path leads to, as its names from the root, walking it
    component by component; "." and an empty component stay, ".." goes up. *)
Fixpoint resolve (here parts : list str) : list str :=
  match parts with
  | [] => here
  | p :: ps =>
      if bool_decide (p = [] \/ p = B ".") then resolve here ps
      else if bool_decide (p = B "..") then resolve (removelast here) ps
      else resolve (here ++ [p]) ps
  end.
Lemma resolve_go here parts : resolve here parts = go_path here parts.
Proof.
  revert here. induction parts as [|p ps IH]; intros here; [done|]. cbn [resolve].
  change (go_path here (p :: ps)) with (go_path (go1 here p) ps). rewrite <- IH. unfold go1.
  assert (E : is_empty p || seqb p (B ".") = bool_decide (p = [] \/ p = B ".")).
  { apply eq_true_iff_eq. rewrite bool_decide_eq_true, orb_true_iff, seqb_eq. destruct p; cbn; split; intros [H|H]; auto; done. }
  rewrite E. destruct (bool_decide _); [done|].
  assert (E2 : seqb p (B "..") = bool_decide (p = B "..")) by (apply eq_true_iff_eq; rewrite bool_decide_eq_true; apply seqb_eq).
  rewrite E2. by destruct (bool_decide _).
Qed.
Definition target (p : str) : list str := resolve [] (Bytes.split slash p).

(** * C56 *)
(** Whatever name a template gives and whatever the base path is: a file is only
    opened under an absolute path without "." and ".." that leads to something
    inside the directory the base path leads to.  The one path that is not strictly
    inside is the root directory when it is the base itself. *)
Theorem C56_inside (cwd : option str) (base fn p : str) :
  (forall d, cwd = Some d -> is_abs d = true) ->
  file_to_open cwd base fn = Some p ->
  is_abs p = true /\ is_abs base = true /\
  exists rel, target p = target base ++ rel /\ (rel <> [] \/ p = B "/" /\ target base = []) /\
    (forall n, In n (target p) -> n <> [] /\ n <> B "." /\ n <> B ".." /\ ~ In "/"%char n) /\
    p = slash :: Bytes.join (B "/") (target p).
Proof.
  intros Hc H. destruct (opened cwd base fn p Hc H) as (rel & H1 & H2 & H3 & H4 & H5 & H6).
  unfold target. rewrite !resolve_go. split; [done|]. split; [done|]. exists rel. split; [done|]. split; [done|].
  destruct (clean_abs p H2) as (kept & E & Hk & Hke). rewrite H6 in E. rewrite <- Hke. split; [|exact E].
  intros n Hn. rewrite List.Forall_forall in Hk. destruct (Hk n Hn) as (K1 & K2 & K3 & K4). split; [done|]. split; [done|]. split; [done|].
  intros Hs. unfold no_slash in K4. rewrite List.Forall_forall in K4. by specialize (K4 _ Hs).
Qed.
Print Assumptions C56_inside.
(** And every file strictly inside can be named. *)
Theorem C56_all_inside (cwd : option str) (bs rel : list str) :
  (forall n, In n (bs ++ rel) -> n <> [] /\ n <> B "." /\ n <> B ".." /\ ~ In "/"%char n) -> rel <> [] ->
  file_to_open cwd (slash :: Bytes.join (B "/") bs) (Bytes.join (B "/") rel) = Some (slash :: Bytes.join (B "/") (bs ++ rel)).
Proof.
  intros H Hn. assert (Hp : Forall plain (bs ++ rel)).
  { apply List.Forall_forall. intros n Hi. destruct (H n Hi) as (H1 & H2 & H3 & H4). split; [done|]. split; [done|]. split; [done|].
    apply List.Forall_forall. intros x Hx. destruct (aeqb slash x) eqn:E; [|done]. apply aeqb_eq in E as <-. done. }
  apply Forall_app in Hp as [Hb Hr]. by apply can_open.
Qed.
Print Assumptions C56_all_inside.
(** No base path, no file. *)
Theorem C56_no_base (cwd : option str) (fn : str) : file_to_open cwd [] fn = None.
Proof. done. Qed.
Print Assumptions C56_no_base.
Example C56_case :
  let open fn := file_to_open (Some (B "/run")) (B "/etc/idm") (B fn) in
  open "pics/../a.jpg"%string = Some (B "/etc/idm/a.jpg") /\ open "/etc/idm//./b"%string = Some (B "/etc/idm/b") /\
  open "../shadow"%string = None /\ open "/etc/idm2/x"%string = None /\ open "/etc/idm/../shadow"%string = None /\
  open "."%string = None /\ open "a/../../../etc/idm/c"%string = Some (B "/etc/idm/c") /\
  file_to_open (Some (B "/run")) (B "/") (B "/") = Some (B "/").
Proof. by vm_compute. Qed.

(** * C57 *)
(** Whatever the file and however it is read in pieces: the text is the encoding of
    the longest beginning of the file whose length is a multiple of three. *)
Theorem C57_prefix (pieces : list str) :
  let data := List.concat pieces in
  (Z.of_nat (length data) <= 1048576)%Z ->
  exists text, encode_file (Some pieces) = Some text /\ unb64 text = Some (take (3 * (length data / 3)) data) /\
    text = format_base64 (take (3 * (length data / 3)) data).
Proof.
  intros data H. unfold encode_file. cbn zeta. fold data. destruct (Z.ltb_spec file_limit (Z.of_nat (length data))); [unfold file_limit in *; lia|].
  eexists. split; [done|]. destruct (encoder_all pieces (mkEnc [] []) [] eq_refl eq_refl) as [E _]. cbn [app] in E. rewrite E.
  split; [apply unb64_b64|done].
Qed.
Print Assumptions C57_prefix.
(** All of the file if and only if its length is a multiple of three. *)
Theorem C57_whole_iff (pieces : list str) (text : str) :
  let data := List.concat pieces in
  encode_file (Some pieces) = Some text -> (unb64 text = Some data <-> length data mod 3 = 0).
Proof.
  intros data H.
  assert (Hs : (Z.of_nat (length data) <= 1048576)%Z).
  { unfold encode_file in H. cbn zeta in H. fold data in H. destruct (Z.ltb_spec file_limit (Z.of_nat (length data))); [done|]. unfold file_limit in *. lia. }
  destruct (C57_prefix pieces Hs) as (t & Ht & Hu & _). rewrite H in Ht. injection Ht as <-. fold data in Hu. rewrite Hu. clearbody data. clear H Hs Hu.
  pose proof (Nat.div_mod (length data) 3 ltac:(lia)) as Hd. split.
  - intros E. apply (inj Some) in E. apply (f_equal length) in E. rewrite take_length in E.
    pose proof (Nat.mod_upper_bound (length data) 3 ltac:(lia)). set (q := length data / 3) in *. set (r := length data mod 3) in *.
    clearbody q r.
    lia.
  - intros E. f_equal. apply take_ge. lia.
Qed.
Print Assumptions C57_whole_iff.
(** The other function encodes everything. *)
Theorem C57_string (s : str) : unb64 (format_base64 s) = Some s.
Proof. apply unb64_b64. Qed.
Print Assumptions C57_string.
(** A longer file is an error. *)
Theorem C57_limit (pieces : list str) :
  (1048576 < Z.of_nat (length (List.concat pieces)))%Z -> encode_file (Some pieces) = None.
Proof. intros H. unfold encode_file. cbn zeta. destruct (Z.ltb_spec file_limit (Z.of_nat (length (List.concat pieces)))); [done|]. unfold file_limit in *. lia. Qed.
Print Assumptions C57_limit.
(** As wanted, but false: some file is not encoded whole. *)
Theorem C57_whole_refuted : exists data text, encode_file (Some [data]) = Some text /\ unb64 text <> Some data.
Proof. exists (B "Many"), (B "TWFu"). split; by vm_compute. Qed.
Print Assumptions C57_whole_refuted.
Example C57_case :
  encode_file (Some [B "Ma"; B "n y "; B "hands"]) = Some (B "TWFuIHkgaGFu") /\ unb64 (B "TWFuIHkgaGFu") = Some (B "Man y han") /\
  format_base64 (B "Man y hands") = B "TWFuIHkgaGFuZHM=".
Proof. by vm_compute. Qed.

(** * C66 *)
(** The numbers of one template: as long as no call gives a start and the counter
    does not wrap, they are consecutive, so no two are the same. *)
Theorem C66_distinct (n : Z) (calls : list (option Z)) :
  (forall c, In c calls -> c = None) -> (0 <= n)%Z -> (n + Z.of_nat (length calls) < 2 ^ 64)%Z ->
  NoDup (auto_increment n calls) /\
  (forall i, i < length calls -> auto_increment n calls !! i = Some (n + 1 + Z.of_nat i)%Z).
Proof.
  intros H H0 H1. assert (Hf : Forall (fun c => c = None) calls) by (by apply List.Forall_forall). rewrite auto_values by done. split.
  - apply NoDup_fmap_2; [intros a b; lia|]. apply NoDup_ListNoDup, seq_NoDup.
  - intros i Hi. rewrite list_lookup_fmap, lookup_seq_lt by done. done.
Qed.
Print Assumptions C66_distinct.
(** Without such calls the numbers count on modulo 2^64. *)
Theorem C66_wraps (n : Z) (calls : list (option Z)) (i : nat) :
  (forall c, In c calls -> c = None) -> i < length calls ->
  auto_increment n calls !! i = Some ((n + 1 + Z.of_nat i) mod 18446744073709551616)%Z.
Proof.
  revert n i. induction calls as [|c cs IH]; intros n i H Hi; [cbn in Hi; lia|].
  cbn [auto_increment]. rewrite (H c) by by left. change (2 ^ 64)%Z with 18446744073709551616%Z.
  destruct i as [|i]; [cbn [lookup list_lookup Z.of_nat]; by rewrite Z.add_0_r|]. cbn [lookup list_lookup]. change (list_lookup i) with (lookup (M:=list Z) i).
  rewrite IH; [|intros c' Hc'; apply H; by right|cbn in Hi; lia]. f_equal.
  rewrite <- Z.add_assoc, Zplus_mod_idemp_l. f_equal. lia.
Qed.
Print Assumptions C66_wraps.
(** A call with a number sets the counter; the numbers after it do not depend on
    what came before, so they can come back to numbers already given. *)
Theorem C66_set (n v : Z) (before after : list (option Z)) :
  auto_increment n (before ++ Some v :: after) = auto_increment n before ++ v :: auto_increment v after.
Proof. revert n. induction before as [|c cs IH]; intros n; [done|]. cbn [app auto_increment]. by rewrite IH. Qed.
Print Assumptions C66_set.
(** The start: 1000, or AutoIncrementMin, from the options or from the map; a value
    of another type there is a panic. *)
Theorem C66_start (dflt m : gmap str tval) (o : toptions) :
  (dflt !! B "AutoIncrementMin") = None ->
  counter_start (template_vars dflt m o) =
    match to_extra o !! B "AutoIncrementMin" with
    | Some (VUint n) => Ok n
    | Some _ => Panic
    | None => match m !! B "AutoIncrementMin" with
              | Some (VUint n) => Ok n
              | Some _ => Panic
              | None => Ok 1000%Z
              end
    end.
Proof.
  intros Hd. unfold counter_start, template_vars. rewrite lookup_union.
  assert (Hs : forall k v (m' : gmap str tval), B k <> B "AutoIncrementMin" -> (if is_empty v then m' else <[B k := VStr v]> m') !! B "AutoIncrementMin" = m' !! B "AutoIncrementMin").
  { intros k v m' Hk. destruct (is_empty v); [done|]. by rewrite lookup_insert_ne. }
  rewrite !Hs by done. rewrite lookup_union, Hd.
  destruct (to_extra o !! _) as [[]|], (m !! _) as [[]|]; done.
Qed.
Print Assumptions C66_start.
(** Extra variables win over the options, the options over what was in the map,
    and that over the defaults. *)
Theorem C66_precedence (dflt m : gmap str tval) (o : toptions) (k : str) :
  template_vars dflt m o !! k =
    match to_extra o !! k with
    | Some v => Some v
    | None =>
        if bool_decide (k = B "MailDomain" /\ to_mail o <> []) then Some (VStr (to_mail o))
        else if bool_decide (k = B "Company" /\ to_company o <> []) then Some (VStr (to_company o))
        else if bool_decide (k = B "BaseDN" /\ to_base o <> []) then Some (VStr (to_base o))
        else match m !! k with Some v => Some v | None => dflt !! k end
    end.
Proof.
  unfold template_vars. rewrite lookup_union. destruct (to_extra o !! k) as [v|].
  { by destruct (_ !! k). }
  rewrite (left_id_L None _).
  assert (Hs : forall kk v (m' : gmap str tval), (if is_empty v then m' else <[B kk := VStr v]> m') !! k =
     if bool_decide (k = B kk /\ v <> []) then Some (VStr v) else m' !! k).
  { intros kk v m'. destruct v as [|c v]; cbn [is_empty].
    - by rewrite bool_decide_false by (by intros [_ ?]).
    - destruct (decide (k = B kk)) as [->|Hne].
      + rewrite bool_decide_true by done. by rewrite lookup_insert.
      + rewrite bool_decide_false by (by intros [? _]). by rewrite lookup_insert_ne. }
  rewrite !Hs, lookup_union. by destruct (m !! k), (dflt !! k).
Qed.
Print Assumptions C66_precedence.
Example C66_case :
  auto_increment 1000 [None; None; Some 5%Z; None] = [1001; 1002; 5; 6]%Z /\
  auto_increment 7 [None; None; Some 7%Z; None] = [8; 9; 7; 8]%Z /\
  auto_increment (2 ^ 64 - 2) [None; None; None] = [2 ^ 64 - 1; 0; 1]%Z /\
  counter_start (template_vars ∅ ∅ (mkTO [] [] [] {[ B "AutoIncrementMin" := VOther ]})) = Panic.
Proof. by vm_compute. Qed.
