(** Proofs about Ber.v: what is written is read back. *)
From Coq Require Import ZArith NArith Lia.
From Verif Require Import Bytes Text Dn Res Entry Db Packet Ber.

(** * Numbers *)
Lemma be_length n v : length (be n v) = n.
Proof. induction n as [|n IH]; cbn; [done|]. by rewrite IH. Qed.
Lemma code_ascii n : (n < 256)%N -> code (ascii_of_N n) = n.
Proof. intros H. unfold code. by apply N_ascii_embedding. Qed.
Lemma pow256 n : (256 ^ N.of_nat (S n) = 256 * 256 ^ N.of_nat n)%N.
Proof. rewrite Nat2N.inj_succ, N.pow_succ_r'. done. Qed.
Lemma unbe_be n v a : unbe a (be n v) = (a * 256 ^ N.of_nat n + v mod 256 ^ N.of_nat n)%N.
Proof.
  revert a. induction n as [|n IH]; intros a.
  - cbn. rewrite N.mod_1_r. lia.
  - cbn [be unbe]. rewrite code_ascii by (apply N.mod_lt; done). rewrite IH, pow256.
    set (P := (256 ^ N.of_nat n)%N). assert (HP : P <> 0%N) by (apply N.pow_nonzero; done).
    rewrite (N.mul_comm 256 P), (N.mod_mul_r v P 256) by done. lia.
Qed.
Lemma size_lt v : (v < 2 ^ N.size v)%N.
Proof. apply N.size_gt. Qed.
Lemma octets_enough v : (v < 256 ^ N.of_nat (octets v))%N.
Proof.
  unfold octets. rewrite N2Nat.id. eapply N.lt_le_trans; [apply size_lt|].
  change 256%N with (2 ^ 8)%N. rewrite <- N.pow_mul_r. apply N.pow_le_mono_r; [done|].
  pose proof (N.div_mod (N.size v + 7) 8 ltac:(done)). pose proof (N.mod_lt (N.size v + 7) 8 ltac:(done)). lia.
Qed.
Lemma size_bound v k : (v < 2 ^ k)%N -> (N.size v <= k)%N.
Proof.
  intros H. destruct v as [|p]; [cbn; lia|]. rewrite N.size_log2 by done.
  apply N.log2_lt_pow2 in H; lia.
Qed.
Lemma octets_le v : (v < 2 ^ 64)%N -> octets v <= 8.
Proof.
  intros H. apply size_bound in H. unfold octets.
  assert ((N.size v + 7) / 8 <= 8)%N; [|lia]. apply N.lt_succ_r, N.div_lt_upper_bound; [done|]. lia.
Qed.
Lemma octets_pos v : (0 < v)%N -> 0 < octets v.
Proof.
  intros H. assert (octets v <> 0); [|lia]. intros E. pose proof (octets_enough v) as Ho. rewrite E in Ho. cbn in Ho. lia.
Qed.
Lemma len_bytes_length v : (v < 2 ^ 64)%N -> 1 <= length (len_bytes v) <= 9.
Proof.
  intros H. unfold len_bytes. destruct (v <? 128)%N; cbn [length]; [lia|]. rewrite be_length. pose proof (octets_le v H). lia.
Qed.
Lemma read_len_bytes v s : (v < 2 ^ 64)%N -> read_len (len_bytes v ++ s) = Some (v, s).
Proof.
  intros H. unfold len_bytes. destruct (N.ltb_spec v 128) as [Hv|Hv].
  - cbn [app read_len]. rewrite code_ascii by lia. by rewrite (proj2 (N.ltb_lt _ _) Hv).
  - pose proof (octets_le v H) as Ho. pose proof (octets_pos v ltac:(lia)) as Hp.
    cbn [app read_len]. rewrite code_ascii by lia.
    destruct (N.ltb_spec (128 + N.of_nat (octets v)) 128) as [?|_]; [lia|].
    replace (N.to_nat (128 + N.of_nat (octets v) - 128)) with (octets v) by lia.
    rewrite app_length, be_length.
    destruct (Nat.eqb_spec (octets v) 0) as [?|_]; [lia|]. destruct (Nat.ltb_spec 8 (octets v)) as [?|_]; [lia|].
    destruct (Nat.ltb_spec (octets v + length s) (octets v)) as [?|_]; [lia|]. cbn [orb].
    rewrite <- (be_length (octets v) v) at 1 3. rewrite take_app, drop_app. rewrite unbe_be.
    rewrite N.mod_small by apply octets_enough. done.
Qed.

Lemma int_octets_range z : (- 2 ^ (8 * Z.of_nat (int_octets z) - 1) <= z < 2 ^ (8 * Z.of_nat (int_octets z) - 1))%Z /\ 0 < int_octets z.
Proof.
  unfold int_octets. set (a := (if z <? 0 then - z - 1 else z)%Z).
  assert (Ha : (0 <= a)%Z) by (unfold a; destruct (Z.ltb_spec z 0); lia).
  set (k := ((N.size (Z.to_N a) + 8) / 8)%N).
  assert (Hk : (N.size (Z.to_N a) + 1 <= 8 * k)%N).
  { unfold k. pose proof (N.div_mod (N.size (Z.to_N a) + 8) 8 ltac:(done)). pose proof (N.mod_lt (N.size (Z.to_N a) + 8) 8 ltac:(done)). lia. }
  pose proof (size_lt (Z.to_N a)) as Hs.
  assert (H : (a < 2 ^ (8 * Z.of_nat (N.to_nat k) - 1))%Z).
  { rewrite N_nat_Z. eapply Z.lt_le_trans with (2 ^ Z.of_N (N.size (Z.to_N a)))%Z.
    - apply N2Z.inj_lt in Hs. rewrite Z2N.id in Hs by done. by rewrite N2Z.inj_pow in Hs.
    - apply Z.pow_le_mono_r; lia. }
  split; [|lia]. unfold a in *. destruct (Z.ltb_spec z 0); lia.
Qed.
Lemma int_octets_le z : (- 2 ^ 63 <= z < 2 ^ 63)%Z -> int_octets z <= 8.
Proof.
  intros H. unfold int_octets. set (a := (if z <? 0 then - z - 1 else z)%Z).
  assert (Ha : (0 <= a < 2 ^ 63)%Z) by (unfold a; destruct (Z.ltb_spec z 0); lia).
  assert (N.size (Z.to_N a) <= 63)%N.
  { apply size_bound. apply N2Z.inj_lt. rewrite Z2N.id by lia. exact (proj2 Ha). }
  assert ((N.size (Z.to_N a) + 8) / 8 <= 8)%N; [|lia]. apply N.lt_succ_r, N.div_lt_upper_bound; [done|]. lia.
Qed.
Lemma int_bytes_length z : length (int_bytes z) = int_octets z.
Proof. apply be_length. Qed.
Lemma signed_int z : signed (int_bytes z) = z.
Proof.
  destruct (int_octets_range z) as [Hr Hp]. unfold int_bytes.
  set (n := int_octets z) in *. destruct n as [|n]; [lia|].
  set (M := (2 ^ (8 * Z.of_nat (S n)))%Z).
  assert (HM : (M = 2 * 2 ^ (8 * Z.of_nat (S n) - 1))%Z).
  { unfold M. rewrite <- Z.pow_succ_r by lia. f_equal. lia. }
  assert (HM' : (M = 256 * 2 ^ (8 * Z.of_nat n))%Z).
  { unfold M. change 256%Z with (2 ^ 8)%Z. rewrite <- Z.pow_add_r by lia. f_equal. lia. }
  assert (Hpos : (0 < 2 ^ (8 * Z.of_nat n))%Z) by (apply Z.pow_pos_nonneg; lia).
  set (v := Z.to_N (z mod M)). pose proof (Z.mod_pos_bound z M ltac:(lia)) as Hm.
  assert (Hv : Z.of_N v = (z mod M)%Z) by (unfold v; rewrite Z2N.id; lia).
  assert (E256 : forall k : nat, Z.of_N (256 ^ N.of_nat k) = (2 ^ (8 * Z.of_nat k))%Z).
  { intros k. rewrite N2Z.inj_pow, nat_N_Z. change (Z.of_N 256) with (2 ^ 8)%Z. rewrite <- Z.pow_mul_r by lia. done. }
  assert (Hlt : (v < 256 ^ N.of_nat (S n))%N).
  { apply N2Z.inj_lt. rewrite E256, Hv. fold M. lia. }
  unfold signed. cbn [be]. change (ascii_of_N ((v / 256 ^ N.of_nat n) mod 256) :: be n v) with (be (S n) v).
  rewrite be_length, unbe_be, N.mul_0_l, N.add_0_l, (N.mod_small v _ Hlt), Hv. fold M.
  rewrite code_ascii by (apply N.mod_lt; done).
  assert (Hd : Z.of_N ((v / 256 ^ N.of_nat n) mod 256) = (z mod M / 2 ^ (8 * Z.of_nat n))%Z).
  { rewrite N.mod_small; [|apply N.div_lt_upper_bound; [apply N.pow_nonzero; done|]; rewrite N.mul_comm, <- pow256; exact Hlt].
    rewrite N2Z.inj_div, E256, Hv. done. }
  destruct (Z.ltb_spec z 0) as [Hz|Hz].
  - assert (Emod : (z mod M = z + M)%Z) by (symmetry; apply Zmod_unique with (-1)%Z; lia).
    destruct (N.ltb_spec ((v / 256 ^ N.of_nat n) mod 256) 128) as [Hc|Hc]; [|rewrite Emod; lia].
    exfalso. assert (Hc' : (Z.of_N ((v / 256 ^ N.of_nat n) mod 256) < 128)%Z) by lia. rewrite Hd, Emod in Hc'.
    pose proof (Z.div_mod (z + M) (2 ^ (8 * Z.of_nat n)) ltac:(lia)) as HD.
    pose proof (Z.mod_pos_bound (z + M) (2 ^ (8 * Z.of_nat n)) Hpos). nia.
  - assert (Emod : (z mod M = z)%Z) by (apply Z.mod_small; lia).
    destruct (N.ltb_spec ((v / 256 ^ N.of_nat n) mod 256) 128) as [Hc|Hc]; [by rewrite Emod|].
    exfalso. assert (Hc' : (128 <= Z.of_N ((v / 256 ^ N.of_nat n) mod 256))%Z) by lia. rewrite Hd, Emod in Hc'.
    pose proof (Z.div_mod z (2 ^ (8 * Z.of_nat n)) ltac:(lia)) as HD.
    pose proof (Z.mod_pos_bound z (2 ^ (8 * Z.of_nat n)) Hpos). nia.
Qed.

(** * Packets *)
Lemma packet_rec (P : packet -> Prop) :
  (forall c con t v d k, Forall P k -> P (Pkt c con t v d k)) -> forall p, P p.
Proof.
  intros H. fix IH 1. intros [c con t v d k]. apply H. induction k as [|q k IHk]; constructor; [apply IH|exact IHk].
Qed.
(** What can be sent: classes and tags that fit in one byte, values that agree with
    the type. *)
Definition value_ok (c t : N) (v : value) : Prop :=
  match v with
  | VNil => c <> 0%N
  | VStr _ => False
  | VInt z => c = 0%N /\ (t = 2%N \/ t = 10%N) /\ (- 2 ^ 63 <= z < 2 ^ 63)%Z
  | VBool _ => c = 0%N /\ t = 1%N
  | VOther => c = 0%N /\ t <> 1%N /\ t <> 2%N /\ t <> 4%N /\ t <> 10%N
  end.
Inductive sendable : packet -> Prop :=
| send_con c t d k : In c [0; 64; 128; 192]%N -> (t < 31)%N -> Forall sendable k -> sendable (Pkt c true t VNil d k)
| send_text s : sendable (Pkt 0 false 4 (VStr s) s [])
| send_prim c t v d : In c [0; 64; 128; 192]%N -> (t < 31)%N -> value_ok c t v -> sendable (Pkt c false t v d []).

Lemma full_bytes_length p : 2 <= length (p_bytes p).
Proof.
  destruct p as [c con t v d k]. cbn [p_bytes length]. rewrite app_length. unfold len_bytes.
  destruct (_ <? 128)%N; cbn [length]; lia.
Qed.
Fixpoint need (p : packet) : nat :=
  let 'Pkt _ _ _ _ _ k := p in 2 + fold_right (fun q n => S (need q) + n) 0 k.
Definition needs (k : list packet) : nat := 1 + fold_right (fun q n => S (need q) + n) 0 k.

Lemma ident c con t : In c [0; 64; 128; 192]%N -> (t < 31)%N ->
  let x := code (ascii_of_N (c + (if con : bool then 32 else 0) + t)) in
  (x / 64 * 64 = c /\ x mod 32 = t /\ (x / 32 mod 2 =? 1) = con)%N.
Proof.
  intros Hc Ht x. unfold x. rewrite code_ascii.
  2: { cbn in Hc. destruct con; destruct Hc as [<-|[<-|[<-|[<-|[]]]]]; lia. }
  clear x.
  assert (H : (exists q, c = 64 * q /\ (q < 4))%N).
  { cbn in Hc. destruct Hc as [<-|[<-|[<-|[<-|[]]]]]; [exists 0%N|exists 1%N|exists 2%N|exists 3%N]; lia. }
  destruct H as (q & -> & Hq).
  set (b := (if con then 32 else 0)%N). assert (Hb : (b = 0 \/ b = 32)%N) by (unfold b; destruct con; auto).
  assert (E1 : ((64 * q + b + t) / 64 = q)%N) by (symmetry; apply N.div_unique with (b + t)%N; lia).
  assert (E2 : ((64 * q + b + t) mod 32 = t)%N) by (symmetry; apply N.mod_unique with (2 * q + (if con then 1 else 0))%N; unfold b; destruct con; lia).
  assert (E3 : ((64 * q + b + t) / 32 = 2 * q + (if con then 1 else 0))%N).
  { symmetry. apply N.div_unique with t; [lia|]. unfold b. destruct con; lia. }
  rewrite E1, E2, E3. split; [lia|]. split; [done|].
  assert (E4 : ((2 * q + (if con then 1 else 0)) mod 2 = (if con then 1 else 0))%N) by (symmetry; apply N.mod_unique with q; destruct con; lia).
  rewrite E4. by destruct con.
Qed.

Lemma value_back c t v d : value_ok c t v ->
  match v with
  | VInt z => value_of c t (int_bytes z) = VInt z
  | VBool b => value_of c t [if b then "255"%char else "000"%char] = VBool b
  | _ => value_of c t d = v
  end.
Proof.
  unfold value_of. destruct v as [|s|z|b|]; cbn [value_ok].
  - intros H. apply N.eqb_neq in H. by rewrite H.
  - done.
  - intros (-> & Ht & Hz). rewrite int_bytes_length. pose proof (int_octets_le z Hz).
    destruct (Nat.ltb_spec 8 (int_octets z)); [lia|]. rewrite signed_int. cbn [N.eqb].
    by destruct Ht as [->| ->].
  - intros [-> ->]. by destruct b.
  - intros (-> & H1 & H2 & H3 & H4). apply N.eqb_neq in H1, H2, H3, H4. cbn [N.eqb]. by rewrite H1, H2, H3, H4.
Qed.

Lemma need_le p : sendable p -> need p + 2 <= 2 * length (p_bytes (full p)).
Proof.
  induction p as [c con t v d k IH] using packet_rec. intros Hs.
  assert (Hl : forall l, 1 <= length (len_bytes l)).
  { intros l. unfold len_bytes. destruct (_ <? 128)%N; cbn [length]; lia. }
  inversion Hs as [c' t' d' k' _ _ Hk|s|c' t' v' d' _ _ _]; subst.
  - assert (H : fold_right (fun q n => S (need q) + n) 0 k <= 2 * length (List.concat (map p_bytes (map full k)))).
    { clear Hs. induction IH as [|q k Hq _ IHk]; [cbn; lia|]. cbn [fold_right map List.concat]. rewrite app_length.
      apply Forall_cons in Hk as [H1 H2]. specialize (Hq H1). specialize (IHk H2). lia. }
    cbn [full p_bytes need length]. rewrite app_length. specialize (Hl (N.of_nat (length (List.concat (map p_bytes (map full k)))))). lia.
  - cbn [need fold_right]. match goal with |- context [p_bytes (full ?q)] => pose proof (full_bytes_length (full q)) end. lia.
  - cbn [need fold_right]. match goal with |- context [p_bytes (full ?q)] => pose proof (full_bytes_length (full q)) end. lia.
Qed.

Lemma read_bytes fuel c con t v d k rest :
  In c [0; 64; 128; 192]%N -> (t < 31)%N -> (N.of_nat (length d) < 2 ^ 64)%N ->
  read (S fuel) (p_bytes (Pkt c con t v d k) ++ rest) =
  if con then
    match read_all fuel d with
    | Some kids => Some (Pkt c true t VNil (List.concat (map p_bytes kids)) kids, rest)
    | None => None
    end
  else Some (Pkt c false t (value_of c t d) d [], rest).
Proof.
  intros Hc Ht Hd. cbn [p_bytes app read]. destruct (ident c con t Hc Ht) as (E1 & E2 & E3). rewrite E1, E2, E3.
  destruct (N.eqb_spec t 31) as [?|_]; [lia|]. rewrite <- app_assoc, read_len_bytes by done.
  rewrite app_length. destruct (N.ltb_spec (N.of_nat (length d + length rest)) (N.of_nat (length d))) as [?|_]; [lia|].
  rewrite Nat2N.id, take_app, drop_app. done.
Qed.
Lemma p_bytes_ne p : exists x s, p_bytes p = x :: s.
Proof. destruct p. by eexists _, _. Qed.
Theorem read_full p : sendable p -> forall fuel rest, need p <= fuel -> (N.of_nat (length (p_bytes (full p))) < 2 ^ 64)%N ->
  read fuel (p_bytes (full p) ++ rest) = Some (full p, rest).
Proof.
  induction p as [c con t v d k IH] using packet_rec. intros Hs fuel rest Hf Hl.
  destruct fuel as [|fuel]; [cbn [need] in Hf; lia|].
  inversion Hs as [c' t' d' k' Hc Ht Hk|s|c' t' v' d' Hc Ht Hv]; subst.
  - cbn [full] in *. set (D := List.concat (map p_bytes (map full k))) in *.
    assert (HD : (N.of_nat (length D) < 2 ^ 64)%N).
    { cbn [p_bytes length] in Hl. rewrite app_length in Hl. lia. }
    rewrite read_bytes by done.
    assert (E : read_all fuel D = Some (map full k)).
    { cbn [need] in Hf. unfold D in *. clear -IH Hk Hf HD. assert (Hf' : needs k <= fuel) by (unfold needs; lia). clear Hf.
      revert fuel Hf' HD. induction IH as [|q k Hq _ IHk]; intros fuel Hf HD.
      - destruct fuel; [cbn in Hf; lia|done].
      - apply Forall_cons in Hk as [H1 H2]. unfold needs in Hf. cbn [fold_right] in Hf.
        destruct fuel as [|fuel]; [lia|]. cbn [map List.concat read_all].
        destruct (p_bytes_ne (full q)) as (x & s & Ex). rewrite Ex at 1. cbn [app].
        cbn [map List.concat] in HD. rewrite app_length in HD.
        rewrite (Hq H1 fuel) by lia. rewrite IHk; [done|done|unfold needs; lia|lia]. }
    rewrite E. done.
  - cbn [full] in *. rewrite read_bytes; [done|cbn; tauto|lia|]. cbn [p_bytes length] in Hl. rewrite app_length in Hl. lia.
  - pose proof (value_back c t v d Hv) as Hb. cbn [full] in *.
    destruct v as [|s|z|b|]; (rewrite read_bytes; [by rewrite Hb|done|done|]; cbn [p_bytes length] in Hl; rewrite app_length in Hl; cbn [length] in *; lia).
Qed.
Theorem read_packet_full p rest : sendable p -> (N.of_nat (length (p_bytes (full p))) < 2 ^ 64)%N ->
  read_packet (p_bytes (full p) ++ rest) = Some (full p, rest).
Proof.
  intros Hs Hl. unfold read_packet. apply read_full; [done| |done]. rewrite app_length. pose proof (need_le p Hs). lia.
Qed.
