(** Lemmas about identifiers and child lists (Db.v). *)
From Verif Require Import Bytes Text Dn Res Entry Password Db.

Lemma code_ascii n : (n < 256)%N -> code (ascii_of_N n) = n.
Proof. intros H. unfold code. apply N_ascii_embedding. done. Qed.
Lemma le_bytes_length k n : length (le_bytes k n) = k.
Proof. revert n. induction k; intros n; simpl; [done|]. by rewrite IHk. Qed.
Lemma id_bytes_length n : length (id_bytes n) = 8.
Proof. apply le_bytes_length. Qed.
Lemma le_val_bytes k n : (n < 256 ^ N.of_nat k)%N -> le_val (le_bytes k n) = n.
Proof.
  revert n. induction k as [|k IH]; intros n Hn.
  - simpl in *. lia.
  - cbn [le_bytes le_val].
    assert (Hm : (n mod 256 < 256)%N) by (apply N.mod_lt; lia).
    rewrite code_ascii by done.
    rewrite IH.
    + pose proof (N.div_mod n 256 ltac:(lia)) as Hd. lia.
    + replace (N.of_nat (S k)) with (N.succ (N.of_nat k)) in Hn by lia.
      rewrite N.pow_succ_r' in Hn. apply N.div_lt_upper_bound; lia.
Qed.
Lemma id_val n : (n < 2 ^ 64)%N -> le_val (id_bytes n) = n.
Proof. intros H. apply le_val_bytes. exact H. Qed.
Lemma id_bytes_inj a b : (a < 2 ^ 64)%N -> (b < 2 ^ 64)%N -> id_bytes a = id_bytes b -> a = b.
Proof. intros Ha Hb H. by rewrite <- (id_val a), <- (id_val b), H. Qed.
Lemma le_val_bound s : (le_val s < 256 ^ N.of_nat (length s))%N.
Proof.
  induction s as [|c s IH]; [simpl; lia|].
  cbn [le_val length]. replace (N.of_nat (S (length s))) with (N.succ (N.of_nat (length s))) by lia.
  rewrite N.pow_succ_r'. pose proof (code_bound c). lia.
Qed.
Lemma le_bytes_val s : le_bytes (length s) (le_val s) = s.
Proof.
  induction s as [|c s IH]; [done|]. cbn [le_val length le_bytes].
  pose proof (code_bound c) as Hc.
  rewrite (N.mul_comm 256), N.mod_add, N.div_add by lia.
  rewrite N.mod_small, N.div_small by lia. rewrite N.add_0_l, IH.
  f_equal. apply code_inj. apply code_ascii. lia.
Qed.
Lemma id_bytes_val s : length s = 8 -> id_bytes (le_val s) = s.
Proof. intros H. unfold id_bytes. rewrite <- H. apply le_bytes_val. Qed.
Lemma id_key_ok n : key_ok (id_bytes n) = true.
Proof.
  unfold key_ok. rewrite id_bytes_length. pose proof (id_bytes_length n) as H.
  by destruct (id_bytes n).
Qed.

Lemma chunks8_app b s : length b = 8 -> chunks8 (b ++ s) = b :: chunks8 s.
Proof.
  intros H. do 8 (destruct b as [|? b]; [done|]). destruct b; [|done]. done.
Qed.
Lemma chunks8_ids l : chunks8 (concat (map id_bytes l)) = map id_bytes l.
Proof.
  induction l as [|i l IH]; [done|]. cbn [map concat].
  rewrite chunks8_app by apply id_bytes_length. by rewrite IH.
Qed.
Lemma ids_vals l : Forall (fun i => (i < 2 ^ 64)%N) l -> map le_val (map id_bytes l) = l.
Proof.
  intros H. induction H as [|i l Hi Hl IH]; [done|]. cbn [map]. by rewrite id_val, IH.
Qed.
Lemma ids_empty l : concat (map id_bytes l) = [] <-> l = [].
Proof.
  split; [|by intros ->]. destruct l as [|i l]; [done|]. intros H.
  apply (f_equal length) in H. cbn [map concat] in H.
  rewrite app_length, id_bytes_length in H. done.
Qed.
Lemma ids_filter l i :
  Forall (fun j => (j < 2 ^ 64)%N) l ->
  bfilter (fun b => negb (le_val b =? i)%N) (map id_bytes l) =
  map id_bytes (bfilter (fun j => negb (j =? i)%N) l).
Proof.
  intros H. induction H as [|j l Hj Hl IH]; [done|]. cbn [map List.filter].
  rewrite id_val, IH by done. by destruct (negb (j =? i)%N).
Qed.
