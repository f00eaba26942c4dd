(** Properties C78 and C79: bytes on a connection. *)
From Coq Require Import ZArith NArith Lia.
From Verif Require Import Bytes Text Dn Res Entry Password PasswordProofs P_Password Db Packet Filter Handler Server Ber BerProofs Reply Encode EncodeProofs.

(** * What a client understands (RFC 4511, 4.1.1, 4.1.9, 4.5.2, 4.12) *)
Inductive reply :=
| Entry (id : Z) (name : str) (attrs : list (str * list str))
| Result (id : Z) (tag : N) (code : Z) (matched text : str) (name value : option str) (controls : list packet).
Definition is_kind (cls : N) (con : bool) (tag : N) (p : packet) : bool :=
  (p_cls p =? cls)%N && Bool.eqb (p_con p) con && (p_tag p =? tag)%N.
Definition c_text (p : packet) : option str := if is_kind 0 false 4 p then as_str (p_val p) else None.
Fixpoint c_texts (l : list packet) : option (list str) :=
  match l with
  | [] => Some []
  | p :: l' => match c_text p, c_texts l' with Some s, Some ss => Some (s :: ss) | _, _ => None end
  end.
Definition c_attr (p : packet) : option (str * list str) :=
  match p_kids p with
  | [t; v] =>
      if is_kind 0 true 16 p && is_kind 0 true 17 v
      then match c_text t, c_texts (p_kids v) with Some s, Some ss => Some (s, ss) | _, _ => None end
      else None
  | _ => None
  end.
Fixpoint c_attrs (l : list packet) : option (list (str * list str)) :=
  match l with
  | [] => Some []
  | p :: l' => match c_attr p, c_attrs l' with Some s, Some ss => Some (s :: ss) | _, _ => None end
  end.
Definition c_more (l : list packet) : option (option str * option str) :=
  match l with
  | [] => Some (None, None)
  | [n] => if is_kind 128 false 10 n then Some (Some (p_data n), None) else None
  | [n; v] => if is_kind 128 false 10 n && is_kind 128 false 11 v then Some (Some (p_data n), Some (p_data v)) else None
  | _ => None
  end.
Definition c_controls (l : list packet) : option (list packet) :=
  match l with
  | [] => Some []
  | [c] => if is_kind 128 true 0 c then Some (p_kids c) else None
  | _ => None
  end.
Definition client (p : packet) : option reply :=
  match p_kids p with
  | i :: op :: rest =>
      match p_val i, c_controls rest with
      | VInt id, Some controls =>
          if negb (is_kind 0 true 16 p && is_kind 0 false 2 i && (p_cls op =? 64)%N && p_con op) then None
          else if (p_tag op =? 4)%N then
            match p_kids op with
            | [n; l] =>
                if negb (is_kind 0 true 16 l) then None
                else match c_text n, c_attrs (p_kids l) with Some s, Some a => Some (Entry id s a) | _, _ => None end
            | _ => None
            end
          else
            match p_kids op with
            | c :: m :: t :: more =>
                match p_val c, c_text m, c_text t, c_more more with
                | VInt code, Some ms, Some ts, Some (name, value) =>
                    if is_kind 0 false 10 c then Some (Result id (p_tag op) code ms ts name value controls) else None
                | _, _, _, _ => None
                end
            | _ => None
            end
      | _, _ => None
      end
  | _ => None
  end.
(** Packets one after the other, and what is left. *)
Inductive reads : str -> list packet -> str -> Prop :=
| reads_nil s : reads s [] s
| reads_cons s p s' ps rest : read_packet s = Some (p, s') -> reads s' ps rest -> reads s (p :: ps) rest.

(** What a response means.  The value of a generated password is a sequence of
    one element with tag 0. *)
Definition password_value (pw : str) : str := p_bytes (full (p_seq [p_ctx 0 pw])).
Definition meaning (x : extras) (r : response) : reply :=
  match r with
  | REntry id e => Entry id (e_dn e) (map (fun a => (a_name a, a_vals a)) (e_attrs e))
  | RFinal id tag code v =>
      let known := (tag =? 24)%N && x_known x in
      Result id tag (Z.of_N (code mod 256)) []
        (if (tag =? 1)%N || (tag =? 5)%N then [] else x_text x)
        (if known then Some (B "1.3.6.1.4.1.4203.1.11.1") else None)
        (if known then password_value <$> v else None)
        (if (tag =? 5)%N then default [] (x_controls x) else [])
  end.
Definition controls_ok (x : extras) : Prop := Forall (fun c => sendable c /\ full c = c) (default [] (x_controls x)).
Definition response_ok (x : extras) (r : response) : Prop :=
  (N.of_nat (length (p_bytes (reply_packet x r))) < 2 ^ 64)%N /\
  match r with
  | REntry id _ => (- 2 ^ 63 <= id < 2 ^ 63)%Z
  | RFinal id tag _ _ => (- 2 ^ 63 <= id < 2 ^ 63)%Z /\ (tag < 31)%N /\ tag <> 4%N
  end.

(** The same packets built from the specification. *)
Definition spec_result (code : N) (text : str) : list packet := [p_enum (code mod 256); p_octets []; p_octets text].
Definition spec (x : extras) (r : response) : packet :=
  match r with
  | REntry id e => p_msg id (p_op 4 [p_octets (e_dn e); p_seq (map enc_attr (map (fun a => (a_name a, a_vals a)) (e_attrs e)))])
  | RFinal id tag code v =>
      let text := if (tag =? 1)%N || (tag =? 5)%N then [] else x_text x in
      let more := if (tag =? 24)%N && x_known x
                  then p_ctx 10 (B "1.3.6.1.4.1.4203.1.11.1") :: match v with Some pw => [p_ctx 11 (password_value pw)] | None => [] end
                  else [] in
      p_seq ([p_int id; p_op tag (spec_result code text ++ more)] ++
        if (tag =? 5)%N then match x_controls x with Some l => [Pkt 128 true 0 VNil [] l] | None => [] end else [])
  end.

Lemma children_pkt c con t v d k l : children (Pkt c con t v d k) l = Pkt c con t v (d ++ List.concat (map p_bytes l)) (k ++ l).
Proof.
  revert d k. induction l as [|q l IH]; intros d k; cbn [children fold_left map List.concat].
  - by rewrite !app_nil_r.
  - cbn [append_child]. unfold children in IH. rewrite IH, <- !app_assoc. done.
Qed.
Lemma children_new c con t l : children (ber_encode c con t) l = Pkt c con t VNil (List.concat (map p_bytes l)) l.
Proof. apply children_pkt. Qed.
Lemma octets_full s : new_string 0 4 s = full (p_octets s).
Proof. done. Qed.
Lemma attr_full a : encode_search_attribute a = full (enc_attr (a_name a, a_vals a)).
Proof.
  unfold encode_search_attribute, enc_attr. rewrite !children_new. cbn [full p_seq p_set map fst snd].
  assert (map (new_string ClassUniversal TagOctetString) (a_vals a) = map full (map p_octets (a_vals a))) as ->; [|done].
  rewrite map_map. done.
Qed.
Lemma result_full code text : result_fields code text = map full (spec_result code text).
Proof. done. Qed.
Lemma bytes_of_pkt c con t v v' d k k' : p_bytes (Pkt c con t v d k) = p_bytes (Pkt c con t v' d k').
Proof. done. Qed.
Lemma with_id_bytes id op op' : p_bytes op = p_bytes (full op') -> p_bytes (with_id id op) = p_bytes (full (p_msg id op')).
Proof.
  intros H. unfold with_id. rewrite children_new. unfold p_msg. cbn [full p_seq map List.concat]. rewrite H. done.
Qed.
Lemma seq_bytes c con t l l' : map p_bytes l = map p_bytes (map full l') ->
  p_bytes (Pkt c true t con (List.concat (map p_bytes l)) l) = p_bytes (full (Pkt c true t VNil [] l')).
Proof. intros H. cbn [full]. rewrite H. done. Qed.
Lemma full_op tag l : full (p_op tag l) = Pkt 64 true tag VNil (List.concat (map p_bytes (map full l))) (map full l).
Proof. done. Qed.
Lemma spec_bytes x r : controls_ok x -> p_bytes (reply_packet x r) = p_bytes (full (spec x r)).
Proof.
  intros Hx. destruct r as [id e|id tag code v]; cbn [reply_packet spec].
  - apply with_id_bytes. rewrite !children_new. cbn [full p_op p_seq map List.concat p_octets].
    assert (map encode_search_attribute (e_attrs e) = map full (map enc_attr (map (fun a => (a_name a, a_vals a)) (e_attrs e)))) as ->; [|done].
    rewrite !map_map. apply map_ext. intros a. apply attr_full.
  - unfold BindResponse, SearchResultDone, ExtendedResponse.
    destruct (N.eqb_spec tag 1) as [->|H1]; [|destruct (N.eqb_spec tag 5) as [->|H5]; [|destruct (N.eqb_spec tag 24) as [->|H24]]].
    + cbn [orb N.eqb Pos.eqb andb app]. unfold encode_bind_response. apply (with_id_bytes id _ (p_op 1 (spec_result code []))).
      rewrite children_new. done.
    + cbn [orb N.eqb Pos.eqb andb]. rewrite app_nil_r. unfold encode_search_done, with_id. rewrite !children_new, children_pkt.
      rewrite <- concat_app, <- map_app. apply seq_bytes. rewrite map_app. rewrite map_app, map_app. f_equal.
      unfold controls_ok in Hx. destruct (x_controls x) as [l|]; [|done]. change (from_option Datatypes.id [] (Some l)) with l in Hx. cbn [map].
      rewrite children_new. f_equal. apply seq_bytes.
      assert (map full l = l) as ->; [|done]. clear -Hx. induction Hx as [|q l' [_ Hq] _ IH]; [done|]. cbn [map]. by rewrite Hq, IH.
    + cbn [orb N.eqb Pos.eqb andb]. rewrite app_nil_r. destruct (x_known x).
      * apply (with_id_bytes id _ (p_op 24 _)). unfold encode_extended_response. rewrite children_new. apply seq_bytes.
        rewrite !map_app. f_equal. destruct v as [pw|]; [|done]. cbn [fmap option_fmap option_map map app].
        f_equal. f_equal. unfold generated_value, password_value. cbn [append_child ber_encode app full p_ctx p_seq map List.concat].
        rewrite app_nil_r. done.
      * apply (with_id_bytes id _ (p_op 24 _)). rewrite children_new. apply seq_bytes. by rewrite app_nil_r.
    + cbn [orb andb]. apply (with_id_bytes id _ (p_op tag _)). rewrite children_new. apply seq_bytes. by rewrite app_nil_r.
Qed.
Lemma octets_send s : sendable (p_octets s).
Proof. constructor. Qed.
Lemma int_send z : (- 2 ^ 63 <= z < 2 ^ 63)%Z -> sendable (p_int z).
Proof. intros H. apply send_prim; [cbn; tauto|done|]. cbn. auto. Qed.
Lemma ctx_send t s : (t < 31)%N -> sendable (p_ctx t s).
Proof. intros H. apply send_prim; [cbn; tauto|done|]. cbn. done. Qed.
Lemma seq_send l : Forall sendable l -> sendable (p_seq l).
Proof. intros H. apply send_con; [cbn; tauto|done|done]. Qed.
Lemma op_send t l : (t < 31)%N -> Forall sendable l -> sendable (p_op t l).
Proof. intros H1 H2. apply send_con; [cbn; tauto|done|done]. Qed.
Lemma attr_send a : sendable (enc_attr a).
Proof.
  apply seq_send. constructor; [apply octets_send|]. constructor; [|constructor]. apply send_con; [cbn; tauto|done|].
  apply Forall_map, List.Forall_forall. intros s _. apply octets_send.
Qed.
Lemma spec_send x r : controls_ok x -> response_ok x r -> sendable (spec x r).
Proof.
  intros Hx [_ Hr]. destruct r as [id e|id tag code v]; cbn [spec].
  - apply seq_send. constructor; [by apply int_send|]. constructor; [|constructor]. apply op_send; [done|].
    constructor; [apply octets_send|]. constructor; [|constructor]. apply seq_send. apply Forall_map, List.Forall_forall. intros a _. apply attr_send.
  - destruct Hr as (Hid & Ht & _). apply seq_send. apply Forall_app. split.
    + constructor; [by apply int_send|]. constructor; [|constructor]. apply op_send; [done|]. apply Forall_app. split.
      * constructor; [|constructor; [apply octets_send|constructor; [apply octets_send|constructor]]].
        apply send_prim; [cbn; tauto|done|]. cbn. split; [done|]. split; [by right|].
        pose proof (N.mod_lt code 256 ltac:(done)). lia.
      * destruct (_ && _); [|constructor]. constructor; [by apply ctx_send|]. destruct v; [|constructor].
        constructor; [by apply ctx_send|constructor].
    + destruct (tag =? 5)%N; [|constructor]. unfold controls_ok in Hx. destruct (x_controls x) as [l|]; [|constructor].
      constructor; [|constructor]. apply send_con; [cbn; tauto|done|]. cbn in Hx. eapply Forall_impl; [exact Hx|]. by intros c [? _].
Qed.
Lemma c_texts_full l : c_texts (map full (map p_octets l)) = Some l.
Proof. induction l as [|s l IH]; [done|]. cbn [map c_texts]. rewrite IH. done. Qed.
Lemma c_attrs_full l : c_attrs (map full (map enc_attr l)) = Some l.
Proof.
  induction l as [|[n vs] l IH]; [done|]. cbn [map c_attrs]. rewrite IH.
  assert (c_attr (full (enc_attr (n, vs))) = Some (n, vs)) as ->; [|done].
  unfold enc_attr, c_attr. cbn [full p_seq p_set map fst snd p_kids]. cbn -[c_texts full]. rewrite c_texts_full. done.
Qed.
Lemma client_spec x r : controls_ok x -> response_ok x r -> client (full (spec x r)) = Some (meaning x r).
Proof.
  intros Hx [_ Hr]. destruct r as [id e|id tag code v]; cbn [spec meaning].
  - unfold client, p_msg. cbn [full p_seq p_op map p_kids]. cbn -[c_attrs full enc_attr]. rewrite c_attrs_full. done.
  - destruct Hr as (Hid & Ht & H4). assert (Hc : forall l, x_controls x = Some l -> map full l = l).
    { intros l El. unfold controls_ok in Hx. rewrite El in Hx. cbn in Hx. clear -Hx.
      induction Hx as [|q l' [_ Hq] _ IH]; [done|]. cbn [map]. by rewrite Hq, IH. }
    unfold client, spec_result. cbn [full p_seq p_op map p_kids app].
    apply N.eqb_neq in H4. destruct (N.eqb_spec tag 5) as [->|H5].
    + cbn [orb N.eqb Pos.eqb andb app]. destruct (x_controls x) as [l|] eqn:El; [|reflexivity].
      cbn [map full]. rewrite (Hc l eq_refl). reflexivity.
    + rewrite orb_false_r. cbn -[password_value full]. rewrite H4. destruct (N.eqb_spec tag 24) as [->|H24].
      * cbn -[password_value full]. destruct (x_known x); [|done]. destruct v; done.
      * cbn. done.
Qed.

(** * C78 *)
(** Whatever responses are written one after the other, a client reads exactly
    these, with the fields they were made from, whatever follows. *)
Theorem C78_replies (l : list (extras * response)) (rest : str) :
  Forall (fun xr => controls_ok xr.1 /\ response_ok xr.1 xr.2) l ->
  exists ps, reads (List.concat (map (fun xr => p_bytes (reply_packet xr.1 xr.2)) l) ++ rest) ps rest /\
    map client ps = map (fun xr => Some (meaning xr.1 xr.2)) l.
Proof.
  intros H. induction H as [|[x r] l [Hx Hr] _ (ps & IH1 & IH2)]; [exists []; split; [constructor|done]|].
  cbn [fst snd] in *. exists (full (spec x r) :: ps). split.
  - cbn [map List.concat]. cbn [fst snd]. rewrite <- app_assoc, (spec_bytes x r Hx). econstructor; [|exact IH1].
    apply read_packet_full; [by apply spec_send|]. rewrite <- (spec_bytes x r Hx). apply Hr.
  - cbn [map]. by rewrite (client_spec x r Hx Hr), IH2.
Qed.
Print Assumptions C78_replies.
(** There is only one way to read a number of packets. *)
Theorem C78_one_reading (s : str) (ps qs : list packet) (r1 r2 : str) :
  reads s ps r1 -> reads s qs r2 -> length ps = length qs -> ps = qs /\ r1 = r2.
Proof.
  intros H. revert qs r2. induction H as [s|s p s' ps rest Hp _ IH]; intros qs r2 H2 Hl.
  - destruct qs; [|done]. by inversion H2.
  - destruct qs as [|q qs]; [done|]. inversion H2 as [|? ? ? ? ? Hq Hqs]; subst. rewrite Hp in Hq. injection Hq as -> ->.
    injection Hl as Hl. destruct (IH _ _ Hqs Hl) as [-> ->]. done.
Qed.
Print Assumptions C78_one_reading.

Lemma unbe_bound s a : (unbe a s < (a + 1) * 256 ^ N.of_nat (length s))%N.
Proof.
  revert a. induction s as [|c s IH]; intros a; [cbn; lia|]. cbn [unbe length]. rewrite pow256.
  eapply N.lt_le_trans; [apply IH|]. pose proof (code_bound c) as Hc. rewrite N.mul_assoc. apply N.mul_le_mono_r. lia.
Qed.
Lemma signed_range s : length s <= 8 -> (- 2 ^ 63 <= signed s < 2 ^ 63)%Z.
Proof.
  intros Hl. destruct s as [|c s]; [cbn; lia|]. unfold signed. set (n := length s).
  change (length (c :: s)) with (S n). cbn [unbe]. rewrite N.mul_0_l, N.add_0_l.
  assert (E256 : forall k : nat, Z.of_N (256 ^ N.of_nat k) = (2 ^ (8 * Z.of_nat k))%Z).
  { intros k. rewrite N2Z.inj_pow, nat_N_Z. change (Z.of_N 256) with (2 ^ 8)%Z. rewrite <- Z.pow_mul_r by lia. done. }
  pose proof (unbe_bound s (code c)) as Hu. apply N2Z.inj_lt in Hu. rewrite N2Z.inj_mul, E256 in Hu. fold n in Hu.
  assert (Hn : (2 ^ (8 * Z.of_nat n) <= 2 ^ 56)%Z) by (apply Z.pow_le_mono_r; cbn [length] in Hl; lia).
  assert (Hp : (0 < 2 ^ (8 * Z.of_nat n))%Z) by (apply Z.pow_pos_nonneg; lia).
  assert (HS : (2 ^ (8 * Z.of_nat (S n)) = 256 * 2 ^ (8 * Z.of_nat n))%Z).
  { change 256%Z with (2 ^ 8)%Z. rewrite <- Z.pow_add_r by lia. f_equal. lia. }
  assert (Hlow : forall a t, (a * 256 ^ N.of_nat (length t) <= unbe a t)%N).
  { clear. intros a t. revert a. induction t as [|d t IH]; intros a; [cbn; lia|]. cbn [unbe length]. rewrite pow256.
    etrans; [|apply IH]. rewrite N.mul_assoc. apply N.mul_le_mono_r. lia. }
  specialize (Hlow (code c) s). apply N2Z.inj_le in Hlow. rewrite N2Z.inj_mul, E256 in Hlow. fold n in Hlow.
  destruct (N.ltb_spec (code c) 128) as [Hc|Hc].
  - split; [lia|]. rewrite N2Z.inj_add in Hu. nia.
  - rewrite HS. pose proof (code_bound c). rewrite N2Z.inj_add in Hu. split; nia.
Qed.
Lemma value_range c t d z : value_of c t d = VInt z -> (- 2 ^ 63 <= z < 2 ^ 63)%Z.
Proof.
  unfold value_of. destruct (c =? 0)%N; [|done]. destruct (t =? 1)%N; [done|]. destruct ((t =? 2) || (t =? 10))%N.
  - intros [= <-]. destruct (Nat.ltb_spec 8 (length d)); [lia|]. apply signed_range. lia.
  - destruct (t =? 4)%N; done.
Qed.
Definition in_range (p : packet) : Prop := forall z, p_val p = VInt z -> (- 2 ^ 63 <= z < 2 ^ 63)%Z.
Lemma read_range fuel : (forall s p r, read fuel s = Some (p, r) -> in_range p /\ Forall in_range (p_kids p)) /\
  (forall s ps, read_all fuel s = Some ps -> Forall in_range ps).
Proof.
  induction fuel as [|f [IH1 IH2]]; [split; by intros|]. split.
  - intros [|c s] p r; [done|]. cbn [read]. destruct (_ =? 31)%N; [done|]. destruct (read_len s) as [[n s2]|]; [|done].
    destruct (_ <? n)%N; [done|]. destruct (_ =? 1)%N.
    + destruct (read_all f _) as [ks|] eqn:E; [|done]. intros [= <- <-]. split; [done|]. by apply IH2 in E.
    + intros [= <- <-]. split; [|constructor]. intros z. apply value_range.
  - intros [|c s] ps; [by intros [= <-]; constructor|]. cbn [read_all]. destruct (read f (c :: s)) as [[p s']|] eqn:E; [|done].
    destruct (read_all f s') as [qs|] eqn:E2; [|done]. intros [= <-]. constructor; [by apply IH1 in E as [? _]|by apply IH2 in E2].
Qed.
(** The numbers of the responses to a message that was read are as assumed above:
    the message number is that of the request. *)
Theorem C78_written (T : Text) (C : Crypto) (W : Wire) (S E : Type) (cfg : server_cfg) (h : handler S E) (ev : renv E)
    (bound input rest : str) (p : packet) (s : S) (r : response) :
  read_packet input = Some (p, rest) -> In r (r_out (handle cfg h ev bound p s)) ->
  exists i, p_kids p !! 0 = Some i /\
  match r with
  | REntry id _ => p_val i = VInt id /\ (- 2 ^ 63 <= id < 2 ^ 63)%Z
  | RFinal id tag _ _ => p_val i = VInt id /\ (- 2 ^ 63 <= id < 2 ^ 63)%Z /\ In tag [1; 5; 7; 9; 11; 13; 14; 24]%N
  end.
Proof.
  intros Hr. unfold read_packet in Hr. destruct (read_range (2 * length input)) as [HR _]. destruct (HR _ _ _ Hr) as [_ Hk].
  unfold handle. destruct (p_kids p) as [|i [|req more]] eqn:Ek; [done|done|].
  apply Forall_cons in Hk as [Hi _]. unfold as_int. destruct (p_val i) as [| |id| |] eqn:Ei; try done.
  specialize (Hi id Ei). destruct (negb _); [done|]. destruct (match more with [] => _ | _ => _ end); [|done].
  intros Hin. exists i. split; [done|]. rewrite Ei.
  assert (Hs : forall k pre x n (s' : S), In r (r_out (send_final ev k pre x n s')) -> In r pre \/ r = x).
  { intros k pre x n s'. unfold send_final. destruct (re_send ev k); cbn [r_out]; [|by left].
    rewrite in_app_iff. cbn. intuition. }
  assert (Hf : forall tag (a : hout answer * S), In tag [1; 5; 7; 9; 11; 13; 14; 24]%N -> In r (r_out (finish ev id tag bound a)) ->
    exists code, r = RFinal id tag code None).
  { intros tag [[[code b]| |] s'] _; cbn [finish]; [|done|done]. intros H. apply Hs in H as [[]|H]. by exists code. }
  assert (G : forall tag code v, In tag [1; 5; 7; 9; 11; 13; 14; 24]%N -> r = RFinal id tag code v -> 
    match r with
    | REntry id0 _ => VInt id = VInt id0 /\ (- 2 ^ 63 <= id0 < 2 ^ 63)%Z
    | RFinal id0 tag0 _ _ => VInt id = VInt id0 /\ (- 2 ^ 63 <= id0 < 2 ^ 63)%Z /\ In tag0 [1; 5; 7; 9; 11; 13; 14; 24]%N
    end).
  { intros tag code v Ht ->. done. }
  unfold dispatch in Hin.
  destruct (p_tag req =? AddRequest)%N; [apply Hf in Hin as [code Hc]; [eapply G; [|exact Hc]|]; cbn; tauto|].
  destruct (p_tag req =? BindRequest)%N.
  { destruct (handle_bind h ev req s) as [[code| |] s']; [|done|done]. destruct (code =? Success)%N.
    - destruct (p_kids req) as [|? [|d ?]]; [done|done|]. destruct (as_str (p_val d)); [|done]. destruct (parse_normalize _); [|done].
      apply Hs in Hin as [[]|Hc]. eapply G; [|exact Hc]; cbn; tauto.
    - apply Hs in Hin as [[]|Hc]. eapply G; [|exact Hc]; cbn; tauto. }
  destruct (p_tag req =? CompareRequest)%N; [apply Hs in Hin as [[]|Hc]; eapply G; [|exact Hc]; cbn; tauto|].
  destruct (p_tag req =? DelRequest)%N; [apply Hf in Hin as [code Hc]; [eapply G; [|exact Hc]|]; cbn; tauto|].
  destruct (p_tag req =? ExtendedRequest)%N.
  { destruct (handle_extended cfg h ev bound req s) as [[[code v]| |] s']; [|done|done].
    apply Hs in Hin as [[]|Hc]. eapply G; [|exact Hc]; cbn; tauto. }
  destruct (p_tag req =? ModifyDNRequest)%N; [apply Hf in Hin as [code Hc]; [eapply G; [|exact Hc]|]; cbn; tauto|].
  destruct (p_tag req =? ModifyRequest)%N; [apply Hf in Hin as [code Hc]; [eapply G; [|exact Hc]|]; cbn; tauto|].
  destruct (p_tag req =? SearchRequest)%N; [|done].
  assert (He : forall es, In r (map (REntry id) es) -> exists e, r = REntry id e).
  { intros es H. apply in_map_iff in H as (e & <- & _). by exists e. }
  destruct (handle_search cfg h ev bound req s) as [[es [o| |]] s'].
  - apply Hs in Hin as [H|Hc]; [apply He in H as [e ->]; done|]. eapply G; [|exact Hc]; cbn; tauto.
  - apply He in Hin as [e ->]. done.
  - apply He in Hin as [e ->]. done.
Qed.
Print Assumptions C78_written.
Definition ex_entry : entry := mkEntry (B "uid=ada,o=base") [mkAttr (B "uid") [B "ada"]; mkAttr (B "mail") [B "a@x"; B "b@x"]].
Definition ex_replies : list (extras * response) :=
  [(mkExtras [] None false, REntry 300 ex_entry); (mkExtras [] (Some []) false, RFinal 300 5 0 None);
   (mkExtras (B "no") None false, RFinal (-1) 9 68 None); (mkExtras [] None true, RFinal 7 24 0 (Some (B "pw")))].
Example C78_case :
  List.concat (map (fun xr => p_bytes (reply_packet xr.1 xr.2)) (drop 1 ex_replies)) =
    map ascii_of_N [48; 15; 2; 2; 1; 44; 101; 7; 10; 1; 0; 4; 0; 4; 0; 160; 0;
                    48; 14; 2; 1; 255; 105; 9; 10; 1; 68; 4; 0; 4; 2; 110; 111;
                    48; 45; 2; 1; 7; 120; 40; 10; 1; 0; 4; 0; 4; 0; 138; 23; 49; 46; 51; 46; 54; 46; 49; 46; 52; 46; 49; 46; 52; 50; 48; 51; 46; 49; 46; 49; 49; 46; 49;
                    139; 6; 48; 4; 128; 2; 112; 119]%N /\
  Forall (fun xr => controls_ok xr.1 /\ response_ok xr.1 xr.2) ex_replies.
Proof.
  split; [vm_compute; reflexivity|].
  repeat constructor; cbn -[Z.pow N.pow p_bytes reply_packet]; try lia; vm_compute; reflexivity.
Qed.

(** * C79 *)
(** A message is read back whatever follows it; a part of it is not a message. *)
Theorem C79_framing (p : packet) :
  sendable p -> (N.of_nat (length (p_bytes (full p))) < 2 ^ 64)%N ->
  (forall rest, read_packet (p_bytes (full p) ++ rest) = Some (full p, rest)) /\
  (forall a b, p_bytes (full p) = a ++ b -> b <> [] -> read_packet a = None).
Proof.
  intros Hs Hl. split; [intros rest; by apply read_packet_full|]. intros a b Hab Hb.
  unfold read_packet. destruct a as [|x a]; [done|].
  set (n := 2 * length (x :: a)). destruct n as [|f] eqn:En; [done|].
  destruct (full p) as [c con t v d k] eqn:Ep. cbn [p_bytes] in Hab.
  injection Hab as <- Hab. cbn [read]. destruct (_ =? 31)%N; [done|].
  assert (Hd : (N.of_nat (length d) < 2 ^ 64)%N). { cbn [p_bytes length] in Hl. rewrite app_length in Hl. lia. }
  assert (E : read_len a = None \/ exists d1, read_len a = Some (N.of_nat (length d), d1) /\ d = d1 ++ b).
  { destruct (decide (length (len_bytes (N.of_nat (length d))) <= length a)) as [Hle|Hlt].
    - right. pose proof (f_equal (take (length a)) Hab) as H1. rewrite take_app in H1.
      rewrite take_app_ge in H1 by done. exists (take (length a - length (len_bytes (N.of_nat (length d)))) d).
      remember (length a) as la eqn:Ela. split; [rewrite <- H1; by apply read_len_bytes|].
      rewrite <- H1, <- app_assoc in Hab. by apply app_inv_head in Hab.
    - left. apply Nat.nle_gt in Hlt. pose proof (f_equal (take (length a)) Hab) as H1. rewrite take_app in H1.
      rewrite take_app_le in H1 by lia. unfold len_bytes in *. destruct (_ <? 128)%N eqn:E1.
      + cbn [length] in Hlt. destruct a; [done|cbn in Hlt; lia].
      + destruct a as [|y a]; [done|]. cbn [length take firstn] in H1, Hlt. rewrite be_length in Hlt. injection H1 as <- H1.
        pose proof (octets_le _ Hd) as Ho. cbn [read_len]. rewrite code_ascii by lia.
        destruct (N.ltb_spec (128 + N.of_nat (octets (N.of_nat (length d)))) 128) as [?|_]; [lia|].
        replace (N.to_nat (128 + N.of_nat (octets (N.of_nat (length d))) - 128)) with (octets (N.of_nat (length d))) by lia.
        destruct (Nat.ltb_spec (length a) (octets (N.of_nat (length d)))) as [_|?]; [|lia]. by rewrite orb_true_r. }
  destruct E as [->|(d1 & -> & ->)]; [done|]. rewrite app_length.
  destruct (N.ltb_spec (N.of_nat (length d1)) (N.of_nat (length d1 + length b))) as [_|H]; [done|].
  destruct b; [done|]. cbn [length] in H. lia.
Qed.
Print Assumptions C79_framing.

Lemma texts_full l : Forall2 says_text (map full (map p_octets l)) l.
Proof. induction l; constructor; done. Qed.
Lemma attr_says a : says_attr (full (enc_attr a)) a.
Proof.
  unfold says_attr, enc_attr. cbn [full p_seq p_set map p_kids]. eexists _, _. split; [reflexivity|]. repeat split.
  cbn [p_kids]. apply texts_full.
Qed.
(** What a client sends is what the server's parsers see. *)
Theorem C79_requests (T : Text) (W : Wire) :
  (forall r, is_Some (parse_dn (ad_dn r)) -> parse_add (full (enc_add r)) = Ok r) /\
  (forall dn, is_Some (parse_dn dn) -> parse_delete (full (enc_delete dn)) = Ok dn) /\
  (forall r, is_Some (parse_dn (m_dn r)) -> parse_modify (full (enc_modify r)) = Ok r) /\
  (forall r, is_Some (parse_dn (md_dn r)) -> is_Some (parse_dn (md_newrdn r)) -> parse_moddn (full (enc_moddn r None)) = Ok r) /\
  (forall r deref limit f, decompile_filter (full f) = Some (sr_filter r) -> parse_search (full (enc_search r deref limit f)) = Ok r).
Proof.
  split; [|split; [|split; [|split]]].
  - intros r Hr. apply add_iff. unfold says_add, enc_add. cbn [full p_op p_seq map p_kids]. eexists _, _. split; [reflexivity|].
    split; [by split|]. split; [done|]. cbn [p_kids]. induction (ad_attrs r) as [|a l IH]; constructor; [apply attr_says|done].
  - intros dn Hd. apply delete_iff. done.
  - intros r Hr. apply modify_iff. unfold says_modify, enc_modify. cbn [full p_op p_seq map p_kids]. eexists _, _. split; [reflexivity|].
    split; [by split|]. split; [done|]. cbn [p_kids]. induction (m_changes r) as [|c l IH]; constructor; [|done].
    unfold says_change, enc_change. cbn [full p_seq map p_kids p_enum].
    assert (exists x data, int_bytes (Z.of_N (op_number (c_op c))) = x :: data /\ code x = op_number (c_op c)) as (x & data & E1 & E2).
    { destruct (c_op c); eexists _, _; (split; [reflexivity|reflexivity]). }
    eexists _, _, _, x, data. split; [reflexivity|]. split; [done|]. split; [done|]. left. apply attr_says.
  - intros r H1 H2. apply moddn_iff. eexists _, _, _. split; [reflexivity|]. split; [by split|]. split; [by split|]. done.
  - intros r deref limit f Hf. apply search_iff. unfold says_search, enc_search. cbn [full p_op p_seq map p_kids].
    eexists _, _, _, _, _, _, _, _, deref, limit. split; [reflexivity|]. repeat (split; [done|]).
    split; [by left|]. split; [done|]. cbn [p_kids]. apply texts_full.
Qed.
Print Assumptions C79_requests.
(** They can be sent, if the numbers fit. *)
Theorem C79_sendable :
  (forall r, sendable (enc_add r)) /\ (forall dn, sendable (enc_delete dn)) /\ (forall r, sendable (enc_modify r)) /\
  (forall r sup, sendable (enc_moddn r sup)) /\ (forall dn pw, sendable (enc_bind dn pw)) /\
  (forall oid body, sendable (enc_extended oid body)) /\
  (forall r deref limit f, sendable f ->
     Forall (fun z => - 2 ^ 63 <= z < 2 ^ 63)%Z [sr_scope r; deref; sr_size r; limit] -> sendable (enc_search r deref limit f)) /\
  (forall id o, (- 2 ^ 63 <= id < 2 ^ 63)%Z -> sendable o -> sendable (p_msg id o)).
Proof.
  assert (Hb : forall b, sendable (p_bool b)) by (intros b; apply send_prim; [cbn; tauto|done|by cbn]).
  split; [|split; [|split; [|split; [|split; [|split; [|split]]]]]].
  - intros r. apply op_send; [done|]. constructor; [apply octets_send|]. constructor; [|constructor]. apply seq_send.
    apply Forall_map, List.Forall_forall. intros a _. apply attr_send.
  - intros dn. apply send_prim; [cbn; tauto|done|]. cbn. done.
  - intros r. apply op_send; [done|]. constructor; [apply octets_send|]. constructor; [|constructor]. apply seq_send.
    apply Forall_map, List.Forall_forall. intros c _. apply seq_send. constructor; [|constructor; [apply attr_send|constructor]].
    apply send_prim; [cbn; tauto|done|]. cbn. split; [done|]. split; [by right|]. destruct (c_op c); cbn; lia.
  - intros r sup. apply op_send; [done|]. constructor; [apply octets_send|]. constructor; [apply octets_send|]. constructor; [apply Hb|].
    destruct sup; [|constructor]. constructor; [by apply ctx_send|constructor].
  - intros dn pw. apply op_send; [done|]. constructor; [apply int_send; lia|]. constructor; [apply octets_send|].
    constructor; [by apply ctx_send|constructor].
  - intros oid body. apply op_send; [done|]. constructor; [by apply ctx_send|]. destruct body; [|constructor].
    constructor; [by apply ctx_send|constructor].
  - intros r deref limit f Hf H. apply Forall_cons in H as [H1 H]. apply Forall_cons in H as [H2 H]. apply Forall_cons in H as [H3 H].
    apply Forall_cons in H as [H4 _]. apply op_send; [done|].
    constructor; [apply octets_send|]. repeat (constructor; [by apply int_send|]). constructor; [apply Hb|]. constructor; [done|].
    constructor; [|constructor]. apply seq_send. apply Forall_map, List.Forall_forall. intros a _. apply octets_send.
  - intros id o Hid Ho. apply seq_send. constructor; [by apply int_send|]. constructor; [done|constructor].
Qed.
Print Assumptions C79_sendable.
(** So a message that is sent is handled like its packet: what is said elsewhere
    about requests holds for their bytes. *)
Inductive request {W : Wire} : packet -> Prop :=
| req_add r : request (enc_add r)
| req_delete dn : request (enc_delete dn)
| req_modify r : request (enc_modify r)
| req_moddn r sup : request (enc_moddn r sup)
| req_bind dn pw : request (enc_bind dn pw)
| req_extended oid body : request (enc_extended oid body)
| req_search r deref limit f : decompile_filter (full f) = decompile_filter f -> request (enc_search r deref limit f).
Lemma octets_all l : map full (map p_octets l) = map p_octets l.
Proof. induction l as [|a l IH]; [done|]. cbn [map]. by rewrite IH. Qed.
Lemma attribute_full b a : parse_attribute b (full (enc_attr a)) = parse_attribute b (enc_attr a).
Proof. unfold enc_attr. cbn [full p_seq p_set map p_octets]. fold (p_octets a.1). unfold parse_attribute. cbn. by rewrite octets_all. Qed.
Lemma attrs_full l : parse_attrs (map full (map enc_attr l)) = parse_attrs (map enc_attr l).
Proof. induction l as [|a l IH]; [done|]. cbn [map parse_attrs]. by rewrite attribute_full, IH. Qed.
Lemma change_full c : parse_change (full (enc_change c)) = parse_change (enc_change c).
Proof.
  unfold parse_change, enc_change, p_seq. cbn [full map p_kids]. fold (enc_attr (c_type c, c_vals c)). rewrite attribute_full.
  by destruct (c_op c).
Qed.
Lemma changes_full l : parse_changes (map full (map enc_change l)) = parse_changes (map enc_change l).
Proof. induction l as [|a l IH]; [done|]. cbn [map parse_changes]. by rewrite change_full, IH. Qed.
Section tags.
Context {T : Text} {C : Crypto} {W : Wire} {S E : Type} (cfg : server_cfg) (h : handler S E) (ev : renv E) (bound : str) (id : Z) (s : S).
Lemma d_add q : p_tag q = AddRequest -> dispatch cfg h ev bound id q s = finish ev id AddResponse bound (handle_add h ev bound q s).
Proof. intros H. unfold dispatch. rewrite H. reflexivity. Qed.
Lemma d_modify q : p_tag q = ModifyRequest -> dispatch cfg h ev bound id q s = finish ev id ModifyResponse bound (handle_modify h ev bound q s).
Proof. intros H. unfold dispatch. rewrite H. reflexivity. Qed.
Lemma d_moddn q : p_tag q = ModifyDNRequest -> dispatch cfg h ev bound id q s = finish ev id ModifyDNResponse bound (handle_moddn h ev bound q s).
Proof. intros H. unfold dispatch. rewrite H. reflexivity. Qed.
Lemma d_extended q : p_tag q = ExtendedRequest -> dispatch cfg h ev bound id q s =
  match handle_extended cfg h ev bound q s with
  | (HRet (code, v), s') => send_final ev 0 [] (RFinal id ExtendedResponse code v) (Go bound) s'
  | (_, s') => mkResult [] Dead s'
  end.
Proof. intros H. unfold dispatch. rewrite H. reflexivity. Qed.
Lemma d_search q : p_tag q = SearchRequest -> dispatch cfg h ev bound id q s =
  match handle_search cfg h ev bound q s with
  | (es, HRet o, s') =>
      send_final ev (Datatypes.S (length es)) (map (REntry id) es)
        (RFinal id SearchResultDone (match o with Some code => code | None => Success end) None)
        (match o with Some _ => Drop | None => Go bound end) s'
  | (es, _, s') => mkResult (map (REntry id) es) Dead s'
  end.
Proof. intros H. unfold dispatch. rewrite H. reflexivity. Qed.
End tags.
Theorem C79_same (T : Text) (C : Crypto) (W : Wire) (S E : Type) (cfg : server_cfg) (h : handler S E) (ev : renv E)
    (bound : str) (id : Z) (o : packet) (s : S) :
  request o -> handle cfg h ev bound (full (p_msg id o)) s = handle cfg h ev bound (p_msg id o) s.
Proof.
  intros H. assert (Hd : dispatch cfg h ev bound id (full o) s = dispatch cfg h ev bound id o s).
  2:{ unfold handle, p_msg, p_seq. cbn [full map p_kids p_val p_int as_int]. rewrite Hd. destruct H; reflexivity. }
  destruct H as [r|dn|r|r sup|dn pw|oid body|r deref limit f Hf].
  - rewrite !d_add by done. unfold handle_add. replace (parse_add (full (enc_add r))) with (parse_add (enc_add r)); [reflexivity|].
    unfold parse_add, enc_add, p_op, p_seq, parse_attr_list. cbn [full map p_kids]. by rewrite attrs_full.
  - reflexivity.
  - rewrite !d_modify by done. unfold handle_modify. replace (parse_modify (full (enc_modify r))) with (parse_modify (enc_modify r)); [reflexivity|].
    unfold parse_modify, enc_modify, p_op, p_seq, parse_mod_list. cbn [full map p_kids]. by rewrite changes_full.
  - rewrite !d_moddn by done. unfold handle_moddn.
    replace (parse_moddn (full (enc_moddn r sup))) with (parse_moddn (enc_moddn r sup)); [reflexivity|]. by destruct sup.
  - reflexivity.
  - rewrite !d_extended by done. unfold handle_extended.
    replace (parse_extended (full (enc_extended oid body))) with (parse_extended (enc_extended oid body)); [reflexivity|]. by destruct body.
  - rewrite !d_search by done. unfold handle_search.
    replace (parse_search (full (enc_search r deref limit f))) with (parse_search (enc_search r deref limit f)); [reflexivity|].
    unfold parse_search, enc_search, p_op, p_seq. cbn [full map p_kids p_val p_octets p_int p_bool]. by rewrite octets_all, Hf.
Qed.
Print Assumptions C79_same.
(** The value of a password modification is a packet of its own. *)
Theorem C79_password (W : Wire) (user old new : option str) :
  (forall bs, decode_inner bs = fst <$> read_packet bs) ->
  (N.of_nat (length (p_bytes (full (enc_pwfields user old new)))) < 2 ^ 64)%N ->
  parse_pwmod (Some (p_ctx 1 (p_bytes (full (enc_pwfields user old new))))) =
    Ok (mkPw (default [] user) (default [] old) (default [] new)).
Proof.
  intros Hd Hl. unfold parse_pwmod. cbn [p_data p_ctx]. rewrite Hd.
  rewrite <- (app_nil_r (p_bytes _)), read_packet_full; [|..|done].
  - by destruct user, old, new.
  - apply seq_send. assert (H : forall t o, (t < 31)%N -> Forall sendable (opt_ctx t o)).
    { intros t [b|] Ht; [|constructor]. constructor; [by apply ctx_send|constructor]. }
    apply Forall_app_2; [by apply H|]. apply Forall_app_2; by apply H.
Qed.
Print Assumptions C79_password.
(** Messages sent one after the other are handled one after the other, until the
    connection is closed; what is read later, or is no message, changes nothing. *)
Section each.
Context {T : Text} {C : Crypto} {W : Wire} {S E : Type} (cfg : server_cfg) (h : handler S E).
Fixpoint each (reqs : list (renv E * packet)) (bound : str) (s : S) : list response * S * option str :=
  match reqs with
  | [] => ([], s, Some bound)
  | (ev, p) :: reqs' =>
      let r := handle cfg h ev bound p s in
      match r_next r with
      | Go b => let '(out, s', o) := each reqs' b (r_state r) in (r_out r ++ out, s', o)
      | _ => (r_out r, r_state r, None)
      end
  end.
End each.
Theorem C79_stream (T : Text) (C : Crypto) (W : Wire) (S E : Type) (cfg : server_cfg) (h : handler S E)
    (reqs : list (renv E * packet)) (bound rest : str) (s : S) :
  Forall (fun q => sendable q.2 /\ (N.of_nat (length (p_bytes (full q.2))) < 2 ^ 64)%N) reqs ->
  talk cfg h (map fst reqs) bound (List.concat (map (fun q => p_bytes (full q.2)) reqs) ++ rest) s =
  let '(out, s', o) := each cfg h (map (fun q => (q.1, full q.2)) reqs) bound s in (out, s', (fun b => (b, rest)) <$> o).
Proof.
  intros H. revert bound s. induction H as [|[ev p] reqs [Hp Hl] _ IH]; intros bound s; [done|].
  cbn [map List.concat talk each fst snd]. rewrite <- app_assoc, read_packet_full by done.
  destruct (r_next _) as [b| |]; [|done|done]. rewrite IH.
  destruct (each cfg h (map _ reqs) b _) as [[out s'] o]. done.
Qed.
Print Assumptions C79_stream.
Theorem C79_garbage (T : Text) (C : Crypto) (W : Wire) (S E : Type) (cfg : server_cfg) (h : handler S E) ev evs (bound input : str) (s : S) :
  read_packet input = None -> talk cfg h (ev :: evs) bound input s = ([], s, None).
Proof. intros H. cbn [talk]. by rewrite H. Qed.
Print Assumptions C79_garbage.
Example C79_case :
  p_bytes (full (p_msg 1 (enc_bind (B "o=a") (B "pw")))) =
    map ascii_of_N [48; 17; 2; 1; 1; 96; 12; 2; 1; 3; 4; 3; 111; 61; 97; 128; 2; 112; 119]%N /\
  read_packet (map ascii_of_N [48; 17; 2; 1; 1; 96; 12; 2; 1; 3; 4; 3; 111; 61; 97; 128; 2; 112]%N) = None /\
  read_packet (map ascii_of_N [48; 0; 4; 1]%N) = Some (Pkt 0 true 16 VNil [] [], map ascii_of_N [4; 1]%N) /\
  length (p_bytes (full (p_msg 1 (enc_delete (List.repeat "a"%char 300))))) = 311.
Proof. repeat split; vm_compute; reflexivity. Qed.
