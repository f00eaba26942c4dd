(** Concurrent connections refine the sequential server. *)
From Verif Require Import Bytes Text Dn Res Entry Password Db Packet Filter Handler Server ServerProofs E2eProofs DbOps Conns.

Section proofs.
Context {T : Text} {C : Crypto} {W : Wire}.
Variable (cfg : server_cfg) (c : bolt_cfg).
Notation bh := (bolt_handler c).
Notation sh := (staged_handler c).

(** * One request *)

(** The transaction itself. *)
Definition perform (k : call) (d : db) : reply * db :=
  match k with
  | CUpdate e o => let '(out, d') := run_op (bc_base c) e o d in (RUpdate out, d')
  | CView b s => (RView (search d b s), d)
  end.
(** A computation with the database and the same in stages. *)
Definition tri {A} (d : db) (a : hout A * db) (s : stage -> hout A * stage) : Prop :=
  (s Silent = (a.1, Silent) /\ a.2 = d) \/
  (exists k, s Silent = (HKill, Waiting k) /\ a.2 = (perform k d).2 /\
     s (Told (perform k d).1) = (a.1, Told (perform k d).1)).

Lemma tri_pure {A} d (x : hout A) : tri d (x, d) (fun s => (x, s)).
Proof using Type. by left. Qed.
Lemma tri_write d ev o tr : tri d (bolt_write c ev o tr d) (staged_write ev o tr).
Proof using Type.
  right. exists (CUpdate ev o). split; [done|]. unfold bolt_write, perform, staged_write.
  destruct (run_op (bc_base c) ev o d) as [[[[]|e| |]|] d'] eqn:E; done.
Qed.
Lemma tri_validate d dn pw : tri d (bolt_validate dn pw d, d) (staged_validate dn pw).
Proof using Type.
  right. exists (CView dn ScopeBase). split; [done|]. split; [done|]. unfold bolt_validate, perform, staged_validate. cbn [fst].
  done.
Qed.
Ltac tri_if := repeat first [apply tri_pure | apply tri_write | apply tri_validate
  | match goal with |- tri _ (if ?b then _ else _) _ => destruct b end].

Lemma tri_add d ev bound r : tri d (h_add bh ev bound r d) (h_add sh ev bound r).
Proof using Type. cbn [h_add bolt_handler staged_handler]. unfold bolt_add, staged_add. tri_if. Qed.
Lemma tri_delete d ev bound r : tri d (h_delete bh ev bound r d) (h_delete sh ev bound r).
Proof using Type. cbn [h_delete bolt_handler staged_handler]. unfold bolt_delete, staged_delete. tri_if. Qed.
Lemma tri_modify d ev bound r : tri d (h_modify bh ev bound r d) (h_modify sh ev bound r).
Proof using Type. cbn [h_modify bolt_handler staged_handler]. unfold bolt_modify, staged_modify. tri_if. Qed.
Lemma tri_moddn d ev bound r : tri d (h_moddn bh ev bound r d) (h_moddn sh ev bound r).
Proof using Type. cbn [h_moddn bolt_handler staged_handler]. unfold bolt_moddn, staged_moddn. tri_if. Qed.
Lemma tri_password d ev bound r : tri d (h_password bh ev bound r d) (h_password sh ev bound r).
Proof using Type.
  cbn [h_password bolt_handler staged_handler]. unfold bolt_password, staged_password.
  destruct (is_empty bound); [apply tri_pure|]. destruct (is_empty (pw_user r)); [apply tri_write|].
  destruct (parse_normalize (pw_user r)); [|apply tri_pure]. tri_if.
Qed.
Lemma tri_bind d ev dn pw : tri d (h_bind bh ev dn pw d) (h_bind sh ev dn pw).
Proof using Type.
  cbn [h_bind bolt_handler staged_handler]. unfold bolt_bind, staged_bind.
  destruct (is_empty dn); [destruct (negb (bc_anon c)); [apply tri_pure|]; destruct (is_empty pw); [apply tri_pure|]|];
    (destruct (parse_normalize dn) as [n|]; [|apply tri_pure]; destruct (negb (has_suffix n (bc_base c))); [apply tri_pure|];
     try (destruct (is_empty pw); [apply tri_pure|]); apply tri_validate).
Qed.
Lemma tri_search d ev bound r : tri d (h_search bh ev bound r d) (h_search sh ev bound r).
Proof using Type.
  cbn [h_search bolt_handler staged_handler]. right. exists (CView (sr_base r) (sr_scope r)). done.
Qed.
(** What comes after a transaction does not look at the database, and being
    killed is passed on. *)
Lemma tri_then {A B} d (a : hout A * db) s (f : hout A -> hout B) : f HKill = HKill ->
  tri d a s -> tri d (f a.1, a.2) (fun x => (f (s x).1, (s x).2)).
Proof using Type.
  intros Hf [[H1 H2]|(k & H1 & H2 & H3)].
  - left. rewrite H1. by rewrite <- H2.
  - right. exists k. rewrite H1, H3. cbn [fst snd]. by rewrite Hf.
Qed.
Lemma tri_ext {A} d (a a' : hout A * db) s s' : a = a' -> (forall x, s x = s' x) -> tri d a s -> tri d a' s'.
Proof using Type. intros -> H. unfold tri. by setoid_rewrite <- H. Qed.

Definition lift_tri {A} (r : res A) d ka ks : (forall x, r = Ok x -> tri d (ka x) (ks x)) ->
  tri d (lift_res r ka d) (fun s => lift_res r (fun x => ks x s) s).
Proof using Type. intros H. unfold lift_res. destruct r as [x|[]| |]; try apply tri_pure. by apply H. Qed.

Lemma tri_handle_add d ev bound req : tri d (handle_add bh ev bound req d) (handle_add sh ev bound req).
Proof using Type. unfold handle_add. destruct (is_empty bound); [apply tri_pure|]. apply lift_tri. intros. apply tri_add. Qed.
Lemma tri_handle_delete d ev bound req : tri d (handle_delete bh ev bound req d) (handle_delete sh ev bound req).
Proof using Type. unfold handle_delete. destruct (is_empty bound); [apply tri_pure|]. apply lift_tri. intros. apply tri_delete. Qed.
Lemma tri_handle_modify d ev bound req : tri d (handle_modify bh ev bound req d) (handle_modify sh ev bound req).
Proof using Type. unfold handle_modify. destruct (is_empty bound); [apply tri_pure|]. apply lift_tri. intros. apply tri_modify. Qed.
Lemma tri_handle_moddn d ev bound req : tri d (handle_moddn bh ev bound req d) (handle_moddn sh ev bound req).
Proof using Type. unfold handle_moddn. destruct (is_empty bound); [apply tri_pure|]. apply lift_tri. intros. apply tri_moddn. Qed.
Lemma tri_handle_bind d ev req : tri d (handle_bind bh ev req d) (handle_bind sh ev req).
Proof using Type.
  unfold handle_bind. destruct (p_kids req) as [|v rest]; [apply tri_pure|].
  destruct (as_int (p_val v)) as [n|]; [|apply tri_pure]. destruct (negb (n =? 3)%Z); [apply tri_pure|].
  destruct rest as [|q rest']; [apply tri_pure|]. destruct (as_str (p_val q)) as [dn|]; [|apply tri_pure].
  destruct rest' as [|a rest'']; [apply tri_pure|]. destruct (negb (p_tag a =? 0)%N); [apply tri_pure|].
  destruct (negb (is_empty rest'')); [apply tri_pure|].
  set (f := fun x : hout answer => match x with
    | HRet (code, false) => HRet code | HRet (_, true) => HRet OperationsError | HPanic => HRet OperationsError | HKill => HKill end).
  eapply tri_ext; [| |apply (tri_then d _ _ f eq_refl (tri_bind d (re_h ev) dn (p_data a)))].
  - destruct (h_bind bh (re_h ev) dn (p_data a) d) as [[[code [|]]| |] s']; done.
  - intros x. cbn beta. destruct (h_bind sh (re_h ev) dn (p_data a) x) as [[[code [|]]| |] s']; done.
Qed.
Lemma tri_handle_pwmod d ev bound body : tri d (handle_pwmod cfg bh ev bound body d) (handle_pwmod cfg sh ev bound body).
Proof using Type.
  unfold handle_pwmod. destruct (is_empty bound); [apply tri_pure|].
  destruct (parse_pwmod body) as [r|[]| |]; try apply tri_pure.
  set (gen := is_empty (pw_new r)). destruct (if gen then _ else _) as [pw|e| |]; try apply tri_pure.
  destruct (hash_password pw (B "{ARGON2}") (re_salt ev)) as [hash|e| |]; try apply tri_pure.
  set (q := mkPw _ _ _).
  set (f := fun x : hout answer => match x with
    | HRet (code, err) => if (code =? Success)%N then HRet ((Success, false), if gen then Some hash else None) else HRet ((code, err), None)
    | HPanic => HPanic | HKill => HKill end).
  eapply tri_ext; [| |apply (tri_then d _ _ f eq_refl (tri_password d (re_h ev) bound q))].
  - destruct (h_password bh (re_h ev) bound q d) as [[[code err]| |] s']; try done. unfold f. cbn [fst snd]. by destruct (code =? Success)%N.
  - intros x. cbn beta. destruct (h_password sh (re_h ev) bound q x) as [[[code err]| |] s']; try done. unfold f. cbn [fst snd]. by destruct (code =? Success)%N.
Qed.
Lemma tri_handle_extended d ev bound req : tri d (handle_extended cfg bh ev bound req d) (handle_extended cfg sh ev bound req).
Proof using Type.
  unfold handle_extended. destruct (parse_extended req) as [[oid body]|e| |]; try apply tri_pure.
  destruct (seqb oid pwmod_oid); [|apply tri_pure].
  set (f := fun x : hout (answer * option str) => match x with
    | HRet ((code, err), v) => if negb (code =? Success)%N && negb err then HPanic else HRet (code, v)
    | HPanic => HPanic | HKill => HKill end).
  eapply tri_ext; [| |apply (tri_then d _ _ f eq_refl (tri_handle_pwmod d ev bound body))].
  - destruct (handle_pwmod cfg bh ev bound body d) as [[[[code err] v]| |] s']; try done. unfold f. cbn [fst snd]. by destruct (_ && _).
  - intros x. cbn beta. destruct (handle_pwmod cfg sh ev bound body x) as [[[[code err] v]| |] s']; try done. unfold f. cbn [fst snd]. by destruct (_ && _).
Qed.

(** The same for whole results. *)
Definition tri_result (d : db) (a : result (S:=db)) (s : stage -> result (S:=stage)) : Prop :=
  (s Silent = mkResult (r_out a) (r_next a) Silent /\ r_state a = d) \/
  (exists k, r_state (s Silent) = Waiting k /\ r_state a = (perform k d).2 /\
     s (Told (perform k d).1) = mkResult (r_out a) (r_next a) (Told (perform k d).1)).
Lemma tri_fin {A} d (a : hout A * db) s (f : forall S, hout A -> S -> result (S:=S)) :
  (forall S x s, exists o n, f S x s = mkResult o n s) ->
  (forall x s1 s2, r_out (f db x s1) = r_out (f stage x s2) /\ r_next (f db x s1) = r_next (f stage x s2)) ->
  tri d a s -> tri_result d (f db a.1 a.2) (fun x => f stage (s x).1 (s x).2).
Proof using Type.
  intros Hs Hsame Ht.
  assert (Hst : forall S x s, r_state (f S x s) = s) by (intros S x s0; by destruct (Hs S x s0) as (o & n & ->)).
  assert (Heq : forall x s1 s2, f stage x s2 = mkResult (r_out (f db x s1)) (r_next (f db x s1)) s2).
  { intros x s1 s2. destruct (Hsame x s1 s2) as [-> ->]. by destruct (Hs stage x s2) as (o & n & ->). }
  destruct Ht as [[H1 H2]|(k & H1 & H2 & H3)].
  - left. rewrite H1. cbn [fst snd]. rewrite (Heq _ a.2). by rewrite Hst.
  - right. exists k. rewrite H1, H3. cbn [fst snd]. rewrite !Hst. split; [done|]. split; [done|]. by rewrite (Heq _ a.2).
Qed.
Lemma tri_result_pure d o n : tri_result d (mkResult o n d) (fun s => mkResult o n s).
Proof using Type. by left. Qed.
Lemma tri_result_ext d a a' s s' : a = a' -> (forall x, s x = s' x) -> tri_result d a s -> tri_result d a' s'.
Proof using Type. intros -> H. unfold tri_result. by setoid_rewrite <- H. Qed.
Lemma tri_result_send d ev k pre r n : tri_result d (send_final ev k pre r n d) (fun s => send_final (E:=env) ev k pre r n s).
Proof using Type. unfold send_final. destruct (re_send ev k); apply tri_result_pure. Qed.
Lemma tri_finish d ev id tag bound a s : tri d a s ->
  tri_result d (finish ev id tag bound a) (fun x => finish (E:=env) ev id tag bound (s x)).
Proof using Type.
  intros H. set (f := fun (S : Type) (x : hout answer) (s : S) => finish (E:=env) ev id tag bound (x, s)).
  eapply tri_result_ext; [| |apply (tri_fin d a s f)]; try done.
  - unfold f. by destruct a.
  - intros x. unfold f. by destruct (s x).
  - intros S x s0. unfold f, finish, send_final. destruct x as [[code e]| |]; [destruct (re_send ev 0)|..]; by eexists _, _.
  - intros x s1 s2. unfold f, finish, send_final. destruct x as [[code e]| |]; [destruct (re_send ev 0)|..]; done.
Qed.
Lemma tri_search_all d ev bound id req :
  tri_result d
    (let '(es, o, s') := handle_search cfg bh ev bound req d in
     match o with
     | HRet o => send_final ev (S (length es)) (map (REntry id) es)
          (RFinal id SearchResultDone (match o with Some code => code | None => Success end) None)
          (match o with Some _ => Drop | None => Go bound end) s'
     | _ => mkResult (map (REntry id) es) Dead s'
     end)
    (fun s => let '(es, o, s') := handle_search cfg sh ev bound req s in
     match o with
     | HRet o => send_final ev (S (length es)) (map (REntry id) es)
          (RFinal id SearchResultDone (match o with Some code => code | None => Success end) None)
          (match o with Some _ => Drop | None => Go bound end) s'
     | _ => mkResult (map (REntry id) es) Dead s'
     end).
Proof using Type.
  unfold handle_search. destruct (parse_search req) as [r|e| |]; try apply tri_result_pure; [|apply tri_result_send].
  set (fin := fun (S : Type) (q : list entry * hout (option N)) (s : S) =>
    match q.2 with
    | HRet o => send_final (E:=env) ev (Datatypes.S (length q.1)) (map (REntry id) q.1)
          (RFinal id SearchResultDone (match o with Some code => code | None => Success end) None)
          (match o with Some _ => Drop | None => Go bound end) s
    | _ => mkResult (map (REntry id) q.1) Dead s
    end).
  set (mid := fun flt (x : hout found) =>
    match x with
    | HRet f => if f_err f then ([], HRet (Some (f_code f)))
        else match search_loop (sv_enforce cfg) flt r (re_send ev) (f_entries f) 0 with
             | (es, Ok _) => (es, HRet None)
             | (es, Err (ELdap code _)) => (es, HRet (Some code))
             | (es, Err _) => (es, HRet (Some OperationsError))
             | (es, Panic) => (es, HPanic)
             | (es, Diverge) => (es, HKill)
             end
    | HPanic => ([], HPanic)
    | HKill => ([], HKill)
    end).
  assert (Hrun : forall flt, tri_result d (fin db (mid flt (h_search bh (re_h ev) bound r d).1) (h_search bh (re_h ev) bound r d).2)
    (fun s => fin stage (mid flt (h_search sh (re_h ev) bound r s).1) (h_search sh (re_h ev) bound r s).2)).
  { intros flt. apply (tri_fin d (h_search bh (re_h ev) bound r d) (h_search sh (re_h ev) bound r) (fun S x s => fin S (mid flt x) s)); [| |apply tri_search].
    - intros S x s. unfold fin, send_final. destruct (mid flt x) as [es [o| |]]; cbn [fst snd]; [destruct (re_send _ _)|..]; by eexists _, _.
    - intros x s1 s2. unfold fin, send_final. destruct (mid flt x) as [es [o| |]]; cbn [fst snd]; [destruct (re_send _ _)|..]; done. }
  assert (Hflt : forall flt S (q : hout found * S),
    fin S (mid flt q.1) q.2 =
    (let '(es, o, s') := match q with
      | (HRet f, s') =>
            if f_err f then ([], HRet (Some (f_code f)), s')
            else match search_loop (sv_enforce cfg) flt r (re_send ev) (f_entries f) 0 with
                 | (es, Ok _) => (es, HRet None, s')
                 | (es, Err (ELdap code _)) => (es, HRet (Some code), s')
                 | (es, Err _) => (es, HRet (Some OperationsError), s')
                 | (es, Panic) => (es, HPanic, s')
                 | (es, Diverge) => (es, HKill, s')
                 end
        | (HPanic, s') => ([], HPanic, s')
        | (HKill, s') => ([], HKill, s')
      end in
     match o with
     | HRet o => send_final (E:=env) ev (Datatypes.S (length es)) (map (REntry id) es)
          (RFinal id SearchResultDone (match o with Some code => code | None => Success end) None)
          (match o with Some _ => Drop | None => Go bound end) s'
     | _ => mkResult (map (REntry id) es) Dead s'
     end)).
  { intros flt S [[f| |] s']; unfold mid, fin; cbn [fst snd]; try done.
    destruct (f_err f); [done|]. destruct (search_loop _ _ _ _ _ _) as [es [|[]| |]]; done. }
  destruct (sv_enforce cfg) eqn:Een.
  - destruct (compile_filter (sr_filter r)) as [flt|]; [|apply tri_result_send].
    eapply tri_result_ext; [| |apply (Hrun flt)].
    + rewrite Hflt. done.
    + intros x. cbn beta. rewrite Hflt. done.
  - eapply tri_result_ext; [| |apply (Hrun (Pkt 0 false 0 VNil [] []))].
    + rewrite Hflt. done.
    + intros x. cbn beta. rewrite Hflt. done.
Qed.

Lemma tri_handle d ev bound p : tri_result d (handle cfg bh ev bound p d) (handle cfg sh ev bound p).
Proof using Type.
  unfold handle. destruct (p_kids p) as [|i [|req rest]]; [apply tri_result_pure..|].
  destruct (as_int (p_val i)) as [id|]; [|apply tri_result_pure].
  destruct (negb (p_cls req =? ClassApplication)%N); [apply tri_result_pure|].
  destruct (match rest with c0 :: _ => decode_controls (p_kids c0) | [] => true end); [|apply tri_result_pure].
  unfold dispatch.
  destruct (p_tag req =? AddRequest)%N; [apply tri_finish, tri_handle_add|].
  destruct (p_tag req =? BindRequest)%N.
  { set (fin := fun (S : Type) (x : hout N) (s' : S) =>
      match x with
      | HRet code => if (code =? Success)%N then
          match p_kids req with
          | _ :: d :: _ =>
              match as_str (p_val d) with
              | Some dn =>
                  match parse_normalize dn with
                  | Some n => send_final (E:=env) ev 0 [] (RFinal id BindResponse code None) (Go n) s'
                  | None => mkResult [] Drop s'
                  end
              | None => mkResult [] Drop s'
              end
          | _ => mkResult [] Dead s'
          end
        else send_final ev 0 [] (RFinal id BindResponse code None) (Go bound) s'
      | _ => mkResult [] Dead s'
      end).
    eapply tri_result_ext; [| |apply (tri_fin d (handle_bind bh ev req d) (handle_bind sh ev req) fin)].
    - unfold fin. by destruct (handle_bind bh ev req d) as [[]].
    - intros x. unfold fin. by destruct (handle_bind sh ev req x) as [[]].
    - intros S x s. unfold fin, send_final. destruct x as [code| |]; [|by eexists _, _..].
      destruct (code =? Success)%N; [|destruct (re_send ev 0); by eexists _, _].
      destruct (p_kids req) as [|? [|q ?]]; [by eexists _, _..|]. destruct (as_str (p_val q)) as [dn|]; [|by eexists _, _].
      destruct (parse_normalize dn); [|by eexists _, _]. destruct (re_send ev 0); by eexists _, _.
    - intros x s1 s2. unfold fin, send_final. destruct x as [code| |]; [|done..].
      destruct (code =? Success)%N; [|by destruct (re_send ev 0)].
      destruct (p_kids req) as [|? [|q ?]]; [done..|]. destruct (as_str (p_val q)) as [dn|]; [|done].
      destruct (parse_normalize dn); [|done]. by destruct (re_send ev 0).
    - apply tri_handle_bind. }
  destruct (p_tag req =? CompareRequest)%N; [apply tri_result_send|].
  destruct (p_tag req =? DelRequest)%N; [apply tri_finish, tri_handle_delete|].
  destruct (p_tag req =? ExtendedRequest)%N.
  { set (fin := fun (S : Type) (x : hout (N * option str)) (s' : S) =>
      match x with
      | HRet (code, v) => send_final (E:=env) ev 0 [] (RFinal id ExtendedResponse code v) (Go bound) s'
      | _ => mkResult [] Dead s'
      end).
    eapply tri_result_ext; [| |apply (tri_fin d (handle_extended cfg bh ev bound req d) (handle_extended cfg sh ev bound req) fin)].
    - unfold fin. by destruct (handle_extended cfg bh ev bound req d) as [[[]| |]].
    - intros x. unfold fin. by destruct (handle_extended cfg sh ev bound req x) as [[[]| |]].
    - intros S x s. unfold fin, send_final. destruct x as [[code v]| |]; [destruct (re_send ev 0)|..]; by eexists _, _.
    - intros x s1 s2. unfold fin, send_final. destruct x as [[code v]| |]; [destruct (re_send ev 0)|..]; done.
    - apply tri_handle_extended. }
  destruct (p_tag req =? ModifyDNRequest)%N; [apply tri_finish, tri_handle_moddn|].
  destruct (p_tag req =? ModifyRequest)%N; [apply tri_finish, tri_handle_modify|].
  destruct (p_tag req =? SearchRequest)%N; [|apply tri_result_pure].
  eapply tri_result_ext; [| |apply (tri_search_all d ev bound id req)].
  - by destruct (handle_search cfg bh ev bound req d) as [[es []] s'].
  - intros x. cbn beta. by destruct (handle_search cfg sh ev bound req x) as [[es []] s'].
Qed.

(** A request is the code before its transaction, the transaction, and the code
    after it. *)
Lemma plain_request ev bound p d : wants cfg c ev bound p = None ->
  handle cfg bh ev bound p d = mkResult (continues cfg c ev bound p None).1 (continues cfg c ev bound p None).2 d.
Proof using Type.
  unfold wants, continues. intros H. pose proof (tri_handle d ev bound p) as Ht. revert Ht.
  generalize (handle cfg bh ev bound p d). intros [o n s'] [[H1 H2]|(k & H1 & _)]; [|by rewrite H1 in H].
  rewrite H1. cbn in *. by subst.
Qed.
Lemma asking_request ev bound p d k : wants cfg c ev bound p = Some k ->
  handle cfg bh ev bound p d =
  mkResult (continues cfg c ev bound p (Some (perform k d).1)).1 (continues cfg c ev bound p (Some (perform k d).1)).2 (perform k d).2.
Proof using Type.
  unfold wants, continues. intros H. pose proof (tri_handle d ev bound p) as Ht. revert Ht.
  generalize (handle cfg bh ev bound p d). intros [o n s'] [[H1 H2]|(k' & H1 & H2 & H3)].
  { by rewrite H1 in H. }
  rewrite H1 in H. injection H as ->. rewrite H3. cbn [r_out r_next r_state fst snd] in *. by subst.
Qed.

(** A request that is told its update succeeded does not end the process. *)
Definition okp {A} (s : stage -> hout A * stage) : Prop :=
  forall e o, (s Silent).2 = Waiting (CUpdate e o) -> exists x, (s (Told (RUpdate (Done (Ok tt))))).1 = HRet x.
Lemma ok_write ev o tr s0 : (staged_write ev o tr Silent).2 = s0 ->
  staged_write ev o tr (Told (RUpdate (Done (Ok tt)))) = (HRet (Success, false), Told (RUpdate (Done (Ok tt)))).
Proof using Type. done. Qed.
Lemma lift_ok {A} (r : res A) (k : A -> stage -> hout answer * stage) :
  (forall x, okp (k x)) -> okp (fun s => lift_res r (fun x => k x s) s).
Proof using Type. intros H e o. unfold lift_res. destruct r as [x|[]| |]; try done. apply H. Qed.
Lemma ok_finish ev id tag bound s e o : okp s ->
  r_state (finish (E:=env) ev id tag bound (s Silent)) = Waiting (CUpdate e o) ->
  r_next (finish (E:=env) ev id tag bound (s (Told (RUpdate (Done (Ok tt)))))) <> Dead.
Proof using Type.
  intros Hok. assert (Hst : r_state (finish ev id tag bound (s Silent)) = (s Silent).2).
  { unfold finish, send_final. destruct (s Silent) as [[[]| |] s']; [destruct (re_send ev 0)|..]; done. }
  rewrite Hst. intros H. destruct (Hok e o H) as [x Hx]. destruct (s (Told _)) as [h s']. cbn [fst] in Hx. subst h.
  unfold finish, send_final. destruct x. by destruct (re_send ev 0).
Qed.
Lemma ok_pwmod ev bound body e o : (handle_pwmod cfg sh ev bound body Silent).2 = Waiting (CUpdate e o) ->
  exists v, (handle_pwmod cfg sh ev bound body (Told (RUpdate (Done (Ok tt))))).1 = HRet ((Success, false), v).
Proof using Type.
  unfold handle_pwmod. destruct (is_empty bound) eqn:Eb; [done|].
  destruct (parse_pwmod body) as [r|[]| |]; try done.
  set (gen := is_empty (pw_new r)). destruct (if gen then _ else _) as [pw|x| |]; try done.
  destruct (hash_password pw (B "{ARGON2}") (re_salt ev)) as [hash|x| |]; try done.
  cbn [h_password staged_handler]. unfold staged_password. rewrite Eb.
  cbn [pw_user]. destruct (is_empty (if is_empty (pw_user r) then bound else pw_user r)); [by eexists|].
  destruct (parse_normalize _) as [u|]; [|done]. destruct (negb _ && negb _); [done|by eexists].
Qed.
Lemma ok_not_dead ev bound p e o : wants cfg c ev bound p = Some (CUpdate e o) ->
  (continues cfg c ev bound p (Some (RUpdate (Done (Ok tt))))).2 <> Dead.
Proof using Type.
  unfold wants, continues. cbn [snd].
  assert (H : r_state (handle cfg sh ev bound p Silent) = Waiting (CUpdate e o) ->
    r_next (handle cfg sh ev bound p (Told (RUpdate (Done (Ok tt))))) <> Dead).
  2:{ destruct (r_state _) as [|k|]; [done| |done]. intros [= ->]. by apply H. }
  unfold handle. destruct (p_kids p) as [|i [|req rest]]; [done..|].
  destruct (as_int (p_val i)) as [id|]; [|done].
  destruct (negb (p_cls req =? ClassApplication)%N); [done|].
  destruct (match rest with c0 :: _ => decode_controls (p_kids c0) | [] => true end); [|done].
  unfold dispatch.
  destruct (p_tag req =? AddRequest)%N.
  { apply ok_finish. unfold handle_add. destruct (is_empty bound); [done|]. apply lift_ok.
    intros r e' o'. cbn [h_add staged_handler]. unfold staged_add. destruct (write_allowed c bound); [by eexists|done]. }
  destruct (p_tag req =? BindRequest)%N.
  { assert (Hb : (handle_bind sh ev req Silent).2 <> Waiting (CUpdate e o)).
    { unfold handle_bind. destruct (p_kids req) as [|v rest0]; [done|].
      destruct (as_int (p_val v)) as [n|]; [|done]. destruct (negb (n =? 3)%Z); [done|].
      destruct rest0 as [|q rest']; [done|]. destruct (as_str (p_val q)) as [dn|]; [|done].
      destruct rest' as [|a rest'']; [done|]. destruct (negb (p_tag a =? 0)%N); [done|].
      destruct (negb (is_empty rest'')); [done|]. cbn [h_bind staged_handler]. unfold staged_bind.
      destruct (is_empty dn); [destruct (negb (bc_anon c)); [done|]; destruct (is_empty (p_data a)); [done|]|];
        (destruct (parse_normalize dn) as [m|]; [|done]; destruct (negb (has_suffix m (bc_base c))); [done|];
         try (destruct (is_empty (p_data a)); [done|]); done). }
    intros H. exfalso. apply Hb. rewrite <- H. unfold send_final.
    destruct (handle_bind sh ev req Silent) as [[code| |] s']; [|done..].
    destruct (code =? Success)%N; [|by destruct (re_send ev 0)].
    destruct (p_kids req) as [|? [|q ?]]; [done..|]. destruct (as_str (p_val q)) as [dn|]; [|done].
    destruct (parse_normalize dn); [|done]. by destruct (re_send ev 0). }
  destruct (p_tag req =? CompareRequest)%N. { unfold send_final. by destruct (re_send ev 0). }
  destruct (p_tag req =? DelRequest)%N.
  { apply ok_finish. unfold handle_delete. destruct (is_empty bound); [done|]. apply lift_ok.
    intros r e' o'. cbn [h_delete staged_handler]. unfold staged_delete. destruct (write_allowed c bound); [by eexists|done]. }
  destruct (p_tag req =? ExtendedRequest)%N.
  { intros H.
    assert (Hx : exists x, (handle_extended cfg sh ev bound req (Told (RUpdate (Done (Ok tt))))).1 = HRet x).
    { assert (Hs : (handle_extended cfg sh ev bound req Silent).2 = Waiting (CUpdate e o)).
      { rewrite <- H. unfold send_final. destruct (handle_extended cfg sh ev bound req Silent) as [[[]| |] s']; [destruct (re_send ev 0)|..]; done. }
      revert Hs. unfold handle_extended. destruct (parse_extended req) as [[oid body]|x| |]; try done.
      destruct (seqb oid pwmod_oid); [|done]. intros Hs.
      destruct (ok_pwmod ev bound body e o) as [v Hv].
      { rewrite <- Hs. destruct (handle_pwmod cfg sh ev bound body Silent) as [[[[code err] v]| |] s']; try done. by destruct (_ && _). }
      destruct (handle_pwmod cfg sh ev bound body (Told _)) as [h s']. cbn [fst] in Hv. subst h. by eexists. }
    destruct Hx as [[code v] Hx]. destruct (handle_extended cfg sh ev bound req (Told _)) as [h s']. cbn [fst] in Hx. subst h.
    unfold send_final. by destruct (re_send ev 0). }
  destruct (p_tag req =? ModifyDNRequest)%N.
  { apply ok_finish. unfold handle_moddn. destruct (is_empty bound); [done|]. apply lift_ok.
    intros r e' o'. cbn [h_moddn staged_handler]. unfold staged_moddn. destruct (write_allowed c bound); [by eexists|done]. }
  destruct (p_tag req =? ModifyRequest)%N.
  { apply ok_finish. unfold handle_modify. destruct (is_empty bound); [done|]. apply lift_ok.
    intros r e' o'. cbn [h_modify staged_handler]. unfold staged_modify. destruct (write_allowed c bound); [by eexists|done]. }
  destruct (p_tag req =? SearchRequest)%N; [|done].
  assert (Hb : (handle_search cfg sh ev bound req Silent).2 <> Waiting (CUpdate e o)).
  { unfold handle_search. destruct (parse_search req) as [r|x| |]; try done.
    destruct (sv_enforce cfg); [destruct (compile_filter (sr_filter r)); [|done]|]; done. }
  intros H. exfalso. apply Hb. rewrite <- H. unfold send_final.
  destruct (handle_search cfg sh ev bound req Silent) as [[es [x| |]] s']; [destruct (re_send ev _)|..]; done.
Qed.

(** A request that is told that the machine failed ends the process. *)
Definition crp {A} (s : stage -> hout A * stage) : Prop :=
  forall e o, (s Silent).2 = Waiting (CUpdate e o) -> (s (Told (RUpdate Crashed))).1 = HKill.
Lemma lift_cr {A} (r : res A) (k : A -> stage -> hout answer * stage) :
  (forall x, crp (k x)) -> crp (fun s => lift_res r (fun x => k x s) s).
Proof using Type. intros H e o. unfold lift_res. destruct r as [x|[]| |]; try done. apply H. Qed.
Lemma cr_finish ev id tag bound s e o : crp s ->
  r_state (finish (E:=env) ev id tag bound (s Silent)) = Waiting (CUpdate e o) ->
  r_next (finish (E:=env) ev id tag bound (s (Told (RUpdate Crashed)))) = Dead.
Proof using Type.
  intros Hcr. assert (Hst : r_state (finish ev id tag bound (s Silent)) = (s Silent).2).
  { unfold finish, send_final. destruct (s Silent) as [[[]| |] s']; [destruct (re_send ev 0)|..]; done. }
  rewrite Hst. intros H. pose proof (Hcr e o H) as Hx. destruct (s (Told _)) as [h s']. cbn [fst] in Hx. by subst h.
Qed.
Lemma cr_pwmod ev bound body e o : (handle_pwmod cfg sh ev bound body Silent).2 = Waiting (CUpdate e o) ->
  (handle_pwmod cfg sh ev bound body (Told (RUpdate Crashed))).1 = HKill.
Proof using Type.
  unfold handle_pwmod. destruct (is_empty bound) eqn:Eb; [done|].
  destruct (parse_pwmod body) as [r|[]| |]; try done.
  set (gen := is_empty (pw_new r)). destruct (if gen then _ else _) as [pw|x| |]; try done.
  destruct (hash_password pw (B "{ARGON2}") (re_salt ev)) as [hash|x| |]; try done.
  cbn [h_password staged_handler]. unfold staged_password. rewrite Eb.
  cbn [pw_user]. destruct (is_empty (if is_empty (pw_user r) then bound else pw_user r)); [done|].
  destruct (parse_normalize _) as [u|]; [|done]. destruct (negb _ && negb _); [done|done].
Qed.
Lemma crash_dead ev bound p e o : wants cfg c ev bound p = Some (CUpdate e o) ->
  (continues cfg c ev bound p (Some (RUpdate Crashed))).2 = Dead.
Proof using Type.
  unfold wants, continues. cbn [snd].
  assert (H : r_state (handle cfg sh ev bound p Silent) = Waiting (CUpdate e o) ->
    r_next (handle cfg sh ev bound p (Told (RUpdate Crashed))) = Dead).
  2:{ destruct (r_state _) as [|k|]; [done| |done]. intros [= ->]. by apply H. }
  unfold handle. destruct (p_kids p) as [|i [|req rest]]; [done..|].
  destruct (as_int (p_val i)) as [id|]; [|done].
  destruct (negb (p_cls req =? ClassApplication)%N); [done|].
  destruct (match rest with c0 :: _ => decode_controls (p_kids c0) | [] => true end); [|done].
  unfold dispatch.
  destruct (p_tag req =? AddRequest)%N.
  { apply cr_finish. unfold handle_add. destruct (is_empty bound); [done|]. apply lift_cr.
    intros r e' o'. cbn [h_add staged_handler]. unfold staged_add. destruct (write_allowed c bound); [done|done]. }
  destruct (p_tag req =? BindRequest)%N.
  { assert (Hb : (handle_bind sh ev req Silent).2 <> Waiting (CUpdate e o)).
    { unfold handle_bind. destruct (p_kids req) as [|v rest0]; [done|].
      destruct (as_int (p_val v)) as [n|]; [|done]. destruct (negb (n =? 3)%Z); [done|].
      destruct rest0 as [|q rest']; [done|]. destruct (as_str (p_val q)) as [dn|]; [|done].
      destruct rest' as [|a rest'']; [done|]. destruct (negb (p_tag a =? 0)%N); [done|].
      destruct (negb (is_empty rest'')); [done|]. cbn [h_bind staged_handler]. unfold staged_bind.
      destruct (is_empty dn); [destruct (negb (bc_anon c)); [done|]; destruct (is_empty (p_data a)); [done|]|];
        (destruct (parse_normalize dn) as [m|]; [|done]; destruct (negb (has_suffix m (bc_base c))); [done|];
         try (destruct (is_empty (p_data a)); [done|]); done). }
    intros H. exfalso. apply Hb. rewrite <- H. unfold send_final.
    destruct (handle_bind sh ev req Silent) as [[code| |] s']; [|done..].
    destruct (code =? Success)%N; [|by destruct (re_send ev 0)].
    destruct (p_kids req) as [|? [|q ?]]; [done..|]. destruct (as_str (p_val q)) as [dn|]; [|done].
    destruct (parse_normalize dn); [|done]. by destruct (re_send ev 0). }
  destruct (p_tag req =? CompareRequest)%N. { unfold send_final. by destruct (re_send ev 0). }
  destruct (p_tag req =? DelRequest)%N.
  { apply cr_finish. unfold handle_delete. destruct (is_empty bound); [done|]. apply lift_cr.
    intros r e' o'. cbn [h_delete staged_handler]. unfold staged_delete. destruct (write_allowed c bound); [done|done]. }
  destruct (p_tag req =? ExtendedRequest)%N.
  { intros H.
    assert (Hx : (handle_extended cfg sh ev bound req (Told (RUpdate Crashed))).1 = HKill).
    { assert (Hs : (handle_extended cfg sh ev bound req Silent).2 = Waiting (CUpdate e o)).
      { rewrite <- H. unfold send_final. destruct (handle_extended cfg sh ev bound req Silent) as [[[]| |] s']; [destruct (re_send ev 0)|..]; done. }
      revert Hs. unfold handle_extended. destruct (parse_extended req) as [[oid body]|x| |]; try done.
      destruct (seqb oid pwmod_oid); [|done]. intros Hs.
      assert (Hv : (handle_pwmod cfg sh ev bound body (Told (RUpdate Crashed))).1 = HKill).
      { apply (cr_pwmod ev bound body e o). rewrite <- Hs. destruct (handle_pwmod cfg sh ev bound body Silent) as [[[[code err] v]| |] s']; try done. by destruct (_ && _). }
      destruct (handle_pwmod cfg sh ev bound body (Told _)) as [h s']. cbn [fst] in Hv. by subst h. }
    destruct (handle_extended cfg sh ev bound req (Told _)) as [h s']. cbn [fst] in Hx. by subst h. }
  destruct (p_tag req =? ModifyDNRequest)%N.
  { apply cr_finish. unfold handle_moddn. destruct (is_empty bound); [done|]. apply lift_cr.
    intros r e' o'. cbn [h_moddn staged_handler]. unfold staged_moddn. destruct (write_allowed c bound); [done|done]. }
  destruct (p_tag req =? ModifyRequest)%N.
  { apply cr_finish. unfold handle_modify. destruct (is_empty bound); [done|]. apply lift_cr.
    intros r e' o'. cbn [h_modify staged_handler]. unfold staged_modify. destruct (write_allowed c bound); [done|done]. }
  destruct (p_tag req =? SearchRequest)%N; [|done].
  assert (Hb : (handle_search cfg sh ev bound req Silent).2 <> Waiting (CUpdate e o)).
  { unfold handle_search. destruct (parse_search req) as [r|x| |]; try done.
    destruct (sv_enforce cfg); [destruct (compile_filter (sr_filter r)); [|done]|]; done. }
  intros H. exfalso. apply Hb. rewrite <- H. unfold send_final.
  destruct (handle_search cfg sh ev bound req Silent) as [[es [x| |]] s']; [destruct (re_send ev _)|..]; done.
Qed.

(** * Many connections *)

Lemma csteps_app w w1 w2 : csteps cfg c w w1 -> csteps cfg c w1 w2 -> csteps cfg c w w2.
Proof using Type. intros H1 H2. induction H2; [done|]. by eapply cs_more. Qed.
Lemma written_app k w es es' : written cfg c k w (es ++ es') = written cfg c k w es ++ written cfg c k (run cfg bh w es) es'.
Proof using Type.
  revert w. induction es as [|e es IH]; intros w; [done|]. cbn [written run app].
  destruct (step cfg bh w e) as [w' out]. cbn [fst]. by rewrite IH, app_assoc.
Qed.
Lemma run_app' w es es' : run cfg bh w (es ++ es') = run cfg bh (run cfg bh w es) es'.
Proof using Type. revert w. induction es as [|e es IH]; intros w; [done|]. cbn [run app]. apply IH. Qed.
Lemma written_one k w e : written cfg c k w [e] = if whose e =? k then (step cfg bh w e).2 else [].
Proof using Type. cbn [written]. destruct (step cfg bh w e) as [w' out]. by rewrite app_nil_r. Qed.

Variable (d0 : db).
Notation now es := (run cfg bh (start d0) es).
Notation said k es := (written cfg c k (start d0) es).

(** What a connection in the middle of a request has yet to write. *)
Definition owed (x : conn) : option (list response * next) :=
  match cn_phase x with
  | PView ev p b s snap => Some (continues cfg c ev (cn_bound x) p (Some (RView (search snap b s))))
  | PSend rest n => Some (rest, n)
  | _ => None
  end.
(** The last request of a connection, handled when [i] of the events had taken
    effect, ends the process; [early] of its responses are written. *)
Definition dying (es : list (event (E:=env))) (k : nat) (x : conn) (early rest : list response) : Prop :=
  exists i ev p, i <= length es /\
    w_conns (now (take i es)) !! k = Some (cn_bound x) /\
    r_next (handle cfg bh ev (cn_bound x) p (w_state (now (take i es)))) = Dead /\
    r_out (handle cfg bh ev (cn_bound x) p (w_state (now (take i es)))) = early ++ rest /\
    cn_sent x = said k es ++ early.
Definition good_out (es : list (event (E:=env))) (k : nat) (x : conn) : Prop :=
  match owed x with
  | None => said k es = cn_sent x
  | Some (rest, Dead) => exists early, dying es k x early rest
  | Some (rest, _) => said k es = cn_sent x ++ rest
  end.
Definition good_conn (es : list (event (E:=env))) (k : nat) (x : conn) : Prop :=
  w_conns (now es) !! k =
  match owed x with
  | None => match cn_phase x with PClosed => None | _ => Some (cn_bound x) end
  | Some (_, Dead) => Some (cn_bound x)
  | Some (_, Go b) => Some b
  | Some (_, Drop) => None
  end.
Record cinv (w : cworld) : Prop := {
  ci_state : w_state (now (cw_log w)) = cw_db w;
  ci_alive : cw_alive w = true -> w_alive (now (cw_log w)) = true;
  ci_none : forall k, cw_conns w !! k = None -> said k (cw_log w) = [] /\
    (cw_alive w = true -> w_conns (now (cw_log w)) !! k = None);
  ci_out : cw_alive w = true -> forall k x, cw_conns w !! k = Some x -> good_out (cw_log w) k x;
  ci_conn : cw_alive w = true -> forall k x, cw_conns w !! k = Some x -> good_conn (cw_log w) k x;
  ci_lock : cw_alive w = true -> forall k b ev p e o snap out,
    cw_conns w !! k = Some (mkConn b (PUpdate ev p e o snap) out) ->
    cw_lock w = Some k /\ snap = cw_db w /\ wants cfg c ev b p = Some (CUpdate e o);
  ci_held : cw_alive w = true -> forall k, cw_lock w = Some k ->
    exists b ev p e o snap out, cw_conns w !! k = Some (mkConn b (PUpdate ev p e o snap) out);
  ci_dead : cw_alive w = false -> forall k x, cw_conns w !! k = Some x ->
    (exists tl, said k (cw_log w) = cn_sent x ++ tl) \/ (exists early rest, dying (cw_log w) k x early rest)
}.

(** Events of other connections. *)
Definition others (k : nat) (es : list (event (E:=env))) : Prop := Forall (fun e => whose e <> k) es.
Lemma said_others k w es : others k es -> written cfg c k w es = [].
Proof using Type.
  intros H. revert w. induction H as [|e es He H IH]; intros w; [done|]. cbn [written].
  destruct (step cfg bh w e) as [w' out]. rewrite IH. apply Nat.eqb_neq in He. by rewrite He.
Qed.
Lemma step_conn_others k w e : whose e <> k -> w_alive (step cfg bh w e).1 = true ->
  w_conns (step cfg bh w e).1 !! k = w_conns w !! k.
Proof using Type.
  intros He. unfold step. destruct (negb (w_alive w)) eqn:Ea; [done|].
  destruct e as [j|j ev p|j]; cbn [whose] in He.
  - destruct (w_conns w !! j); [done|]. intros _. cbn [fst w_conns]. by apply lookup_insert_ne.
  - destruct (w_conns w !! j); [|done]. cbv zeta. cbn [fst].
    destruct (r_next _); [intros _; by apply lookup_insert_ne|intros _; by apply lookup_delete_ne|done].
  - intros _. cbn [fst w_conns]. by apply lookup_delete_ne.
Qed.
(** A request that takes effect. *)
Lemma noted w k b ev p rest n d' es :
  w = now es -> w_alive w = true -> w_conns w !! k = Some b ->
  handle cfg bh ev b p (w_state w) = mkResult rest n d' -> (n = Dead -> d' = w_state w) ->
  let es' := es ++ note ev p k n in
  w_state (now es') = d' /\ w_alive (now es') = true /\
  said k es' = said k es ++ (match n with Dead => [] | _ => rest end) /\
  w_conns (now es') !! k = match n with Go b' => Some b' | Drop => None | Dead => Some b end /\
  forall j, j <> k -> said j es' = said j es /\ w_conns (now es') !! j = w_conns (now es) !! j.
Proof using Type.
  intros -> Ha Hc Hh Hd es'. unfold es'.
  assert (Hn : n <> Dead -> now (es ++ [EPacket k ev p]) = match n with
    | Go b => mkWorld (<[k := b]> (w_conns (now es))) d' true
    | Drop => mkWorld (delete k (w_conns (now es))) d' true
    | Dead => mkWorld ∅ d' false end /\ written cfg c k (now es) [EPacket k ev p] = rest).
  { intros Hne. rewrite run_app', written_one. cbn [run whose]. rewrite Nat.eqb_refl. unfold step. rewrite Ha, Hc. cbn [negb]. rewrite Hh. done. }
  assert (Ho : forall j, j <> k -> written cfg c j (now es) (note ev p k n) = []).
  { intros j Hj. apply said_others. unfold note. destruct n; repeat constructor; cbn [whose]; congruence. }
  destruct n as [b'| |]; cbn [note] in *.
  - destruct Hn as [Hn Hw]; [done|]. rewrite Hn. split; [done|]. split; [done|]. rewrite written_app, Hw.
    split; [done|]. split; [apply lookup_insert|]. intros j Hj. rewrite written_app, Ho, app_nil_r by done. split; [done|].
    cbn [w_conns]. by apply lookup_insert_ne.
  - destruct Hn as [Hn Hw]; [done|]. rewrite Hn. split; [done|]. split; [done|]. rewrite written_app, Hw.
    split; [done|]. split; [apply lookup_delete|]. intros j Hj. rewrite written_app, Ho, app_nil_r by done. split; [done|].
    cbn [w_conns]. by apply lookup_delete_ne.
  - rewrite !app_nil_r. rewrite Hd by done. done.
Qed.
(** Connections not concerned keep what they have. *)
Lemma dying_more es es' k x early rest : others k es' -> dying es k x early rest -> dying (es ++ es') k x early rest.
Proof using Type.
  intros Ho (i & ev & p & Hi & H1 & H2 & H3 & H4). exists i, ev, p. rewrite app_length. split; [lia|].
  rewrite take_app_le by done. rewrite written_app, (said_others _ _ es'), app_nil_r by done. done.
Qed.
Lemma good_out_more es es' k x : others k es' -> good_out es k x -> good_out (es ++ es') k x.
Proof using Type.
  intros Ho. unfold good_out. rewrite written_app, (said_others _ _ es'), app_nil_r by done.
  destruct (owed x) as [[rest [b| |]]|]; try done. intros [early H]. exists early. by apply dying_more.
Qed.

Lemma note_others k j ev p n : k <> j -> others j (note ev p k n).
Proof using Type. intros H. unfold others, note. destruct n; [constructor; [done|constructor]..|constructor]. Qed.

Definition updating (x : conn) : bool := match cn_phase x with PUpdate _ _ _ _ _ => true | _ => false end.
Lemma inv_move w k x' d' l' ext :
  cinv w -> cw_alive w = true ->
  (forall j, k <> j -> others j ext) ->
  w_state (now (cw_log w ++ ext)) = d' -> w_alive (now (cw_log w ++ ext)) = true ->
  (forall j, j <> k -> w_conns (now (cw_log w ++ ext)) !! j = w_conns (now (cw_log w)) !! j) ->
  good_out (cw_log w ++ ext) k x' -> good_conn (cw_log w ++ ext) k x' ->
  (forall b ev p e o snap out, x' = mkConn b (PUpdate ev p e o snap) out ->
     l' = Some k /\ snap = d' /\ wants cfg c ev b p = Some (CUpdate e o)) ->
  (forall j x, j <> k -> cw_conns w !! j = Some x -> updating x = true -> cw_lock w = Some j -> l' = Some j /\ cw_db w = d') ->
  (forall j, l' = Some j -> (j = k /\ updating x' = true) \/ (j <> k /\ cw_lock w = Some j)) ->
  cinv (mkCWorld d' l' (put w k x') true (cw_log w ++ ext)).
Proof using Type.
  intros Hw Ha Hoth Hst Hal Hcs Hgo Hgc Hup Hlk Hheld.
  split; cbn [cw_db cw_lock cw_conns cw_alive cw_log]; try done.
  - intros j Hj. unfold put in Hj. apply lookup_insert_None in Hj as [Hj Hne].
    destruct (ci_none _ Hw j Hj) as [H1 H2]. split.
    + rewrite written_app, H1, (said_others _ _ _); [done|]. by apply Hoth.
    + intros _. rewrite Hcs by congruence. by apply H2.
  - intros _ j x Hj. unfold put in Hj. apply lookup_insert_Some in Hj as [[<- <-]|[Hne Hj]]; [done|].
    apply good_out_more; [by apply Hoth|]. by apply (ci_out _ Hw).
  - intros _ j x Hj. unfold put in Hj. apply lookup_insert_Some in Hj as [[<- <-]|[Hne Hj]]; [done|].
    unfold good_conn. rewrite Hcs by congruence. by apply (ci_conn _ Hw).
  - intros _ j b ev p e o snap out Hj. unfold put in Hj. apply lookup_insert_Some in Hj as [[<- Hx]|[Hne Hj]].
    { by apply Hup in Hx. }
    destruct (ci_lock _ Hw Ha _ _ _ _ _ _ _ _ Hj) as (H1 & H2 & H3).
    destruct (Hlk j _ (not_eq_sym Hne) Hj eq_refl H1) as [H4 H5]. by rewrite <- H5.
  - intros _ j Hj. unfold put. destruct (Hheld j Hj) as [[-> Hx]|[Hne Hl]].
    + rewrite lookup_insert. destruct x' as [b [] out]; try done. by repeat eexists.
    + rewrite lookup_insert_ne by congruence. by apply (ci_held _ Hw).
Qed.

Lemma step_inv w w' : cinv w -> cstep cfg c w w' -> cinv w'.
Proof using Type.
  intros Hw Hst.
  assert (Hkeep : cw_alive w = true -> forall j x, cw_conns w !! j = Some x -> updating x = true ->
    cw_lock w = Some j -> cw_lock w = Some j /\ cw_db w = cw_db w) by done.
  destruct Hst as [k Ha Hk|k b out Ha Hk|k b out ev p Ha Hk|k b out ev p rest n Ha Hk Hwa Hco|k b out ev p e o Ha Hk Hwa Hl
    |k b out ev p e o snap r d' rest n Ha Hk Hrun Hco|k b out ev p e o snap d' Ha Hk Hrun|k b out ev p base scope Ha Hk Hwa
    |k b out ev p base scope snap rest n Ha Hk Hco|k b out r rest n Ha Hk|k b out b' Ha Hk|k b out Ha Hk|k b out Ha Hk];
    pose proof (ci_state _ Hw) as Hs; pose proof (ci_alive _ Hw Ha) as Hal;
    try pose proof (ci_out _ Hw Ha _ _ Hk) as Hgo; try pose proof (ci_conn _ Hw Ha _ _ Hk) as Hgc.
  - (* open *)
    destruct (ci_none _ Hw k Hk) as [H1 H2]. specialize (H2 Ha).
    assert (Hnow : now (cw_log w ++ [EOpen k]) = mkWorld (<[k := []]> (w_conns (now (cw_log w)))) (w_state (now (cw_log w))) true).
    { rewrite run_app'. cbn [run]. unfold step. rewrite Hal, H2. done. }
    apply inv_move; try done.
    + intros j Hj. constructor; [done|constructor].
    + by rewrite Hnow.
    + by rewrite Hnow.
    + intros j Hj. rewrite Hnow. cbn [w_conns]. by apply lookup_insert_ne.
    + unfold good_out. cbn [owed cn_phase cn_sent]. rewrite written_app, H1, written_one. cbn [whose]. rewrite Nat.eqb_refl.
      unfold step. rewrite Hal, H2. done.
    + unfold good_conn. cbn [owed cn_phase cn_bound]. rewrite Hnow. apply lookup_insert.
    + intros j Hj. right. split; [|done]. destruct (ci_held _ Hw Ha j Hj) as (? & ? & ? & ? & ? & ? & ? & Hx). intros ->. by rewrite Hk in Hx.
  - (* eof *)
    assert (Hnow : now (cw_log w ++ [EClose k]) = mkWorld (delete k (w_conns (now (cw_log w)))) (w_state (now (cw_log w))) true).
    { rewrite run_app'. cbn [run]. unfold step. rewrite Hal. done. }
    apply inv_move; try done.
    + intros j Hj. constructor; [done|constructor].
    + by rewrite Hnow.
    + by rewrite Hnow.
    + intros j Hj. rewrite Hnow. cbn [w_conns]. by apply lookup_delete_ne.
    + unfold good_out in *. cbn [owed cn_phase cn_sent] in *. rewrite written_app, Hgo, written_one. cbn [whose]. rewrite Nat.eqb_refl.
      unfold step. rewrite Hal. cbn [negb snd]. apply app_nil_r.
    + unfold good_conn. cbn [owed cn_phase cn_bound]. rewrite Hnow. apply lookup_delete.
    + intros j Hj. right. split; [|done]. destruct (ci_held _ Hw Ha j Hj) as (? & ? & ? & ? & ? & ? & ? & Hx). intros ->. by rewrite Hk in Hx.
  - (* packet *)
    rewrite <- (app_nil_r (cw_log w)). apply inv_move; rewrite ?app_nil_r; try done; [by intros; constructor|..].
    + intros j Hj. right. split; [|done]. destruct (ci_held _ Hw Ha j Hj) as (? & ? & ? & ? & ? & ? & ? & Hx). intros ->. by rewrite Hk in Hx.
  - (* plain *)
    unfold good_conn in Hgc. unfold good_out in Hgo. cbn [owed cn_phase cn_bound cn_sent] in Hgc, Hgo.
    pose proof (plain_request ev b p (w_state (now (cw_log w))) Hwa) as Hh. rewrite Hco in Hh. cbn [fst snd] in Hh.
    destruct (noted _ k b ev p rest n _ (cw_log w) eq_refl Hal Hgc Hh) as (N1 & N2 & N3 & N4 & N5); [done|].
    apply inv_move; try done.
    + intros j Hj. by apply note_others.
    + by rewrite <- Hs.
    + intros j Hj. by apply N5.
    + unfold good_out. cbn [owed cn_phase cn_sent]. rewrite N3. destruct n as [b'| |]; [by rewrite Hgo..|].
      exists []. exists (length (cw_log w)), ev, p. cbn [cn_bound cn_sent note]. rewrite app_nil_r. rewrite firstn_all, Hh.
      cbn [r_next r_out]. rewrite Hgo, app_nil_r. done.
    + intros j Hj. right. split; [|done]. destruct (ci_held _ Hw Ha j Hj) as (? & ? & ? & ? & ? & ? & ? & Hx). intros ->. by rewrite Hk in Hx.
  - (* begin update *)
    rewrite <- (app_nil_r (cw_log w)). apply inv_move; rewrite ?app_nil_r; try done; [by intros; constructor|..].
    + intros b1 ev1 p1 e1 o1 snap1 out1 [= <- <- <- <- <- <- <-]. done.
    + intros j x Hj Hx Hu Hl'. by rewrite Hl in Hl'.
    + intros j [= <-]. by left.
  - (* end update *)
    unfold good_conn in Hgc. unfold good_out in Hgo. cbn [owed cn_phase cn_bound cn_sent] in Hgc, Hgo.
    destruct (ci_lock _ Hw Ha _ _ _ _ _ _ _ _ Hk) as (Hl & -> & Hwa).
    pose proof (asking_request ev b p (w_state (now (cw_log w))) _ Hwa) as Hh. rewrite Hs in Hh.
    cbn [perform] in Hh. rewrite Hrun in Hh. cbn [fst snd] in Hh. rewrite Hco in Hh. cbn [fst snd] in Hh. rewrite <- Hs in Hh.
    assert (Hd : n = Dead -> d' = w_state (now (cw_log w))).
    { intros ->. rewrite Hs. destruct (run_op_atomic _ _ _ _ _ _ Hrun) as [[-> _]|[_ [[= ->]|[=]]]]; [done|].
      exfalso. by apply (ok_not_dead _ _ _ _ _ Hwa); rewrite Hco. }
    destruct (noted _ k b ev p rest n _ (cw_log w) eq_refl Hal Hgc Hh Hd) as (N1 & N2 & N3 & N4 & N5).
    apply inv_move; try done.
    + intros j Hj. by apply note_others.
    + intros j Hj. by apply N5.
    + unfold good_out. cbn [owed cn_phase cn_sent]. rewrite N3. destruct n as [b'| |]; [by rewrite Hgo..|].
      exists []. exists (length (cw_log w)), ev, p. cbn [cn_bound cn_sent note]. rewrite app_nil_r. rewrite firstn_all, Hh.
      cbn [r_next r_out]. rewrite Hgo, app_nil_r. done.
    + intros j x Hj Hx Hu Hl'. exfalso. congruence.
  - (* crash *)
    destruct (ci_lock _ Hw Ha _ _ _ _ _ _ _ _ Hk) as (Hl & -> & Hwa).
    unfold good_conn in Hgc. cbn [owed cn_phase cn_bound] in Hgc.
    pose proof (asking_request ev b p (w_state (now (cw_log w))) _ Hwa) as Hh. rewrite Hs in Hh.
    cbn [perform] in Hh. rewrite Hrun in Hh. cbn [fst snd] in Hh. rewrite <- Hs in Hh.
    split; cbn [cw_db cw_lock cw_conns cw_alive cw_log]; try done.
    + rewrite run_app'. cbn [run]. unfold step. rewrite Hal, Hgc. cbn [negb]. cbv zeta. cbn [fst]. rewrite Hh. cbn [r_next r_state].
      by destruct (continues cfg c ev b p (Some (RUpdate Crashed))).2.
    + intros j Hj. split; [|done]. destruct (ci_none _ Hw j Hj) as [H1 _]. rewrite written_app, H1, (said_others _ _ _); [done|].
      constructor; [|constructor]. cbn [whose]. intros ->. by rewrite Hk in Hj.
    + intros _ j x Hj. pose proof (ci_out _ Hw Ha j x Hj) as Ho.
      assert (Hcase : (exists tl, said j (cw_log w) = cn_sent x ++ tl) \/ (exists early rest, k <> j /\ dying (cw_log w) j x early rest)).
      { unfold good_out in Ho. destruct (owed x) as [[rest [b'| |]]|] eqn:Eo.
        - left. by exists rest.
        - left. by exists rest.
        - right. destruct Ho as [early Ho]. exists early, rest. split; [|done]. intros <-. rewrite Hk in Hj. by injection Hj as <-.
        - left. exists []. by rewrite app_nil_r. }
      destruct Hcase as [[tl Ht]|(early & rest & Hne & Hdy)].
      * left. rewrite written_app, Ht. exists (tl ++ written cfg c j (now (cw_log w)) [EPacket k ev p]). by rewrite app_assoc.
      * right. exists early, rest. apply dying_more; [|done]. constructor; [done|constructor].
  - (* begin view *)
    unfold good_conn in Hgc. unfold good_out in Hgo. cbn [owed cn_phase cn_bound cn_sent] in Hgc, Hgo.
    pose proof (asking_request ev b p (w_state (now (cw_log w))) _ Hwa) as Hh. rewrite Hs in Hh.
    cbn [perform fst snd] in Hh. rewrite <- Hs in Hh. rewrite Hs in Hh at 2 3.
    destruct (continues cfg c ev b p (Some (RView (search (cw_db w) base scope)))) as [rest n] eqn:Hco. cbn [fst snd] in Hh |- *.
    assert (Hh' : handle cfg bh ev b p (w_state (now (cw_log w))) = mkResult rest n (w_state (now (cw_log w)))) by (rewrite Hh; by rewrite Hs).
    destruct (noted _ k b ev p rest n _ (cw_log w) eq_refl Hal Hgc Hh') as (N1 & N2 & N3 & N4 & N5); [done|].
    apply inv_move; try done.
    + intros j Hj. by apply note_others.
    + by rewrite <- Hs.
    + intros j Hj. by apply N5.
    + unfold good_out. cbn [owed cn_phase cn_sent cn_bound]. rewrite Hco. rewrite N3. destruct n as [b'| |]; [by rewrite Hgo..|].
      exists []. exists (length (cw_log w)), ev, p. cbn [cn_bound cn_sent note]. rewrite app_nil_r. rewrite firstn_all, Hh'.
      cbn [r_next r_out]. rewrite Hgo, app_nil_r. done.
    + unfold good_conn. cbn [owed cn_phase cn_bound]. rewrite Hco, N4. by destruct n.
    + intros j Hj. right. split; [|done]. destruct (ci_held _ Hw Ha j Hj) as (? & ? & ? & ? & ? & ? & ? & Hx). intros ->. by rewrite Hk in Hx.
  - (* end view *)
    unfold good_conn in Hgc. unfold good_out in Hgo. cbn [owed cn_phase cn_bound cn_sent] in Hgc, Hgo. rewrite Hco in Hgc, Hgo.
    rewrite <- (app_nil_r (cw_log w)). apply inv_move; rewrite ?app_nil_r; try done; [by intros; constructor|..].
    + intros j Hj. right. split; [|done]. destruct (ci_held _ Hw Ha j Hj) as (? & ? & ? & ? & ? & ? & ? & Hx). intros ->. by rewrite Hk in Hx.
  - (* send *)
    unfold good_conn in Hgc. unfold good_out in Hgo. cbn [owed cn_phase cn_bound cn_sent] in Hgc, Hgo.
    rewrite <- (app_nil_r (cw_log w)). apply inv_move; rewrite ?app_nil_r; try done; [by intros; constructor|..].
    + unfold good_out. cbn [owed cn_phase cn_bound cn_sent]. destruct n as [b'| |]; [by rewrite <- app_assoc..|].
      destruct Hgo as (early & i & ev & p & H1 & H2 & H3 & H4 & H5). exists (early ++ [r]), i, ev, p. cbn [cn_bound cn_sent] in *.
      rewrite H5, <- !app_assoc. done.
    + intros j Hj. right. split; [|done]. destruct (ci_held _ Hw Ha j Hj) as (? & ? & ? & ? & ? & ? & ? & Hx). intros ->. by rewrite Hk in Hx.
  - (* go *)
    unfold good_conn in Hgc. unfold good_out in Hgo. cbn [owed cn_phase cn_bound cn_sent] in Hgc, Hgo. rewrite app_nil_r in Hgo.
    rewrite <- (app_nil_r (cw_log w)). apply inv_move; rewrite ?app_nil_r; try done; [by intros; constructor|..].
    + intros j Hj. right. split; [|done]. destruct (ci_held _ Hw Ha j Hj) as (? & ? & ? & ? & ? & ? & ? & Hx). intros ->. by rewrite Hk in Hx.
  - (* drop *)
    unfold good_conn in Hgc. unfold good_out in Hgo. cbn [owed cn_phase cn_bound cn_sent] in Hgc, Hgo. rewrite app_nil_r in Hgo.
    rewrite <- (app_nil_r (cw_log w)). apply inv_move; rewrite ?app_nil_r; try done; [by intros; constructor|..].
    + intros j Hj. right. split; [|done]. destruct (ci_held _ Hw Ha j Hj) as (? & ? & ? & ? & ? & ? & ? & Hx). intros ->. by rewrite Hk in Hx.
  - (* die *)
    split; cbn [cw_db cw_lock cw_conns cw_alive cw_log]; try done.
    + intros j Hj. split; [|done]. by apply (ci_none _ Hw).
    + intros _ j x Hj. pose proof (ci_out _ Hw Ha j x Hj) as Ho. unfold good_out in Ho.
      destruct (owed x) as [[rest [b'| |]]|] eqn:Eo.
      * left. by exists rest.
      * left. by exists rest.
      * right. destruct Ho as [early Ho]. by exists early, rest.
      * left. exists []. by rewrite app_nil_r.
Qed.
Lemma start_inv : cinv (cstart d0).
Proof using Type.
  split; cbn [cstart cw_db cw_lock cw_conns cw_alive cw_log run]; try done.
Qed.
Lemma steps_cinv w : csteps cfg c (cstart d0) w -> cinv w.
Proof using Type. intros H. induction H as [|w1 w2 _ IH Hst]; [apply start_inv|]. by eapply step_inv. Qed.

(** * The packets read and the order *)

Lemma served_steps w h : served cfg c d0 w h -> csteps cfg c (cstart d0) w.
Proof using Type.
  induction 1 as [|w h k b out ev p _ IH Ha Hk|w w' h _ IH Hst _]; [apply cs_refl|..].
  - eapply cs_more; [done|]. by apply cs_packet.
  - by eapply cs_more.
Qed.
Lemma no_read w w' k x x' : cw_conns w !! k = Some x -> (cn_phase x <> PIdle \/ forall ev p, cn_phase x' <> PAsked ev p) ->
  cw_conns w' = put w k x' -> ~ reads w w'.
Proof using Type.
  intros Hk Hx Hw' (j & y & y' & ev & p & H1 & H2 & H3 & H4). rewrite Hw' in H2. unfold put in H2.
  apply lookup_insert_Some in H2 as [[<- <-]|[Hne H2]].
  - rewrite Hk in H1. injection H1 as <-. destruct Hx as [Hx|Hx]; [done|]. by apply Hx in H4.
  - rewrite H1 in H2. injection H2 as <-. by rewrite H3 in H4.
Qed.
Lemma steps_served w : csteps cfg c (cstart d0) w -> exists h, served cfg c d0 w h.
Proof using Type.
  induction 1 as [|w1 w2 _ [h IH] Hst]; [exists []; apply sv_start|].
  assert (Hcase : (exists k b out ev p, cw_alive w1 = true /\ cw_conns w1 !! k = Some (mkConn b PIdle out) /\
      w2 = mkCWorld (cw_db w1) (cw_lock w1) (put w1 k (mkConn b (PAsked ev p) out)) true (cw_log w1)) \/ ~ reads w1 w2).
  { destruct Hst as [k Ha Hk|k b out Ha Hk|k b out ev p Ha Hk|k b out ev p rest n Ha Hk Hwa Hco|k b out ev p e o Ha Hk Hwa Hl
      |k b out ev p e o snap r d' rest n Ha Hk Hrun Hco|k b out ev p e o snap d' Ha Hk Hrun|k b out ev p base scope Ha Hk Hwa
      |k b out ev p base scope snap rest n Ha Hk Hco|k b out r rest n Ha Hk|k b out b' Ha Hk|k b out Ha Hk|k b out Ha Hk].
    3:{ left. by exists k, b, out, ev, p. }
    1:{ right. intros (j & y & y' & ev & p & H1 & H2 & H3 & H4). cbn [cw_conns] in H2. unfold put in H2.
        apply lookup_insert_Some in H2 as [[<- <-]|[Hne H2]]; [done|]. rewrite H1 in H2. injection H2 as <-. by rewrite H3 in H4. }
    5,11: right; intros (j & y & y' & ev' & p' & H1 & H2 & H3 & H4); cbn [cw_conns] in H2; rewrite H1 in H2;
      injection H2 as <-; by rewrite H3 in H4.
    all: right; eapply no_read; [exact Hk| |reflexivity]; (left; done) || (right; done). }
  destruct Hcase as [(k & b & out & ev & p & Ha & Hk & ->)|Hno].
  - eexists. by apply sv_read.
  - exists h. by eapply sv_other.
Qed.

Definition pend_ok (x : conn) (pend : list (renv env * packet)) : Prop :=
  match cn_phase x with
  | PIdle | PClosed => pend = []
  | PAsked ev p | PUpdate ev p _ _ _ => pend = [(ev, p)]
  | PView ev p b s snap =>
      match (continues cfg c ev (cn_bound x) p (Some (RView (search snap b s)))).2 with Dead => pend = [(ev, p)] | _ => pend = [] end
  | PSend _ Dead => length pend = 1
  | PSend _ _ => pend = []
  end.
Definition rinv (w : cworld) (h : list (nat * (renv env * packet))) : Prop :=
  forall k, match cw_conns w !! k with
  | None => read_on k h = [] /\ asked_on k (cw_log w) = []
  | Some x => exists pend, read_on k h = asked_on k (cw_log w) ++ pend /\ length pend <= 1 /\
      (cw_alive w = true -> pend_ok x pend)
  end.
Lemma asked_app k es es' : asked_on k (es ++ es') = asked_on k es ++ asked_on k es'.
Proof using Type. apply omap_app. Qed.
Lemma read_app k h h' : read_on k (h ++ h') = read_on k h ++ read_on k h'.
Proof using Type. apply omap_app. Qed.
Lemma asked_others k es : others k es -> asked_on k es = [].
Proof using Type.
  induction 1 as [|e es He H IH]; [done|]. destruct e as [j|j ev p|j]; cbn [asked_on omap list_omap]; try apply IH.
  cbn [whose] in He. apply Nat.eqb_neq in He. rewrite He. apply IH.
Qed.
Lemma asked_note k ev p n : asked_on k (note ev p k n) = match n with Dead => [] | _ => [(ev, p)] end.
Proof using Type. destruct n; cbn [note]; try done; unfold asked_on; cbn [omap list_omap]; by rewrite Nat.eqb_refl. Qed.
Lemma rinv_move w k x' d' l' ext h h' pend :
  rinv w h -> (forall j, k <> j -> others j ext) -> (forall j, k <> j -> read_on j h' = []) -> cw_alive w = true ->
  read_on k (h ++ h') = asked_on k (cw_log w ++ ext) ++ pend -> length pend <= 1 -> pend_ok x' pend ->
  rinv (mkCWorld d' l' (put w k x') true (cw_log w ++ ext)) (h ++ h').
Proof using Type.
  intros Hr Ho Hh' Ha Hk Hl Hp j. cbn [cw_conns cw_log cw_alive]. unfold put. destruct (decide (k = j)) as [<-|Hne].
  - rewrite lookup_insert. by exists pend.
  - rewrite lookup_insert_ne by done. specialize (Hr j).
    rewrite asked_app, (asked_others _ ext), app_nil_r by by apply Ho. rewrite read_app, Hh', app_nil_r by done.
    rewrite Ha in Hr. exact Hr.
Qed.
Lemma served_rinv w h : served cfg c d0 w h -> rinv w h.
Proof using Type.
  induction 1 as [|w h k b out ev p _ IH Ha Hk|w w' h Hsv IH Hst Hno].
  { intros k. done. }
  { pose proof (IH k) as Hx. rewrite Hk in Hx. destruct Hx as (pend & H1 & _ & Hp). specialize (Hp Ha). unfold pend_ok in Hp. cbn [cn_phase] in Hp. subst pend.
    rewrite <- (app_nil_r (cw_log w)). apply (rinv_move _ _ _ _ _ _ _ _ [(ev, p)]); try done.
    - intros j Hj. constructor.
    - intros j Hj. unfold read_on. cbn [omap list_omap fst]. apply Nat.eqb_neq in Hj. by rewrite Hj.
    - rewrite read_app, H1, !app_nil_r. f_equal. unfold read_on. cbn [omap list_omap fst]. by rewrite Nat.eqb_refl. }
  destruct Hst as [k Ha Hk|k b out Ha Hk|k b out ev p Ha Hk|k b out ev p rest n Ha Hk Hwa Hco|k b out ev p e o Ha Hk Hwa Hl
    |k b out ev p e o snap r d' rest n Ha Hk Hrun Hco|k b out ev p e o snap d' Ha Hk Hrun|k b out ev p base scope Ha Hk Hwa
    |k b out ev p base scope snap rest n Ha Hk Hco|k b out r rest n Ha Hk|k b out b' Ha Hk|k b out Ha Hk|k b out Ha Hk];
    pose proof (IH k) as Hx; rewrite Hk in Hx;
    try (destruct Hx as (pend & H1 & Hlen & Hp); specialize (Hp Ha); unfold pend_ok in Hp; cbn [cn_phase cn_bound] in Hp).
  3:{ destruct Hno. exists k, (mkConn b PIdle out), (mkConn b (PAsked ev p) out), ev, p. cbn [cw_conns]. unfold put.
      rewrite lookup_insert. done. }
  6:{ (* crash *)
      intros j. cbn [cw_conns cw_log cw_alive]. specialize (IH j). destruct (cw_conns w !! j) as [y|] eqn:Ej.
      - destruct IH as (pj & Hj1 & Hj2 & Hj3). specialize (Hj3 Ha). destruct (decide (k = j)) as [<-|Hne].
        + rewrite Hk in Ej. injection Ej as <-. unfold pend_ok in Hj3. cbn [cn_phase] in Hj3. subst pj.
          exists []. rewrite app_nil_r. split; [|split; [cbn; lia|done]]. rewrite asked_app, Hj1. f_equal.
          unfold asked_on. cbn [omap list_omap]. by rewrite Nat.eqb_refl.
        + exists pj. split; [|done]. rewrite asked_app, (asked_others _ [_]), app_nil_r; [done|]. constructor; [done|constructor].
      - rewrite asked_app. destruct IH as [? ->]. split; [done|]. apply (asked_others _ [_]). constructor; [|constructor].
        cbn [whose]. intros ->. by rewrite Hk in Ej. }
  all: rewrite <- (app_nil_r h).
  11:{ (* die *) rewrite app_nil_r. intros j. cbn [cw_conns cw_log cw_alive]. specialize (IH j).
      destruct (cw_conns w !! j); [|done]. destruct IH as (pj & ? & ? & _). by exists pj. }
  - destruct Hx as [Hx1 Hx2]. eapply (rinv_move _ _ _ _ _ _ _ _ []); try done; [|by rewrite app_nil_r, asked_app, Hx1, Hx2|cbn; lia].
    intros j Hj. constructor; [done|constructor].
  - subst pend. eapply (rinv_move _ _ _ _ _ _ _ _ []); try done; [|rewrite app_nil_r in H1; rewrite (app_nil_r h), asked_app, H1; cbn; by rewrite !app_nil_r].
    intros j Hj. constructor; [done|constructor].
  - subst pend. eapply (rinv_move _ _ _ _ _ _ _ _ (match n with Dead => [(ev, p)] | _ => [] end)); try done.
    + intros j Hj. by apply note_others.
    + rewrite app_nil_r, asked_app, asked_note, H1. destruct n; by rewrite ?app_nil_r.
    + destruct n; cbn; lia.
    + by destruct n.
  - rewrite <- (app_nil_r (cw_log w)). eapply (rinv_move _ _ _ _ _ _ _ _ pend); try done; [by intros; constructor|by rewrite !app_nil_r].
  - subst pend. eapply (rinv_move _ _ _ _ _ _ _ _ (match n with Dead => [(ev, p)] | _ => [] end)); try done.
    + intros j Hj. by apply note_others.
    + rewrite app_nil_r, asked_app, asked_note, H1. destruct n; by rewrite ?app_nil_r.
    + destruct n; cbn; lia.
    + by destruct n.
  - subst pend. set (n := (continues cfg c ev b p (Some (RView (search (cw_db w) base scope)))).2).
    eapply (rinv_move _ _ _ _ _ _ _ _ (match n with Dead => [(ev, p)] | _ => [] end)); try done.
    + intros j Hj. by apply note_others.
    + rewrite app_nil_r, asked_app, asked_note, H1. destruct n; by rewrite ?app_nil_r.
    + destruct n; cbn; lia.
    + unfold pend_ok. cbn [cn_phase cn_bound]. fold n. by destruct n.
  - rewrite <- (app_nil_r (cw_log w)). eapply (rinv_move _ _ _ _ _ _ _ _ pend); try done; [by intros; constructor|by rewrite !app_nil_r|].
    rewrite Hco in Hp. cbn [snd] in Hp. unfold pend_ok. cbn [cn_phase]. destruct n; try done. by rewrite Hp.
  - rewrite <- (app_nil_r (cw_log w)). eapply (rinv_move _ _ _ _ _ _ _ _ pend); try done; [by intros; constructor|by rewrite !app_nil_r].
  - rewrite <- (app_nil_r (cw_log w)). eapply (rinv_move _ _ _ _ _ _ _ _ pend); try done; [by intros; constructor|by rewrite !app_nil_r].
  - rewrite <- (app_nil_r (cw_log w)). eapply (rinv_move _ _ _ _ _ _ _ _ pend); try done; [by intros; constructor|by rewrite !app_nil_r].
Qed.

(** * Progress *)

Lemma log_grows w w' : csteps cfg c w w' -> exists es, cw_log w' = cw_log w ++ es.
Proof using Type.
  induction 1 as [|w1 w2 _ [es IH] Hst]; [exists []; by rewrite app_nil_r|].
  assert (H : exists es', cw_log w2 = cw_log w1 ++ es').
  { destruct Hst; cbn [cw_log]; (by eexists) || (exists []; by rewrite app_nil_r). }
  destruct H as [es' ->]. exists (es ++ es'). by rewrite IH, app_assoc.
Qed.
(** A transaction under way can end. *)
Lemma end_update w k b ev p e o snap out : cw_alive w = true -> cw_conns w !! k = Some (mkConn b (PUpdate ev p e o snap) out) ->
  exists w', cstep cfg c w w' /\ (cw_alive w' = false \/
    (cw_alive w' = true /\ cw_lock w' = None /\ exists rest n, cw_conns w' = put w k (mkConn b (PSend rest n) out))).
Proof using Type.
  intros Ha Hk. destruct (run_op (bc_base c) e o snap) as [[r|] d'] eqn:Er.
  - destruct (continues cfg c ev b p (Some (RUpdate (Done r)))) as [rest n] eqn:Ec. eexists. split; [by eapply cs_end_update|].
    right. cbn [cw_alive cw_lock cw_conns]. split; [done|]. split; [done|]. by exists rest, n.
  - eexists. split; [by eapply cs_crash|]. by left.
Qed.
(** What is to be written can be written. *)
Lemma sends w k b rest n out : cw_alive w = true -> cw_conns w !! k = Some (mkConn b (PSend rest n) out) ->
  exists w', csteps cfg c w w' /\ (cw_alive w' = false \/ (cw_alive w' = true /\ exists x, quiet_conn x /\ cw_conns w' = put w k x)).
Proof using Type.
  revert w out. induction rest as [|r rest IH]; intros w out Ha Hk.
  - destruct n as [b'| |].
    + eexists. split; [eapply cs_more; [apply cs_refl|by eapply cs_go]|]. right. split; [done|]. eexists. split; [|done]. by left.
    + eexists. split; [eapply cs_more; [apply cs_refl|by eapply cs_drop]|]. right. split; [done|]. eexists. split; [|done]. by right.
    + eexists. split; [eapply cs_more; [apply cs_refl|by eapply cs_die]|]. by left.
  - pose proof (cs_send cfg c w k b out r rest n Ha Hk) as Hs.
    destruct (IH (mkCWorld (cw_db w) (cw_lock w) (put w k (mkConn b (PSend rest n) (out ++ [r]))) true (cw_log w)) (out ++ [r])
      eq_refl (lookup_insert _ _ _)) as (w' & Hw & Hc).
    exists w'. split; [eapply csteps_app; [|exact Hw]; eapply cs_more; [apply cs_refl|exact Hs]|].
    destruct Hc as [Hc|(Hc & x & Hq & Hx)]; [by left|]. right. split; [done|]. exists x. split; [done|].
    rewrite Hx. unfold put. cbn [cw_conns]. apply insert_insert.
Qed.
End proofs.
