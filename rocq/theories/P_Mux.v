(** Property C86: several handlers in one server. *)
From Verif Require Import Bytes Text Dn DnProofs Res Entry EntryProofs Password PasswordProofs P_Password
  Db DbSpec IdProofs DbProofs DbOps DbSearch DbFacts DbMore P_Db
  Packet Filter FilterProofs P_Filter Handler Server ServerProofs CrashProofs P_Server Mux.

(** * Facts about the maps *)
Section maps.
Context {A : Type}.
Implicit Types (l : list (str * A)) (n : str) (f : A).
Lemma read_in l n f : NoDup (map fst l) -> In (n, f) l -> read n l = Some f.
Proof.
  induction l as [|[m g] l IH]; [done|]. cbn [map fst In read]. intros [Hm Hl]%NoDup_cons [[= -> ->]|H].
  - by rewrite seqb_refl.
  - destruct (seqb m n) eqn:Em; [|by apply IH]. apply seqb_eq in Em as ->. destruct Hm.
    apply elem_of_list_In, in_map_iff. by exists (n, f).
Qed.
Lemma read_some l n f : read n l = Some f -> In (n, f) l.
Proof.
  induction l as [|[m g] l IH]; [done|]. cbn [In read]. destruct (seqb m n) eqn:Em.
  - apply seqb_eq in Em as ->. intros [= ->]. by left.
  - intros H. right. by apply IH.
Qed.
Lemma read_none l n : read n l = None -> ~ In n (map fst l).
Proof.
  induction l as [|[m g] l IH]; [by intros _ []|]. cbn [map fst In read]. destruct (seqb m n) eqn:Em; [done|].
  intros H [<-|Hin]; [by rewrite seqb_refl in Em|]. by apply IH.
Qed.
End maps.

(** * What the most specific name is *)
(** The number of parts of a suffix, counted by its commas as the server does. *)
Definition depth (n : str) : nat :=
  match n with [] => 0 | _ => Datatypes.S (length (bfilter (aeqb ","%char) n)) end.
Definition most_specific (t : str) (names : list str) (n : str) : Prop :=
  In n names /\ (exists front, t = front ++ n) /\
  forall m, In m names -> m <> n -> (exists front, t = front ++ m) -> depth m < depth n.

Lemma components_commas s : components s = Datatypes.S (length (bfilter (aeqb ","%char) s)).
Proof.
  unfold components. induction s as [|c s IH]; [done|]. cbn [Bytes.split List.filter].
  destruct (aeqb ","%char c) eqn:Ec; [cbn [length]; by rewrite IH|].
  destruct (Bytes.split ","%char s); [done|exact IH].
Qed.
Lemma depth_weight s : depth s = weight s.
Proof. destruct s as [|c s]; [done|]. unfold weight. cbn [is_empty]. by rewrite components_commas. Qed.
Lemma suffix_iff t n : has_suffix t n = true <-> exists front, t = front ++ n.
Proof. apply has_suffix_spec. Qed.
Lemma pick_specific {A} t (l : list (str * A)) n f :
  NoDup (map fst l) -> In (n, f) l -> most_specific t (map fst l) n -> pick t l = Some f.
Proof.
  intros Hn Hi (Hin & Hs & Hm). unfold pick. assert (route t (map fst l) = n) as ->; [|by apply read_in].
  destruct (route_from_spec t (map fst l) []) as (_ & H2 & H3). fold (route t (map fst l)) in H2, H3.
  set (w := route t (map fst l)) in *. apply suffix_iff in Hs. pose proof (H3 n Hin Hs) as Hw. rewrite <- !depth_weight in Hw.
  destruct (decide (w = n)) as [?|Hne]; [done|exfalso]. destruct H2 as [E|[Hwi Hws]].
  - rewrite E in Hw, Hne. destruct n as [|c n]; [done|]. cbn [depth] in Hw. lia.
  - apply suffix_iff in Hws. specialize (Hm w Hwi Hne Hws). lia.
Qed.

(** * The request's name *)
(** [t] is the name the request is about, as far as the request is well formed:
    the name of the entry to add, delete, change or rename, of the user to bind
    as, of the base of the search, or of the user whose password is set. *)
Definition aims {T : Text} {W : Wire} (bound : str) (req : packet) (t : str) : Prop :=
  (p_tag req = AddRequest -> forall r, parse_add req = Ok r -> ad_dn r = t) /\
  (p_tag req = BindRequest -> forall v d a rest n, p_kids req = v :: d :: a :: rest -> as_str (p_val d) = Some n -> n = t) /\
  (p_tag req = DelRequest -> forall n, parse_delete req = Ok n -> n = t) /\
  (p_tag req = ModifyRequest -> forall r, parse_modify req = Ok r -> m_dn r = t) /\
  (p_tag req = ModifyDNRequest -> forall r, parse_moddn req = Ok r -> md_dn r = t) /\
  (p_tag req = SearchRequest -> forall r, parse_search req = Ok r -> sr_base r = t) /\
  (p_tag req = ExtendedRequest -> forall oid body r, parse_extended req = Ok (oid, body) -> parse_pwmod body = Ok r ->
     (if is_empty (pw_user r) then bound else pw_user r) = t).

(** Two handlers that agree on requests about [t] serve them alike. *)
Definition agree {S E} (h h' : handler S E) (t : str) : Prop :=
  (forall ev b r s, ad_dn r = t -> h_add h ev b r s = h_add h' ev b r s) /\
  (forall ev pw s, h_bind h ev t pw s = h_bind h' ev t pw s) /\
  (forall ev b s, h_delete h ev b t s = h_delete h' ev b t s) /\
  (forall ev b r s, m_dn r = t -> h_modify h ev b r s = h_modify h' ev b r s) /\
  (forall ev b r s, md_dn r = t -> h_moddn h ev b r s = h_moddn h' ev b r s) /\
  (forall ev b r s, pw_user r = t -> h_password h ev b r s = h_password h' ev b r s) /\
  (forall ev b r s, sr_base r = t -> h_search h ev b r s = h_search h' ev b r s).
Section agree.
Context {T : Text} {C : Crypto} {W : Wire} {S E : Type}.
Variable (cfg : server_cfg) (h h' : handler S E).
Lemma lift_agree {A} (r : res A) (k k' : A -> hout answer * S) s :
  (forall a, r = Ok a -> k a = k' a) -> lift_res r k s = lift_res r k' s.
Proof using Type. intros H. destruct r as [a|[]| |]; cbn [lift_res]; try done. by apply H. Qed.
Lemma dispatch_agree ev bound id req s t :
  aims bound req t -> agree h h' t -> dispatch cfg h ev bound id req s = dispatch cfg h' ev bound id req s.
Proof using Type.
  intros (Aadd & Abind & Adel & Amod & Amdn & Asea & Aext) (Hadd & Hbind & Hdel & Hmod & Hmdn & Hpw & Hsea).
  unfold dispatch.
  destruct (p_tag req =? AddRequest)%N eqn:E1.
  { apply N.eqb_eq in E1. f_equal. unfold handle_add. destruct (is_empty bound); [done|].
    apply lift_agree. intros r Hr. apply Hadd. by apply Aadd. }
  destruct (p_tag req =? BindRequest)%N eqn:E2.
  { apply N.eqb_eq in E2. assert (handle_bind h ev req s = handle_bind h' ev req s) as ->; [|done].
    unfold handle_bind. destruct (p_kids req) as [|v [|d [|a rest]]] eqn:Ek; try done.
    destruct (as_int (p_val v)); [|done]. destruct (negb _); [done|].
    destruct (as_str (p_val d)) as [n|] eqn:Ed; [|done]. rewrite (Abind E2 v d a rest n); [|done..].
    by rewrite Hbind. }
  destruct (p_tag req =? CompareRequest)%N; [done|].
  destruct (p_tag req =? DelRequest)%N eqn:E3.
  { apply N.eqb_eq in E3. f_equal. unfold handle_delete. destruct (is_empty bound); [done|].
    apply lift_agree. intros r Hr. rewrite (Adel E3 r Hr). apply Hdel. }
  destruct (p_tag req =? ExtendedRequest)%N eqn:E4.
  { apply N.eqb_eq in E4. assert (handle_extended cfg h ev bound req s = handle_extended cfg h' ev bound req s) as ->; [|done].
    unfold handle_extended. destruct (parse_extended req) as [[oid body]|x| |] eqn:Ep; try done.
    destruct (seqb oid pwmod_oid); [|done].
    assert (handle_pwmod cfg h ev bound body s = handle_pwmod cfg h' ev bound body s) as ->; [|done].
    unfold handle_pwmod. destruct (is_empty bound); [done|].
    destruct (parse_pwmod body) as [r|x| |] eqn:Er; try done.
    destruct (if is_empty (pw_new r) then _ else _) as [pw|x| |]; try done.
    destruct (hash_password _ _ _) as [hash|x| |]; try done.
    rewrite Hpw; [done|]. by apply (Aext E4 oid body). }
  destruct (p_tag req =? ModifyDNRequest)%N eqn:E5.
  { apply N.eqb_eq in E5. f_equal. unfold handle_moddn. destruct (is_empty bound); [done|].
    apply lift_agree. intros r Hr. apply Hmdn. by apply Amdn. }
  destruct (p_tag req =? ModifyRequest)%N eqn:E6.
  { apply N.eqb_eq in E6. f_equal. unfold handle_modify. destruct (is_empty bound); [done|].
    apply lift_agree. intros r Hr. apply Hmod. by apply Amod. }
  destruct (p_tag req =? SearchRequest)%N eqn:E7; [|done].
  apply N.eqb_eq in E7. assert (handle_search cfg h ev bound req s = handle_search cfg h' ev bound req s) as ->; [|done].
  unfold handle_search. destruct (parse_search req) as [r|x| |] eqn:Er; try done.
  rewrite Hsea; [done|]. by apply Asea.
Qed.
Lemma handle_agree ev bound p s t :
  (forall i req rest, p_kids p = i :: req :: rest -> aims bound req t) -> agree h h' t ->
  handle cfg h ev bound p s = handle cfg h' ev bound p s.
Proof using Type.
  intros Ha Hh. unfold handle. destruct (p_kids p) as [|i [|req rest]]; [done..|].
  destruct (as_int (p_val i)); [|done]. destruct (negb _); [done|].
  assert (dispatch cfg h ev bound z req s = dispatch cfg h' ev bound z req s) as ->; [|done].
  apply (dispatch_agree _ _ _ _ _ t); [|done]. by apply (Ha i req rest).
Qed.
Lemma dispatch_same ev bound id req s :
  (forall t, agree h h' t) -> dispatch cfg h ev bound id req s = dispatch cfg h' ev bound id req s.
Proof using Type.
  intros H. unfold dispatch.
  assert (handle_add h ev bound req s = handle_add h' ev bound req s) as ->.
  { unfold handle_add. destruct (is_empty bound); [done|]. apply lift_agree. intros r _. by eapply H. }
  assert (handle_bind h ev req s = handle_bind h' ev req s) as ->.
  { unfold handle_bind. destruct (p_kids req) as [|v [|d [|a rest]]]; try done.
    destruct (as_int (p_val v)); [|done]. destruct (negb _); [done|].
    destruct (as_str (p_val d)) as [n|]; [|done]. by rewrite (proj1 (proj2 (H n))). }
  assert (handle_delete h ev bound req s = handle_delete h' ev bound req s) as ->.
  { unfold handle_delete. destruct (is_empty bound); [done|]. apply lift_agree. intros r _. by eapply H. }
  assert (handle_extended cfg h ev bound req s = handle_extended cfg h' ev bound req s) as ->.
  { unfold handle_extended. destruct (parse_extended req) as [[oid body]|x| |]; try done.
    destruct (seqb oid pwmod_oid); [|done].
    assert (handle_pwmod cfg h ev bound body s = handle_pwmod cfg h' ev bound body s) as ->; [|done].
    unfold handle_pwmod. destruct (is_empty bound); [done|].
    destruct (parse_pwmod body) as [r|x| |]; try done.
    destruct (if is_empty (pw_new r) then _ else _) as [pw|x| |]; try done.
    destruct (hash_password _ _ _) as [hash|x| |]; try done.
    set (r' := mkPw _ _ _). destruct (H (pw_user r')) as (_ & _ & _ & _ & _ & Hp & _). by rewrite Hp. }
  assert (handle_moddn h ev bound req s = handle_moddn h' ev bound req s) as ->.
  { unfold handle_moddn. destruct (is_empty bound); [done|]. apply lift_agree. intros r _. by eapply H. }
  assert (handle_modify h ev bound req s = handle_modify h' ev bound req s) as ->.
  { unfold handle_modify. destruct (is_empty bound); [done|]. apply lift_agree. intros r _. by eapply H. }
  assert (handle_search cfg h ev bound req s = handle_search cfg h' ev bound req s) as ->; [|done].
  unfold handle_search. destruct (parse_search req) as [r|x| |]; try done.
  destruct (H (sr_base r)) as (_ & _ & _ & _ & _ & _ & Hp). by rewrite Hp.
Qed.
Lemma handle_same ev bound p s :
  (forall t, agree h h' t) -> handle cfg h ev bound p s = handle cfg h' ev bound p s.
Proof using Type.
  intros H. unfold handle. destruct (p_kids p) as [|i [|req rest]]; [done..|].
  destruct (as_int (p_val i)); [|done]. destruct (negb _); [done|].
  assert (dispatch cfg h ev bound z req s = dispatch cfg h' ev bound z req s) as ->; [|done].
  by apply dispatch_same.
Qed.
Lemma run_same es w : (forall t, agree h h' t) -> run cfg h w es = run cfg h' w es.
Proof using Type.
  intros H. revert w. induction es as [|e es IH]; intros w; [done|]. cbn [run].
  assert (step cfg h w e = step cfg h' w e) as ->; [|apply IH].
  unfold step. destruct (negb _); [done|]. destruct e as [k|k ev p|k]; [done| |done].
  destruct (w_conns w !! k) as [bound|]; [|done]. by rewrite handle_same.
Qed.
End agree.

(** * Registering *)
Lemma assign_in {A} n (f : A) l m g :
  In (m, g) (assign n f l) <-> (m = n /\ g = f) \/ (m <> n /\ In (m, g) l).
Proof.
  unfold assign. cbn [In]. rewrite filter_In. cbn [fst]. rewrite negb_true_iff, seqb_neq. split.
  - intros [[= -> ->]|[? ?]]; [by left|by right].
  - intros [[-> ->]|[? ?]]; [by left|by right].
Qed.
Lemma assign_names {A} n (f : A) l m : In m (map fst (assign n f l)) <-> m = n \/ In m (map fst l).
Proof.
  rewrite !in_map_iff. split.
  - intros ([m' g] & Hm & [[-> ->]|[Hne Hi]]%assign_in); cbn [fst] in Hm; subst; [by left|]. right. by exists (m, g).
  - intros [->|([m' g] & Hm & Hi)]; [exists (n, f); split; [done|]; apply assign_in; by left|].
    cbn [fst] in Hm. subst m'. destruct (decide (m = n)) as [->|Hne].
    + exists (n, f). split; [done|]. apply assign_in. by left.
    + exists (m, g). split; [done|]. apply assign_in. by right.
Qed.
Lemma assign_nodup {A} n (f : A) l : NoDup (map fst l) -> NoDup (map fst (assign n f l)).
Proof.
  intros H. unfold assign. cbn [map fst]. apply NoDup_cons. split.
  - rewrite elem_of_list_In, in_map_iff. intros ([m g] & Hm & Hi). cbn [fst] in Hm. subst m.
    apply filter_In in Hi as [_ Hi]. cbn [fst] in Hi. by rewrite seqb_refl in Hi.
  - induction l as [|[m g] l IH]; [constructor|]. cbn [map fst] in H. apply NoDup_cons in H as [H1 H2].
    cbn [List.filter fst]. destruct (negb (seqb m n)); [|by apply IH]. cbn [map fst]. apply NoDup_cons.
    split; [|by apply IH]. rewrite elem_of_list_In, in_map_iff in H1 |- *. intros (x & Hx & Hi). destruct H1.
    exists x. split; [done|]. by apply filter_In in Hi as [? _].
Qed.
(** The handlers [hs] registered one after the other (the last first in the list). *)
Definition registered {S E} (hs : list (str * handler S E)) : registry S E :=
  foldr (fun p g => register p.1 p.2 g) new_registry hs.
(** The same maps, run through in any order. *)
Definition reordered {S E} (g g' : registry S E) : Prop :=
  rg_add g ≡ₚ rg_add g' /\ rg_bind g ≡ₚ rg_bind g' /\ rg_delete g ≡ₚ rg_delete g' /\
  rg_modify g ≡ₚ rg_modify g' /\ rg_moddn g ≡ₚ rg_moddn g' /\ rg_password g ≡ₚ rg_password g' /\
  rg_search g ≡ₚ rg_search g'.
Definition assigned {A B} (F : A -> B) (l : list (str * B)) (hs : list (str * A)) : list (str * B) :=
  foldr (fun p l => assign p.1 (F p.2) l) l hs.
Lemma registered_assigned {S E} (hs : list (str * handler S E)) :
  rg_add (registered hs) = assigned h_add [] hs /\
  rg_bind (registered hs) = assigned h_bind [([], default_bind)] hs /\
  rg_delete (registered hs) = assigned h_delete [] hs /\
  rg_modify (registered hs) = assigned h_modify [] hs /\
  rg_moddn (registered hs) = assigned h_moddn [] hs /\
  rg_password (registered hs) = assigned h_password [] hs /\
  rg_search (registered hs) = assigned h_search [([], default_search)] hs.
Proof.
  induction hs as [|[n h] hs (H1 & H2 & H3 & H4 & H5 & H6 & H7)]; [done|].
  cbn [registered assigned foldr fst snd register rg_add rg_bind rg_delete rg_modify rg_moddn rg_password rg_search].
  fold (registered hs). rewrite H1, H2, H3, H4, H5, H6, H7. done.
Qed.
Section assigned.
Context {A B' : Type} (F : A -> B') (init : list (str * B')).
Implicit Types (hs : list (str * A)).
Lemma assigned_nodup hs : NoDup (map fst init) -> NoDup (map fst (assigned F init hs)).
Proof using Type. intros H. induction hs as [|[n h] hs IH]; [done|]. by apply assign_nodup. Qed.
Lemma assigned_names hs m : In m (map fst (assigned F init hs)) <-> In m (map fst hs) \/ In m (map fst init).
Proof using Type.
  induction hs as [|[n h] hs IH]; [cbn; tauto|]. cbn [assigned foldr fst snd map In]. fold (assigned F init hs).
  rewrite assign_names, IH. split; [intros [->|[?|?]]|intros [[->|?]|?]]; tauto.
Qed.
Lemma assigned_in hs n h : NoDup (map fst hs) -> In (n, h) hs -> In (n, F h) (assigned F init hs).
Proof using Type.
  induction hs as [|[m g] hs IH]; [done|]. cbn [map fst In assigned foldr snd]. fold (assigned F init hs).
  intros [Hm Hn]%NoDup_cons [[= -> ->]|H]; apply assign_in; [by left|]. right. split; [|by apply IH].
  intros ->. destruct Hm. apply elem_of_list_In, in_map_iff. by exists (m, h).
Qed.
Lemma pick_assigned l hs t n h :
  NoDup (map fst init) -> (forall m, In m (map fst init) -> m = []) ->
  l ≡ₚ assigned F init hs ->
  NoDup (map fst hs) -> In (n, h) hs -> most_specific t (map fst hs) n -> pick t l = Some (F h).
Proof using Type.
  intros Hi He Hp Hn Hin (_ & Hs & Hm). assert (Hmap : map fst l ≡ₚ map fst (assigned F init hs)) by by rewrite Hp.
  apply (pick_specific _ _ n).
  - rewrite Hmap. by apply assigned_nodup.
  - apply elem_of_list_In. rewrite Hp. apply elem_of_list_In. by apply assigned_in.
  - assert (Hnn : In n (map fst hs)) by (apply in_map_iff; by exists (n, h)).
    split; [|split; [done|]].
    + apply elem_of_list_In. rewrite Hmap. apply elem_of_list_In. apply assigned_names. by left.
    + intros m Hmi Hne Hms. apply elem_of_list_In in Hmi. rewrite Hmap in Hmi. apply elem_of_list_In in Hmi.
      apply assigned_names in Hmi as [Hmi|Hmi]; [by apply Hm|]. apply He in Hmi as ->.
      destruct n as [|c n]; [done|]. cbn [depth]. lia.
Qed.
Lemma pick_missing l hs t :
  l ≡ₚ assigned F init hs -> (forall m, In m (map fst init) -> m = []) -> NoDup (map fst init) ->
  ~ In [] (map fst hs) ->
  (forall m, In m (map fst hs) -> ~ exists front, t = front ++ m) -> pick t l = read [] init.
Proof using Type.
  intros Hp He Hd Hnn Hno. assert (Hmap : map fst l ≡ₚ map fst (assigned F init hs)) by by rewrite Hp.
  unfold pick. assert (route t (map fst l) = []) as ->.
  { destruct (C44_most_specific t (map fst l)) as (H1 & _ & _). destruct (decide (route t (map fst l) = [])) as [?|Hne]; [done|].
    destruct (H1 Hne) as [Hi Hs]. set (w := route t (map fst l)) in *. clearbody w. apply elem_of_list_In in Hi. rewrite Hmap in Hi. apply elem_of_list_In in Hi.
    apply assigned_names in Hi as [Hi|Hi]; [|by apply He]. apply suffix_iff in Hs. by apply Hno in Hi. }
  assert (Hdl : NoDup (map fst l)) by (rewrite Hmap; by apply assigned_nodup).
  assert (Hsame : forall f, In ([], f) (assigned F init hs) <-> In ([], f) init).
  { intros f. clear Hp Hmap Hno Hdl. induction hs as [|[n h] hs IH]; [done|]. cbn [map fst In] in Hnn.
    cbn [assigned foldr fst snd]. fold (assigned F init hs). rewrite assign_in, IH by tauto. split; [intros [[<- _]|[_ ?]]|]; [tauto|done|].
    intros H. right. split; [|done]. intros <-. tauto. }
  destruct (read [] init) as [f|] eqn:Ef.
  - apply read_in; [done|]. apply elem_of_list_In. rewrite Hp. apply elem_of_list_In. apply Hsame. by apply read_some.
  - destruct (read [] l) as [g|] eqn:Eg; [|done]. apply read_some in Eg. apply elem_of_list_In in Eg. rewrite Hp in Eg.
    apply elem_of_list_In, Hsame in Eg. destruct (read_none _ _ Ef). apply in_map_iff. by exists ([], g).
Qed.
End assigned.

(** * Theorems *)
(** C86.  With handlers registered for different suffixes, a request is served
    exactly as by the handler registered for the most specific suffix of its name
    alone, in whatever order the maps are run through ... *)
Theorem C86_route (T : Text) (C : Crypto) (W : Wire) (S E : Type) (cfg : server_cfg)
    (hs : list (str * handler S E)) (g : registry S E) (n t : str) (h : handler S E)
    (ev : renv E) (bound : str) (p : packet) (s : S) :
  NoDup (map fst hs) -> reordered g (registered hs) ->
  In (n, h) hs -> most_specific t (map fst hs) n ->
  (forall i req rest, p_kids p = i :: req :: rest -> aims bound req t) ->
  handle cfg (mux g) ev bound p s = handle cfg h ev bound p s.
Proof.
  intros Hn (G1 & G2 & G3 & G4 & G5 & G6 & G7) Hin Hm Ha. apply (handle_agree _ _ _ _ _ _ _ t); [done|].
  destruct (registered_assigned hs) as (H1 & H2 & H3 & H4 & H5 & H6 & H7).
  rewrite H1 in G1. rewrite H2 in G2. rewrite H3 in G3. rewrite H4 in G4. rewrite H5 in G5. rewrite H6 in G6. rewrite H7 in G7.
  assert (K : forall X (f : X) m, In m (map fst [(@nil ascii, f)]) -> m = []) by (intros X f m [<-|[]]; done).
  assert (K' : forall X (f : X), NoDup (map fst [(@nil ascii, f)])) by (intros X f; apply NoDup_singleton).
  assert (K0 : forall X m, In m (map fst (@nil (str * X))) -> m = []) by (intros X m []).
  assert (P1 : pick t (rg_add g) = Some (h_add h))
    by (apply (pick_assigned h_add [] _ hs _ n); [apply NoDup_nil_2|apply K0|done..]).
  assert (P2 : pick t (rg_bind g) = Some (h_bind h))
    by (apply (pick_assigned h_bind [([], default_bind)] _ hs _ n); [apply K'|apply K|done..]).
  assert (P3 : pick t (rg_delete g) = Some (h_delete h))
    by (apply (pick_assigned h_delete [] _ hs _ n); [apply NoDup_nil_2|apply K0|done..]).
  assert (P4 : pick t (rg_modify g) = Some (h_modify h))
    by (apply (pick_assigned h_modify [] _ hs _ n); [apply NoDup_nil_2|apply K0|done..]).
  assert (P5 : pick t (rg_moddn g) = Some (h_moddn h))
    by (apply (pick_assigned h_moddn [] _ hs _ n); [apply NoDup_nil_2|apply K0|done..]).
  assert (P6 : pick t (rg_password g) = Some (h_password h))
    by (apply (pick_assigned h_password [] _ hs _ n); [apply NoDup_nil_2|apply K0|done..]).
  assert (P7 : pick t (rg_search g) = Some (h_search h))
    by (apply (pick_assigned h_search [([], default_search)] _ hs _ n); [apply K'|apply K|done..]).
  unfold agree, mux. cbn [h_add h_bind h_delete h_modify h_moddn h_password h_search].
  split; [intros ? ? ? ? ->; by rewrite P1|]. split; [intros ? ? ?; by rewrite P2|].
  split; [intros ? ? ?; by rewrite P3|]. split; [intros ? ? ? ? ->; by rewrite P4|].
  split; [intros ? ? ? ? ->; by rewrite P5|]. split; [intros ? ? ? ? ->; by rewrite P6|].
  intros ? ? ? ? ->; by rewrite P7.
Qed.
Print Assumptions C86_route.

(** ... and a request for which no suffix fits goes to the handlers of NewServer:
    a bind is refused, a search finds nothing, and everything else is refused. *)
Theorem C86_unserved (T : Text) (C : Crypto) (W : Wire) (S E : Type) (cfg : server_cfg)
    (hs : list (str * handler S E)) (g : registry S E) (t : str)
    (ev : renv E) (bound : str) (p : packet) (id : Z) (req : packet) (s : S) :
  reordered g (registered hs) -> ~ In [] (map fst hs) ->
  (forall m, In m (map fst hs) -> ~ exists front, t = front ++ m) ->
  p = msg id req -> p_cls req = ClassApplication -> aims bound req t -> (forall k, re_send ev k = true) ->
  let r := handle cfg (mux g) ev bound p s in
  let says (tag code : N) := r = mkResult [RFinal id tag code None] (Go bound) s in
  (p_tag req = BindRequest -> forall v d a, p_kids req = [v; d; a] -> p_val v = VInt 3 -> p_val d = VStr t ->
     p_tag a = 0%N -> says BindResponse InvalidCredentials) /\
  (p_tag req = SearchRequest -> forall q, parse_search req = Ok q -> (sv_enforce cfg = true -> compile_filter (sr_filter q) <> None) ->
     says SearchResultDone Success) /\
  (bound <> [] ->
   (p_tag req = AddRequest -> forall q, parse_add req = Ok q -> says AddResponse UnwillingToPerform) /\
   (p_tag req = DelRequest -> forall q, parse_delete req = Ok q -> says DelResponse UnwillingToPerform) /\
   (p_tag req = ModifyRequest -> forall q, parse_modify req = Ok q -> says ModifyResponse UnwillingToPerform) /\
   (p_tag req = ModifyDNRequest -> forall q, parse_moddn req = Ok q -> says ModifyDNResponse UnwillingToPerform) /\
   (p_tag req = ExtendedRequest -> forall body q, parse_extended req = Ok (pwmod_oid, body) -> parse_pwmod body = Ok q ->
      pw_new q <> [] -> (exists hash, argon2_hash (pw_new q) (re_salt ev) = LOk hash) -> says ExtendedResponse UnwillingToPerform)).
Proof.
  intros (G1 & G2 & G3 & G4 & G5 & G6 & G7) Hnn Hno -> Hc Ha Hsend r says.
  assert (Hr : r = dispatch cfg (mux g) ev bound id req s).
  { unfold r, handle, msg. cbn [p_kids pint p_val as_int]. rewrite Hc.
    change (ClassApplication =? ClassApplication)%N with true. done. }
  destruct (registered_assigned hs) as (H1 & H2 & H3 & H4 & H5 & H6 & H7).
  rewrite H1 in G1. rewrite H2 in G2. rewrite H3 in G3. rewrite H4 in G4. rewrite H5 in G5. rewrite H6 in G6. rewrite H7 in G7.
  assert (K : forall X (f : X) m, In m (map fst [(@nil ascii, f)]) -> m = []) by (intros X f m [<-|[]]; done).
  assert (K' : forall X (f : X), NoDup (map fst [(@nil ascii, f)])) by (intros X f; apply NoDup_singleton).
  assert (K0 : forall X m, In m (map fst (@nil (str * X))) -> m = []) by (intros X m []).
  assert (P1 : pick t (rg_add g) = None) by (rewrite (pick_missing h_add [] _ hs); [done|done|done|apply NoDup_nil_2|done..]).
  assert (P2 : pick t (rg_bind g) = Some default_bind)
    by (rewrite (pick_missing h_bind [([], default_bind)] _ hs); [done|done|apply K|apply K'|done..]).
  assert (P3 : pick t (rg_delete g) = None) by (rewrite (pick_missing h_delete [] _ hs); [done|done|done|apply NoDup_nil_2|done..]).
  assert (P4 : pick t (rg_modify g) = None) by (rewrite (pick_missing h_modify [] _ hs); [done|done|done|apply NoDup_nil_2|done..]).
  assert (P5 : pick t (rg_moddn g) = None) by (rewrite (pick_missing h_moddn [] _ hs); [done|done|done|apply NoDup_nil_2|done..]).
  assert (P6 : pick t (rg_password g) = None) by (rewrite (pick_missing h_password [] _ hs); [done|done|done|apply NoDup_nil_2|done..]).
  assert (P7 : pick t (rg_search g) = Some default_search)
    by (rewrite (pick_missing h_search [([], default_search)] _ hs); [done|done|apply K|apply K'|done..]).
  clear H1 H2 H3 H4 H5 H6 H7 G1 G2 G3 G4 G5 G6 G7 K K' K0.
  destruct Ha as (Aadd & Abind & Adel & Amod & Amdn & Asea & Aext).
  unfold says. rewrite Hr. clear says r Hr. unfold dispatch.
  split; [|split].
  - intros Ht v d a Hk Hv Hd Htag. rewrite Ht. cbn [N.eqb Pos.eqb AddRequest BindRequest].
    unfold handle_bind. rewrite Hk, Hv, Hd. cbn [as_int as_str is_empty]. rewrite Htag. cbn [N.eqb negb].
    change (3 =? 3)%Z with true. cbn [negb]. unfold mux. cbn [h_bind]. rewrite P2. unfold default_bind.
    change (InvalidCredentials =? Success)%N with false. unfold send_final. by rewrite Hsend.
  - intros Ht q Hq Hf. rewrite Ht.
    cbn [N.eqb Pos.eqb AddRequest BindRequest CompareRequest DelRequest ExtendedRequest ModifyDNRequest ModifyRequest SearchRequest].
    assert (handle_search cfg (mux g) ev bound req s = ([], HRet None, s)) as ->.
    { unfold handle_search. rewrite Hq. unfold mux. cbn [h_search]. rewrite (Asea Ht q Hq), P7. unfold default_search.
      cbn [f_err f_entries]. destruct (sv_enforce cfg) eqn:Ee; [|done].
      destruct (compile_filter (sr_filter q)); [done|]. by destruct (Hf eq_refl). }
    unfold send_final. by rewrite Hsend.
  - intros Hb. assert (Hbe : is_empty bound = false) by by destruct bound.
    repeat split; intros Ht.
    + intros q Hq. rewrite Ht. change (AddRequest =? AddRequest)%N with true. cbn [N.eqb Pos.eqb].
      unfold handle_add. rewrite Hbe, Hq. cbn [lift_res]. unfold mux. cbn [h_add]. rewrite (Aadd Ht q Hq), P1.
      unfold unsupported, finish, send_final. by rewrite Hsend.
    + intros q Hq. rewrite Ht. cbn [N.eqb Pos.eqb AddRequest BindRequest CompareRequest DelRequest].
      unfold handle_delete. rewrite Hbe, Hq. cbn [lift_res]. unfold mux. cbn [h_delete]. rewrite (Adel Ht q Hq), P3.
      unfold unsupported, finish, send_final. by rewrite Hsend.
    + intros q Hq. rewrite Ht.
      cbn [N.eqb Pos.eqb AddRequest BindRequest CompareRequest DelRequest ExtendedRequest ModifyDNRequest ModifyRequest].
      unfold handle_modify. rewrite Hbe, Hq. cbn [lift_res]. unfold mux. cbn [h_modify]. rewrite (Amod Ht q Hq), P4.
      unfold unsupported, finish, send_final. by rewrite Hsend.
    + intros q Hq. rewrite Ht.
      cbn [N.eqb Pos.eqb AddRequest BindRequest CompareRequest DelRequest ExtendedRequest ModifyDNRequest].
      unfold handle_moddn. rewrite Hbe, Hq. cbn [lift_res]. unfold mux. cbn [h_moddn]. rewrite (Amdn Ht q Hq), P5.
      unfold unsupported, finish, send_final. by rewrite Hsend.
    + intros body q Hx Hq Hnew [hash Hh]. rewrite Ht.
      cbn [N.eqb Pos.eqb AddRequest BindRequest CompareRequest DelRequest ExtendedRequest].
      unfold handle_extended. rewrite Hx, seqb_refl. unfold handle_pwmod. rewrite Hbe, Hq.
      assert (is_empty (pw_new q) = false) as -> by by destruct (pw_new q).
      assert (hash_password (pw_new q) (B "{ARGON2}") (re_salt ev) = Ok (B "{ARGON2}" ++ hash)) as ->
        by (unfold hash_password; rewrite Hh; done).
      unfold mux. cbn [h_password pw_user]. rewrite (Aext Ht pwmod_oid body q Hx Hq), P6. unfold unsupported.
      change (UnwillingToPerform =? Success)%N with false. cbn [andb negb]. unfold send_final. by rewrite Hsend.
Qed.
Print Assumptions C86_unserved.

(** With the one handler that Serve registers, under the empty suffix, the server
    is the one that has only this handler (the server of C34 to C40, C85 ...). *)
Theorem C86_single (T : Text) (C : Crypto) (W : Wire) (S E : Type) (cfg : server_cfg) (h : handler S E) :
  (forall ev bound p s, handle cfg (mux (serve_registry h)) ev bound p s = handle cfg h ev bound p s) /\
  (forall w es, run cfg (mux (serve_registry h)) w es = run cfg h w es).
Proof.
  assert (H : forall t, agree (mux (serve_registry h)) h t).
  { intros t. assert (K : forall X (f : X), pick t [(@nil ascii, f)] = Some f).
    { intros X f. apply (pick_specific t _ []); [apply NoDup_singleton|by left|]. split; [by left|]. split; [exists t; by rewrite app_nil_r|].
      by intros m [<-|[]]. }
    unfold agree, serve_registry, register, new_registry, assign, mux.
    cbn [h_add h_bind h_delete h_modify h_moddn h_password h_search rg_add rg_bind rg_delete rg_modify rg_moddn rg_password rg_search
         List.filter fst seqb negb].
    repeat split; intros; subst; by rewrite K. }
  split; [intros; by apply handle_same|intros; by apply run_same].
Qed.
Print Assumptions C86_single.

(** A server without handlers binds nobody and changes nothing. *)
Theorem C86_empty (T : Text) (C : Crypto) (W : Wire) (S E : Type) (cfg : server_cfg) (s : S)
    (es : list (event (E:=E))) :
  let w := run cfg (mux new_registry) (start s) es in
  w_state w = s /\ forall k b, w_conns w !! k = Some b -> b = [].
Proof.
  cbv zeta. assert (K : forall t X (f : X), pick t [(@nil ascii, f)] = Some f).
  { intros t X f. apply (pick_specific t _ []); [apply NoDup_singleton|by left|]. split; [by left|]. split; [exists t; by rewrite app_nil_r|].
    by intros m [<-|[]]. }
  assert (Hb : forall (ev : E) dn pw (s0 : S), h_bind (mux new_registry) ev dn pw s0 = (HRet (InvalidCredentials, false), s0)) by
    (intros ev dn pw s0; unfold mux, new_registry, assign; cbn [h_bind rg_bind List.filter]; by rewrite (K dn)).
  assert (Hs : forall (ev : E) b r (s0 : S), h_search (mux new_registry) ev b r s0 = (HRet (mkFound [] Success false), s0)) by
    (intros ev b r s0; unfold mux, new_registry, assign; cbn [h_search rg_search List.filter]; by rewrite (K (sr_base r))).
  generalize dependent (mux (@new_registry S E)). intros h Hb Hs.
  assert (Hn : forall ev p s0 b, r_next (handle cfg h ev [] p s0) = Go b -> b = []).
  { intros ev p s0 b H. destruct (decide (b = [])) as [?|Hne]; [done|].
    apply handle_identity in H as (dn & pw & _ & _ & s' & H); [|done]. by rewrite Hb in H. }
  assert (Hst : forall ev p s0, r_state (handle cfg h ev [] p s0) = s0).
  { intros ev p s0. unfold handle. destruct (p_kids p) as [|i [|req rest]]; [done..|].
    destruct (as_int (p_val i)) as [id|]; [|done]. destruct (negb _); [done|]. destruct (match rest with [] => _ | _ => _ end); [|done].
    assert (Hfin : forall k pre x nx, r_state (send_final ev k pre x nx s0) = s0) by (intros; unfold send_final; by destruct (re_send ev k)).
    unfold dispatch.
    destruct (p_tag req =? AddRequest)%N; [apply Hfin|].
    destruct (p_tag req =? BindRequest)%N.
    { assert (exists o, handle_bind h ev req s0 = (o, s0)) as [o ->].
      { unfold handle_bind. destruct (p_kids req) as [|v [|d [|a rest']]]; [by eexists|..];
          (destruct (as_int (p_val v)); [|by eexists]; destruct (negb _); [by eexists|]); [by eexists|..];
          (destruct (as_str (p_val d)); [|by eexists]); [by eexists|].
        destruct (negb _); [by eexists|]. destruct (negb _); [by eexists|]. rewrite Hb. by eexists. }
      destruct o as [code| |]; [|done..]. destruct (code =? Success)%N; [|apply Hfin].
      destruct (p_kids req) as [|? [|d ?]]; [done..|]. destruct (as_str (p_val d)) as [n|]; [|done].
      destruct (parse_normalize n); [apply Hfin|done]. }
    destruct (p_tag req =? CompareRequest)%N; [apply Hfin|].
    destruct (p_tag req =? DelRequest)%N; [apply Hfin|].
    destruct (p_tag req =? ExtendedRequest)%N.
    { unfold handle_extended. destruct (parse_extended req) as [[oid body]|x| |]; [|apply Hfin|done..].
      destruct (seqb oid pwmod_oid); [|apply Hfin]. unfold handle_pwmod. cbn [is_empty]. apply Hfin. }
    destruct (p_tag req =? ModifyDNRequest)%N; [apply Hfin|].
    destruct (p_tag req =? ModifyRequest)%N; [apply Hfin|].
    destruct (p_tag req =? SearchRequest)%N; [|done].
    assert (exists es' o, handle_search cfg h ev [] req s0 = (es', o, s0)) as (es' & o & ->).
    { unfold handle_search. destruct (parse_search req) as [r|x| |]; [|by do 2 eexists..]. rewrite Hs. cbn [f_err f_entries search_loop].
      destruct (sv_enforce cfg); [destruct (compile_filter (sr_filter r))|]; by do 2 eexists. }
    destruct o; [apply Hfin|done..]. }
  assert (Hw : forall w, w_state w = s /\ (forall k b, w_conns w !! k = Some b -> b = []) ->
    w_state (run cfg h w es) = s /\ forall k b, w_conns (run cfg h w es) !! k = Some b -> b = []).
  { induction es as [|e es IH]; intros w Hw; [done|]. cbn [run]. apply IH. destruct Hw as [Hw1 Hw2]. unfold step.
    destruct (negb (w_alive w)); [done|]. destruct e as [k|k ev p|k].
    - destruct (w_conns w !! k) eqn:Ek; [done|]. split; [done|]. cbn [fst w_conns]. intros j b. destruct (decide (j = k)) as [->|Hj].
      + rewrite lookup_insert. by intros [= <-].
      + rewrite lookup_insert_ne by done. apply Hw2.
    - destruct (w_conns w !! k) as [b0|] eqn:Ek; [|done]. rewrite (Hw2 k b0 Ek). cbn [fst].
      pose proof (Hn ev p (w_state w)) as Hn'. pose proof (Hst ev p (w_state w)) as Hst'.
      destruct (r_next (handle cfg h ev [] p (w_state w))) as [b'| |]; cbn [w_state w_conns]; (split; [by rewrite Hst'|]); intros j b.
      + destruct (decide (j = k)) as [->|Hj]; [rewrite lookup_insert; intros [= <-]; by apply Hn'|].
        rewrite lookup_insert_ne by done. apply Hw2.
      + intros [_ H]%lookup_delete_Some. by apply (Hw2 j).
      + by rewrite lookup_empty.
    - split; [done|]. cbn [fst w_conns]. intros j b [_ H]%lookup_delete_Some. by apply (Hw2 j). }
  apply Hw. split; [done|]. intros k b. cbn [start w_conns]. by rewrite lookup_empty.
Qed.
Print Assumptions C86_empty.

(** The hypotheses can be met: the database for one suffix, a handler that says
    busy (51) to everything for a suffix below it, none for the rest. *)
Definition busy : handler db env := mkHandler
  (fun _ _ _ s => (HRet (51%N, true), s)) (fun _ _ _ s => (HRet (51%N, false), s))
  (fun _ _ _ s => (HRet (51%N, true), s)) (fun _ _ _ s => (HRet (51%N, true), s))
  (fun _ _ _ s => (HRet (51%N, true), s)) (fun _ _ _ s => (HRet (51%N, true), s))
  (fun _ _ _ s => (HRet (mkFound [] 51%N true), s)).
Definition hs1 : list (str * handler db env) :=
  [(B "o=base", bolt_handler (T:=ascii_text) (C:=toy) c1); (B "ou=groups,o=base", busy)].
Definition mux1 (p : packet) : list response :=
  r_out (handle (T:=ascii_text) (C:=toy) (W:=wire1) cfg1 (mux (registered hs1)) ev1 (bc_admin c1) p d1).
Lemma not_suffix (t m : string) : has_suffix (B t) (B m) = false -> ~ exists front, B t = front ++ B m.
Proof. intros H Hf. apply suffix_iff in Hf. congruence. Qed.
Example C86_case :
  NoDup (map fst hs1) /\ ~ In [] (map fst hs1) /\
  most_specific (B "uid=carl,ou=people,o=base") (map fst hs1) (B "o=base") /\
  most_specific (B "cn=x,ou=groups,o=base") (map fst hs1) (B "ou=groups,o=base") /\
  (forall m, In m (map fst hs1) -> ~ exists front, B "uid=a,o=other" = front ++ m) /\
  (forall i req rest, p_kids (p_del 1 "uid=carl,ou=people,o=base") = i :: req :: rest ->
     aims (T:=ascii_text) (W:=wire1) (bc_admin c1) req (B "uid=carl,ou=people,o=base")) /\
  mux1 (p_del 1 "uid=carl,ou=people,o=base") = [RFinal 1 DelResponse Success None] /\
  mux1 (p_del 2 "cn=x,ou=groups,o=base") = [RFinal 2 DelResponse 51 None] /\
  mux1 (p_del 3 "uid=a,o=other") = [RFinal 3 DelResponse UnwillingToPerform None] /\
  mux1 (p_bind 4 "uid=a,o=other" "x") = [RFinal 4 BindResponse InvalidCredentials None] /\
  mux1 (p_search 5 "o=other" 2) = [RFinal 5 SearchResultDone Success None].
Proof.
  split; [apply NoDup_cons; split; [by apply not_elem_of_cons; split; [|apply not_elem_of_nil]|apply NoDup_singleton]|].
  split; [by intros [?|[?|[]]]|].
  split; [split; [by left|]; split; [by exists (B "uid=carl,ou=people,")|];
    intros m [<-|[<-|[]]] Hne Hs; [done|by apply (not_suffix "uid=carl,ou=people,o=base" "ou=groups,o=base") in Hs]|].
  split; [split; [by right; left|]; split; [by exists (B "cn=x,")|];
    intros m [<-|[<-|[]]] Hne Hs; [vm_compute; lia|done]|].
  split; [intros m [<-|[<-|[]]]; by apply not_suffix|].
  split; [intros i req rest [= <- <- <-]; repeat split; try done; intros _ n Hn; vm_compute in Hn; injection Hn as <-; reflexivity|].
  split; [vm_compute; reflexivity|]. split; [vm_compute; reflexivity|]. split; [vm_compute; reflexivity|].
  split; vm_compute; reflexivity.
Qed.

(** The suffixes are compared with the name as it is written: another spelling of
    the same name goes to another handler ... *)
Theorem C86_spelling_refuted : exists (T : Text) (C : Crypto) (W : Wire) (S E : Type) (cfg : server_cfg)
    (hs : list (str * handler S E)) (ev : renv E) (bound : str) (p q : packet) (t t' : str) (s : S),
  TextOK T /\ simple_bind p t (B "secret") /\ simple_bind q t' (B "secret") /\
  parse_normalize t = parse_normalize t' /\ parse_normalize t <> None /\
  r_out (handle cfg (mux (registered hs)) ev bound p s) = [RFinal 1 BindResponse Success None] /\
  r_out (handle cfg (mux (registered hs)) ev bound q s) = [RFinal 1 BindResponse InvalidCredentials None].
Proof.
  exists ascii_text, toy, wire1, db, env, cfg1, hs1, ev1, [], (p_bind 1 "uid=ada,ou=people,o=base" "secret"),
    (p_bind 1 "uid=ada,ou=people,O=Base" "secret"), (B "uid=ada,ou=people,o=base"), (B "uid=ada,ou=people,O=Base"), d1.
  split; [exact ascii_text_ok|].
  split; [unfold simple_bind; do 5 eexists; split; [do 2 eexists; done|done]|].
  split; [unfold simple_bind; do 5 eexists; split; [do 2 eexists; done|done]|].
  split; [vm_compute; reflexivity|]. split; [vm_compute; discriminate|]. split; vm_compute; reflexivity.
Qed.
Print Assumptions C86_spelling_refuted.
(** ... and so does a name that only ends like the suffix. *)
Theorem C86_boundary_refuted : exists (T : Text) (n t : str) (a b : dn) (hs : list (str * handler unit unit)) (h : handler unit unit),
  TextOK T /\ In (n, h) hs /\ NoDup (map fst hs) /\
  parse_dn n = Some a /\ parse_dn t = Some b /\ ~ suffix a b /\
  forall ev bound s, h_delete (mux (registered hs)) ev bound t s = h_delete h ev bound t s /\
    h_delete h ev bound t s <> unsupported s.
Proof.
  pose (h := mkHandler (S:=unit) (E:=unit)
  (fun _ _ _ s => (HRet (51%N, true), s)) (fun _ _ _ s => (HRet (51%N, false), s))
  (fun _ _ _ s => (HRet (51%N, true), s)) (fun _ _ _ s => (HRet (51%N, true), s))
  (fun _ _ _ s => (HRet (51%N, true), s)) (fun _ _ _ s => (HRet (51%N, true), s))
  (fun _ _ _ s => (HRet (mkFound [] 51%N true), s))).
  exists ascii_text, (B "o=base"), (B "uid=a,foo=base"), [[(B "o", B "base")]], [[(B "uid", B "a")]; [(B "foo", B "base")]],
    [(B "o=base", h)], h.
  split; [exact ascii_text_ok|]. split; [by left|]. split; [apply NoDup_singleton|].
  split; [vm_compute; reflexivity|]. split; [vm_compute; reflexivity|].
  split; [intros [k Hk]; destruct k as [|x [|y [|z k]]]; try discriminate Hk; by vm_compute in Hk|].
  intros ev bound s. split; [vm_compute; reflexivity|vm_compute; discriminate].
Qed.
Print Assumptions C86_boundary_refuted.
