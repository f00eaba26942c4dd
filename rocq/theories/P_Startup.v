(** Properties C76 and C77: starting the server, and the load command. *)
From Verif Require Import Bytes Text Dn DnProofs Res Entry EntryProofs Password Db DbSpec IdProofs DbProofs DbOps DbSearch DbFacts DbMore
  PasswordProofs P_Password P_Db Packet Filter Handler Server Ldif P_E2e Startup.

(** * C76 *)
(** What is served: the LDIF handler, with the overlay if its file is configured
    and without filtering by the frontend, or the database with it. *)
Theorem C76_served (T : Text) attrs main extra stored (c : config) (cfg : server_cfg) (b : backend) :
  new_server attrs main extra stored c = Some (cfg, b) <->
  cf_base c <> [] /\
  exists base admin, parse_dn (cf_base c) = Some base /\ parse_dn (cf_admin c) = Some admin /\
  (cf_handler c = B "ldif" /\ cf_ldif_main c <> [] /\ cfg = mkServer false 16 /\
     eqfold (cf_base c) (normalize base) = true /\
     (let lc := mkLdif (normalize base) (cf_anon c) attrs in
     exists records d, main = Some records /\ build attrs records = Some d /\
     (cf_ldif_config c = [] /\ b = BLdif lc d \/
      cf_ldif_config c <> [] /\ eqfold (cf_base c) (to_lower (cf_base c)) = true /\
      exists others o, extra = Some others /\ build [] others = Some o /\ b = BOverlay (to_lower (cf_base c)) lc o d)) \/
   cf_handler c = B "boltdb" /\ cf_boltfile c <> [] /\ cfg = mkServer true 16 /\
     exists d, stored = Some d /\
     b = BBolt (mkCfg (normalize base) (normalize admin) (cf_anon c)) (default [] (parse_normalize (normalize base))) d).
Proof.
  unfold new_server, ldif_new, bolt_new, parse_normalize, ldif_open, db_base.
  destruct (cf_base c) as [|x l] eqn:Eb; cbn [is_empty].
  { split; [|by intros [? _]]. destruct (seqb (cf_handler c) (B "ldif")); [by destruct (is_empty (cf_ldif_main c))|].
    destruct (seqb (cf_handler c) (B "boltdb")); [|done]. by destruct (is_empty (cf_boltfile c)). }
  set (bs := x :: l). assert (Hbs : bs <> []) by done. clearbody bs. clear x l Eb.
  destruct (parse_dn bs) as [base|]; cbn [fmap option_fmap option_map]; cycle 1.
  { split; [|by intros (_ & ? & ? & ? & _)]. destruct (seqb (cf_handler c) (B "ldif")); [by destruct (is_empty (cf_ldif_main c))|].
    destruct (seqb (cf_handler c) (B "boltdb")); [|done]. by destruct (is_empty (cf_boltfile c)). }
  destruct (parse_dn (cf_admin c)) as [admin|]; cbn [fmap option_fmap option_map]; cycle 1.
  { split; [|by intros (_ & ? & ? & _ & ? & _)]. destruct (seqb (cf_handler c) (B "ldif")); [by destruct (is_empty (cf_ldif_main c))|].
    destruct (seqb (cf_handler c) (B "boltdb")); [|done]. by destruct (is_empty (cf_boltfile c)). }
  destruct (seqb (cf_handler c) (B "ldif")) eqn:El.
  - apply seqb_eq in El. destruct (is_empty (cf_ldif_main c)) eqn:Em.
    { apply is_empty_true in Em. split; [done|]. intros (_ & b1 & a1 & _ & _ & [(_ & ? & _)|(Hh & _)]); [done|].
      by rewrite El in Hh. }
    apply is_empty_false in Em. split.
    + destruct (eqfold bs (normalize base)) eqn:Ef; [|done]. cbn [mbind option_bind].
      destruct main as [records|]; [|done]. cbn [mbind option_bind].
      destruct (build attrs records) as [d|] eqn:Ed; [|done]. cbn [mbind option_bind].
      destruct (is_empty (cf_ldif_config c)) eqn:Ec.
      * apply is_empty_true in Ec. intros [= <- <-]. split; [done|]. exists base, admin. do 2 (split; [done|]). left.
        repeat (split; [done|]). exists records, d. repeat (split; [done|]). left. done.
      * apply is_empty_false in Ec. destruct (eqfold bs (to_lower bs)) eqn:Ef2; [|done].
        destruct extra as [others|]; [|done]. cbn [mbind option_bind]. destruct (build [] others) as [o|] eqn:Eo; [|done].
        cbn [mbind option_bind]. intros [= <- <-]. split; [done|]. exists base, admin. do 2 (split; [done|]). left.
        repeat (split; [done|]). exists records, d. repeat (split; [done|]). right. repeat (split; [done|]).
        by exists others, o.
    + intros (_ & b1 & a1 & [= <-] & [= <-] & [(_ & _ & -> & He & records & d & -> & Hd & H)|(Hh & _)]); [|by rewrite El in Hh].
      rewrite He. cbn [mbind option_bind]. rewrite Hd. cbn [mbind option_bind].
      destruct H as [[-> ->]|(Hc & Hf & others & o & -> & Ho & ->)]; [done|].
      rewrite (proj2 (is_empty_false _) Hc), Hf. cbn [mbind option_bind]. by rewrite Ho.
  - apply seqb_neq in El. destruct (seqb (cf_handler c) (B "boltdb")) eqn:Eh.
    + apply seqb_eq in Eh. destruct (is_empty (cf_boltfile c)) eqn:Em.
      { apply is_empty_true in Em. split; [done|]. by intros (_ & b1 & a1 & _ & _ & [(? & _)|(_ & ? & _)]). }
      apply is_empty_false in Em. cbn [mbind option_bind]. split.
      * destruct stored as [d|]; [|done]. cbn. intros [= <- <-]. split; [done|]. exists base, admin.
        do 2 (split; [done|]). right. repeat (split; [done|]). by exists d.
      * intros (_ & b1 & a1 & [= <-] & [= <-] & [(? & _)|(_ & _ & -> & d & -> & ->)]); done.
    + apply seqb_neq in Eh. split; [done|]. by intros (_ & b1 & a1 & _ & _ & [(? & _)|(? & _)]).
Qed.
Print Assumptions C76_served.
(** The database and its handler agree on the base, if its last value does not end
    in a space. *)
Theorem C76_base (T : Text) (HT : TextOK T) attrs main extra stored (c : config) cfg bc base d (b : dn) :
  parse_dn (cf_base c) = Some b -> wf_dn b = true -> last_ok (fold_dn b) = true ->
  new_server attrs main extra stored c = Some (cfg, BBolt bc base d) ->
  base = bc_base bc /\ parse_dn base = Some (fold_dn b).
Proof.
  intros Hp Hwf Hl H. apply C76_served in H as (_ & b' & a & Hp' & _ & H). rewrite Hp in Hp'. injection Hp' as <-.
  destruct (normalise_stable HT _ _ (normalize b) Hp Hwf Hl) as [H1 H2]; [unfold parse_normalize; by rewrite Hp|].
  destruct H as [(_ & _ & _ & _ & records & d' & _ & _ & [[_ ?]|(_ & _ & ? & ? & _ & _ & ?)])|(_ & _ & _ & d' & _ & [= -> -> ->])]; [done|done|].
  rewrite H2. done.
Qed.
Print Assumptions C76_base.
(** An empty base, or one that does not parse, and an administrator that does not
    parse are errors. *)
Theorem C76_refused (T : Text) attrs main extra stored (c : config) :
  cf_base c = [] \/ parse_dn (cf_base c) = None \/ parse_dn (cf_admin c) = None \/
  cf_handler c <> B "ldif" /\ cf_handler c <> B "boltdb" ->
  new_server attrs main extra stored c = None.
Proof.
  intros H. destruct (new_server attrs main extra stored c) as [[cfg b]|] eqn:E; [|done]. exfalso.
  apply C76_served in E as (H1 & b1 & a & H2 & H3 & H4).
  destruct H as [?|[?|[?|[N1 N2]]]]; [done|congruence|congruence|].
  destruct H4 as [(? & _)|(? & _)]; done.
Qed.
Print Assumptions C76_refused.
(** A flag goes before the environment, the environment before what is built in;
    an empty variable counts as none. *)
Theorem C76_setting (builtin : str) (env flag : option str) :
  (forall v, flag = Some v -> setting builtin env flag = v) /\
  (flag = None -> forall v, env = Some v -> v <> [] -> setting builtin env flag = v) /\
  (flag = None -> env = None \/ env = Some [] -> setting builtin env flag = builtin).
Proof.
  unfold setting. split; [by intros v ->|]. split.
  - intros -> v -> Hv. by destruct v.
  - by intros -> [->| ->].
Qed.
Print Assumptions C76_setting.
(** LDAPS needs certificate and key. *)
Theorem C76_tls (c : config) :
  tls_ok c = true <-> cf_listen_tls c = [] \/ cf_cert c <> [] /\ cf_key c <> [].
Proof.
  unfold tls_ok. rewrite orb_true_iff, andb_true_iff, !negb_true_iff, is_empty_true, !is_empty_false. done.
Qed.
Print Assumptions C76_tls.
Definition conf (h base admin : str) : config :=
  mkConfig h (B "127.0.0.1:10389") [] [] [] base admin false (B "idmbolt.db") (B "main.ldif") [].
Definition start_ (c : config) := new_server (T:=ascii_text) [] (Some [Some e_base]) None (Some empty_db) c.
Example C76_case :
  start_ (conf (B "boltdb") (B "DC=Example, DC=org") (B "cn=Admin,dc=example,dc=org")) =
    Some (mkServer true 16, BBolt (mkCfg (B "dc=example,dc=org") (B "cn=admin,dc=example,dc=org") false) (B "dc=example,dc=org") empty_db) /\
  (exists d, start_ (conf (B "ldif") (B "DC=Example,DC=org") []) = Some (mkServer false 16, BLdif (mkLdif (B "dc=example,dc=org") false []) d)) /\
  start_ (conf (B "ldap") (B "o=base") []) = None /\
  (setting (B "dc=lg,dc=local") (Some (B "")) None, setting (B "dc=lg,dc=local") (Some (B "o=env")) None,
   setting (B "dc=lg,dc=local") (Some (B "o=env")) (Some (B "o=flag"))) = (B "dc=lg,dc=local", B "o=env", B "o=flag").
Proof. split; [vm_compute; reflexivity|]. split; [eexists; vm_compute; reflexivity|]. split; vm_compute; reflexivity. Qed.
(** The two handlers do not take the same names: one written with a blank is fine
    for the database and an error for LDIF. *)
Theorem C76_spelling_refuted : exists base b,
  parse_dn (T:=ascii_text) base = Some b /\
  start_ (conf (B "ldif") base []) = None /\ start_ (conf (B "boltdb") base []) <> None.
Proof. exists (B "dc=example, dc=org"). eexists. vm_compute. repeat split. discriminate. Qed.
Print Assumptions C76_spelling_refuted.
(** A base ending in a space leaves the database without base, and without
    complaint. *)
Theorem C76_space_refuted : exists base bc,
  start_ (conf (B "boltdb") base []) = Some (mkServer true 16, BBolt bc [] empty_db) /\ bc_base bc <> [].
Proof. exists (B "o=a\20"), (mkCfg (B "o=a\ ") [] false). vm_compute. split; [reflexivity|discriminate]. Qed.
Print Assumptions C76_space_refuted.

(** * C77 *)
(** Entries added one after the other, none of them there before. *)
Inductive adds {T : Text} : dir -> list entry -> dir -> Prop :=
| adds_nil m : adds m [] m
| adds_cons m e d es m' : parse_dn (e_dn e) = Some d -> m !! fold_dn d = None ->
    adds (<[fold_dn d := e]> m) es m' -> adds m (e :: es) m'.
Lemma adds_keeps {T : Text} m es m' : adds m es m' -> m ⊆ m'.
Proof.
  induction 1 as [m|m e d es m' Hp Hn _ IH]; [done|]. etrans; [|exact IH]. by apply insert_subseteq.
Qed.
Lemma put_spec {T : Text} b e m m' : spec_op (C:=toy) b (OpPut e) m = Ok m' ->
  exists d, parse_dn (e_dn e) = Some d /\ m !! fold_dn d = None /\ m' = <[fold_dn d := e]> m.
Proof.
  cbn [spec_op]. destruct (parse_dn (e_dn e)) as [[|x p]|]; [done| |done]. unfold spec_put.
  destruct (negb (has_suffix _ _)); [done|]. destruct (bool_decide (is_Some _)) eqn:E1; [done|].
  destruct (negb _ && _); [done|]. destruct (negb (name_fits _)); [done|]. intros [= <-].
  exists (x :: p). apply bool_decide_eq_false in E1. split; [done|]. split; [|done].
  destruct (m !! fold_dn (x :: p)); [|done]. destruct E1. by eexists.
Qed.
(** Loading adds a first part of the file, all of it exactly if the command
    succeeds; what was in the database before stays as it was. *)
Theorem C77_load (T : Text) (C : Crypto) (HT : TextOK T) (b : dn) (base : str) (h : list (env * op)) (es : list entry) (m : dir) :
  base_ok b -> parse_dn base = Some b ->
  Forall (fun p => op_ok p.2) h -> Forall (fun e => dn_text_ok (e_dn e)) es ->
  (N.of_nat (length h + length es) + 1 < 2 ^ 64)%N ->
  let d := run_ops (normalize b) h empty_db in
  represents d m ->
  exists n m', n <= length es /\ adds m (take n es) m' /\ m ⊆ m' /\
    represents (load_cmd base (Some es) d).2 m' /\
    ((load_cmd base (Some es) d).1 = true <-> n = length es).
Proof.
  intros Hb Hpb Hh Hes Hlen d Hm.
  assert (Hbase : db_base base = normalize b) by (unfold db_base, parse_normalize; by rewrite Hpb).
  assert (G : exists n m', n <= length es /\ adds m (take n es) m' /\ represents (load_cmd base (Some es) d).2 m' /\
    ((load_cmd base (Some es) d).1 = true <-> n = length es)).
  { unfold load_cmd. rewrite Hbase. unfold d in *. clear d Hbase Hpb. revert h m Hh Hlen Hm.
    induction Hes as [|e es He _ IH]; intros h m Hh Hlen Hm.
    - exists 0, m. split; [done|]. split; [constructor|]. done.
    - set (d := run_ops (normalize b) h empty_db) in *.
      assert (Hr : reachable b d) by (exists h; split; [done|]; split; [cbn [length] in Hlen; lia|done]).
      pose proof (C13_database_refines_directory T C HT b d m (OpPut e) Hb Hr Hm He) as H.
      cbn [load_db].
      destruct (spec_op b (OpPut e) m) as [m1|err| |] eqn:Es; [| | |done].
      + destruct H as (d1 & Hrun & Hm1). rewrite Hrun.
        destruct (IH (h ++ [(no_faults, OpPut e)]) m1) as (n & m' & Hn & Ha & Hrep & Hok).
        * apply Forall_app. split; [done|]. by repeat constructor.
        * rewrite app_length. cbn [length] in *. lia.
        * rewrite run_ops_app. cbn [run_ops]. fold d. by rewrite Hrun.
        * rewrite run_ops_app in Hrep, Hok. cbn [run_ops] in Hrep, Hok. fold d in Hrep, Hok. rewrite Hrun in Hrep, Hok. cbn [snd] in Hrep, Hok.
          exists (S n), m'. split; [cbn [length]; lia|]. split; [|split; [done|rewrite Hok; cbn [length]; lia]].
          destruct (put_spec b e m m1 Es) as (dd & H1 & H2 & ->). by eapply adds_cons.
      + rewrite H. exists 0, m. split; [lia|]. split; [constructor|]. split; [done|]. split; [done|]. cbn [length]. lia.
      + rewrite H. exists 0, m. split; [lia|]. split; [constructor|]. split; [done|]. split; [done|]. cbn [length]. lia. }
  destruct G as (n & m' & ? & Ha & ? & ?). exists n, m'. split; [done|]. split; [done|]. split; [by eapply adds_keeps|done].
Qed.
Print Assumptions C77_load.
(** In particular an entry that is there already is not overwritten: the command
    fails. *)
Theorem C77_not_overwritten (T : Text) (C : Crypto) (HT : TextOK T) (b : dn) (base : str) (h : list (env * op)) (es : list entry)
    (m : dir) (e : entry) (dd : dn) :
  base_ok b -> parse_dn base = Some b ->
  Forall (fun p => op_ok p.2) h -> Forall (fun e => dn_text_ok (e_dn e)) es ->
  (N.of_nat (length h + length es) + 1 < 2 ^ 64)%N ->
  let d := run_ops (normalize b) h empty_db in
  represents d m -> In e es -> parse_dn (e_dn e) = Some dd -> is_Some (m !! fold_dn dd) ->
  (load_cmd base (Some es) d).1 = false.
Proof.
  intros Hb Hpb Hh Hes Hlen d Hm He Hp Hin.
  destruct (C77_load T C HT b base h es m Hb Hpb Hh Hes Hlen Hm) as (n & m' & Hn & Ha & _ & _ & Hok).
  apply not_true_iff_false. intros Ht. apply Hok in Ht as ->. rewrite firstn_all in Ha.
  clear -Ha He Hp Hin. induction Ha as [m|m x d es m' Hx Hn Ha IH]; [done|]. destruct He as [->|He].
  - rewrite Hp in Hx. injection Hx as <-. rewrite Hn in Hin. by destruct Hin.
  - apply IH; [done|]. destruct (decide (fold_dn d = fold_dn dd)) as [->|Hne]; [rewrite lookup_insert; by eexists|].
    by rewrite lookup_insert_ne.
Qed.
Print Assumptions C77_not_overwritten.
(** A file that cannot be parsed changes nothing. *)
Theorem C77_unreadable (T : Text) (C : Crypto) (base : str) (d : db) : load_cmd base None d = (false, d).
Proof. done. Qed.
Print Assumptions C77_unreadable.
Example C77_case :
  let e := ent "cn=eve,ou=people,o=base" [("cn", "eve")]%string in
  let load es := load_cmd (T:=ascii_text) (C:=toy) (B "O=Base") (Some es) d0 in
  (load [e; e_base]).1 = false /\
  search (T:=ascii_text) (load [e; e_base]).2 (B "cn=eve,ou=people,o=base") 0 = Ok ([e], None) /\
  (load [e]).1 = true /\ (load [e_base; e]).1 = false /\
  search (T:=ascii_text) (load [e_base; e]).2 (B "cn=eve,ou=people,o=base") 0 = Ok ([], Some ENotFound).
Proof. repeat split; vm_compute; reflexivity. Qed.
(** A base that does not parse is not reported; every entry is then refused. *)
Theorem C77_bad_base_refuted : exists base,
  parse_dn (T:=ascii_text) base = None /\
  db_base (T:=ascii_text) base = [] /\
  (load_cmd (T:=ascii_text) (C:=toy) base (Some [e_base]) empty_db) = (false, empty_db).
Proof. exists (B "base"). repeat split; vm_compute; reflexivity. Qed.
Print Assumptions C77_bad_base_refuted.
