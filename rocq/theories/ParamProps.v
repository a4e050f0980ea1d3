(** ParamProps.v: C43, client parameter precedence *)
From Verif Require Import PyStr PyStrProof BaseProof PyDict PyDictProof IRIModel ParamModel ParamSpec ParamProof ParamProof2 ParamProof3.

(** normalize: the last item for a path gives its value, and nothing else appears *)
Theorem C43_normalize items : prefix_free (map fst items) -> exists d, normalize items = Ok d /\
  (forall p, In p (map fst items) -> get_path p d = last_of p items) /\
  (forall p, p <> [] -> (forall a r, In a (map fst items) -> a <> p ++ r) -> (forall a r, In a (map fst items) -> p <> a ++ r) -> get_path p d = None).
Proof. apply normalize_ok. Qed.
Print Assumptions C43_normalize.

(** a dictionary taken apart and put together again is the same *)
Theorem C43_denormalize_normalize d : proper d -> exists l, denormalize d = Ok l /\ normalize (pairs l) = Ok d.
Proof. apply denorm_normalize. Qed.
Print Assumptions C43_denormalize_normalize.

(** collect: options over the service over the environment over the given parameters over the defaults,
    separately for every parameter and every one of the settings *)
Theorem C43_precedence U join exists_file sections user userdir passfile prompt
    no_defaults parameters env prefix options sysconfdir service_file d : given parameters -> Forall option_item options ->
  collect U join exists_file sections user userdir passfile prompt no_defaults parameters env prefix options sysconfdir service_file = Ok d ->
  exists es los,
    (match service_named env prefix with
     | None => es = []
     | Some n => first_section exists_file sections (files_of join userdir env sysconfdir service_file) n = Some es
     end) /\
    mapM (option_pairs U) options = Ok los /\
    forall p, standard p -> ~ In (hd [] p) password_keys ->
      get_path p d =
        or_else (last_of p (concat los))
       (or_else (service_value U es p)
       (or_else (match env with Some e => env_value U e prefix p | None => None end)
       (or_else (get_path p parameters)
                (if no_defaults then None else default_value join exists_file user userdir p)))).
Proof.
  intros G F H. apply collect_value in H as (es & los & H1 & H2 & H3 & _); [|exact G|exact F]. exists es, los. split; [exact H1|]. split; [exact H2|exact H3].
Qed.
Print Assumptions C43_precedence.

(** the password: prompted for, else given (with the same precedence), else looked up in the password file *)
Theorem C43_password U join exists_file sections user userdir passfile prompt
    no_defaults parameters env prefix options sysconfdir service_file d : given parameters -> Forall option_item options ->
  collect U join exists_file sections user userdir passfile prompt no_defaults parameters env prefix options sysconfdir service_file = Ok d ->
  exists es los,
    (match service_named env prefix with
     | None => es = []
     | Some n => first_section exists_file sections (files_of join userdir env sysconfdir service_file) n = Some es
     end) /\
    mapM (option_pairs U) options = Ok los /\
    (let value k :=
       or_else (last_of [k] (concat los))
      (or_else (service_value U es [k])
      (or_else (match env with Some e => env_value U e prefix [k] | None => None end)
      (or_else (get_path [k] parameters)
               (if no_defaults then None else default_value join exists_file user userdir [k])))) in
     dget (str "prompt_password") d = None /\ dget (str "pgpassfile") d = None /\ dget (str "prompt_title") d = None /\
     (value (str "prompt_password") = Some (PBool true) -> dget (str "password") d = Some (PStr prompt)) /\
     (value (str "prompt_password") <> Some (PBool true) ->
        (forall v, value (str "password") = Some v -> v <> PNone -> dget (str "password") d = Some v) /\
        (value (str "password") = None \/ value (str "password") = Some PNone ->
           (forall f, value (str "pgpassfile") = Some f -> f <> PNone -> exists q w, passfile q f = Ok w /\ dget (str "password") d = Some w /\
              (forall k, k <> str "password" -> dget k q = dget k d)) /\
           (value (str "pgpassfile") = None \/ value (str "pgpassfile") = Some PNone -> dget (str "password") d = value (str "password"))))).
Proof.
  intros G F H. apply collect_value in H as (es & los & H1 & H2 & _ & dn & R & W); [|exact G|exact F]. exists es, los. split; [exact H1|]. split; [exact H2|].
  cbv beta zeta. unfold wanted in W.
  assert (V : forall k, k <> k_settings -> _) by exact (fun k K => W [k] (or_introl (ex_intro _ k (conj eq_refl K)))).
  rewrite <- (V (str "prompt_password")) by discriminate. rewrite <- (V (str "password")) by discriminate. rewrite <- (V (str "pgpassfile")) by discriminate. clear V W H1 H2. cbn [get_path].
  unfold resolve_password in R. cbv zeta in R.
  set (e := ddel (str "prompt_title") (ddel (str "pgpassfile") (ddel (str "prompt_password") dn))) in R.
  assert (E1 : dget (str "prompt_password") e = None) by (unfold e; rewrite !dget_del; reflexivity).
  assert (E2 : dget (str "pgpassfile") e = None) by (unfold e; rewrite !dget_del; reflexivity).
  assert (E3 : dget (str "prompt_title") e = None) by (unfold e; rewrite !dget_del; reflexivity).
  assert (E4 : dget (str "password") e = dget (str "password") dn) by (unfold e; rewrite !dget_del; reflexivity). clearbody e.
  assert (Q : forall v, dget (str "prompt_password") (dset (str "password") v e) = None /\ dget (str "pgpassfile") (dset (str "password") v e) = None /\
     dget (str "prompt_title") (dset (str "password") v e) = None) by (intros v; rewrite !dget_set; auto).
  destruct (match dget (str "prompt_password") dn with Some (PBool true) => true | _ => false end) eqn:PR.
  - assert (PP : dget (str "prompt_password") dn = Some (PBool true)) by (destruct (dget (str "prompt_password") dn) as [[| |[]| | | |]|]; try discriminate; reflexivity).
    apply Ok_inj in R. subst d. destruct (Q (PStr prompt)) as (Q1 & Q2 & Q3). split; [exact Q1|]. split; [exact Q2|]. split; [exact Q3|]. split; [intros _; apply dget_set_same|]. intros C. contradiction.
  - assert (PP : dget (str "prompt_password") dn <> Some (PBool true)) by (intros C; rewrite C in PR; discriminate).
    rewrite E4 in R.
    assert (GIVEN : forall v, dget (str "password") dn = Some v -> v <> PNone -> d = e).
    { intros v GV NV. rewrite GV in R. destruct v; try contradiction; apply Ok_inj in R; auto. }
    assert (LOOK : dget (str "password") dn = None \/ dget (str "password") dn = Some PNone ->
       (exists f w, dget (str "pgpassfile") dn = Some f /\ f <> PNone /\ passfile e f = Ok w /\ d = dset (str "password") w e) \/
       ((dget (str "pgpassfile") dn = None \/ dget (str "pgpassfile") dn = Some PNone) /\ d = e)).
    { intros [N|N]; rewrite N in R; (destruct (dget (str "pgpassfile") dn) as [f|]; [|right; apply Ok_inj in R; auto]);
        destruct f; try (right; apply Ok_inj in R; auto; fail); left; apply bind_Ok in R as (w & PW & R); apply Ok_inj in R; subst d; eexists; exists w; (split; [reflexivity|]; split; [discriminate|]; split; [exact PW|reflexivity]). }
    assert (SH : d = e \/ exists w, d = dset (str "password") w e).
    { destruct (dget (str "password") dn) as [v|] eqn:GP.
      - destruct v; try (left; eapply GIVEN; [reflexivity|discriminate]). destruct LOOK as [(f & w & _ & _ & _ & ->)|(_ & ->)]; [right; reflexivity|right; eauto|left; reflexivity].
      - destruct LOOK as [(f & w & _ & _ & _ & ->)|(_ & ->)]; [left; reflexivity|right; eauto|left; reflexivity]. }
    split; [destruct SH as [->|(w & ->)]; [exact E1|apply Q]|]. split; [destruct SH as [->|(w & ->)]; [exact E2|apply Q]|]. split; [destruct SH as [->|(w & ->)]; [exact E3|apply Q]|].
    split; [intros C; contradiction|]. intros _. split.
    + intros v GV NV. rewrite (GIVEN v GV NV). rewrite E4. exact GV.
    + intros N. destruct (LOOK N) as [(f & w & F1 & F2 & F3 & ->)|(F1 & ->)]; split.
      * intros f' F' _. rewrite F1 in F'. injection F' as <-. exists e, w. split; [exact F3|]. split; [apply dget_set_same|]. intros k K. now rewrite dget_set_other.
      * intros [C|C]; rewrite F1 in C; [discriminate|]. injection C as ->. contradiction.
      * intros f F' NF. destruct F1 as [F1|F1]; rewrite F1 in F'; [discriminate|]. injection F' as <-. contradiction.
      * intros _. exact E4.
Qed.
Print Assumptions C43_password.

(** collect gives a dictionary whenever the service asked for exists (and has no ldap entry), the IRIs among the
    options can be parsed, and the password file can be read *)
Theorem C43_total U join exists_file sections user userdir passfile prompt
    no_defaults parameters env prefix options sysconfdir service_file : given parameters -> Forall option_item options ->
  (forall n, service_named env prefix = Some n -> exists es, first_section exists_file sections (files_of join userdir env sysconfdir service_file) n = Some es /\
     forall e, In e es -> py_lower U (fst e) <> str "ldap") ->
  (exists los, mapM (option_pairs U) options = Ok los) -> (forall q f, exists w, passfile q f = Ok w) ->
  exists d, collect U join exists_file sections user userdir passfile prompt no_defaults parameters env prefix options sysconfdir service_file = Ok d.
Proof.
  intros G F SV (los & EL) PF.
  assert (X : exists es, match service_named env prefix with
    | None => es = []
    | Some n => first_section exists_file sections (files_of join userdir env sysconfdir service_file) n = Some es /\ (forall e, In e es -> py_lower U (fst e) <> str "ldap")
    end) by (destruct (service_named env prefix); [apply SV; reflexivity|eauto]).
  destruct X as (es & X). destruct (normalized U join exists_file sections user userdir no_defaults parameters env prefix options sysconfdir service_file es los G F X EL) as (items & dn & E1 & E2 & _).
  unfold collect. rewrite E1. cbn [bind]. rewrite E2. cbn [bind]. unfold resolve_password. cbv zeta.
  destruct (match dget (str "prompt_password") dn with Some (PBool true) => true | _ => false end); [eauto|].
  set (e := ddel _ _). destruct (dget (str "pgpassfile") dn) as [f|].
  - destruct (PF e f) as (w & PW). destruct (dget (str "password") e) as [[]|]; destruct f; try rewrite PW; cbn [bind]; eauto.
  - destruct (dget (str "password") e) as [[]|]; eauto.
Qed.
Print Assumptions C43_total.

(** an unknown service is an error, and so is one with an ldap entry *)
Theorem C43_no_service U join exists_file sections user userdir passfile prompt
    no_defaults parameters env prefix options sysconfdir service_file n : given parameters -> Forall option_item options ->
  service_named env prefix = Some n -> first_section exists_file sections (files_of join userdir env sysconfdir service_file) n = None ->
  forall d, collect U join exists_file sections user userdir passfile prompt no_defaults parameters env prefix options sysconfdir service_file <> Ok d.
Proof.
  intros G F SN FS d H. unfold collect in H. apply bind_Ok in H as (items & E & _). apply collect_items_spec in E as (ps & sv & los & _ & E & _); [|exact G|exact F].
  rewrite SN in E. destruct E as (es & E & _). rewrite FS in E. discriminate.
Qed.
Print Assumptions C43_no_service.

(** Refuted part: the documented mapping of PGTZ, PGDATESTYLE, PGCLIENTENCODING and PGGEQO to settings is not made.
    Whatever their values, collect gives the same result. *)
Theorem C43_settings_variables_refuted U join exists_file sections user userdir passfile prompt no_defaults parameters options sysconfdir service_file v env env' :
  v = str "PGTZ" \/ v = str "PGDATESTYLE" \/ v = str "PGCLIENTENCODING" \/ v = str "PGGEQO" \/ v = str "PGOPTIONS" ->
  (forall k, k <> v -> dget k env = dget k env') ->
  collect U join exists_file sections user userdir passfile prompt no_defaults parameters (Some env) (str "PG") options sysconfdir service_file =
  collect U join exists_file sections user userdir passfile prompt no_defaults parameters (Some env') (str "PG") options sysconfdir service_file.
Proof.
  intros V H. unfold collect, collect_items. replace (env_items U env (str "PG")) with (env_items U env' (str "PG")); [reflexivity|].
  unfold env_items. cbv zeta. unfold envvar_map. cbn [flat_map fst snd].
  repeat match goal with |- context [dget ?k env] => rewrite (H k) by (destruct V as [->|[->|[->|[->| ->]]]]; discriminate) end. reflexivity.
Qed.
Print Assumptions C43_settings_variables_refuted.
(** Refuted part: PGREQUIRESSL=1 is documented to mean sslmode = 'require', but gives a tuple. *)
Theorem C43_requiressl_refuted U : unicode_ok U -> forall join exists_file sections user userdir passfile prompt, exists env d,
  collect U join exists_file sections user userdir passfile prompt true [] (Some env) (str "PG") [] None None = Ok d /\
  dget (str "PGREQUIRESSL") env = Some (str "1") /\ dget (str "sslmode") d = Some (PList [str "require"; str "PGREQUIRESSL=1"]).
Proof.
  intros UO join exists_file sections user userdir passfile prompt. exists [(str "PGREQUIRESSL", str "1")], [(str "sslmode", PList [str "require"; str "PGREQUIRESSL=1"])].
  split; [|split; reflexivity]. unfold collect, collect_items. cbn [denormalize bind]. unfold env_items. cbv zeta.
  change (dget (str "PG" ++ str "REQUIRESSL") [(str "PGREQUIRESSL", str "1")]) with (Some (str "1")). cbv iota.
  assert (SP : py_strip U (str "1") = str "1").
  { unfold py_strip, strip_by, rstrip_by. assert (L : lstrip_by (u_space U) [49] = [49]) by (cbn [lstrip_by]; rewrite (uo_space U UO) by lia; reflexivity). change (str "1") with [49]. rewrite L. cbn [rev app]. rewrite L. reflexivity. }
  rewrite SP. reflexivity.
Qed.
Print Assumptions C43_requiressl_refuted.

(** examples: the hypotheses are met by a case with all the sources *)
Definition ex_join (a b : text) : text := a ++ str "/" ++ b.
Definition ex_exists (f : text) : bool := seqb f (str "/etc/pg/pg_service.conf") || seqb f (str "/home/bob/.pgpass").
Definition ex_sections (f : text) : list (text * list (text * text)) := [(str "prod", [(str "DBNAME", str "sales"); (str "hostaddr", str "10.0.0.9"); (str "work_mem", str "64MB")])].
Definition ex_params : cpd := [(str "user", PStr (str "alice")); (k_settings, PDict [(str "work_mem", PStr (str "1MB")); (str "search_path", PStr (str "public"))]); (str "port", PInt 6000)].
Definition ex_env : list (text * text) := [(str "PGHOST", str "a"); (str "PGHOSTADDR", str "10.0.0.1"); (str "PGPORT", str "7000"); (str "PGSYSCONFDIR", str "/etc/pg"); (str "PGSERVICE", str "prod")].
Definition ex_options : list pitem := [At [k_settings; str "search_path"] (PStr (str "app")); Special (str "pq_iri") (PStr (str "pq://carol@/"))].
Example C43_example : given ex_params /\ Forall option_item ex_options /\
  collect ascii_unicode ex_join ex_exists ex_sections (str "bob") (str "/home/bob") (fun _ _ => Ok (PStr (str "secret"))) [] false ex_params (Some ex_env) (str "PG") ex_options None None =
  Ok [(str "user", PStr (str "carol")); (str "host", PStr (str "10.0.0.9")); (str "port", PStr (str "7000"));
      (k_settings, PDict [(str "work_mem", PStr (str "64MB")); (str "search_path", PStr (str "app"))]); (str "database", PStr (str "sales"));
      (str "password", PStr (str "secret"))].
Proof.
  split; [|split].
  - split.
    + repeat (constructor; [intros C; cbn [In] in C; repeat destruct C as [C|C]; try discriminate; destruct C|]). constructor.
    + intros v H. cbn [ex_params In] in H. repeat destruct H as [H|H]; try discriminate; [|destruct H]. injection H as <-. eexists. split; [reflexivity|].
      repeat (constructor; [intros C; cbn in C; repeat destruct C as [C|C]; try discriminate; destruct C|]). constructor.
  - constructor; [right; eauto|]. constructor; [split; eauto|constructor].
  - vm_compute. reflexivity.
Qed.
Example C43_example_proper : proper ex_params.
Proof.
  split.
  - repeat (constructor; [intros C; cbn [In] in C; repeat destruct C as [C|C]; try discriminate; destruct C|]). constructor.
  - intros v H. cbn [ex_params In] in H. repeat destruct H as [H|H]; try discriminate; [|destruct H]. injection H as <-. eexists. split; [reflexivity|]. split; [discriminate|].
    repeat (constructor; [intros C; cbn in C; repeat destruct C as [C|C]; try discriminate; destruct C|]). constructor.
Qed.
Example C43_example_prefix_free : prefix_free [[str "user"]; [k_settings; str "a"]; [str "user"]; [k_settings; str "b"]].
Proof. apply standard_free. intros p H. cbn [In] in H. repeat destruct H as [<-|H]; [left|right|left|right|destruct H]; eexists; try reflexivity; split; [reflexivity|discriminate|reflexivity|discriminate]. Qed.
