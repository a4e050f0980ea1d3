From Verif Require Import PyStr PyStrProof BaseProof PyDict PyDictProof StrProof3 IRIModel ParamModel ParamSpec ParamProof ParamProof2.

Section params.
Context (U : unicode) (join : text -> text -> text) (exists_file : text -> bool) (sections : text -> list (text * list (text * text))) (user userdir : text).
Context (passfile : cpd -> pval -> res pval) (prompt : text).
Notation extra := (extrapolate U join exists_file sections userdir).
Notation collect_items := (collect_items U join exists_file sections user userdir).
Notation collect := (collect U join exists_file sections user userdir passfile prompt).
Lemma conf_app a b c : conf_of (a ++ b) c = conf_of b (conf_of a c). Proof. apply fold_left_app. Qed.
Definition ats (l : list pitem) : Prop := forall i, In i l -> match i with At _ _ => True | Special _ _ => False end.
(** the items of an environment before the service *)
Definition env_plain (env : list (text * text)) (prefix : text) : list pitem :=
  let get k := dget (prefix ++ k) env in
  (match get (str "REQUIRESSL") with
   | Some v => if seqb (py_strip U v) (str "1") then [At [str "sslmode"] (PList [str "require"; prefix ++ str "REQUIRESSL" ++ str "=1"])] else []
   | None => []
   end) ++
  flat_map (fun p => match get (fst p) with Some v => [At [snd p] (PStr v)] | None => [] end) envvar_map ++
  (match get (str "HOSTADDR") with Some v => [At [str "host"] (PStr v)] | None => [] end).
Definition env_conf (env : list (text * text)) : list pitem :=
  (match dget (str "PGSYSCONFDIR") env with Some v => [Special (str "config-pg_sysconfdir") (PStr v)] | None => [] end) ++
  (match dget (str "PGSERVICEFILE") env with Some v => [Special (str "config-pg_service_file") (PStr v)] | None => [] end).
Definition svc (o : option text) : list pitem := match o with Some v => [Special (str "pg_service") (PStr v)] | None => [] end.
Lemma env_split env prefix : env_items U env prefix = env_plain env prefix ++ env_conf env ++ svc (dget (prefix ++ str "SERVICE") env).
Proof. unfold env_items, env_plain, env_conf, svc. cbv zeta. rewrite <- !app_assoc. reflexivity. Qed.
Lemma env_plain_ats env prefix : ats (env_plain env prefix).
Proof.
  unfold env_plain. cbv zeta. intros i H. apply in_app_or in H as [H|H].
  - destruct (dget _ env); [|destruct H]. destruct (seqb _ _); [|destruct H]. destruct H as [<-|[]]. exact I.
  - apply in_app_or in H as [H|H].
    + apply in_flat_map in H as (q & _ & H). destruct (dget _ env); [|destruct H]. destruct H as [<-|[]]. exact I.
    + destruct (dget _ env); [|destruct H]. destruct H as [<-|[]]. exact I.
Qed.
Lemma env_last_plain env prefix p : standard p -> last_of p (pairs (env_plain env prefix)) = env_value U env prefix p.
Proof.
  intros S. rewrite <- env_last by exact S. rewrite env_split, !last_pairs_app.
  replace (last_of p (pairs (svc _))) with (@None pval) by (unfold svc; destruct (dget _ env); reflexivity).
  replace (last_of p (pairs (env_conf env))) with (@None pval); [reflexivity|]. unfold env_conf. rewrite last_pairs_app, !last_pairs_special. reflexivity.
Qed.
Lemma denorm_nil fuel c : extra (S fuel) [] c = Ok []. Proof. reflexivity. Qed.
(** the configuration in which the service is looked up *)
Definition base : cpd := [(str "environ", PNone)].
Lemma conf_text env sysconfdir service_file :
  service_files join userdir (conf_of (match env with Some e => env_conf e | None => [] end) (conf_of (config_items sysconfdir service_file) base)) = files_of join userdir env sysconfdir service_file.
Proof.
  unfold files_of, env_conf, config_items. cbv zeta.
  destruct sysconfdir as [sd|], service_file as [sf|], env as [e|]; try destruct (dget (str "PGSYSCONFDIR") e) as [a|]; try destruct (dget (str "PGSERVICEFILE") e) as [b|]; reflexivity.
Qed.
(** config items only change the configuration *)
Definition confs (l : list pitem) : Prop := forall i, In i l -> match i with At _ _ => False | Special n _ => py_startswith config_prefix n = true end.
Lemma extra_confs fuel l c : confs l -> extra (S fuel) l c = Ok [].
Proof.
  revert c. induction l as [|[p v|n v] l IH]; intros c H; [reflexivity|destruct (H (At p v)); left; reflexivity|].
  rewrite extra_cons_special. rewrite (H (Special n v)) by (left; reflexivity). apply IH. intros i Hi. apply H. right. exact Hi.
Qed.
Lemma config_confs a b : confs (config_items a b).
Proof. unfold config_items. intros i H. destruct a, b; cbn [app] in H; repeat destruct H as [<-|H]; try destruct H; reflexivity. Qed.
Lemma env_confs e : confs (env_conf e).
Proof. unfold env_conf. intros i H. destruct (dget _ e), (dget _ e); cbn [app] in H; repeat destruct H as [<-|H]; try destruct H; reflexivity. Qed.
Lemma callback_service : callback U join exists_file sections userdir (str "pg_service") =
  Some (fun v config => match v with PStr s => find_service U exists_file sections (service_files join userdir config) s | _ => Err TypeError end).
Proof. reflexivity. Qed.
Lemma callback_iri : callback U join exists_file sections userdir (str "pq_iri") =
  Some (fun v _ => match v with PStr s => do p <- iri_parse U s; denormalize p | _ => Err TypeError end).
Proof. reflexivity. Qed.
Lemma callback_ldap : callback U join exists_file sections userdir (str "pg_ldap") = Some (fun _ _ => Err (OtherError 3)).
Proof. reflexivity. Qed.
Lemma ldap_dec (es : list (text * text)) : {forall e, In e es -> py_lower U (fst e) <> str "ldap"} + {exists e, In e es /\ py_lower U (fst e) = str "ldap"}.
Proof.
  induction es as [|e es IH]; [left; intros e []|]. destruct (list_eq_dec Z.eq_dec (py_lower U (fst e)) (str "ldap")) as [E|N]; [right; exists e; split; [left; reflexivity|exact E]|].
  destruct IH as [IH|IH]; [left; intros e' [<-|H]; auto|right]. destruct IH as (e' & H & E). exists e'. split; [right; exact H|exact E].
Qed.
Lemma ldap_fails fuel es c : (exists e, In e es /\ py_lower U (fst e) = str "ldap") -> forall l, extra (S fuel) (flat_map (service_item U) es) c <> Ok l.
Proof.
  induction es as [|[k v] es IH]; intros (e & H & E) l X; [destruct H|]. cbn [flat_map] in X. apply extra_app in X as (la & lb & X1 & X2 & _).
  destruct H as [<-|H].
  - cbn [fst] in E. unfold service_item in X1. cbv zeta in X1. cbn [fst snd] in X1. rewrite E, seqb_refl in X1. rewrite extra_cons_special, callback_ldap in X1. cbn in X1. discriminate.
  - assert (C : conf_of (service_item U (k, v)) c = c).
    { unfold service_item. cbv zeta. cbn [fst snd]. destruct (seqb _ (str "ldap")); [reflexivity|]. destruct (seqb _ (str "pg_service")); [reflexivity|]. destruct (seqb _ (str "hostaddr")); [reflexivity|].
      destruct (seqb _ (str "dbname")); [reflexivity|]. destruct (negb _); reflexivity. }
    rewrite C in X2. exact (IH (ex_intro _ e (conj H E)) lb X2).
Qed.
Lemma extra_service fuel o c l : extra (S (S fuel)) (svc o) c = Ok l <->
  match o with
  | None => l = []
  | Some n => exists es, first_section exists_file sections (service_files join userdir c) n = Some es /\ (forall e, In e es -> py_lower U (fst e) <> str "ldap") /\ l = pairs (flat_map (service_item U) es)
  end.
Proof.
  destruct o as [n|]; cbn [svc]; [|rewrite denorm_nil; split; [intros H; apply Ok_inj in H; auto|intros ->; reflexivity]].
  rewrite extra_cons_special. change (py_startswith config_prefix (str "pg_service")) with false. cbv iota. rewrite callback_service. cbv beta iota. rewrite find_first.
  destruct (first_section exists_file sections (service_files join userdir c) n) as [es|]; cbn [bind]; [|split; [discriminate|intros (es & E & _); discriminate]].
  destruct (ldap_dec es) as [N|L].
  - destruct (extra_plain U join exists_file sections userdir fuel (flat_map (service_item U) es) c) as [E _]; [exact (proj2 (service_last U es [] N))|]. rewrite E. cbn [bind].
    rewrite denorm_nil. cbn [bind]. rewrite app_nil_r. split; [intros H; apply Ok_inj in H; exists es; auto|]. intros (es' & E1 & _ & ->). injection E1 as <-. reflexivity.
  - split.
    + intros H. apply bind_Ok in H as (h & H & _). exfalso. exact (ldap_fails fuel es c L h H).
    + intros (es' & E1 & N & _). injection E1 as <-. destruct L as (e & He & E). exfalso. exact (N e He E).
Qed.
Lemma extra_options fuel opts c l : Forall option_item opts -> (extra (S (S fuel)) opts c = Ok l <-> exists los, mapM (option_pairs U) opts = Ok los /\ l = concat los).
Proof.
  intros F. revert l. induction F as [|i opts Hi F IH]; intros l.
  - rewrite denorm_nil. split; [intros H; apply Ok_inj in H; exists []; auto|]. intros (los & H & ->). apply Ok_inj in H. subst los. reflexivity.
  - destruct i as [p v|n v].
    + rewrite extra_cons_at. cbn [mapM option_pairs bind]. split.
      * intros H. apply bind_Ok in H as (t & E & H). apply Ok_inj in H. subst l. apply IH in E as (los & E & ->). rewrite E. cbn [bind]. eexists. split; [reflexivity|reflexivity].
      * intros (los & H & ->). apply bind_Ok in H as (t & E & H). apply Ok_inj in H. subst los. rewrite (proj2 (IH (concat t))) by eauto. reflexivity.
    + destruct Hi as (-> & s & ->). rewrite extra_cons_special. change (py_startswith config_prefix (str "pq_iri")) with false. cbv iota. rewrite callback_iri. cbv beta iota.
      cbn [mapM option_pairs]. destruct (iri_parse U s) as [d|e]; cbn [bind]; [|split; [discriminate|intros (los & H & _); discriminate]].
      destruct (denormalize d) as [dl|e] eqn:D; cbn [bind]; [|split; [discriminate|intros (los & H & _); discriminate]].
      destruct (extra_plain U join exists_file sections userdir fuel dl c) as [E _]; [exact (denorm_plain d dl D)|]. rewrite E. cbn [bind]. split.
      * intros H. apply bind_Ok in H as (t & E' & H). apply Ok_inj in H. subst l. apply IH in E' as (los & E' & ->). rewrite E'. cbn [bind]. eexists. split; reflexivity.
      * intros (los & H & ->). apply bind_Ok in H as (t & E' & H). apply Ok_inj in H. subst los. rewrite (proj2 (IH (concat t))) by eauto. reflexivity.
Qed.
Lemma conf_plain l c : ats l -> conf_of l c = c.
Proof. intros H. exact (proj2 (extra_plain U join exists_file sections userdir 0 l c H)). Qed.
Lemma extra_ats fuel l c : ats l -> extra (S fuel) l c = Ok (pairs l).
Proof. intros H. exact (proj1 (extra_plain U join exists_file sections userdir fuel l c H)). Qed.
(** the items of all the sources *)
Lemma collect_items_spec no_defaults parameters env prefix options sysconfdir service_file items : given parameters -> Forall option_item options ->
  (collect_items no_defaults parameters env prefix options sysconfdir service_file = Ok items <->
   exists ps sv los, denormalize parameters = Ok ps /\
     match service_named env prefix with
     | None => sv = []
     | Some n => exists es, first_section exists_file sections (files_of join userdir env sysconfdir service_file) n = Some es /\ (forall e, In e es -> py_lower U (fst e) <> str "ldap") /\ sv = pairs (flat_map (service_item U) es)
     end /\
     mapM (option_pairs U) options = Ok los /\
     items = pairs (if no_defaults then [] else defaults join exists_file user userdir) ++ pairs ps ++ pairs (match env with Some e => env_plain e prefix | None => [] end) ++ sv ++ concat los).
Proof.
  intros G F. unfold ParamModel.collect_items. destruct (denorm_ok parameters (proj2 G)) as (ps & EP). rewrite EP. cbn [bind].
  set (df := if no_defaults then [] else defaults join exists_file user userdir).
  assert (AD : ats df) by (unfold df; destruct no_defaults; [intros i []|intros i; apply defaults_plain]).
  assert (AP : ats ps) by exact (denorm_plain parameters ps EP).
  assert (EV : match env with Some e => env_items U e prefix | None => [] end = (match env with Some e => env_plain e prefix | None => [] end) ++ (match env with Some e => env_conf e | None => [] end) ++ svc (service_named env prefix)).
  { destruct env as [e|]; [apply env_split|reflexivity]. }
  rewrite EV. set (ep := match env with Some e => env_plain e prefix | None => [] end). set (ec := match env with Some e => env_conf e | None => [] end).
  assert (AE : ats ep) by (unfold ep; destruct env; [apply env_plain_ats|intros i []]). assert (CE : confs ec) by (unfold ec; destruct env; [apply env_confs|intros i []]).
  rewrite <- !app_assoc. fold base. split.
  - intros H. apply extra_app in H as (l1 & r1 & H1 & H & ->). rewrite extra_confs in H1 by apply config_confs. apply Ok_inj in H1. subst l1.
    apply extra_app in H as (l2 & r2 & H2 & H & ->). rewrite extra_ats in H2 by exact AD. apply Ok_inj in H2. subst l2. rewrite (conf_plain df) in H by exact AD.
    apply extra_app in H as (l3 & r3 & H3 & H & ->). rewrite extra_ats in H3 by exact AP. apply Ok_inj in H3. subst l3. rewrite (conf_plain ps) in H by exact AP.
    apply extra_app in H as (l4 & r4 & H4 & H & ->). rewrite extra_ats in H4 by exact AE. apply Ok_inj in H4. subst l4. rewrite (conf_plain ep) in H by exact AE.
    apply extra_app in H as (l5 & r5 & H5 & H & ->). rewrite extra_confs in H5 by exact CE. apply Ok_inj in H5. subst l5.
    apply extra_app in H as (l6 & r6 & H6 & H & ->). apply extra_service in H6. unfold ec in H6. rewrite conf_text in H6.
    apply extra_options in H as (los & E & ->); [|exact F]. exists ps, l6, los. split; [reflexivity|]. split; [exact H6|]. split; [exact E|]. reflexivity.
  - intros (ps' & sv & los & E1 & E2 & E3 & ->). apply Ok_inj in E1. subst ps'.
    apply extra_app. exists []. eexists. split; [apply extra_confs, config_confs|]. split; [|reflexivity].
    apply extra_app. exists (pairs df). eexists. split; [apply extra_ats, AD|]. rewrite (conf_plain df) by exact AD. split; [|reflexivity].
    apply extra_app. exists (pairs ps). eexists. split; [apply extra_ats, AP|]. rewrite (conf_plain ps) by exact AP. split; [|reflexivity].
    apply extra_app. exists (pairs ep). eexists. split; [apply extra_ats, AE|]. rewrite (conf_plain ep) by exact AE. split; [|reflexivity].
    apply extra_app. exists []. eexists. split; [apply extra_confs, CE|]. split; [|reflexivity].
    apply extra_app. exists sv. eexists. split; [apply extra_service; unfold ec; rewrite conf_text; exact E2|]. split; [|reflexivity].
    apply extra_options; [exact F|]. exists los. auto.
Qed.
Lemma options_standard options los : Forall option_item options -> mapM (option_pairs U) options = Ok los -> forall p, In p (map fst (concat los)) -> standard p.
Proof.
  intros F. revert los. induction F as [|i opts Hi F IH]; intros los H p Hp; [apply Ok_inj in H; subst los; destruct Hp|].
  cbn [mapM] in H. apply bind_Ok in H as (h & E & H). apply bind_Ok in H as (t & ET & H). apply Ok_inj in H. subst los. cbn [concat] in Hp. rewrite map_app in Hp. apply in_app_or in Hp as [Hp|Hp]; [|eapply IH; eauto].
  destruct i as [q v|n v]; cbn in Hi, E.
  - apply Ok_inj in E. subst h. destruct Hp as [<-|[]]. exact Hi.
  - destruct Hi as (_ & s & ->). apply bind_Ok in E as (d & _ & E). apply bind_Ok in E as (l & D & E). apply Ok_inj in E. subst h.
    apply denorm_standard in D. unfold pairs in Hp. apply in_map_iff in Hp as ((q & w) & <- & Hp). apply in_flat_map in Hp as ([q' v'|] & Hi & Hp); [|destruct Hp]. destruct Hp as [Hp|[]]. injection Hp as -> ->. cbn.
    unfold all_standard in D. rewrite Forall_forall in D. exact (D _ Hi).
Qed.
Lemma pairs_standard l p : all_standard l -> In p (map fst (pairs l)) -> standard p.
Proof.
  intros D Hp. unfold pairs in Hp. apply in_map_iff in Hp as ((q & w) & <- & Hp). apply in_flat_map in Hp as ([q' v'|] & Hi & Hp); [|destruct Hp]. destruct Hp as [Hp|[]]. injection Hp as -> ->. cbn.
  unfold all_standard in D. rewrite Forall_forall in D. exact (D _ Hi).
Qed.
Lemma defaults_standard : all_standard (defaults join exists_file user userdir).
Proof.
  unfold defaults. apply Forall_app. split.
  - repeat (constructor; [left; eexists; split; [reflexivity|discriminate]|]). constructor.
  - apply Forall_map, Forall_forall. intros q Hq. apply filter_In in Hq as [Hq _]. left. eexists. split; [reflexivity|]. unfold default_files in Hq. cbv zeta in Hq.
    repeat destruct Hq as [<-|Hq]; try discriminate. destruct Hq.
Qed.
Lemma env_standard e prefix : all_standard (env_plain e prefix).
Proof.
  unfold env_plain. cbv zeta. apply Forall_app. split; [|apply Forall_app; split].
  - destruct (dget _ e); [|constructor]. destruct (seqb _ _); [|constructor]. constructor; [left; eexists; split; [reflexivity|discriminate]|constructor].
  - apply Forall_flat_map, Forall_forall. intros q Hq. destruct (dget _ e); [|constructor]. constructor; [|constructor]. left. eexists. split; [reflexivity|].
    unfold envvar_map in Hq. repeat destruct Hq as [<-|Hq]; try discriminate. destruct Hq.
  - destruct (dget _ e); [|constructor]. constructor; [left; eexists; split; [reflexivity|discriminate]|constructor].
Qed.
(** what the normalized dictionary says *)
Definition wanted (no_defaults : bool) (parameters : cpd) (env : option (list (text * text))) (prefix : text) (es : list (text * text)) (los : list (list (list text * pval))) (p : list text) : option pval :=
  or_else (last_of p (concat los)) (or_else (service_value U es p) (or_else (match env with Some e => env_value U e prefix p | None => None end)
    (or_else (get_path p parameters) (if no_defaults then None else default_value join exists_file user userdir p)))).
Lemma normalized no_defaults parameters env prefix options sysconfdir service_file es los : given parameters -> Forall option_item options ->
  match service_named env prefix with
  | None => es = []
  | Some n => first_section exists_file sections (files_of join userdir env sysconfdir service_file) n = Some es /\ (forall e, In e es -> py_lower U (fst e) <> str "ldap")
  end -> mapM (option_pairs U) options = Ok los ->
  exists items d, collect_items no_defaults parameters env prefix options sysconfdir service_file = Ok items /\ normalize items = Ok d /\
    forall p, standard p -> get_path p d = wanted no_defaults parameters env prefix es los p.
Proof.
  intros G F SV EL. destruct (denorm_ok parameters (proj2 G)) as (ps & EP).
  assert (NL : forall e, In e es -> py_lower U (fst e) <> str "ldap") by (destruct (service_named env prefix); [exact (proj2 SV)|subst; intros e []]).
  set (sv := pairs (flat_map (service_item U) es)).
  set (items := pairs (if no_defaults then [] else defaults join exists_file user userdir) ++ pairs ps ++ pairs (match env with Some e => env_plain e prefix | None => [] end) ++ sv ++ concat los).
  assert (EI : collect_items no_defaults parameters env prefix options sysconfdir service_file = Ok items).
  { apply collect_items_spec; [exact G|exact F|]. exists ps, sv, los. split; [exact EP|]. split; [|split; [exact EL|reflexivity]].
    destruct (service_named env prefix); [exists es; split; [exact (proj1 SV)|split; [exact NL|reflexivity]]|subst es; reflexivity]. }
  assert (ST : forall p, In p (map fst items) -> standard p).
  { unfold items. intros p. rewrite !map_app. intros H. repeat (apply in_app_or in H as [H|H]).
    - destruct no_defaults; [destruct H|]. eapply pairs_standard; [apply defaults_standard|exact H].
    - eapply pairs_standard; [eapply denorm_standard; exact EP|exact H].
    - destruct env; [|destruct H]. eapply pairs_standard; [apply env_standard|exact H].
    - eapply pairs_standard; [|exact H]. apply Forall_flat_map, Forall_forall. intros q _. apply service_standard.
    - eapply options_standard; eauto. }
  destruct (normalize_ok items (standard_free _ ST)) as (d & EN & N1 & N2). exists items, d. split; [exact EI|]. split; [exact EN|]. intros p SP.
  assert (GP : get_path p d = last_of p items).
  { destruct (in_dec (list_eq_dec (list_eq_dec Z.eq_dec)) p (map fst items)) as [I|I]; [now apply N1|]. rewrite last_none by exact I.
    assert (SF : prefix_free (p :: map fst items)) by (apply standard_free; intros q [<-|Hq]; [exact SP|now apply ST]). destruct SF as [NE PF].
    apply N2; [apply NE; left; reflexivity| |].
    - intros a r Ha E. assert (r = []) by (eapply PF; [left; reflexivity|right; exact Ha|exact E]). subst r. rewrite app_nil_r in E. subst a. contradiction.
    - intros a r Ha E. assert (r = []) by (eapply PF; [right; exact Ha|left; reflexivity|exact E]). subst r. rewrite app_nil_r in E. subst a. contradiction. }
  rewrite GP. unfold items, wanted. rewrite !last_app. unfold sv. rewrite (proj1 (service_last U es p NL)). rewrite (denorm_last parameters ps p G EP SP).
  assert (EE : last_of p (pairs (match env with Some e => env_plain e prefix | None => [] end)) = match env with Some e => env_value U e prefix p | None => None end) by (destruct env; [now apply env_last_plain|reflexivity]).
  rewrite EE. assert (ED : last_of p (pairs (if no_defaults then [] else defaults join exists_file user userdir)) = if no_defaults then None else default_value join exists_file user userdir p) by (destruct no_defaults; [reflexivity|apply defaults_last]).
  rewrite ED. rewrite !or_assoc. reflexivity.
Qed.
(** resolve_password *)
Lemma resolve_other d d' k : resolve_password passfile prompt d = Ok d' -> ~ In k password_keys -> dget k d' = dget k d.
Proof.
  unfold resolve_password. cbv zeta. intros H N.
  assert (N1 : forall j, In j password_keys -> seqb k j = false) by (intros j Hj; apply seqb_ne; intros ->; contradiction).
  assert (B : dget k (ddel (str "prompt_title") (ddel (str "pgpassfile") (ddel (str "prompt_password") d))) = dget k d).
  { rewrite !dget_del. rewrite !N1 by (unfold password_keys; cbn [In]; auto). reflexivity. }
  set (e := ddel (str "prompt_title") _) in *. assert (P : forall v, dget k (dset (str "password") v e) = dget k d).
  { intros v. rewrite dget_set, N1 by (unfold password_keys; cbn [In]; auto). exact B. }
  destruct (match dget (str "prompt_password") d with Some (PBool true) => true | _ => false end); [apply Ok_inj in H; subst d'; apply P|].
  destruct (dget (str "password") e) as [[]|]; try (apply Ok_inj in H; subst d'; exact B);
    destruct (dget (str "pgpassfile") d) as [[]|]; try (apply Ok_inj in H; subst d'; exact B); apply bind_Ok in H as (w & _ & H); apply Ok_inj in H; subst d'; apply P.
Qed.
Lemma get_path_head p d d' : standard p -> dget (hd [] p) d' = dget (hd [] p) d -> get_path p d' = get_path p d.
Proof. intros [(k & -> & _)|(k & ->)] H; cbn [hd get_path] in *; rewrite H; reflexivity. Qed.
Lemma collect_value no_defaults parameters env prefix options sysconfdir service_file d : given parameters -> Forall option_item options ->
  collect no_defaults parameters env prefix options sysconfdir service_file = Ok d ->
  exists es los, match service_named env prefix with
    | None => es = []
    | Some n => first_section exists_file sections (files_of join userdir env sysconfdir service_file) n = Some es
    end /\ mapM (option_pairs U) options = Ok los /\
    (forall p, standard p -> ~ In (hd [] p) password_keys -> get_path p d = wanted no_defaults parameters env prefix es los p) /\
    exists dn, resolve_password passfile prompt dn = Ok d /\ forall p, standard p -> get_path p dn = wanted no_defaults parameters env prefix es los p.
Proof.
  intros G F H. unfold ParamModel.collect in H. apply bind_Ok in H as (items & EI & H). apply bind_Ok in H as (dn & EN & H).
  pose proof EI as EI0. apply collect_items_spec in EI as (ps & sv & los & EP & ES & EL & _); [|exact G|exact F].
  assert (X : exists es, match service_named env prefix with
    | None => es = []
    | Some n => first_section exists_file sections (files_of join userdir env sysconfdir service_file) n = Some es /\ (forall e, In e es -> py_lower U (fst e) <> str "ldap")
    end).
  { destruct (service_named env prefix); [|eauto]. destruct ES as (es & E1 & E2 & _). eauto. }
  destruct X as (es & X). destruct (normalized no_defaults parameters env prefix options sysconfdir service_file es los G F X EL) as (items' & dn' & E1 & E2 & W).
  rewrite EI0 in E1. apply Ok_inj in E1. subst items'. rewrite EN in E2. apply Ok_inj in E2. subst dn'.
  exists es, los. split; [destruct (service_named env prefix); [exact (proj1 X)|exact X]|]. split; [exact EL|]. split; [|eauto].
  intros p SP NP. rewrite <- (W p SP). apply get_path_head; [exact SP|]. eapply resolve_other; eauto.
Qed.
End params.
