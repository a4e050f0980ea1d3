(** CtorProps2.v: C77, where open() takes each parameter from *)
From Verif Require Import Base BaseProof PyStr PyStrProof PyDict PyDictProof IRIModel ParamModel ParamSpec ParamProof ParamProof2 ParamProof3.
From Verif Require Import RIModel CtorModel CtorSpec CtorProof3 CtorProof4.

(** every parameter and every setting by itself: keywords over the IRI over the service over the environment over the defaults *)
Theorem C77_precedence U join exists_file sections user userdir passfile prompt iri kw env d : real kw ->
  open_params U join exists_file sections user userdir passfile prompt iri kw env = Ok d ->
  exists es ip, iri_given U iri ip /\ service_used join exists_file sections userdir env es /\
    forall p, standard p -> ~ In (hd [] p) password_keys -> get_path p d = resolved U join exists_file user userdir kw ip env es p.
Proof.
  intros RK H. apply open_value in H as (es & ip & IG & SV & dn & R & W); [|exact RK]. exists es, ip. split; [exact IG|]. split; [exact SV|].
  intros p SP N. rewrite <- (W p SP). apply get_path_head; [exact SP|]. eapply resolve_other; eassumption.
Qed.
Print Assumptions C77_precedence.

(** the password *)
Theorem C77_password U join exists_file sections user userdir passfile prompt iri kw env d : real kw ->
  open_params U join exists_file sections user userdir passfile prompt iri kw env = Ok d ->
  exists es ip, iri_given U iri ip /\ service_used join exists_file sections userdir env es /\
    password_resolved passfile prompt (fun k => resolved U join exists_file user userdir kw ip env es [k]) d.
Proof.
  intros RK H. apply open_value in H as (es & ip & IG & SV & dn & R & W); [|exact RK]. exists es, ip. split; [exact IG|]. split; [exact SV|].
  apply resolve_spec in R. unfold password_resolved in *. cbv beta in *.
  assert (V : forall k, k <> k_settings -> resolved U join exists_file user userdir kw ip env es [k] = dget k dn) by (intros k K; symmetry; exact (W [k] (or_introl (ex_intro _ k (conj eq_refl K))))).
  rewrite (V (str "prompt_password")) by discriminate. rewrite (V (str "password")) by discriminate. rewrite (V (str "pgpassfile")) by discriminate. exact R.
Qed.
Print Assumptions C77_password.

(** when a socket file is named, neither the environment nor a service nor the defaults add a host or a port to it *)
Theorem C77_socket U join exists_file sections user userdir passfile prompt iri kw env d k : real kw -> k = str "host" \/ k = str "port" ->
  (dget (str "unix") kw <> None \/ exists ip, iri_given U iri ip /\ dget (str "unix") ip <> None) ->
  open_params U join exists_file sections user userdir passfile prompt iri kw env = Ok d ->
  exists ip, iri_given U iri ip /\ dget k d = or_else (dget k kw) (dget k ip).
Proof.
  intros RK K UX H. pose proof H as H0. apply C77_precedence in H as (es & ip & IG & SV & W); [|exact RK].
  assert (DET : forall a b, iri_given U iri a -> iri_given U iri b -> a = b).
  { intros a b. destruct iri as [s|]; cbn [iri_given]; [|congruence]. intros (x & [(A & NA)|(r & A & PA)] & ->) (y & [(B & NB)|(r' & B & PB)] & ->).
    - congruence. - exfalso. eapply NA. exact B. - exfalso. eapply NB. exact A. - rewrite A in B. injection B as <-. congruence. }
  assert (M : dmem (str "unix") kw || dmem (str "unix") ip = true).
  { unfold dmem. destruct UX as [N|(ip' & IG' & N)].
    - destruct (dget (str "unix") kw); [reflexivity|contradiction].
    - rewrite <- (DET _ _ IG IG') in N. destruct (dget (str "unix") ip); [apply Bool.orb_true_r|contradiction]. }
  exists ip. split; [exact IG|]. assert (NK : k <> k_settings /\ ~ In k password_keys /\ (patheqb [k] [str "host"] || patheqb [k] [str "port"]) = true).
  { destruct K as [-> | -> ]; (split; [discriminate|]; split; [|reflexivity]); unfold password_keys; cbn [In]; intros [C|[C|[C|[C|C]]]]; try discriminate C; exact C. }
  destruct NK as (N1 & N2 & N3). specialize (W [k] (or_introl (ex_intro _ k (conj eq_refl N1))) N2). cbn [get_path] in W. rewrite W. unfold resolved. rewrite M, N3. cbn [andb source_value].
  f_equal. destruct (dget k ip); reflexivity.
Qed.
Print Assumptions C77_socket.

(** without an IRI and keywords, the parameters are those that collect() finds: the environment over the defaults *)
Theorem C77_plain U join exists_file sections user userdir passfile prompt env d :
  dget (str "PGSERVICE") env = None ->
  open_params U join exists_file sections user userdir passfile prompt None [] env = Ok d ->
  forall p, standard p -> ~ In (hd [] p) password_keys ->
    get_path p d = or_else (env_value U env (str "PG") p) (default_value join exists_file user userdir p).
Proof.
  intros N H p SP NP. apply C77_precedence in H as (es & ip & IG & SV & W); [|split; [constructor|intros s []]]. cbn [iri_given] in IG. subst ip.
  unfold service_used in SV. change (service_named (Some env) (str "PG")) with (dget (str "PGSERVICE") env) in SV. rewrite N in SV. subst es.
  rewrite (W p SP NP). unfold resolved. cbn [service_value or_else].
  replace (source_value p []) with (@None pval) by (destruct p as [|? [|? [|]]]; reflexivity). reflexivity.
Qed.
Print Assumptions C77_plain.

(** ** examples *)
Definition ex_open kw iri env := open_params ascii_unicode (fun a b => a ++ str "/" ++ b) (fun _ => false) (fun _ => []) (str "me") (str "/home/me") (fun _ _ => Ok PNone) (str "asked") iri kw env.
Example C77_ex : ex_open [(str "port", PInt 6000); (k_settings, PDict [(str "search_path", PStr (str "b"))])]
    (Some (str "pq://joe@srv/db?search_path=a&timezone=utc")) [(str "PGHOST", str "other"); (str "PGPORT", str "7000"); (str "PGPASSWORD", str "pw"); (str "PGUSER", str "env")]
  = Ok [(str "user", PStr (str "joe")); (str "host", PStr (str "srv")); (str "port", PInt 6000); (str "password", PStr (str "pw"));
        (str "database", PStr (str "db")); (k_settings, PDict [(str "search_path", PStr (str "b")); (str "timezone", PStr (str "utc"))])].
Proof. vm_compute. reflexivity. Qed.
Example C77_ex_socket : ex_open [(str "unix", PStr (str "/tmp/.s"))] None [(str "PGHOST", str "other")] = Ok [(str "user", PStr (str "me")); (str "unix", PStr (str "/tmp/.s"))].
Proof. vm_compute. reflexivity. Qed.
Example C77_ex_real : real [(str "port", PInt 6000); (k_settings, PDict [(str "search_path", PStr (str "b"))])].
Proof.
  split; [repeat constructor; cbn; intuition discriminate|]. intros s [C|[C|[]]]; [discriminate C|]. injection C as <-. repeat constructor; cbn; intuition discriminate.
Qed.
