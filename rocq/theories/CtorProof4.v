(** CtorProof4.v: open(), continued *)
From Verif Require Import Base BaseProof PyStr PyStrProof PyDict PyDictProof IRIModel ParamModel ParamSpec ParamProof ParamProof2 ParamProof3.
From Verif Require Import RIModel CtorModel CtorSpec CtorProof CtorProof2 CtorProof3.

Section opens.
Context (U : unicode) (join : text -> text -> text) (exists_file : text -> bool) (sections : text -> list (text * list (text * text))) (user userdir : text)
  (passfile : cpd -> pval -> res pval) (prompt : text).
Local Notation open_params := (CtorModel.open_params U join exists_file sections user userdir passfile prompt).
Local Notation std_params := (CtorModel.std_params U join exists_file sections user userdir).
Lemma std_value env d : std_params env = Ok d -> given d /\ exists es,
  match service_named (Some env) (str "PG") with
  | None => es = []
  | Some n => first_section exists_file sections (files_of join userdir (Some env) None None) n = Some es
  end /\ forall p, standard p -> get_path p d = or_else (service_value U es p) (or_else (env_value U env (str "PG") p) (default_value join exists_file user userdir p)).
Proof.
  intros H. unfold CtorModel.std_params in H. apply bind_Ok in H as (items & EI & EN).
  assert (G : given []) by (split; [constructor|intros v []]).
  pose proof EI as EI0. apply collect_items_spec in EI as (ps & sv & los & EP & ES & EL & EQ); [|exact G|constructor].
  apply Ok_inj in EL. subst los. apply Ok_inj in EP. subst ps.
  assert (X : exists es, match service_named (Some env) (str "PG") with
    | None => es = []
    | Some n => first_section exists_file sections (files_of join userdir (Some env) None None) n = Some es /\ (forall e, In e es -> py_lower U (fst e) <> str "ldap")
    end /\ sv = pairs (flat_map (service_item U) es)).
  { destruct (service_named (Some env) (str "PG")); [|exists []; auto]. destruct ES as (es & E1 & E2 & E3). eauto. }
  destruct X as (es & X & SV).
  assert (ST : forall p, In p (map fst items) -> standard p).
  { rewrite EQ. intros p. rewrite !map_app. intros I. repeat (apply in_app_or in I as [I|I]).
    - eapply pairs_standard; [apply defaults_standard|exact I].
    - destruct I.
    - eapply pairs_standard; [apply env_standard|exact I].
    - rewrite SV in I. eapply pairs_standard; [|exact I]. apply Forall_flat_map, Forall_forall. intros q _. apply service_standard.
    - destruct I. }
  split; [eapply normalize_given; [exact ST|exact G|exact EN]|]. exists es.
  destruct (normalized U join exists_file sections user userdir false [] (Some env) (str "PG") [] None None es [] G ltac:(constructor) X eq_refl) as (items' & d' & E1 & E2 & W).
  rewrite EI0 in E1. apply Ok_inj in E1. subst items'. rewrite EN in E2. apply Ok_inj in E2. subst d'.
  split; [destruct (service_named (Some env) (str "PG")); [exact (proj1 X)|exact X]|]. intros p SP. rewrite (W p SP). unfold wanted. cbn [concat last_of or_else].
  replace (get_path p []) with (@None pval) by (destruct p as [|? [|]]; reflexivity). reflexivity.
Qed.
Local Notation resolved := (CtorSpec.resolved U join exists_file user userdir).
Lemma iri_split iri ip : (match iri with Some s => do d <- iri_parse U (snd (split_amp s)); Ok (ddel (str "path") d) | None => Ok [] end) = Ok ip -> iri_given U iri ip /\ real ip.
Proof.
  destruct iri as [s|]; intros H.
  - apply bind_Ok in H as (d & E & H). apply Ok_inj in H. subst ip. split; [|eapply del_real, iri_real; exact E]. exists d. split; [|reflexivity].
    destruct s as [|c r]; [left; split; [exact E|discriminate]|]. cbn [split_amp] in E. destruct (Z.eqb_spec c 38) as [->|N]; cbn [snd] in E.
    + right. exists r. auto.
    + left. split; [exact E|]. intros r' C. injection C as C _. contradiction.
  - apply Ok_inj in H. subst ip. split; [reflexivity|]. split; [constructor|intros s []].
Qed.
Lemma open_value iri kw env d : real kw -> open_params iri kw env = Ok d -> exists es ip,
  iri_given U iri ip /\
  match service_named (Some env) (str "PG") with
  | None => es = []
  | Some n => first_section exists_file sections (files_of join userdir (Some env) None None) n = Some es
  end /\ exists dn, resolve_password passfile prompt dn = Ok d /\ forall p, standard p -> get_path p dn = resolved kw ip env es p.
Proof.
  intros RK H. unfold CtorModel.open_params in H. apply bind_Ok in H as (ip & EI & H). apply iri_split in EI as [IG IR].
  apply bind_Ok in H as (sd & ES & H). apply std_value in ES as (GS & es & SV & SW). cbv zeta in H.
  match type of H with context [denormalize ?x] => set (sd' := x) in H end.
  assert (GS' : given sd') by (unfold sd'; destruct (_ || _); [apply del_given, del_given|]; exact GS).
  assert (SW' : forall p, standard p -> get_path p sd' = if (dmem (str "unix") kw || dmem (str "unix") ip) && (patheqb p [str "host"] || patheqb p [str "port"]) then None else get_path p sd).
  { intros p SP. unfold sd'. destruct (dmem (str "unix") kw || dmem (str "unix") ip); [|reflexivity]. cbn [andb].
    destruct SP as [(k & -> & K)|(k & ->)].
    - rewrite !patheqb1. cbn [get_path]. rewrite !dget_del. destruct (seqb k (str "port")), (seqb k (str "host")); reflexivity.
    - rewrite !patheqb_settings. cbn [orb]. unfold get_path. rewrite !dget_del. reflexivity. }
  clearbody sd'. apply bind_Ok in H as (a & EA & H). apply bind_Ok in H as (b & EB & H). apply bind_Ok in H as (c & EC & H). apply bind_Ok in H as (dn & EN & R).
  exists es, ip. split; [exact IG|]. split; [exact SV|]. exists dn. split; [exact R|]. intros p SP.
  change (normalize (pairs (a ++ b ++ c)) = Ok dn) in EN.
  rewrite (normalized_get (pairs (a ++ b ++ c)) dn p); [| |exact SP|exact EN].
  - rewrite !last_pairs_app. rewrite (denorm_source kw c p RK EC SP), (denorm_source ip b p IR EB SP), (denorm_source sd' a p (given_real _ GS') EA SP).
    rewrite (given_source sd' p GS' SP), (SW' p SP), (SW p SP). unfold resolved.
    destruct (source_value p kw), (source_value p ip); reflexivity.
  - intros q Q. eapply pairs_standard; [|exact Q]. apply Forall_app. split; [|apply Forall_app; split]; eapply denorm_standard; eassumption.
Qed.
End opens.
