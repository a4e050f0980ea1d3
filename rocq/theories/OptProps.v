(** OptProps.v: C93, the command line of pg_python *)
From Verif Require Import PyStr PyStrProof Base BaseProof PyDict PyDictProof IRIModel ParamModel ParamSpec ParamProof ParamProof2 ParamProof3 ParamProps PyxModel OptModel OptSpec OptProof.
Notation given_parameters := ParamSpec.given.

(** a command line is understood exactly when it is written as described, and then it means what it says; the rest is left as it is *)
Theorem C93_understood argv m args :
  pg_python_args argv = Go (m, args) <-> exists gs, line argv gs args /\ m = meaning gs.
Proof.
  unfold pg_python_args. split.
  - intros E. destruct (parse_inv _ _ _ _ E) as (gs & args' & L). pose proof (parse_line _ _ _ L no_vals) as E'. rewrite E in E'. injection E' as -> ->.
    exists gs. split; [exact L|apply run_meaning].
  - intros (gs & L & ->). rewrite (parse_line _ _ _ L), run_meaning. reflexivity.
Qed.
Print Assumptions C93_understood.

(** however options are written, in whatever order of writing: the same options in the same order mean the same *)
Theorem C93_spelling argv argv' gs args : line argv gs args -> line argv' gs args -> pg_python_args argv = pg_python_args argv'.
Proof. intros L L'. unfold pg_python_args. now rewrite (parse_line _ _ _ L), (parse_line _ _ _ L'). Qed.
Print Assumptions C93_spelling.

(** after -c and -m every argument is the program's, whatever it looks like *)
Theorem C93_program gs g ts args : is_main g = true -> written (gs ++ [g]) ts ->
  pg_python_args (ts ++ args) = Go (meaning (gs ++ [g]), args) /\
  v_main (meaning (gs ++ [g])) = Some (match argument g with Some v => v | None => [] end, match g with Module_ _ => KModule | _ => KCommand end).
Proof.
  intros M W. split.
  - unfold pg_python_args. rewrite (parse_line _ _ _ (l_main gs g ts args M W)), run_meaning. reflexivity.
  - unfold meaning. cbn [v_main]. rewrite flat_map_app. destruct g; try discriminate; apply lasts_snoc.
Qed.
Print Assumptions C93_program.

(** collect() with these options: the last option for a parameter decides it, over the service, the environment and the defaults *)
Lemma mapM_app {A B} (f : A -> res B) a b l : mapM f (a ++ b) = Ok l -> exists l1 l2, l = l1 ++ l2 /\ mapM f a = Ok l1 /\ mapM f b = Ok l2.
Proof.
  revert l; induction a as [|x a IH]; cbn [app mapM]; intros l E; [exists [], l; auto|].
  destruct (f x) as [y|]; [|discriminate]. cbn [bind] in E |- *. destruct (mapM f (a ++ b)) as [l'|]; [|discriminate]. cbn [bind] in E. injection E as <-.
  destruct (IH _ eq_refl) as (l1 & l2 & -> & -> & H). exists (y :: l1), l2. auto.
Qed.
Lemma last_of_app p a b : last_of p (a ++ b) = match last_of p b with Some w => Some w | None => last_of p a end.
Proof. induction a as [|[q v] a IH]; cbn [app last_of]; [destruct (last_of p b); reflexivity|]. rewrite IH. destruct (last_of p b); reflexivity. Qed.
Lemma later_none U p l los : mapM (option_pairs U) l = Ok los -> Forall (fun i => match i with At q _ => q <> p | _ => False end) l -> last_of p (concat los) = None.
Proof.
  revert los; induction l as [|i l IH]; cbn [mapM]; intros los E F; [injection E as <-; reflexivity|].
  inversion F as [|? ? F1 F2]; subst. destruct i as [q v|]; [|contradiction]. cbn [option_pairs bind] in E. destruct (mapM (option_pairs U) l) as [los'|]; [|discriminate].
  cbn [bind] in E. injection E as <-. cbn [concat app last_of]. rewrite (IH _ eq_refl F2). unfold patheqb. destruct (list_eq_dec _ p q); [congruence|reflexivity].
Qed.
Theorem C93_wins U join exists_file sections user userdir passfile prompt
    no_defaults parameters env prefix sysconfdir service_file d argv args a g b p v :
  line argv (a ++ g :: b) args -> given_parameters parameters ->
  collect U join exists_file sections user userdir passfile prompt no_defaults parameters env prefix (flat_map item (a ++ g :: b)) sysconfdir service_file = Ok d ->
  item g = [At p v] -> ~ In (hd [] p) password_keys ->
  (forall g', In g' b -> (forall u, g' <> Iri u) /\ forall w, item g' <> [At p w]) ->
  exists m, pg_python_args argv = Go (m, args) /\ v_params m = flat_map item (a ++ g :: b) /\ get_path p d = Some v.
Proof.
  intros L G C E NP B. exists (meaning (a ++ g :: b)). split; [apply C93_understood; eauto|]. split; [reflexivity|].
  assert (OI : forall g', Forall option_item (item g')).
  { intros g'. destruct g'; cbn [item]; try exact (Forall_nil _); (constructor; [|exact (Forall_nil _)]); cbn [option_item];
      first [left; eexists; split; [reflexivity|discriminate] | right; eexists; reflexivity | split; [reflexivity|eexists; reflexivity]]. }
  assert (F : Forall option_item (flat_map item (a ++ g :: b))).
  { apply Forall_flat_map, Forall_forall. intros g' _. apply OI. }
  assert (ST : standard p). { specialize (OI g). rewrite E in OI. inversion OI; assumption. }
  destruct (C43_precedence _ _ _ _ _ _ _ _ _ _ _ _ _ _ _ _ G F C) as (es & los & _ & M & V).
  rewrite (V p ST NP). rewrite flat_map_app in M. cbn [flat_map] in M. rewrite E in M. apply mapM_app in M as (l1 & l2 & -> & _ & M). cbn [app mapM option_pairs bind] in M.
  destruct (mapM (option_pairs U) (flat_map item b)) as [l3|] eqn:M3; [|discriminate]. cbn [bind] in M. injection M as <-.
  rewrite concat_app, last_of_app. cbn [concat app last_of]. rewrite (later_none U p _ _ M3).
  - unfold patheqb. destruct (list_eq_dec _ p p); [reflexivity|congruence].
  - apply Forall_flat_map, Forall_forall. intros g' I1. destruct (B g' I1) as [B1 B2]. 
    destruct g'; cbn [item] in *; try exact (Forall_nil _); (constructor; [|exact (Forall_nil _)]);
      first [exact (B1 _ eq_refl) | intros K; subst p; eapply B2; reflexivity].
Qed.
Print Assumptions C93_wins.

(** an option that is not one: nothing is run, the status is 2 *)
Theorem C93_unknown gs ts c t r : written gs ts -> forallb (fun g => negb (is_main g)) gs = true ->
  c <> 45 -> ~ In c (map (fun a => Z.of_N (Ascii.N_of_ascii a)) (String.list_ascii_of_string "sIhpUWdlLCmc")) ->
  pg_python_args (ts ++ (45 :: c :: t) :: r) = Stop Usage.
Proof.
  intros W NM C N. unfold pg_python_args. rewrite (parse_written _ _ _ _ W), ends_none by exact NM. rewrite parse_short by exact C. cbn [cluster].
  destruct (find_short options c) as [o|] eqn:F; [|reflexivity]. exfalso. apply N. apply find_short_spec in F as [I1 F].
  unfold options in I1. cbn [In] in I1.
  repeat (destruct I1 as [<-|I1]; [cbn [o_short] in F; try discriminate F; injection F as <-; cbn; tauto|]). destruct I1.
Qed.
Print Assumptions C93_unknown.

(** a setting without = is meant to be reported as a wrong use of the option; it ends in a NameError *)
Theorem C93_setting_refuted gs ts t r : written gs ts -> forallb (fun g => negb (is_main g)) gs = true -> ~ In 61 t ->
  pg_python_args (ts ++ str "-s" :: t :: r) = Stop NameError.
Proof.
  intros W NM N. unfold pg_python_args. rewrite (parse_written _ _ _ _ W), ends_none by exact NM.
  change (str "-s") with (45 :: 115 :: @nil Z). rewrite parse_short by discriminate. apply split_eq_None in N.
  cbn [cluster]. change (find_short options 115) with (Some (Opt (one "s") (Some (str "setting")) (ASettings (str "settings")))).
  cbn [o_act takes_value process]. rewrite N. reflexivity.
Qed.
Print Assumptions C93_setting_refuted.

(** ** examples *)
Example C93_ex_line : line [str "-Wh"; str "-p"; str "--user=joe"; str "-ssearch_path=a=b"; str "--"; str "-x"]
  [Password; Host (str "-p"); User (str "joe"); Setting (str "search_path") (str "a=b")] [str "-x"].
Proof.
  apply (l_more [Password; Host (str "-p")] [str "-Wh"; str "-p"] _ [User (str "joe"); Setting (str "search_path") (str "a=b")]); [reflexivity| |].
  { apply (w_cluster [Host (str "-p")] 104 [] [str "-p"]); [discriminate|]. apply w_letter; [exact Logic.I|reflexivity|reflexivity]. }
  apply (l_more [User (str "joe")] [str "--user=joe"] _ [Setting (str "search_path") (str "a=b")]); [reflexivity| |].
  { apply (w_word_eq (User (str "joe")) (str "username") (str "user") (str "joe")); [exact Logic.I|reflexivity| |reflexivity].
    right. split; [exists (str "name"); reflexivity|]. split.
    - unfold words. cbn [In]. intros H. repeat (destruct H as [H|H]; [discriminate H|]). exact H.
    - intros w' H (t & K). unfold words in H. cbn [In] in H.
      repeat (destruct H as [<-|H]; [first [reflexivity | exfalso; cbn in K; discriminate K]|]). destruct H. }
  apply (l_more [Setting (str "search_path") (str "a=b")] [str "-ssearch_path=a=b"] _ []); [reflexivity| |].
  { apply (w_joined (Setting (str "search_path") (str "a=b")) 115 (str "search_path=a=b")); [|reflexivity|reflexivity|discriminate].
    cbn. intros H. repeat (destruct H as [H|H]; [discriminate H|]). exact H. }
  apply (l_dashes [str "-x"]).
Qed.
Example C93_ex_parse : pg_python_args [str "-Wh"; str "-p"; str "--user=joe"; str "-ssearch_path=a=b"; str "--"; str "-x"] =
  Go (Vals [At [str "prompt_password"] (PBool true); At [str "host"] (PStr (str "-p")); At [str "user"] (PStr (str "joe"));
            At [str "settings"; str "search_path"] (PStr (str "a=b"))] [] [] None [] None, [str "-x"]).
Proof. reflexivity. Qed.
Example C93_ex_main : pg_python_args [str "-lfoo"; str "-c"; str "print(1)"; str "-c"; str "--help"] =
  Go (Vals [] [str "foo"] [] None [] (Some (str "print(1)", KCommand)), [str "-c"; str "--help"]).
Proof. reflexivity. Qed.
Example C93_ex_script : pg_python_args [str "script.py"; str "-h"; str "x"] = Go (no_vals, [str "script.py"; str "-h"; str "x"]).
Proof. reflexivity. Qed.
Example C93_ex_ambiguous : pg_python_args [str "--p"; str "x"] = Stop Usage /\ pg_python_args [str "--po"; str "5"] = Go (meaning [Port (str "5")], []).
Proof. split; reflexivity. Qed.
Example C93_ex_mode : pg_python_args [str "--ssl-mode"; str "verify"] = Stop Usage /\ pg_python_args [str "--ssl=allow"] = Go (meaning [SslMode (str "allow")], []).
Proof. split; reflexivity. Qed.
Example C93_ex_missing : pg_python_args [str "-h"] = Stop Usage /\ pg_python_args [str "--password=x"] = Stop Usage /\ pg_python_args [str "--he"] = Stop Shown.
Proof. repeat split; reflexivity. Qed.
