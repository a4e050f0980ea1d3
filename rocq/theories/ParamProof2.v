From Verif Require Import PyStr PyStrProof BaseProof PyDict PyDictProof IRIModel ParamModel ParamSpec ParamProof.

Lemma patheqb1 k j : patheqb [k] [j] = seqb k j.
Proof. destruct (patheqb_spec [k] [j]) as [E|N], (seqb_spec k j) as [F|M]; try reflexivity; [injection E as ->; contradiction|subst; contradiction]. Qed.
Lemma patheqb_settings s k j : patheqb [s; k] [j] = false.
Proof. destruct (patheqb_spec [s; k] [j]); [discriminate|reflexivity]. Qed.
Lemma pairs_app a b : pairs (a ++ b) = pairs a ++ pairs b. Proof. apply flat_map_app. Qed.
Lemma last1 p q v : last_of p [(q, v)] = if patheqb p q then Some v else None. Proof. reflexivity. Qed.
Lemma or_none {A} (a : option A) : or_else a None = a. Proof. destruct a; reflexivity. Qed.
Lemma or_assoc {A} (a b c : option A) : or_else (or_else a b) c = or_else a (or_else b c). Proof. destruct a; reflexivity. Qed.
Lemma last_pairs_app p a b : last_of p (pairs (a ++ b)) = or_else (last_of p (pairs b)) (last_of p (pairs a)).
Proof. rewrite pairs_app. apply last_app. Qed.
Lemma last_pairs_opt {A} p q (o : option A) (f : A -> pval) :
  last_of p (pairs (match o with Some v => [At q (f v)] | None => [] end)) = if patheqb p q then option_map f o else None.
Proof. destruct o; cbn; destruct (patheqb p q); reflexivity. Qed.
Lemma last_pairs_special {A} p n (o : option A) (f : A -> pval) : last_of p (pairs (match o with Some v => [Special n (f v)] | None => [] end)) = None.
Proof. destruct o; reflexivity. Qed.
Ltac seqbs := repeat match goal with |- context [seqb (str ?a) (str ?b)] => let v := eval vm_compute in (seqb (str a) (str b)) in change (seqb (str a) (str b)) with v end; cbn [or_else option_map].
Section params.
Context (U : unicode) (join : text -> text -> text) (exists_file : text -> bool) (sections : text -> list (text * list (text * text))) (user userdir : text).
Lemma env_last env prefix p : standard p -> last_of p (pairs (env_items U env prefix)) = env_value U env prefix p.
Proof.
  intros S. unfold env_items. cbv zeta. unfold envvar_map. cbn [flat_map fst snd]. rewrite app_nil_r. rewrite !last_pairs_app, !last_pairs_special, !last_pairs_opt. cbn [or_else].
  set (rq := last_of p (pairs (match dget (prefix ++ str "REQUIRESSL") env with Some v => _ | None => _ end))).
  assert (RQ : rq = if patheqb p [str "sslmode"] then
     match dget (prefix ++ str "REQUIRESSL") env with
     | Some v => if seqb (py_strip U v) (str "1") then Some (PList [str "require"; prefix ++ str "REQUIRESSL" ++ str "=1"]) else None
     | None => None end else None).
  { unfold rq. destruct (dget (prefix ++ str "REQUIRESSL") env) as [v|]; [|cbn; destruct (patheqb _ _); reflexivity]. destruct (seqb (py_strip U v) (str "1")).
    - unfold pairs. cbn [flat_map app]. rewrite last1. reflexivity.
    - cbn. destruct (patheqb _ _); reflexivity. }
  rewrite RQ. clear rq RQ. destruct S as [(k & -> & K)|(k & ->)].
  2:{ rewrite !patheqb_settings. reflexivity. }
  rewrite !patheqb1. unfold env_value. cbv zeta. unfold plain_variables. cbn [dget].
  repeat match goal with |- context [seqb k (str ?c)] => destruct (seqb_spec k (str c)) as [->|?]; [seqbs; repeat (destruct (dget _ env)); reflexivity|] end.
  reflexivity.
Qed.
Lemma defaults_last p : last_of p (pairs (defaults join exists_file user userdir)) = default_value join exists_file user userdir p.
Proof.
  unfold defaults. rewrite last_pairs_app. set (a := last_of p (pairs (map _ _))).
  assert (A : a = match p with [k] => match dget k (user_files join userdir) with Some f => if exists_file f then Some (PStr f) else None | None => None end | _ => None end).
  { unfold a, default_files, user_files. cbv zeta. cbn [filter snd].
    assert (F : forall k f (r : list (text * text)), last_of p (pairs (map (fun q => At [fst q] (PStr (snd q))) (if exists_file f then (k, f) :: r else r))) =
      or_else (last_of p (pairs (map (fun q => At [fst q] (PStr (snd q))) r))) (if exists_file f then if patheqb p [k] then Some (PStr f) else None else None)).
    { intros k f r. destruct (exists_file f); [|symmetry; apply or_none]. unfold pairs. cbn [map flat_map app last_of fst snd]. match goal with |- match ?x with _ => _ end = _ => destruct x; reflexivity end. }
    rewrite !F. cbn [map pairs flat_map last_of]. destruct p as [|k [|j p]].
    - repeat (destruct (exists_file _)); reflexivity.
    - rewrite !patheqb1. cbn [dget].
      repeat match goal with |- context [seqb k (str ?c)] => destruct (seqb_spec k (str c)) as [->|?]; [seqbs; repeat (destruct (exists_file _)); reflexivity|] end.
      repeat (destruct (exists_file _)); reflexivity.
    - assert (N : forall c, patheqb (k :: j :: p) [c] = false) by (intros c; destruct (patheqb_spec (k :: j :: p) [c]); [discriminate|reflexivity]).
      rewrite !N. repeat (destruct (exists_file _)); reflexivity. }
  rewrite A. clear a A. unfold default_value. destruct p as [|k [|j p]]; [reflexivity| |].
  - unfold pairs. cbn [flat_map app last_of]. rewrite !patheqb1. unfold user_files. cbn [dget].
    destruct (seqb_spec k (str "user")) as [->|]; [reflexivity|]. destruct (seqb_spec k (str "host")) as [->|]; [reflexivity|]. destruct (seqb_spec k (str "port")) as [->|]; [reflexivity|].
    apply or_none.
  - assert (N : forall c, patheqb (k :: j :: p) [c] = false) by (intros c; destruct (patheqb_spec (k :: j :: p) [c]); [discriminate|reflexivity]).
    unfold pairs. cbn [flat_map app last_of]. rewrite !N. reflexivity.
Qed.
Lemma settings_last (s : list (text * pval)) p : NoDup (dkeys s) ->
  last_of p (pairs (map (fun q => At [k_settings; fst q] (snd q)) s)) = match p with [a; k] => if seqb a k_settings then dget k s else None | _ => None end.
Proof.
  intros ND. induction s as [|[k v] s IH]; [destruct p as [|? [|? [|]]]; cbn; try reflexivity; destruct (seqb _ _); reflexivity|].
  cbn [map pairs flat_map app last_of fst snd]. fold (pairs (map (fun q => At [k_settings; fst q] (snd q)) s)). inversion ND; subst. rewrite IH by assumption. clear IH.
  destruct (patheqb_spec p [k_settings; k]) as [->|N].
  - rewrite seqb_refl. cbn [dget]. rewrite seqb_refl. destruct (dget k s) eqn:D; [|reflexivity]. exfalso. apply H1. apply dget_In in D. now apply (in_map fst) in D.
  - destruct p as [|a [|j [|]]]; try reflexivity. destruct (seqb_spec a k_settings) as [->|]; [|reflexivity]. cbn [dget].
    destruct (seqb_spec j k) as [->|]; [contradiction|]. destruct (dget j s); reflexivity.
Qed.
Lemma denorm_ok d : (forall v, In (k_settings, v) d -> exists s, v = PDict s /\ NoDup (dkeys s)) -> exists l, denormalize d = Ok l.
Proof.
  induction d as [|[k v] d IH]; intros H; [cbn; eauto|]. destruct IH as (t & E); [intros w I; apply H; right; exact I|]. cbn [denormalize]. rewrite E.
  destruct (seqb_spec k k_settings) as [->|]; [|cbn [bind]; eauto]. destruct (H v) as (s & -> & _); [left; reflexivity|]. cbn [bind]. eauto.
Qed.
Lemma denorm_last d l p : given d -> denormalize d = Ok l -> standard p -> last_of p (pairs l) = get_path p d.
Proof.
  intros [ND S] H SP. revert l H. induction d as [|[k v] d IH]; intros l H.
  - apply Ok_inj in H. subst l. destruct p as [|? [|]]; reflexivity.
  - cbn [denormalize] in H. apply bind_Ok in H as (h & E & H). apply bind_Ok in H as (t & ET & H). apply Ok_inj in H. subst l. inversion ND; subst.
    rewrite last_pairs_app. rewrite (IH ltac:(assumption) ltac:(intros w I; apply S; right; exact I) t ET). clear IH.
    destruct (seqb_spec k k_settings) as [->|N].
    + destruct (S v) as (s & -> & NS); [left; reflexivity|]. apply Ok_inj in E. subst h. rewrite settings_last by exact NS.
      destruct SP as [(j & -> & J)|(j & ->)].
      * cbn [get_path dget]. rewrite (seqb_ne j k_settings J). apply or_none.
      * cbn [get_path dget]. rewrite !seqb_refl. destruct (dget k_settings d) eqn:D; [|reflexivity]. exfalso. apply dget_In in D. apply (in_map fst) in D. now apply H1 in D.
    + apply Ok_inj in E. subst h. unfold pairs at 1. cbn [flat_map app]. rewrite last1. destruct SP as [(j & -> & J)|(j & ->)].
      * rewrite patheqb1. cbn [get_path dget]. destruct (seqb_spec j k) as [->|]; [|apply or_none]. destruct (dget k d) eqn:D; [|reflexivity]. exfalso. apply dget_In in D. apply (in_map fst) in D. now apply H1 in D.
      * rewrite patheqb_settings. cbn [get_path dget]. rewrite (seqb_ne k_settings k) by auto. apply or_none.
Qed.
(** ** normalize undoes denormalize *)
Lemma normalize_app a b d : normalize_go (a ++ b) d = do e <- normalize_go a d; normalize_go b e.
Proof. revert d. induction a as [|[p v] a IH]; intros d; cbn [app normalize_go bind]; [reflexivity|]. destruct (set_path p v d); cbn [bind]; [apply IH|reflexivity]. Qed.
Lemma normalize_settings (s done : list (text * pval)) acc : dget k_settings acc = None -> done <> [] -> NoDup (dkeys (done ++ s)) ->
  normalize_go (pairs (map (fun q => At [k_settings; fst q] (snd q)) s)) (acc ++ [(k_settings, PDict done)]) = Ok (acc ++ [(k_settings, PDict (done ++ s))]).
Proof.
  intros A. revert done. induction s as [|[k v] s IH]; intros done NE ND; [now rewrite app_nil_r|].
  cbn [map pairs flat_map app normalize_go fst snd]. fold (pairs (map (fun q => At [k_settings; fst q] (snd q)) s)).
  cbn [set_path]. rewrite dget_app, A. cbn [dget]. rewrite seqb_refl. cbn [bind].
  assert (K : dget k done = None). { apply dget_None. rewrite dkeys_app in ND. cbn in ND. apply NoDup_remove_2 in ND. intros C. apply ND. apply in_or_app. now left. }
  rewrite (dset_absent k v done K).
  assert (DS : forall w, dset k_settings w (acc ++ [(k_settings, PDict done)]) = acc ++ [(k_settings, w)]).
  { clear - A. induction acc as [|[j w] acc IH]; intros x; [reflexivity|]. cbn [app dset dget] in *. destruct (seqb_spec k_settings j); [discriminate|]. rewrite IH; auto. }
  rewrite DS. replace (done ++ (k, v) :: s) with ((done ++ [(k, v)]) ++ s) by now rewrite <- app_assoc.
  apply IH; [destruct done; discriminate|]. now rewrite <- app_assoc.
Qed.
Lemma denorm_normalize_go d : forall acc, proper d -> (forall k, In k (dkeys d) -> dget k acc = None) -> exists l, denormalize d = Ok l /\ normalize_go (pairs l) acc = Ok (acc ++ d).
Proof.
  induction d as [|[k v] d IH]; intros acc [ND S] A; [exists []; split; [reflexivity|]; cbn; now rewrite app_nil_r|].
  inversion ND; subst. assert (PD : proper d) by (split; [assumption|intros w I; apply S; right; exact I]).
  destruct (IH (acc ++ [(k, v)]) PD) as (t & ET & EN).
  { intros j Hj. rewrite dget_app, (A j) by (right; exact Hj). cbn [dget]. rewrite seqb_ne; [reflexivity|]. intros ->. contradiction. }
  cbn [denormalize]. rewrite ET. destruct (seqb_spec k k_settings) as [->|N].
  - destruct (S v) as (s & -> & NE & NS); [left; reflexivity|]. cbn [bind]. eexists. split; [reflexivity|]. rewrite pairs_app, normalize_app.
    assert (AK : dget k_settings acc = None) by (apply A; left; reflexivity).
    destruct s as [|[k v] s]; [contradiction|]. cbn [map pairs flat_map app normalize_go fst snd set_path]. fold (pairs (map (fun q => At [k_settings; fst q] (snd q)) s)).
    rewrite AK. cbn [bind dset]. rewrite (dset_absent k_settings _ acc AK).
    rewrite (normalize_settings s [(k, v)] acc AK) by (discriminate || exact NS). cbn [bind app]. rewrite EN. now rewrite <- app_assoc.
  - cbn [bind]. eexists. split; [reflexivity|]. cbn [pairs flat_map app normalize_go set_path]. rewrite dset_absent by (apply A; left; reflexivity). cbn [bind]. fold (pairs t). rewrite EN. now rewrite <- app_assoc.
Qed.
Lemma denorm_normalize d : proper d -> exists l, denormalize d = Ok l /\ normalize (pairs l) = Ok d.
Proof. intros P. destruct (denorm_normalize_go d [] P) as (l & E & N); [reflexivity|]. exists l. auto. Qed.
(** ** services *)
Lemma service_last entries p : (forall e, In e entries -> py_lower U (fst e) <> str "ldap") ->
  last_of p (pairs (flat_map (service_item U) entries)) = service_value U entries p /\ forall i, In i (flat_map (service_item U) entries) -> match i with At _ _ => True | Special _ _ => False end.
Proof.
  induction entries as [|[k v] es IH]; intros L; [split; [reflexivity|intros i []]|]. destruct IH as [I1 I2]; [intros e He; apply L; right; exact He|]. cbn [flat_map service_value].
  assert (LK := L (k, v) ltac:(left; reflexivity)). cbn [fst] in LK.
  assert (SI : last_of p (pairs (service_item U (k, v))) = (match service_path U k with Some q => if patheqb p q then Some (PStr v) else None | None => None end) /\
     forall i, In i (service_item U (k, v)) -> match i with At _ _ => True | Special _ _ => False end).
  { unfold service_item, service_path. cbv zeta. cbn [fst snd]. rewrite (seqb_ne _ _ LK). destruct (seqb _ (str "pg_service")); [split; [reflexivity|intros i []]|].
    destruct (seqb _ (str "hostaddr")); [split; [reflexivity|intros i [<-|[]]; exact I]|]. destruct (seqb _ (str "dbname")); [split; [reflexivity|intros i [<-|[]]; exact I]|].
    unfold service_driver_parameters. destruct (existsb _ _); cbn [negb]; split; try reflexivity; intros i [<-|[]]; exact I. }
  destruct SI as [S1 S2]. split.
  - rewrite last_pairs_app, I1, S1. reflexivity.
  - intros i Hi. apply in_app_or in Hi as [Hi|Hi]; [now apply S2|now apply I2].
Qed.
Lemma find_first files name : find_service U exists_file sections files name = match first_section exists_file sections files name with Some es => Ok (flat_map (service_item U) es) | None => Err (OtherError 2) end.
Proof.
  induction files as [|f files IH]; [reflexivity|]. cbn [find_service first_section]. rewrite IH. destruct (exists_file f); [|reflexivity]. destruct (dget name (sections f)); reflexivity.
Qed.
End params.
