From Verif Require Import PyStr PyStrProof PyDict PyDictProof BaseProof LibModel LibSpec LibProof.
Lemma existsb_in x l : existsb (seqb x) l = true <-> In x l.
Proof.
  rewrite existsb_exists. split; [intros (y & I & E); apply seqb_eq in E; now subst|]. intros I. exists x. split; [exact I|apply seqb_refl].
Qed.
Lemma existsb_notin x l : existsb (seqb x) l = false <-> ~ In x l.
Proof. rewrite <- existsb_in. destruct (existsb _ _); intuition congruence. Qed.
Lemma set_add_in x y l : In x (set_add y l) <-> x = y \/ In x l.
Proof.
  unfold set_add. destruct (existsb (seqb y) l) eqn:E.
  - apply existsb_in in E. split; [auto|]. intros [->|]; auto.
  - rewrite in_app_iff. cbn. intuition.
Qed.
Definition bad_type (s : dsection) : bool :=
  match nth_error (d_fields s) 0 with Some (c :: t) => negb (existsb (seqb (c :: t)) symtypes) | _ => false end.
Lemma bad_type_spec s : bad_type s = false <-> known_type s.
Proof.
  unfold bad_type, known_type, field. destruct (nth_error (d_fields s) 0) as [[|c t]|]; [tauto| |tauto].
  rewrite negb_false_iff. apply existsb_in.
Qed.
Definition method_of (s : dsection) : option text := match field 1 s with Some m => if seqb m (str "all") then None else Some m | None => None end.
Lemma method_ok s : known_method s -> check_method (nth_error (d_fields s) 1) = Ok (method_of s).
Proof.
  unfold known_method, method_of, field. destruct (nth_error (d_fields s) 1) as [[|c t]|]; [reflexivity| |reflexivity].
  intros I. cbn [check_method]. destruct (seqb_spec (c :: t) (str "all")) as [E|N]; [reflexivity|].
  rewrite (proj2 (existsb_in _ _)); [reflexivity|]. destruct I as [I|I]; [congruence|exact I].
Qed.
Lemma method_err s : ~ known_method s -> check_method (nth_error (d_fields s) 1) = Err ValueError.
Proof.
  unfold known_method, field. destruct (nth_error (d_fields s) 1) as [[|c t]|]; [tauto| |tauto].
  intros I. cbn [check_method]. destruct (seqb_spec (c :: t) (str "all")) as [E|N]; [exfalso; apply I; left; congruence|].
  rewrite (proj2 (existsb_notin _ _)); [reflexivity|]. intros H. apply I. now right.
Qed.
Definition is_preload (s : dsection) : bool := match nth_error (d_fields s) 0 with Some t => seqb t (str "preload") | None => false end.
Lemma is_preload_spec s : is_preload s = true <-> field 0 s = Some (str "preload").
Proof.
  unfold is_preload, field. destruct (nth_error (d_fields s) 0) as [[|c t]|]; [split; discriminate| |split; discriminate].
  split; [intros H; apply seqb_eq in H; congruence|]. intros [= -> ->]. apply seqb_refl.
Qed.
Definition symbol_at (s : dsection) (q : text) : symbol :=
  {| sy_name := d_name s; sy_source := q; sy_method := method_of s; sy_type := if is_preload s then None else nth_error (d_fields s) 0; sy_ref := d_amp s |}.
Lemma symbol_at_of s q : symbol_of s q (symbol_at s q).
Proof.
  unfold symbol_of, symbol_at. cbn [sy_name sy_source sy_ref sy_method sy_type]. repeat split.
  unfold is_preload, field. destruct (nth_error (d_fields s) 0) as [[|c t]|]; [now right| |now left].
  destruct (seqb (c :: t) (str "preload")); reflexivity.
Qed.
Definition add_sym (l : library) (p : dsection * text) : library :=
  {| l_preface := l_preface l; l_symbols := dset (d_name (fst p)) (symbol_at (fst p) (snd p)) (l_symbols l);
     l_preload := if is_preload (fst p) then set_add (d_name (fst p)) (l_preload l) else l_preload l |}.
Lemma collection_step l s q r : known_type s -> known_method s -> collection_go l (isym_of s q :: r) = collection_go (add_sym l (s, q)) r.
Proof.
  intros T M. cbn [collection_go isym_of y_type y_exe y_name y_query y_isref]. fold (bad_type s).
  rewrite (proj2 (bad_type_spec s) T). rewrite (method_ok s M). reflexivity.
Qed.
Lemma collection_ok ps l : Forall (fun p => known_type (fst p) /\ known_method (fst p)) ps ->
  collection_go l (map (fun p => isym_of (fst p) (snd p)) ps) = Ok (fold_left add_sym ps l).
Proof.
  intros F. revert l. induction F as [|[s q] ps [T M] _ IH]; intros l; [reflexivity|]. cbn [map fst snd fold_left]. cbn [fst] in T, M.
  rewrite (collection_step _ _ _ _ T M). apply IH.
Qed.
Lemma in_dec_known s : {known_type s /\ known_method s} + {~ (known_type s /\ known_method s)}.
Proof.
  destruct (bad_type s) eqn:B.
  - right. intros [T _]. apply bad_type_spec in T. congruence.
  - destruct (check_method (nth_error (d_fields s) 1)) as [m|e] eqn:C.
    + left. split; [now apply bad_type_spec|]. unfold known_method, field in *. destruct (nth_error (d_fields s) 1) as [[|c t]|]; [exact I| |exact I].
      cbn [check_method] in C. destruct (seqb_spec (c :: t) (str "all")) as [->|N]; [now left|].
      destruct (existsb (seqb (c :: t)) execution_methods) eqn:X; [|discriminate]. right. now apply existsb_in in X.
    + right. intros [_ M]. apply method_ok in M. congruence.
Qed.
Lemma collection_err ps l : ~ Forall (fun p => known_type (fst p) /\ known_method (fst p)) ps ->
  collection_go l (map (fun p => isym_of (fst p) (snd p)) ps) = Err ValueError.
Proof.
  revert l. induction ps as [|[s q] ps IH]; intros l N; [exfalso; apply N; constructor|]. cbn [map fst snd].
  destruct (in_dec_known s) as [[T M]|K].
  - rewrite (collection_step _ _ _ _ T M). apply IH. intros F. apply N. constructor; [now split|exact F].
  - cbn [collection_go isym_of y_type y_exe y_name y_query y_isref]. fold (bad_type s). destruct (bad_type s) eqn:B; [reflexivity|].
    rewrite method_err; [reflexivity|]. intros M. apply K. split; [now apply bad_type_spec|exact M].
Qed.
(** what a fold of add_sym gives *)
Lemma fold_get ps : forall l n,
  (forall s q, latest (map (fun p => (d_name (fst p), p)) ps) n (s, q) -> get_symbol (fold_left add_sym ps l) n = Some (symbol_at s q)) /\
  (~ In n (map (fun p => d_name (fst p)) ps) -> get_symbol (fold_left add_sym ps l) n = get_symbol l n).
Proof.
  induction ps as [|p ps IH] using rev_ind; intros l n.
  - split; [intros s q H; now apply latest_nil in H|reflexivity].
  - rewrite fold_left_app. cbn [fold_left]. unfold get_symbol at 1 2. cbn [add_sym l_symbols]. rewrite dget_set. split.
    + intros s q H. rewrite map_app in H. cbn [map] in H. apply latest_snoc in H as [[-> E]|[N H]].
      * subst p. cbn [fst snd]. now rewrite seqb_refl.
      * rewrite seqb_ne by congruence. now apply IH.
    + rewrite map_app, in_app_iff. cbn [map In]. intros N. rewrite seqb_ne by intuition. apply IH. intuition.
Qed.
Lemma fold_preface ps l : l_preface (fold_left add_sym ps l) = l_preface l.
Proof. revert l. induction ps as [|p ps IH]; intros l; [reflexivity|]. cbn [fold_left]. now rewrite IH. Qed.
Lemma fold_preload ps l n : In n (l_preload (fold_left add_sym ps l)) <-> In n (l_preload l) \/ exists p, In p ps /\ d_name (fst p) = n /\ is_preload (fst p) = true.
Proof.
  revert l. induction ps as [|p ps IH]; intros l; cbn [fold_left].
  - split; [auto|]. intros [H|(p & [] & _)]. exact H.
  - rewrite IH. cbn [add_sym l_preload]. destruct (is_preload (fst p)) eqn:P.
    + rewrite set_add_in. split.
      * intros [[->|H]|(x & I & H)]; [right; exists p; cbn; auto|auto|right; exists x; cbn; tauto].
      * intros [H|(x & [->|I] & H & H2)]; [auto|subst n; auto|right; exists x; auto].
    + split.
      * intros [H|(x & I & H)]; [auto|right; exists x; cbn; tauto].
      * intros [H|(x & [->|I] & H & H2)]; [auto|congruence|right; exists x; auto].
Qed.
Lemma mapM_plain pre : mapM plain_line (map BText pre) = Ok pre.
Proof. induction pre as [|l pre IH]; [reflexivity|]. cbn [map mapM plain_line bind]. now rewrite IH. Qed.
Lemma combine3 ss (qs : list text) : length qs = length ss -> combine (map d_name ss) (combine ss qs) = map (fun p => (d_name (fst p), p)) (combine ss qs).
Proof. revert qs. induction ss as [|s ss IH]; intros [|q qs] L; try discriminate; [reflexivity|]. cbn [map combine]. rewrite IH by (cbn in L; lia). reflexivity. Qed.
Lemma names_combine ss (qs : list text) : length qs = length ss -> map (fun p => d_name (fst p)) (combine ss qs) = map d_name ss.
Proof. revert qs. induction ss as [|s ss IH]; intros [|q qs] L; try discriminate; [reflexivity|]. cbn [map combine fst]. now rewrite IH by (cbn in L; lia). Qed.
Lemma fst_combine (ss : list dsection) (qs : list text) : length qs = length ss -> map fst (combine ss qs) = ss.
Proof. revert qs. induction ss as [|s ss IH]; intros [|q qs] L; try discriminate; [reflexivity|]. cbn [map combine fst]. now rewrite IH by (cbn in L; lia). Qed.
Lemma snd_combine (ns qs : list text) : length qs = length ns -> map snd (combine ns qs) = qs.
Proof. revert qs. induction ns as [|s ss IH]; intros [|q qs] L; try discriminate; [reflexivity|]. cbn [map combine snd]. now rewrite IH by (cbn in L; lia). Qed.

Section U.
Context (U : unicode) (UO : unicode_ok U).
Lemma from_lines_eq pre ss : Forall (ok_text U) pre -> Forall (ok_section U) ss ->
  from_lines U (show pre ss) = do syms <- read_symbols U [] (map sblock ss); symbol_collection syms (concat pre).
Proof. intros P S. unfold from_lines. rewrite (blocks_show U UO) by assumption. rewrite mapM_plain. reflexivity. Qed.
Lemma known_pairs ss (qs : list text) : length qs = length ss ->
  (Forall (fun p => known_type (fst p) /\ known_method (fst p)) (combine ss qs) <-> Forall (fun s => known_type s /\ known_method s) ss).
Proof. intros L. rewrite <- (fst_combine ss qs L) at 2. symmetry. apply Forall_map. Qed.
Lemma library_ok pre ss qs : Forall (ok_text U) pre -> Forall (ok_section U) ss -> Forall (fun s => known_type s /\ known_method s) ss ->
  queries U [] ss qs -> exists lib, from_lines U (show pre ss) = Ok lib /\ library_of U pre ss lib.
Proof.
  intros P S K Q. rewrite from_lines_eq by assumption. destruct (read_symbols_ok U UO ss [] qs S Q) as (ql & L & E & R). cbn [defs_of map app] in E.
  rewrite R. cbn [bind app]. unfold symbol_collection, isyms. rewrite collection_ok by now apply known_pairs.
  eexists. split; [reflexivity|]. exists qs. split; [exact Q|]. rewrite E. rewrite snd_combine by (now rewrite map_length).
  set (l0 := {| l_preface := concat pre; l_symbols := []; l_preload := [] |}).
  split; [apply fold_preface|]. assert (G : forall n, get_symbol (fold_left add_sym (combine ss ql) l0) n = None <-> ~ In n (map d_name ss)).
  { intros n. split.
    - intros H I. rewrite <- (names_combine ss ql L) in I. 
      assert (X : In n (map fst (map (fun p => (d_name (fst p), p)) (combine ss ql)))) by (rewrite map_map; exact I).
      apply latest_in in X as ([s q] & X). apply (proj1 (fold_get (combine ss ql) l0 n)) in X. congruence.
    - intros N. rewrite (proj2 (fold_get (combine ss ql) l0 n)); [reflexivity|]. now rewrite names_combine. }
  split; [|split; [|split; [exact G|]]].
  - intros n s q H. rewrite combine3 in H by exact L. exists (symbol_at s q). split; [now apply fold_get|apply symbol_at_of].
  - intros n. unfold symbols. destruct (in_dec (list_eq_dec Z.eq_dec) n (map d_name ss)) as [I|I].
    + split; [auto|]. intros _. destruct (in_dec (list_eq_dec Z.eq_dec) n (dkeys (l_symbols (fold_left add_sym (combine ss ql) l0)))) as [J|J]; [exact J|].
      apply dget_None in J. apply G in J. contradiction.
    + split; [|tauto]. intros J. apply G in I. apply dget_None in I. contradiction.
  - intros n. rewrite fold_preload. cbn [l0 l_preload]. split.
    + intros [[]|([s q] & I & N & H)]. exists s. split; [now apply in_combine_l in I|]. split; [exact N|now apply is_preload_spec].
    + intros (s & I & N & H). right. rewrite <- (fst_combine ss ql L) in I. apply in_map_iff in I as ([s' q] & E2 & I). cbn [fst] in E2. subst s'.
      exists (s, q). split; [exact I|]. split; [exact N|now apply is_preload_spec].
Qed.
Lemma library_undefined pre ss : Forall (ok_text U) pre -> Forall (ok_section U) ss -> (forall qs, ~ queries U [] ss qs) ->
  from_lines U (show pre ss) = Err TypeError.
Proof. intros P S N. rewrite from_lines_eq by assumption. rewrite (read_symbols_err U UO ss [] S N). reflexivity. Qed.
Lemma library_unknown pre ss qs : Forall (ok_text U) pre -> Forall (ok_section U) ss -> queries U [] ss qs ->
  ~ Forall (fun s => known_type s /\ known_method s) ss -> from_lines U (show pre ss) = Err ValueError.
Proof.
  intros P S Q N. rewrite from_lines_eq by assumption. destruct (read_symbols_ok U UO ss [] qs S Q) as (ql & L & E & R).
  rewrite R. cbn [bind app]. apply collection_err. intros F. apply N. now apply (known_pairs ss ql L).
Qed.
End U.
