(** CluProof4.v: removing a directory tree *)
From Verif Require Import Base BaseProof PyStr PyStrProof PyDictProof PyInt PgcModel CluModel CluSpec.

Fixpoint node_ind' (P : node -> Prop) (Hf : P NFile) (Hl : forall d, P (NLink d)) (Hd : forall es, Forall (fun e => P (snd e)) es -> P (NDir es)) (x : node) : P x :=
  match x with
  | NFile => Hf
  | NLink d => Hl d
  | NDir es => Hd es ((fix go (es : list (text * node)) : Forall (fun e => P (snd e)) es :=
      match es with [] => Forall_nil _ | e :: r => Forall_cons e (node_ind' P Hf Hl Hd (snd e)) (go r) end) es)
  end.

Fixpoint walks (root : text) (es : list (text * node)) :=
  match es with [] => [] | (n, y) :: r => walk_node (path_join root n) y ++ walks root r end.
Fixpoint below (root : text) (es : list (text * node)) : fs :=
  match es with [] => [] | (n, y) :: r => entries (path_join root n) y ++ below root r end.
Lemma walk_dir root es : walk_node root (NDir es) = walks root es ++ [(root, names dirlike es, names (fun y => negb (dirlike y)) es)].
Proof. cbn [walk_node]. f_equal. induction es as [|[n y] es IH]; [reflexivity|]. cbn [walks]. now rewrite <- IH. Qed.
Lemma entries_dir p es : entries p (NDir es) = (p, true) :: below p es.
Proof. cbn [entries]. f_equal. induction es as [|[n y] es IH]; [reflexivity|]. cbn [below]. now rewrite <- IH. Qed.
Lemma good_dir es : good_tree (NDir es) -> NoDup (map fst es) /\ Forall good_name (map fst es) /\ Forall (fun e => good_tree (snd e)) es.
Proof.
  cbn [good_tree]. intros (A & B & C). split; [assumption|]. split; [assumption|]. clear A B. induction es as [|[n y] es IH]; [constructor|]. destruct C. constructor; auto.
Qed.

Definition root_ok (p : text) : Prop := p <> [] /\ py_endswith [47] p = false.
Lemma join_ok p n : root_ok p -> path_join p n = p ++ 47 :: n.
Proof. intros (A & B). unfold path_join. destruct p; [congruence|]. now rewrite B. Qed.
Lemma ends_last p c : py_endswith [47] (p ++ [c]) = (47 =? c).
Proof. unfold py_endswith. rewrite rev_app_distr. cbn. now rewrite andb_true_r. Qed.
Lemma root_join p n : root_ok p -> good_name n -> root_ok (p ++ 47 :: n).
Proof.
  intros R (A & B). split; [now destruct p|]. destruct (exists_last A) as (m & c & ->). rewrite app_comm_cons, app_assoc, ends_last. apply Z.eqb_neq. intros <-. apply B. apply in_or_app. right. now left.
Qed.
Lemma inside_iff p q : inside p q = true <-> exists s, q = p ++ 47 :: s.
Proof.
  unfold inside. rewrite prefixb_spec. split; intros (s & ->); exists s; now rewrite <- app_assoc.
Qed.
Lemma slash_eq n m s t : ~ In 47 n -> ~ In 47 m -> n ++ 47 :: s = m ++ 47 :: t -> n = m.
Proof.
  revert m. induction n as [|a n IH]; intros [|b m] A B Q; [reflexivity| | |].
  - injection Q as <- _. exfalso. apply B. now left.
  - injection Q as -> _. exfalso. apply A. now left.
  - injection Q as -> Q. f_equal. apply (IH m); [intros I; apply A; now right|intros I; apply B; now right|assumption].
Qed.
Lemma slash_none n m t : ~ In 47 n -> n = m ++ 47 :: t -> False.
Proof. intros A ->. apply A. apply in_or_app. right. now left. Qed.

(** what is below a directory is inside of it, at an entry or inside of an entry *)
Lemma in_entries x : forall p q k, root_ok p -> good_tree x -> In (q, k) (entries p x) ->
  (q = p /\ k = match x with NDir _ => true | _ => false end) \/ (inside p q = true /\ exists es, x = NDir es /\ In (q, k) (below p es)).
Proof.
  induction x as [|d|es IH] using node_ind'; intros p q k R G I.
  - destruct I as [Q|[]]. injection Q as <- <-. now left.
  - destruct I as [Q|[]]. injection Q as <- <-. now left.
  - rewrite entries_dir in I. destruct I as [Q|I]; [injection Q as <- <-; now left|]. right. split; [|eauto].
    apply good_dir in G as (_ & GN & GT). induction es as [|[n y] es IHe]; [contradiction|]. cbn [below] in I. apply in_app_or in I as [I|I].
    + cbn [map fst] in GN. rewrite join_ok in I by assumption. apply (Forall_inv IH) in I; [|now apply root_join; [|apply (Forall_inv GN)]|apply (Forall_inv GT)]. cbn [snd] in I.
      destruct I as [(-> & _) | (I & _)]; apply inside_iff; [eauto|]. apply inside_iff in I as (s & ->). rewrite <- app_assoc. cbn [app]. eauto.
    + apply IHe; [now apply Forall_inv_tail in IH|now apply Forall_inv_tail in GN|now apply Forall_inv_tail in GT|assumption].
Qed.
Lemma in_below es : forall p q k, root_ok p -> Forall good_name (map fst es) -> Forall (fun e => good_tree (snd e)) es -> In (q, k) (below p es) ->
  exists n y, In (n, y) es /\ In (q, k) (entries (p ++ 47 :: n) y).
Proof.
  induction es as [|[n y] es IH]; intros p q k R GN GT I; [contradiction|]. cbn [below] in I. apply in_app_or in I as [I|I].
  - rewrite join_ok in I by assumption. exists n, y. split; [now left|assumption].
  - apply IH in I as (m & z & A & B); try assumption; [|now apply Forall_inv_tail in GN|now apply Forall_inv_tail in GT]. exists m, z. split; [now right|assumption].
Qed.
Lemma below_in es p n y q k : root_ok p -> In (n, y) es -> In (q, k) (entries (p ++ 47 :: n) y) -> In (q, k) (below p es).
Proof.
  intros R. induction es as [|[m z] es IH]; intros I J; [contradiction|]. cbn [below]. apply in_or_app. destruct I as [Q|I]; [injection Q as -> ->; left; now rewrite join_ok|]. right. auto.
Qed.
Lemma self_in x p : exists k, In (p, k) (entries p x) /\ k = match x with NDir _ => true | _ => false end.
Proof. destruct x as [|dd|ee]; cbn [entries]; eexists; (split; [now left|reflexivity]). Qed.

Lemma fs_run_app a b f : fs_run (a ++ b) f = match fs_run a f with Some g => fs_run b g | None => None end.
Proof. revert f. induction a as [|x a IH]; intros f; [reflexivity|]. cbn [app fs_run]. destruct (fs_remove x f); auto. Qed.
Lemma filter_filter {A} (p q : A -> bool) l : filter p (filter q l) = filter (fun x => q x && p x)%bool l.
Proof. induction l as [|x l IH]; [reflexivity|]. cbn [filter]. destruct (q x); cbn [filter andb]; [destruct (p x)|]; now rewrite IH. Qed.

(** removing a list of names of one directory *)
Lemma run_names d root ns : forall f, NoDup ns -> (forall n, In n ns -> In (root ++ 47 :: n, d) f) ->
  (d = true -> forall n q k, In n ns -> In (q, k) f -> inside (root ++ 47 :: n) q = false) ->
  fs_run (map (fun n => (d, root ++ 47 :: n)) ns) f = Some (filter (fun e => negb (existsb (fun n => seqb (root ++ 47 :: n) (fst e)) ns)) f).
Proof.
  induction ns as [|n ns IH]; intros f ND I C; cbn [map fs_run].
  - f_equal. induction f as [|e f IHf]; [reflexivity|]. cbn. f_equal. apply IHf; [intros ? []|intros _ ? ? ? []].
  - unfold fs_remove. assert (X : existsb (fun e => seqb (root ++ 47 :: n) (fst e) && Bool.eqb d (snd e))%bool f = true).
    { apply existsb_exists. exists (root ++ 47 :: n, d). split; [apply I; now left|]. cbn. now rewrite seqb_refl, Bool.eqb_reflx. }
    assert (Y : (d && existsb (fun e => inside (root ++ 47 :: n) (fst e)) f)%bool = false).
    { destruct d; [|reflexivity]. cbn [andb]. apply Bool.not_true_iff_false. intros Q. apply existsb_exists in Q as ([q k] & J & Q). cbn [fst] in Q. now rewrite (C eq_refl n q k) in Q by (auto; now left). }
    rewrite X, Y. cbn [andb negb]. inversion ND as [|? ? NI ND']; subst. rewrite IH; [|assumption| |].
    + unfold without. rewrite filter_filter. f_equal. apply filter_ext. intros [q k]. cbn [fst existsb]. now rewrite Bool.negb_orb.
    + intros m J. unfold without. apply filter_In. split; [apply I; now right|]. cbn [fst]. destruct (seqb_spec (root ++ 47 :: n) (root ++ 47 :: m)) as [Q|]; [|reflexivity]. apply app_inv_head in Q. injection Q as ->. contradiction.
    + intros -> m q k J J'. unfold without in J'. apply filter_In in J' as (J' & _). eapply C; eauto. now right.
Qed.

Definition rem_of (x : text * list text * list text) : list (bool * text) :=
  let '(root, dirs, files) := x in map (fun f => (false, path_join root f)) files ++ map (fun d => (true, path_join root d)) dirs.
Definition rems (l : list (text * list text * list text)) : list (bool * text) := concat (map rem_of l).
Lemma rems_app a b : rems (a ++ b) = rems a ++ rems b.
Proof. unfold rems. now rewrite map_app, concat_app. Qed.
(** inside of a directory among these entries *)
Definition deep (root : text) (es : list (text * node)) (q : text) : bool :=
  existsb (fun e => inside (root ++ 47 :: fst e) q) es.

Lemma names_in p es n : In n (names p es) <-> exists y, In (n, y) es /\ p y = true.
Proof.
  unfold names. rewrite in_map_iff. split.
  - intros ([m y] & <- & I). apply filter_In in I as (I & Q). eauto.
  - intros (y & I & Q). exists (n, y). split; [reflexivity|]. now apply filter_In.
Qed.
Lemma names_nodup p (es : list (text * node)) : NoDup (map fst es) -> NoDup (names p es).
Proof.
  unfold names. induction es as [|[n y] es IH]; intros ND; [constructor|]. cbn [map fst] in ND. inversion ND as [|? ? NI ND']; subst. cbn [filter snd]. destruct (p y); [|auto]. cbn [map fst]. constructor; [|auto].
  intros I. apply NI. apply in_map_iff in I as ([m z] & Q & I). apply filter_In in I as (I & _). apply in_map_iff. eauto.
Qed.
Lemma nodup_val (es : list (text * node)) n y z : NoDup (map fst es) -> In (n, y) es -> In (n, z) es -> y = z.
Proof.
  induction es as [|[m x] es IH]; intros ND I J; [contradiction|]. cbn [map fst] in ND. inversion ND as [|? ? NI ND']; subst.
  destruct I as [I|I], J as [J|J]; [congruence| | |auto]; exfalso; apply NI; apply in_map_iff; [injection I as -> ->; exists (n, z)|injection J as -> ->; exists (n, y)]; auto.
Qed.

Lemma clear_dir x : forall root es f, x = NDir es -> root_ok root -> good_tree x ->
  (forall q k, inside root q = true -> (In (q, k) f <-> In (q, k) (below root es))) ->
  fs_run (rems (walk_node root x)) f = Some (filter (fun e => negb (inside root (fst e))) f).
Proof.
  induction x as [|d|es0 IH] using node_ind'; intros root es f Q R G H; try discriminate. injection Q as ->.
  rewrite walk_dir, rems_app, fs_run_app. destruct (good_dir es G) as (ND & GN & GT). rewrite Forall_forall in GN, GT, IH.
  assert (GNm : forall n y, In (n, y) es -> good_name n). { intros n y I. apply GN. apply in_map_iff. exists (n, y). auto. }
  (* the contents of the directories *)
  assert (S1 : forall done todo, es = done ++ todo -> fs_run (rems (walks root todo)) (filter (fun e => negb (deep root done (fst e))) f) = Some (filter (fun e => negb (deep root es (fst e))) f)).
  { intros done todo. revert done. induction todo as [|[n y] todo IHt]; intros done Q; cbn [walks].
    - rewrite app_nil_r in Q. now subst.
    - rewrite rems_app, fs_run_app. assert (I : In (n, y) es) by (rewrite Q; apply in_or_app; right; now left).
      assert (NX : ~ In n (map fst done) /\ ~ In n (map fst todo)).
      { rewrite Q, map_app in ND. cbn [map fst] in ND. apply NoDup_remove in ND as (_ & NI). split; intros X; apply NI; apply in_or_app; auto. }
      rewrite join_ok by assumption. assert (F : fs_run (rems (walk_node (root ++ 47 :: n) y)) (filter (fun e => negb (deep root done (fst e))) f) = Some (filter (fun e => negb (deep root (done ++ [(n, y)]) (fst e))) f)).
      { assert (NoC : (forall es', y <> NDir es') -> fs_run (rems (walk_node (root ++ 47 :: n) y)) (filter (fun e => negb (deep root done (fst e))) f) = Some (filter (fun e => negb (deep root (done ++ [(n, y)]) (fst e))) f)).
        { intros ND'. assert (W : walk_node (root ++ 47 :: n) y = []) by (destruct y as [|dd|yy]; [reflexivity|reflexivity|exfalso; now apply (ND' yy)]). rewrite W. cbn [rems concat map fs_run]. f_equal. apply filter_ext_in. intros [q k] J. cbn [fst]. unfold deep. rewrite existsb_app. cbn [existsb fst]. rewrite orb_false_r.
          destruct (inside (root ++ 47 :: n) q) eqn:IN; [|now rewrite orb_false_r]. exfalso. apply inside_iff in IN as (s & ->).
          assert (IR : inside root ((root ++ 47 :: n) ++ 47 :: s) = true) by (apply inside_iff; exists (n ++ 47 :: s); now rewrite <- app_assoc).
          apply (H _ k IR) in J. apply in_below in J as (m & z & I' & J); [|assumption|apply Forall_forall; assumption|apply Forall_forall; assumption].
          apply in_entries in J; [|apply root_join; [assumption|eapply GNm; eauto]|exact (GT (m, z) I')]. destruct J as [(J & _) | (J & es' & -> & _)].
          - rewrite <- app_assoc in J. apply app_inv_head in J. injection J as J. eapply slash_none; [exact (proj2 (GNm m z I'))|]. symmetry. exact J.
          - apply inside_iff in J as (s' & J). rewrite <- !app_assoc in J. apply app_inv_head in J. injection J as J. apply slash_eq in J; [|exact (proj2 (GNm _ _ I))|exact (proj2 (GNm _ _ I'))]. subst m. assert (y = NDir es') by (eapply nodup_val; eauto). now apply (ND' es'). }
        destruct y as [|d|es']; [apply NoC; discriminate|apply NoC; discriminate|]. clear NoC.
        pose proof (IH (n, NDir es') I) as IHn. cbn [snd] in IHn. rewrite (IHn _ es'); [|reflexivity|apply root_join; [assumption|eapply GNm; eauto]|exact (GT (n, NDir es') I)|].
        - rewrite filter_filter. f_equal. apply filter_ext. intros [q k]. cbn [fst]. unfold deep. rewrite existsb_app. cbn [existsb fst]. now rewrite orb_false_r, Bool.negb_orb.
        - intros q k IN. rewrite filter_In. cbn [fst]. apply inside_iff in IN as (s & ->).
          assert (DN : deep root done ((root ++ 47 :: n) ++ 47 :: s) = false).
          { apply Bool.not_true_iff_false. intros X. unfold deep in X. apply existsb_exists in X as ([m z] & J & X). cbn [fst] in X. apply inside_iff in X as (s' & X). rewrite <- !app_assoc in X. apply app_inv_head in X. injection X as X.
            assert (I' : In (m, z) es) by (rewrite Q; apply in_or_app; now left). apply slash_eq in X; [|exact (proj2 (GNm _ _ I))|exact (proj2 (GNm _ _ I'))]. subst m. apply (proj1 NX). apply in_map_iff. exists (n, z). auto. }
          rewrite DN. cbn [negb]. rewrite H by (apply inside_iff; exists (n ++ 47 :: s); now rewrite <- app_assoc). split.
          + intros (J & _). apply in_below in J as (m & z & I' & J); [|assumption|apply Forall_forall; assumption|apply Forall_forall; assumption].
            apply in_entries in J; [|apply root_join; [assumption|eapply GNm; eauto]|exact (GT (m, z) I')]. destruct J as [(J & _) | (J & es2 & -> & J2)].
            * exfalso. rewrite <- app_assoc in J. apply app_inv_head in J. injection J as J. eapply slash_none; [exact (proj2 (GNm m z I'))|]. symmetry. exact J.
            * apply inside_iff in J as (s' & J). rewrite <- !app_assoc in J. apply app_inv_head in J. injection J as J. apply slash_eq in J; [|exact (proj2 (GNm _ _ I))|exact (proj2 (GNm _ _ I'))]. subst m.
              assert (X : NDir es' = NDir es2) by (eapply nodup_val; eauto). injection X as <-. assumption.
          + intros J. split; [|reflexivity]. eapply below_in; [assumption|exact I|]. rewrite entries_dir. now right. }
      rewrite F. apply (IHt (done ++ [(n, y)])). now rewrite <- app_assoc. }
  specialize (S1 [] es eq_refl). cbn [deep existsb negb] in S1. assert (FT : filter (fun _ : text * bool => true) f = f) by (clear; induction f as [|e f IHf]; [reflexivity|]; cbn; now rewrite IHf). unfold deep at 1 in S1. cbn [existsb negb] in S1. rewrite FT in S1. rewrite S1. clear S1 FT IH.
  set (f1 := filter (fun e => negb (deep root es (fst e))) f).
  (* the entries themselves *)
  assert (IN1 : forall n y, In (n, y) es -> In (root ++ 47 :: n, match y with NDir _ => true | _ => false end) f1).
  { intros n y I. unfold f1. apply filter_In. cbn [fst]. split.
    - apply H; [apply inside_iff; eauto|]. eapply below_in; [assumption|exact I|]. destruct (self_in y (root ++ 47 :: n)) as (k & A & ->). assumption.
    - apply Bool.negb_true_iff, Bool.not_true_iff_false. intros X. unfold deep in X. apply existsb_exists in X as ([m z] & J & X). cbn [fst] in X. apply inside_iff in X as (s & X). rewrite <- app_assoc in X. apply app_inv_head in X. injection X as X. eapply slash_none; [exact (proj2 (GNm _ _ I))|exact X]. }
  unfold rems. cbn [map concat rem_of]. rewrite app_nil_r, fs_run_app.
  assert (MJ : forall d ns, map (fun n => (d : bool, path_join root n)) ns = map (fun n => (d, root ++ 47 :: n)) ns) by (intros d ns; apply map_ext; intros n; now rewrite join_ok).
  rewrite !MJ. rewrite run_names; [|now apply names_nodup| |discriminate].
  2: { intros n I. apply names_in in I as (y & I & D). apply IN1 in I. destruct y as [|d|es']; cbn in *; try assumption; discriminate. }
  set (f2 := filter (fun e => negb (existsb (fun n => seqb (root ++ 47 :: n) (fst e)) (names (fun y => negb (dirlike y)) es))) f1). rewrite run_names; [|now apply names_nodup| |].
  - f_equal. unfold f2, f1. rewrite !filter_filter. apply filter_ext_in. intros [q k] J. cbn [fst].
    destruct (inside root q) eqn:IR.
    + apply (H q k IR) in J. apply in_below in J as (n & y & I & J); [|assumption|apply Forall_forall; assumption|apply Forall_forall; assumption].
      cbn [negb]. apply Bool.andb_false_iff. apply in_entries in J; [|apply root_join; [assumption|eapply GNm; eauto]|exact (GT (n, y) I)]. destruct J as [(-> & _) | (J & _)].
      * destruct (dirlike y) eqn:D.
        -- right. apply Bool.andb_false_iff. right. apply Bool.negb_false_iff. apply existsb_exists. exists n. split; [apply names_in; eauto|]. apply seqb_refl.
        -- right. apply Bool.andb_false_iff. left. apply Bool.negb_false_iff. apply existsb_exists. exists n. split; [apply names_in; exists y; rewrite D; auto|]. apply seqb_refl.
      * left. apply Bool.negb_false_iff. unfold deep. apply existsb_exists. exists (n, y). auto.
    + cbn [negb]. assert (N : forall n s, q <> root ++ 47 :: n ++ s) by (intros n s ->; rewrite (proj2 (inside_iff root _)) in IR by eauto; discriminate).
      rewrite !Bool.andb_true_iff, !Bool.negb_true_iff. repeat split; apply Bool.not_true_iff_false; intros X; apply existsb_exists in X.
      * destruct X as ([m z] & _ & X). cbn [fst] in X. apply inside_iff in X as (s & X). rewrite <- app_assoc in X. cbn [app] in X. exact (N m (47 :: s) X).
      * destruct X as (m & _ & X). apply (Bool.reflect_iff _ _ (seqb_spec _ _)) in X. apply (N m []). now rewrite app_nil_r.
      * destruct X as (m & _ & X). apply (Bool.reflect_iff _ _ (seqb_spec _ _)) in X. apply (N m []). now rewrite app_nil_r.
  - intros n I. apply names_in in I as (y & I & D). pose proof (IN1 _ _ I) as J. destruct y as [|d|es']; cbn in D; [discriminate| |].
    + exfalso. pose proof (GT (n, NLink d) I) as X. cbn in X. congruence.
    + unfold f2. apply filter_In. split; [assumption|]. cbn [fst]. apply Bool.negb_true_iff, Bool.not_true_iff_false. intros X. apply existsb_exists in X as (m & J' & X). apply names_in in J' as (z & J' & D'). apply (Bool.reflect_iff _ _ (seqb_spec _ _)) in X. apply app_inv_head in X. injection X as ->. assert (z = NDir es') by (eapply nodup_val; eauto). subst z. discriminate.
  - intros _ n q k I J. unfold f2, f1 in J. rewrite !filter_In in J. destruct J as ((_ & J) & _). cbn [fst] in J. apply Bool.negb_true_iff in J. apply Bool.not_true_iff_false. intros X. apply names_in in I as (y & I & _).
    rewrite <- Bool.not_true_iff_false in J. apply J. unfold deep. apply existsb_exists. exists (n, y). auto.
Qed.

(** the whole tree goes, and nothing else *)
Lemma drop_tree dir es f : root_ok dir -> good_tree (NDir es) ->
  (forall q k, (q = dir \/ inside dir q = true) -> (In (q, k) f <-> In (q, k) (entries dir (NDir es)))) ->
  fs_run (removals dir (walk_node dir (NDir es))) f = Some (filter (fun e => negb (seqb dir (fst e) || inside dir (fst e))) f).
Proof.
  intros R G H. unfold removals. rewrite fs_run_app. change (concat _) with (rems (walk_node dir (NDir es))). rewrite (clear_dir _ dir es) with (1 := eq_refl); [|assumption|assumption|].
  - cbn [fs_run]. unfold fs_remove. assert (ND : inside dir dir = false).
    { apply Bool.not_true_iff_false. intros X. apply inside_iff in X as (s & X). apply (f_equal (@length Z)) in X. rewrite app_length in X. cbn [length] in X. lia. }
    assert (X : existsb (fun e => seqb dir (fst e) && Bool.eqb true (snd e))%bool (filter (fun e => negb (inside dir (fst e))) f) = true).
    { apply existsb_exists. exists (dir, true). split; [|cbn; now rewrite seqb_refl]. apply filter_In. cbn [fst]. rewrite ND. split; [|reflexivity]. apply H; [now left|]. rewrite entries_dir. now left. }
    assert (Y : existsb (fun e => inside dir (fst e)) (filter (fun e => negb (inside dir (fst e))) f) = false).
    { apply Bool.not_true_iff_false. intros Q. apply existsb_exists in Q as (e & J & Q). apply filter_In in J as (_ & J). rewrite Q in J. discriminate. }
    rewrite X, Y. cbn [andb negb]. unfold without. rewrite filter_filter. f_equal. apply filter_ext. intros [q k]. cbn [fst]. rewrite Bool.negb_orb. apply andb_comm.
  - intros q k IN. rewrite H by auto. rewrite entries_dir. split; [intros [Q|I]; [|assumption]|intros I; now right]. injection Q as <- <-. exfalso. apply inside_iff in IN as (s & X). apply (f_equal (@length Z)) in X. rewrite app_length in X. cbn [length] in X. lia.
Qed.
