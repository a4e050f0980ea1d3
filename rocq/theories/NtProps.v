(** NtProps.v: C82, rows as namedtuples *)
From Verif Require Import Base BaseProof PyStr PyInt PyDict PyDictProof ArrayModel RowProof NtModel NtSpec NtProof.
From Coq Require Import String Permutation.
Local Notation str s := (PyStr.str s%string).
Local Notation length := List.length.

(** ASCII column names: there always is a type, with one field for each column, all different, whatever was asked for before *)
Theorem C82_fields : forall P w cols, pychars_ok P -> reached P w -> Forall ascii_text cols ->
  exists t, snd (factory P cols w) = Ok t /\ fields_of P cols (nt_fields t) /\ NoDup (nt_fields t).
Proof.
  intros P w cols OK R A. destruct (proj1 (factory_spec P cols w OK (reached_inv P w R)) (ascii_fields P cols OK A)) as (t & E & F & _).
  exists t. split; [exact E|]. rewrite F. split; [apply rename_fields|apply rename_NoDup; lia].
Qed.
Print Assumptions C82_fields.
(** any column names: the same, or SyntaxError *)
Theorem C82_any : forall P w cols, pychars_ok P -> reached P w ->
  (exists t, snd (factory P cols w) = Ok t /\ fields_of P cols (nt_fields t) /\ NoDup (nt_fields t)) \/
  (snd (factory P cols w) = Err (OtherError 1) /\ exists f, fields_of P cols f /\ ~ NoDup (map (c_nfkc P) (str "_cls" :: f))).
Proof.
  intros P w cols OK R. destruct (factory_spec P cols w OK (reached_inv P w R)) as [A B]. set (f := rename_go P 0 [] (map underscored cols)) in *.
  destruct (has_repeat (map (c_nfkc P) (str "_cls" :: f))) eqn:E.
  - assert (N : ~ NoDup (map (c_nfkc P) (str "_cls" :: f))) by (intros H; apply has_repeat_false in H; congruence). right. split; [exact (B N)|]. exists f. split; [apply rename_fields|exact N].
  - apply has_repeat_false in E. destruct (A E) as (t & T & F & _). left. exists t. split; [exact T|]. rewrite F. split; [apply rename_fields|apply rename_NoDup; lia].
Qed.
Print Assumptions C82_any.
(** the same names give the same type, whatever is asked for in between ... *)
Theorem C82_same : forall P w cols t others, reached P w -> snd (factory P cols w) = Ok t ->
  snd (factory P cols (fold_left (fun w c => fst (factory P c w)) others (fst (factory P cols w)))) = Ok t.
Proof.
  intros P w cols t others R E. unfold factory at 1. rewrite map_underscored, (others_keep P others _ _ _ (factory_in P w cols t E)). reflexivity.
Qed.
Print Assumptions C82_same.
(** ... and different names different types *)
Theorem C82_different : forall P w cols t others cols' t', reached P w -> snd (factory P cols w) = Ok t ->
  snd (factory P cols' (fold_left (fun w c => fst (factory P c w)) others (fst (factory P cols w)))) = Ok t' ->
  map underscored cols <> map underscored cols' -> nt_id t <> nt_id t'.
Proof.
  intros P w cols t others cols' t' R E E' N X. apply N. set (w1 := fold_left _ others _) in *.
  assert (R1 : reached P w1) by (apply others_reached; constructor; exact R).
  apply (reached_injective P _ (r_more P w1 cols' R1) _ _ t t'); [|exact (factory_in _ _ _ _ E')|exact X]. apply factory_keeps. apply others_keep, factory_in, E.
Qed.
Print Assumptions C82_different.

Section rows.
Context {V : Type}.
(** a row has every value under its field, so under the name of its column if that names it *)
Theorem C82_access : forall P w cols t (y : list V) i v, pychars_ok P -> reached P w -> snd (factory P cols w) = Ok t -> length y = length cols -> nth_error y i = Some v ->
  exists r, nt_make t y = Ok r /\
    (exists f, nth_error (nt_fields t) i = Some f /\ nt_getattr r f = Ok v) /\
    (forall name, names_column P cols i name -> nt_getattr r name = Ok v).
Proof.
  intros P w cols t y i v OK R E L N.
  assert (FN : fields_of P cols (nt_fields t) /\ NoDup (nt_fields t)) by (destruct (C82_any P w cols OK R) as [(t' & T & F)|(T & _)]; [assert (t' = t) as -> by congruence; exact F|congruence]).
  destruct FN as [[LF F] ND]. exists {| nr_type := t; nr_values := y |}. unfold nt_make, len. rewrite LF, <- L, Z.eqb_refl. split; [reflexivity|].
  assert (G : forall f, nth_error (nt_fields t) i = Some f -> nt_getattr {| nr_type := t; nr_values := y |} f = Ok v).
  { intros f H. unfold nt_getattr. cbn [nr_type nr_values]. rewrite (field_index_nth _ ND _ _ H), N. reflexivity. }
  split.
  - destruct (nth_error (nt_fields t) i) as [f|] eqn:H; [exists f; split; [reflexivity|apply G; reflexivity]|]. exfalso. apply nth_error_None in H. assert (i < length y)%nat by (apply nth_error_Some; congruence). lia.
  - intros name H. apply G. destruct H as (A & B & C). destruct (nth_error cols i) as [col|] eqn:NC; [|discriminate B]. cbn [option_map] in B. assert (name = underscored col) by congruence. subst name. apply (F i col NC). split; [exact A|]. split; [rewrite NC; reflexivity|exact C].
Qed.
(** namedtuples(stmt): all rows of all chunks, in order; an exception of the statement is raised after them *)
Theorem C82_rows : forall P w cols t (chunks : list (list (list V))) e, pychars_ok P -> reached P w -> snd (namedtuples P (Some cols) w) = Ok t ->
  Forall (Forall (fun y => length y = length cols)) chunks ->
  rows_as_namedtuples t chunks e = (map (fun y => {| nr_type := t; nr_values := y |}) (List.concat chunks), e).
Proof.
  intros P w cols t chunks e OK R E F. unfold rows_as_namedtuples. apply starmap_spec.
  assert (LF : length (nt_fields t) = length cols) by (cbn [namedtuples] in E; destruct (C82_any P w cols OK R) as [(t' & T & [L _] & _)|(T & _)]; [assert (t' = t) as -> by congruence; exact L|congruence]).
  rewrite LF. clear - F. induction F as [|c l H _ IH]; [constructor|]. cbn [List.concat]. apply Forall_app. split; assumption.
Qed.
(** a statement that gives no rows is refused at once *)
Theorem C82_no_columns : forall P w, namedtuples P None w = (w, Err TypeError).
Proof. reflexivity. Qed.
End rows.
Print Assumptions C82_access.
Print Assumptions C82_rows.
Print Assumptions C82_no_columns.

(** as the row type of a connection: the type is that of the columns in their order, so value i is under the name of column i *)
Theorem C82_factory : forall V P w cols (m : list (text * Z)) (y : list V),
  Permutation m (combine cols (map Z.of_nat (seq 0 (length cols)))) ->
  factory_row P m y w = (fst (factory P cols w), match snd (factory P cols w) with Ok t => nt_make t y | Err e => Err e end).
Proof.
  intros V P w cols m y M. assert (S1 : map fst (sort_cols m) = cols) by exact (sorted_names m cols M).
  unfold factory_row. rewrite S1. destruct (factory P cols w) as [w' [t|e]]; reflexivity.
Qed.
Print Assumptions C82_factory.
(** refuted for columns of which two have the same name: every row raises *)
Theorem C82_repeated_refuted : forall V P w cols (y : list V), pychars_ok P -> reached P w -> ~ NoDup cols -> length y = length cols ->
  exists e, snd (factory_row P (attribute_map cols) y w) = Err e /\ (Forall ascii_text cols -> e = TypeError).
Proof.
  intros V P w cols y OK R D L. unfold factory_row. set (names := map fst (sort_cols (attribute_map cols))).
  assert (LN : (length names < length cols)%nat).
  { unfold names. rewrite map_length, <- (Permutation_length (sort_perm _)). apply attribute_map_short, D. }
  assert (AN : Forall ascii_text cols -> Forall ascii_text names).
  { intros A. apply Forall_forall. intros x I. rewrite Forall_forall in A. apply A. apply attribute_map_names. apply (Permutation_in _ (Permutation_sym (Permutation_map fst (sort_perm (attribute_map cols))))). exact I. }
  destruct (C82_any P w names OK R) as [(t & T & [LF _] & _)|(T & X)]; destruct (factory P names w) as [w' r] eqn:F; cbn [snd] in T; subst r; cbn [snd].
  - unfold nt_make, len. destruct (Z.eqb_spec (Z.of_nat (length y)) (Z.of_nat (length (nt_fields t)))); [lia|]. exists TypeError. split; [reflexivity|auto].
  - exists (OtherError 1). split; [reflexivity|]. intros A. destruct (C82_fields P w names OK R (AN A)) as (t & T & _). rewrite F in T. discriminate T.
Qed.
Print Assumptions C82_repeated_refuted.
(** refuted: "there always is a type": two columns whose names the parser takes for the same *)
Theorem C82_normalized_refuted : forall P w a b, pychars_ok P -> reached P w -> plain P (underscored a) -> plain P (underscored b) -> underscored a <> underscored b ->
  c_nfkc P (underscored a) = c_nfkc P (underscored b) -> snd (factory P [a; b] w) = Err (OtherError 1).
Proof.
  intros P w a b OK R A B N E. destruct (C82_any P w [a; b] OK R) as [(t & T & F & ND)|[T _]]; [exfalso|exact T].
  destruct (factory_spec P [a; b] w OK (reached_inv P w R)) as [_ X]. rewrite X in T; [discriminate T|]. intros H.
  pose proof (rename_fields P [a; b]) as [_ G]. set (f := rename_go P 0 [] (map underscored [a; b])) in *.
  destruct (G 0%nat a eq_refl) as [G0 _]. destruct (G 1%nat b eq_refl) as [G1 _].
  assert (f0 : nth_error f 0 = Some (underscored a)) by (apply G0; split; [exact A|]; split; [reflexivity|]; intros j J; lia).
  assert (f1 : nth_error f 1 = Some (underscored b)) by (apply G1; split; [exact B|]; split; [reflexivity|]; intros j J; assert (j = O) as -> by lia; cbn; congruence).
  clearbody f. clear G G0 G1. cbn [map] in H. inversion H as [|? ? _ H2]; subst. clear - H2 f0 f1 E. destruct f as [|x [|z f]]; try discriminate. cbn in f0, f1. assert (x = underscored a) by congruence. assert (z = underscored b) by congruence. subst x z. cbn [map] in H2. inversion H2 as [|? ? H3 _]; subst. apply H3. left. auto.
Qed.
Print Assumptions C82_normalized_refuted.

(** ** the hypotheses are met *)
Definition ascii_pychars : pychars := {|
  c_start := fun c => ascii_alpha c || (c =? 64257); c_cont := fun c => ascii_alpha c || ascii_digit c || (c =? 95) || (c =? 64257);
  c_nfkc := flat_map (fun c => if c =? 64257 then [102; 105] else [c]) |}.
Example C82_ex_ok : pychars_ok ascii_pychars.
Proof.
  constructor; cbn [c_start c_cont c_nfkc ascii_pychars].
  - intros c H. destruct (Z.eqb_spec c 64257); [lia|]. apply orb_false_r.
  - intros c H. destruct (Z.eqb_spec c 64257); [lia|]. apply orb_false_r.
  - intros t H. induction H as [|c t C _ IH]; [reflexivity|]. cbn [flat_map]. rewrite IH. destruct (Z.eqb_spec c 64257); [lia|reflexivity].
Qed.
Example C82_ex_fields : exists w t, factory ascii_pychars [str "a b"; str "class"; str "a_b"; str "?column?"; str "_x"; str "x"] empty_world = (w, Ok t) /\
  nt_fields t = [str "a_b"; str "_1"; str "_2"; str "_3"; str "_4"; str "x"].
Proof. eexists. eexists. split; vm_compute; reflexivity. Qed.
Example C82_ex_normalized : let a := [64257] in let b := str "fi" in
  plain ascii_pychars (underscored a) /\ plain ascii_pychars (underscored b) /\ underscored a <> underscored b /\ c_nfkc ascii_pychars (underscored a) = c_nfkc ascii_pychars (underscored b).
Proof. cbv zeta. split; [apply keep_plain; vm_compute; reflexivity|]. split; [apply keep_plain; vm_compute; reflexivity|]. split; [vm_compute; congruence|vm_compute; reflexivity]. Qed.
Example C82_ex_repeated : snd (factory_row ascii_pychars (attribute_map [str "a"; str "b"; str "a"]) [1; 2; 3] empty_world) = Err TypeError.
Proof. vm_compute. reflexivity. Qed.
