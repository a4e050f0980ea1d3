(** RowProps.v: C15, rows by position and by name *)
From Verif Require Import PyStr PyDict ArrayModel ArraySpec BaseProof PyListProof ArrayProof RowProof.
From Coq Require Import Permutation.

(** The rows of a statement whose columns have different names: the names in order, each position named once. *)
Theorem C15_statement_rows : forall (V : Type) (names : list text) (values : list V), NoDup names -> length values = length names ->
  let r := from_sequence (attribute_map names) values in
  columns_ok r /\ column_names r = names /\ row_keys r = names /\ r_values r = values.
Proof.
  intros V names values ND L r. split; [now apply attmap_ok|]. split; [now apply attmap_names|]. split; [|reflexivity].
  unfold r, row_keys. cbn [r_keymap from_sequence]. rewrite attmap_distinct by exact ND. apply map_fst_combine. unfold py_range, len. rewrite map_length, seq_length. lia.
Qed.
Print Assumptions C15_statement_rows.
(** In such a row the i-th name, the i-th position, get of either, items() and the two index functions all agree. *)
Theorem C15_agree : forall (V : Type) (r : row V) (i : nat) k v, columns_ok r ->
  nth_error (column_names r) i = Some k -> nth_error (r_values r) i = Some v ->
  row_getint r (Z.of_nat i) = Ok v /\ row_getname r k = Ok v /\ row_get_int r (Z.of_nat i) = Ok (Some v) /\ row_get_name r k = Ok (Some v) /\
  nth_error (row_items r) i = Some (k, v) /\ index_from_key r k = Some (Z.of_nat i) /\ key_from_index r (Z.of_nat i) = Some k.
Proof.
  intros V r i k v C N NV. destruct (getname_spec r k (Z.of_nat i) v C ltac:(lia)) as (G1 & G2 & G3 & G4); [rewrite Nat2Z.id; exact N|rewrite Nat2Z.id; exact NV|].
  assert (IK : index_from_key r k = Some (Z.of_nat i)) by (apply names_nth; [exact C|]; split; [lia|rewrite Nat2Z.id; exact N]).
  split; [exact G2|]. split; [exact G1|]. split; [exact G4|]. split; [exact G3|]. split; [apply items_nth; auto|]. split; [exact IK|]. now apply key_from_index_spec.
Qed.
Print Assumptions C15_agree.
(** There are as many names as values, and keys() are the names. *)
Theorem C15_columns : forall (V : Type) (r : row V), columns_ok r ->
  length (column_names r) = length (r_values r) /\ NoDup (column_names r) /\ Permutation (row_keys r) (column_names r) /\ length (row_items r) = length (r_values r).
Proof.
  intros V r C. pose proof (names_len r C) as L. split; [exact L|]. split; [eapply Permutation_NoDup; [apply keys_perm|apply C]|]. split; [apply keys_perm|].
  unfold row_items. rewrite combine_length. lia.
Qed.
Print Assumptions C15_columns.
(** A name that is no column: row[name] raises KeyError and get(name) is None; and conversely. *)
Theorem C15_unknown_name : forall (V : Type) (r : row V) k, columns_ok r ->
  (In k (column_names r) <-> row_getname r k <> Err KeyError) /\ (In k (column_names r) <-> row_get_name r k <> Ok None).
Proof.
  intros V r k C. assert (H : In k (column_names r) -> exists v, row_getname r k = Ok v /\ row_get_name r k = Ok (Some v)).
  { intros I. apply In_nth_error in I as (i & N). destruct (nth_error (r_values r) i) as [v|] eqn:NV.
    - exists v. destruct (getname_spec r k (Z.of_nat i) v C ltac:(lia)) as (G1 & _ & G3 & _); [rewrite Nat2Z.id; exact N|rewrite Nat2Z.id; exact NV|]. auto.
    - apply nth_error_None in NV. pose proof (proj1 (nth_error_Some (column_names r) i) ltac:(congruence)). rewrite names_len in H by exact C. lia. }
  split; split; intros I.
  - destruct (H I) as (v & E & _). rewrite E. discriminate.
  - destruct (in_dec (list_eq_dec Z.eq_dec) k (column_names r)) as [J|J]; [exact J|]. destruct (not_column r k J) as (E & _). contradiction.
  - destruct (H I) as (v & _ & E). rewrite E. discriminate.
  - destruct (in_dec (list_eq_dec Z.eq_dec) k (column_names r)) as [J|J]; [exact J|]. destruct (not_column r k J) as (_ & E & _). contradiction.
Qed.
Print Assumptions C15_unknown_name.
(** get(i) never raises; it is row[i] where that exists, except at i = -len, and None elsewhere. *)
Theorem C15_get_int_partial : forall (V : Type) (r : row V) i, i <> - len (r_values r) ->
  row_get_int r i = match row_getint r i with Ok v => Ok (Some v) | Err _ => Ok None end.
Proof.
  intros V r i N. rewrite getint_spec. destruct (row_getint r i); [|reflexivity]. destruct (Z.eqb_spec i (- len (r_values r))); [contradiction|reflexivity].
Qed.
Print Assumptions C15_get_int_partial.
(** At i = -len, row[i] is the first value but get(i) is None, in every row. *)
Theorem C15_get_int_refuted : forall (V : Type) (r : row V) v vs, r_values r = v :: vs ->
  row_getint r (- len (r_values r)) = Ok v /\ row_get_int r (- len (r_values r)) = Ok None.
Proof.
  intros V r v vs E. assert (I : row_getint r (- len (r_values r)) = Ok v).
  { unfold row_getint. pose proof (len_nonneg vs). rewrite pyindex_neg by (rewrite E, len_cons; lia). rewrite Z.add_opp_diag_l. rewrite E. unfold pyindex. cbn [Z.ltb Z.compare].
    replace ((0 <=? 0) && (0 <? len (v :: vs))) with true by (rewrite len_cons; lia). reflexivity. }
  split; [exact I|]. rewrite getint_spec, I, Z.eqb_refl. reflexivity.
Qed.
Print Assumptions C15_get_int_refuted.
(** from_mapping, with a keymap that numbers its columns from 0: the row has every column of the keymap, with the mapping's value, None where it has none. *)
Theorem C15_from_mapping : forall (V : Type) (km : list (text * Z)) (m : list (text * V)) none k, NoDup (dkeys km) ->
  Permutation (map snd km) (py_range (len km)) -> In k (dkeys km) ->
  columns_ok (from_mapping km m none) /\ r_keymap (from_mapping km m none) = km /\
  row_getname (from_mapping km m none) k = Ok (match dget k m with Some v => v | None => none end).
Proof. intros V km m none k ND P I. split; [now apply from_mapping_ok|]. split; [reflexivity|]. now apply from_mapping_get. Qed.
Print Assumptions C15_from_mapping.
(** transform gives a row with the same names, each value transformed by its keyword's or else its position's function (from the old value). *)
Theorem C15_transform : forall (V : Type) (r : row V) args kw, columns_ok r -> NoDup (dkeys kw) -> len args <= len (r_values r) ->
  (forall k f, In (k, Some f) kw -> In k (row_keys r)) ->
  exists r', transform r (map pure args) (map (fun p => (fst p, pure (snd p))) kw) = Ok r' /\ columns_ok r' /\ column_names r' = column_names r /\
    forall i k v, nth_error (column_names r) i = Some k -> nth_error (r_values r) i = Some v -> nth_error (r_values r') i = Some (transformed args kw i k v).
Proof.
  intros V r args kw C ND LA KS. destruct (transform_ok r args kw C ND LA KS) as (r' & E & K & L & N). exists r'. split; [exact E|].
  split; [destruct C as [C1 C2]; split; rewrite K; [exact C1|]; replace (len (r_values r')) with (len (r_values r)) by (unfold len; lia); exact C2|].
  split; [unfold column_names; rewrite K; reflexivity|exact N].
Qed.
Print Assumptions C15_transform.
Theorem C15_transform_unknown : forall (V : Type) (r : row V) args kw k f, columns_ok r -> len args <= len (r_values r) -> In (k, Some f) kw -> ~ In k (row_keys r) ->
  transform r (map pure args) (map (fun p => (fst p, pure (snd p))) kw) = Err KeyError.
Proof. intros V r args kw k f C LA I N. exact (transform_unknown r args kw k f C LA I N). Qed.
Print Assumptions C15_transform_unknown.
(** Columns with the same name: row[name] is the last of them. *)
Theorem C15_repeated_name : forall (V : Type) (names : list text) (values : list V) i k v, nth_error names i = Some k ->
  (forall j, (i < j)%nat -> nth_error names j <> Some k) -> nth_error values i = Some v ->
  row_getname (from_sequence (attribute_map names) values) k = Ok v.
Proof.
  intros V names values i k v N LAST NV. unfold row_getname. cbn [r_keymap r_values from_sequence]. rewrite (attmap_last names k i N LAST).
  destruct (pyindex_nth values (Z.of_nat i)) as (x & E1 & E2).
  - pose proof (proj1 (nth_error_Some values i) ltac:(congruence)). unfold len. lia.
  - rewrite E1. rewrite Nat2Z.id in E2. congruence.
Qed.
Print Assumptions C15_repeated_name.
(** but then items() gives values to the wrong names: select 1 as a, 2 as a, 3 as b. *)
Theorem C15_repeated_items_refuted :
  let r := from_sequence (attribute_map [str "a"; str "a"; str "b"]) [1; 2; 3] in
  row_items r = [(str "a", 1); (str "b", 2)] /\ row_getname r (str "a") = Ok 2 /\ row_getname r (str "b") = Ok 3.
Proof. vm_compute. auto. Qed.
Print Assumptions C15_repeated_items_refuted.

Definition ex_row : row Z := from_sequence (attribute_map [str "id"; str "size"; str "n"]) [10; 20; 30].
Example C15_ex : columns_ok ex_row /\ column_names ex_row = [str "id"; str "size"; str "n"] /\ row_getname ex_row (str "n") = Ok 30 /\ row_getint ex_row (-1) = Ok 30 /\
  row_get_name ex_row (str "x") = Ok None /\ row_get_int ex_row 3 = Ok None /\ row_get_int ex_row (-3) = Ok None /\ row_getint ex_row (-3) = Ok 10.
Proof.
  split; [|vm_compute; auto 10]. apply C15_statement_rows; [|reflexivity]. vm_compute. repeat constructor; cbn; intuition discriminate.
Qed.
Example C15_ex_mapping : r_values (from_mapping [(str "b", 1); (str "a", 0); (str "c", 2)] [(str "c", 3); (str "a", 1)] 0) = [1; 0; 3]. Proof. reflexivity. Qed.
Example C15_ex_transform : exists r', transform ex_row (map pure [Some (Z.add 1); Some (Z.add 1)]) [(str "size", pure (Some (Z.mul 2)))] = Ok r' /\ r_values r' = [11; 40; 30].
Proof. exists (from_sequence (r_keymap ex_row) [11; 40; 30]). vm_compute. auto. Qed.
