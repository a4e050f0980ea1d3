From Verif Require Import PyStr PyStrProof PyListProof BaseProof PBufferProof PyDict PyDictProof ArrayModel ArraySpec ArrayProof.
From Coq Require Import Sorting.Sorted.

(** ** the sort *)
Definition le2 (p q : text * Z) : Prop := snd p <= snd q.
Lemma insert_perm p l : Permutation (p :: l) (insert_col p l).
Proof.
  induction l as [|q l IH]; cbn [insert_col]; [apply Permutation_refl|]. destruct (snd p <=? snd q); [apply Permutation_refl|].
  eapply perm_trans; [apply perm_swap|]. now apply perm_skip.
Qed.
Lemma sort_perm l : Permutation l (sort_cols l).
Proof. induction l as [|p l IH]; [constructor|]. cbn [sort_cols fold_right]. eapply perm_trans; [apply perm_skip; exact IH|]. apply insert_perm. Qed.
Lemma insert_sorted p l : StronglySorted le2 l -> StronglySorted le2 (insert_col p l).
Proof.
  induction 1 as [|q l S IH F]; cbn [insert_col]; [repeat constructor|]. destruct (Z.leb_spec (snd p) (snd q)) as [L|L].
  - constructor; [constructor; auto|]. constructor; [exact L|]. eapply Forall_impl; [|exact F]. unfold le2. intros; lia.
  - constructor; [exact IH|]. rewrite Forall_forall in *. intros x Hx. apply (Permutation_in x (Permutation_sym (insert_perm p l))) in Hx.
    destruct Hx as [<-|Hx]; [unfold le2; lia|auto].
Qed.
Lemma sort_sorted l : StronglySorted le2 (sort_cols l).
Proof. induction l; cbn [sort_cols fold_right]; [constructor|now apply insert_sorted]. Qed.
(** a sorted permutation of 0..n-1 is 0..n-1 *)
Lemma sorted_perm_eq : forall l m : list Z, StronglySorted Z.le l -> StronglySorted Z.le m -> Permutation l m -> l = m.
Proof.
  induction l as [|x l IH]; intros m S T P; [symmetry; now apply Permutation_nil|]. destruct m as [|y m]; [symmetry in P; now apply Permutation_nil in P|].
  inversion_clear S as [|? ? S1 S2]. inversion_clear T as [|? ? T1 T2]. assert (x = y).
  { rewrite Forall_forall in *. pose proof (Permutation_in x P (or_introl eq_refl)) as [->|I1]; [reflexivity|].
    pose proof (Permutation_in y (Permutation_sym P) (or_introl eq_refl)) as [->|I2]; [reflexivity|]. apply T2 in I1. apply S2 in I2. lia. }
  subst y. f_equal. apply IH; auto. now apply Permutation_cons_inv in P.
Qed.
Lemma seq_sorted n k : StronglySorted Z.le (map Z.of_nat (seq k n)).
Proof.
  revert k. induction n as [|n IH]; intros k; cbn [seq map]; constructor; [apply IH|]. apply Forall_map, Forall_forall. intros x Hx. apply in_seq in Hx. lia.
Qed.
Lemma sorted_snd l : StronglySorted le2 l -> StronglySorted Z.le (map snd l).
Proof. induction 1; cbn [map]; constructor; auto. now apply Forall_map. Qed.

Lemma nth_error_ext {B} (l m : list B) : (forall i, nth_error l i = nth_error m i) -> l = m.
Proof.
  revert m. induction l as [|x l IH]; intros [|y m] H; auto; try (specialize (H 0%nat); discriminate).
  pose proof (H 0%nat) as H0. injection H0 as ->. f_equal. apply IH. intros i. exact (H (S i)).
Qed.
Lemma nth_firstn {B} n : forall (l : list B) j, (j < n)%nat -> nth_error (firstn n l) j = nth_error l j.
Proof. induction n; intros l j H; [lia|]. destruct l; [reflexivity|]. destruct j; [reflexivity|]. cbn. apply IHn. lia. Qed.
Lemma nth_skipn {B} n : forall (l : list B) j, nth_error (skipn n l) j = nth_error l (n + j).
Proof. induction n; intros l j; [reflexivity|]. destruct l; [destruct j; reflexivity|]. cbn. apply IHn. Qed.
Section row.
Context {V : Type}.
Implicit Types r : row V.

Lemma sort_snd km n : Permutation (map snd km) (py_range n) -> map snd (sort_cols km) = py_range n.
Proof.
  intros P. apply sorted_perm_eq; [apply sorted_snd, sort_sorted|apply seq_sorted|]. eapply perm_trans; [|exact P]. apply Permutation_map, Permutation_sym, sort_perm.
Qed.
Lemma sort_nth km n : NoDup (dkeys km) -> Permutation (map snd km) (py_range n) -> forall k i,
  dget k km = Some i <-> (0 <= i /\ nth_error (sort_cols km) (Z.to_nat i) = Some (k, i)).
Proof.
  intros ND P k i. assert (NDS : NoDup (dkeys (sort_cols km))) by (eapply Permutation_NoDup; [|exact ND]; apply Permutation_map, sort_perm).
  pose proof (sort_snd km n P) as SS.
  assert (AT : forall j, nth_error (map snd (sort_cols km)) j = option_map Z.of_nat (nth_error (seq 0 (Z.to_nat n)) j)) by (intros j; rewrite SS; apply nth_error_map).
  split.
  - intros G. apply dget_In in G. apply (Permutation_in _ (sort_perm km)) in G. apply In_nth_error in G as (j & N). specialize (AT j). rewrite nth_error_map, N in AT. cbn in AT.
    destruct (nth_error (seq 0 (Z.to_nat n)) j) eqn:S0; [|discriminate]. injection AT as AT.
    assert (n0 = j) by (apply nth_error_nth with (d := 0%nat) in S0 as E1; pose proof (proj1 (nth_error_Some (seq 0 (Z.to_nat n)) j) ltac:(congruence)) as LJ; rewrite seq_length in LJ; rewrite seq_nth in E1 by exact LJ; lia).
    subst n0. split; [lia|]. replace (Z.to_nat i) with j by lia. exact N.
  - intros [_ N]. apply nth_error_In in N. apply (Permutation_in _ (Permutation_sym (sort_perm km))) in N. now apply In_dget.
Qed.
Lemma names_nth r k i : columns_ok r -> (dget k (r_keymap r) = Some i <-> (0 <= i /\ nth_error (column_names r) (Z.to_nat i) = Some k)).
Proof.
  intros [ND P]. rewrite (sort_nth _ _ ND P). unfold column_names. rewrite nth_error_map. split; intros [Hi N]; (split; [exact Hi|]).
  - rewrite N. reflexivity.
  - destruct (nth_error (sort_cols (r_keymap r)) (Z.to_nat i)) as [[k' i']|] eqn:E; [|discriminate]. injection N as ->. f_equal. f_equal.
    pose proof (sort_snd _ _ P) as SS. apply (f_equal (fun l => nth_error l (Z.to_nat i))) in SS. rewrite nth_error_map, E in SS. cbn in SS.
    pose proof (proj1 (nth_error_Some (py_range (len (r_values r))) (Z.to_nat i)) ltac:(congruence)) as B. unfold py_range in B. rewrite map_length, seq_length in B.
    rewrite range_nth in SS by exact B. injection SS as SS. lia.
Qed.
Lemma names_len r : columns_ok r -> length (column_names r) = length (r_values r).
Proof.
  intros [ND P]. unfold column_names. rewrite map_length, <- (map_length snd), (sort_snd _ _ P). unfold py_range, len. rewrite map_length, seq_length. lia.
Qed.
Lemma keys_perm r : Permutation (row_keys r) (column_names r).
Proof. unfold row_keys, dkeys, column_names. apply Permutation_map, sort_perm. Qed.
Lemma column_range r k i : columns_ok r -> dget k (r_keymap r) = Some i -> 0 <= i < len (r_values r).
Proof.
  intros C G. pose proof (names_len r C) as L. apply names_nth in G as [Hi N]; [|exact C]. pose proof (proj1 (nth_error_Some (column_names r) (Z.to_nat i)) ltac:(congruence)). unfold len. lia.
Qed.
Lemma getname_spec r k i v : columns_ok r -> 0 <= i -> nth_error (column_names r) (Z.to_nat i) = Some k -> nth_error (r_values r) (Z.to_nat i) = Some v ->
  row_getname r k = Ok v /\ row_getint r i = Ok v /\ row_get_name r k = Ok (Some v) /\ row_get_int r i = Ok (Some v).
Proof.
  intros C Hi N NV. pose proof (proj2 (names_nth r k i C) (conj Hi N)) as G. unfold row_getname, row_getint, row_get_name, row_get_int. rewrite G.
  pose proof (column_range r k i C G) as B. assert (I : pyindex (r_values r) i = Ok v) by (destruct (pyindex_nth (r_values r) i B) as (x & E1 & E2); congruence).
  rewrite I. cbn [bind]. replace ((- len (r_values r) <? i) && (i <? len (r_values r))) with true by lia. auto.
Qed.
Lemma items_nth r i k v : nth_error (row_items r) i = Some (k, v) <-> nth_error (column_names r) i = Some k /\ nth_error (r_values r) i = Some v.
Proof.
  unfold row_items. generalize (column_names r) as ns, (r_values r) as vs. induction i as [|i IH]; intros [|n ns] [|w vs]; cbn; split; try (intros [? ?]); try congruence; try (intros; discriminate); auto.
  - intros H. injection H as -> ->. auto.
  - apply IH.
  - apply IH. auto.
Qed.
Lemma not_column r k : ~ In k (column_names r) -> row_getname r k = Err KeyError /\ row_get_name r k = Ok None /\ index_from_key r k = None.
Proof.
  intros H. assert (G : dget k (r_keymap r) = None).
  { apply dget_None. intros C. apply H. eapply Permutation_in; [apply keys_perm|exact C]. }
  unfold row_getname, row_get_name, index_from_key. rewrite G. auto.
Qed.
Lemma getint_spec r i : row_get_int r i = match row_getint r i with Ok v => if i =? - len (r_values r) then Ok None else Ok (Some v) | Err _ => Ok None end.
Proof.
  unfold row_get_int, row_getint. pose proof (len_nonneg (r_values r)) as L.
  destruct (Z_lt_dec i (- len (r_values r))) as [B|B].
  - rewrite pyindex_out by lia. replace ((- len (r_values r) <? i) && (i <? len (r_values r))) with false by lia. reflexivity.
  - destruct (Z_le_dec (len (r_values r)) i) as [B2|B2].
    + rewrite pyindex_out by lia. replace ((- len (r_values r) <? i) && (i <? len (r_values r))) with false by lia. reflexivity.
    + assert (exists v, pyindex (r_values r) i = Ok v) as (v & E).
      { destruct (Z_lt_dec i 0); [rewrite pyindex_neg by lia; destruct (pyindex_nth (r_values r) (i + len (r_values r))) as (x & E & _); [lia|]; eauto|].
        destruct (pyindex_nth (r_values r) i) as (x & E & _); [lia|]; eauto. }
      rewrite E. destruct (Z.eqb_spec i (- len (r_values r))) as [->|N].
      * rewrite Z.ltb_irrefl. reflexivity.
      * replace ((- len (r_values r) <? i) && (i <? len (r_values r))) with true by lia. reflexivity.
Qed.
(** ** key_from_index *)
Lemma key_index km k i : NoDup (map snd km) -> NoDup (dkeys km) -> key_of_index km i = Some k <-> dget k km = Some i.
Proof.
  induction km as [|[j v] km IH]; intros NS NK; cbn [key_of_index dget]; [split; discriminate|]. inversion_clear NS as [|? ? N1 N2]. inversion_clear NK as [|? ? K1 K2]. cbn [fst snd] in *.
  destruct (Z.eqb_spec v i) as [->|NE]; destruct (seqb_spec k j) as [->|NK].
  - split; reflexivity.
  - split; [intros H; injection H as ->; contradiction|]. intros H. exfalso. apply N1. apply dget_In in H. apply (in_map snd) in H. exact H.
  - split; [|intros H; injection H as ->; contradiction]. intros H. apply IH in H; auto. exfalso. apply K1. apply dget_In in H. apply (in_map fst) in H. exact H.
  - apply IH; auto.
Qed.
Lemma range_nodup n : NoDup (py_range n).
Proof. unfold py_range. apply FinFun.Injective_map_NoDup; [intros x y; lia|apply seq_NoDup]. Qed.
Lemma key_from_index_spec r k i : columns_ok r -> key_from_index r i = Some k <-> index_from_key r k = Some i.
Proof. intros [ND P]. apply key_index; [|exact ND]. eapply Permutation_NoDup; [apply Permutation_sym, P|apply range_nodup]. Qed.
(** ** attribute_map *)
Lemma map_snd_combine {B C} (a : list B) (b : list C) : length a = length b -> map snd (combine a b) = b.
Proof. revert b. induction a; intros [|]; cbn; try discriminate; auto. intros H. f_equal. apply IHa. lia. Qed.
Lemma map_fst_combine {B C} (a : list B) (b : list C) : length a = length b -> map fst (combine a b) = a.
Proof. revert b. induction a; intros [|]; cbn; try discriminate; auto. intros H. f_equal. apply IHa. lia. Qed.
Lemma dupdate_fresh (e : list (text * Z)) : forall d, NoDup (dkeys d ++ dkeys e) -> dupdate d e = d ++ e.
Proof.
  induction e as [|[k v] e IH]; intros d N; [now rewrite app_nil_r|]. unfold dupdate in *. cbn [fold_left fst snd dkeys map] in *.
  rewrite dset_absent.
  - rewrite IH; [rewrite <- app_assoc; reflexivity|]. rewrite dkeys_app. cbn [dkeys map fst]. rewrite <- app_assoc. exact N.
  - apply dget_None. apply NoDup_remove_2 in N. intros C. apply N. apply in_or_app. now left.
Qed.
Lemma attmap_distinct names : NoDup names -> attribute_map names = combine names (py_range (len names)).
Proof.
  intros ND. unfold attribute_map. rewrite dupdate_fresh; [reflexivity|]. cbn. unfold dkeys. rewrite map_fst_combine; [exact ND|]. unfold py_range, len. rewrite map_length, seq_length. lia.
Qed.
Lemma attmap_ok names (vs : list V) : NoDup names -> length vs = length names -> columns_ok (from_sequence (attribute_map names) vs).
Proof.
  intros ND L. unfold columns_ok, from_sequence. cbn [r_keymap r_values]. rewrite attmap_distinct by exact ND.
  assert (LR : length names = length (py_range (len names))) by (unfold py_range, len; rewrite map_length, seq_length; lia).
  unfold dkeys. rewrite map_fst_combine, map_snd_combine by exact LR. split; [exact ND|]. replace (len vs) with (len names) by (unfold len; lia). apply Permutation_refl.
Qed.
Lemma attmap_names names (vs : list V) : NoDup names -> length vs = length names -> column_names (from_sequence (attribute_map names) vs) = names.
Proof.
  intros ND L. pose proof (attmap_ok names vs ND L) as C. set (r := from_sequence (attribute_map names) vs) in *. apply nth_error_ext. intros i.
  destruct (nth_error (column_names r) i) as [k|] eqn:E.
  - pose proof (proj2 (names_nth r k (Z.of_nat i) C)) as G. rewrite Nat2Z.id in G. specialize (G (conj (Nat2Z.is_nonneg i) E)). unfold r, from_sequence in G. cbn [r_keymap] in G.
    rewrite attmap_distinct in G by exact ND. apply dget_In in G. apply In_nth_error in G as (j & G).
    assert (CN : forall (a : list text) (b : list Z) j k i, nth_error (combine a b) j = Some (k, i) -> nth_error a j = Some k /\ nth_error b j = Some i).
    { clear. induction a; intros [|] [|j] k i; cbn; try discriminate; [intros H; injection H as -> ->; auto|]. apply IHa. }
    apply CN in G as [G1 G2]. pose proof (proj1 (nth_error_Some (py_range (len names)) j) ltac:(congruence)) as B. unfold py_range in B. rewrite map_length, seq_length in B. rewrite range_nth in G2 by exact B.
    injection G2 as G2. apply Nat2Z.inj in G2. subst j. auto.
  - apply nth_error_None in E. rewrite names_len in E by exact C. cbn in E. symmetry. apply nth_error_None. lia.
Qed.
(** with repeated names, the last column of the name is found *)
Lemma dupdate_last (e : list (text * Z)) : forall d k, dget k (dupdate d e) = match dget k (rev e) with Some v => Some v | None => dget k d end.
Proof.
  induction e as [|[j v] e IH]; intros d k; [reflexivity|]. unfold dupdate in *. cbn [fold_left fst snd rev]. rewrite IH, dget_app, dget_set. cbn [dget]. destruct (dget k (rev e)); [reflexivity|].
  destruct (seqb k j); reflexivity.
Qed.
Lemma attmap_last names k i : nth_error names i = Some k -> (forall j, (i < j)%nat -> nth_error names j <> Some k) -> dget k (attribute_map names) = Some (Z.of_nat i).
Proof.
  intros N LAST. unfold attribute_map. rewrite dupdate_last. cbn [dget].
  assert (G : dget k (rev (combine names (py_range (len names)))) = Some (Z.of_nat i)).
  { unfold py_range, len. rewrite Nat2Z.id. change (Z.of_nat i) with (Z.of_nat (0 + i)). generalize 0%nat as s. revert i N LAST. induction names as [|x names IH]; intros i N LAST s; [destruct i; discriminate|].
    cbn [length seq map combine rev]. rewrite dget_app. destruct i as [|i].
    - injection N as ->. assert (A : dget k (rev (combine names (map Z.of_nat (seq (S s) (length names))))) = None).
      { apply dget_None. unfold dkeys. rewrite map_rev, <- in_rev, map_fst_combine by (rewrite map_length, seq_length; reflexivity). intros C. apply In_nth_error in C as (j & C).
        apply (LAST (S j)); [lia|exact C]. }
      rewrite A. cbn [dget]. destruct (seqb_spec k k); [|congruence]. do 2 f_equal. lia.
    - rewrite (IH i) by (auto; intros j Hj; apply (LAST (S j)); lia). do 2 f_equal. lia. }
  rewrite G. reflexivity.
Qed.
(** ** from_mapping *)
Lemma from_mapping_ok km (m : list (text * V)) none : NoDup (dkeys km) -> Permutation (map snd km) (py_range (len km)) -> columns_ok (from_mapping km m none).
Proof.
  intros ND P. split; [exact ND|]. unfold from_mapping. cbn [r_values r_keymap]. replace (len (map _ (sort_cols km))) with (len km); [exact P|].
  unfold len. rewrite map_length. now rewrite (Permutation_length (sort_perm km)).
Qed.
Lemma from_mapping_get km (m : list (text * V)) none k : NoDup (dkeys km) -> Permutation (map snd km) (py_range (len km)) -> In k (dkeys km) ->
  row_getname (from_mapping km m none) k = Ok (match dget k m with Some v => v | None => none end).
Proof.
  intros ND P I. pose proof (from_mapping_ok km m none ND P) as C. unfold row_getname. cbn [r_keymap from_mapping].
  destruct (dget k km) as [i|] eqn:G; [|apply dget_None in G; contradiction]. pose proof (column_range _ k i C G) as B. apply (sort_nth _ _ ND P) in G as [Hi N].
  destruct (pyindex_nth (r_values (from_mapping km m none)) i B) as (x & E1 & E2). cbn [from_mapping r_values] in *. rewrite E1. rewrite nth_error_map, N in E2. cbn [option_map fst] in E2. congruence.
Qed.
(** ** transform *)
Lemma list_set_ok i (v : V) l : 0 <= i < len l -> exists l', list_set i v l = Ok l' /\ length l' = length l /\ nth_error l' (Z.to_nat i) = Some v /\ forall j, j <> Z.to_nat i -> nth_error l' j = nth_error l j.
Proof.
  intros H. unfold list_set. destruct (Z.ltb_spec i 0); [lia|]. replace ((0 <=? i) && (i <? len l)) with true by lia. eexists. split; [reflexivity|].
  unfold len in H. set (k := Z.to_nat i). assert (K : (k < length l)%nat) by lia. assert (LF : length (firstn k l) = k) by (rewrite firstn_length; lia).
  split; [|split].
  - rewrite !app_length, skipn_length, LF. cbn. lia.
  - rewrite nth_error_app2 by lia. rewrite LF, Nat.sub_diag. reflexivity.
  - intros j J. destruct (Nat.lt_ge_cases j k).
    + rewrite nth_error_app1 by lia. apply nth_firstn. exact H1.
    + rewrite nth_error_app2 by lia. rewrite LF. destruct (j - k)%nat as [|n] eqn:E; [lia|]. cbn [app nth_error]. rewrite nth_skipn. f_equal. lia.
Qed.
Lemma targs_ok r args : forall i acc, 0 <= i -> i + len args <= len (r_values r) -> length acc = length (r_values r) ->
  exists acc', transform_args r i (map pure args) acc = Ok acc' /\ length acc' = length acc /\
    forall j, nth_error acc' j = if ((Z.to_nat i <=? j)%nat && (j <? Z.to_nat i + length args)%nat)
      then match nth_error args (j - Z.to_nat i) with Some (Some f) => option_map f (nth_error (r_values r) j) | _ => nth_error acc j end else nth_error acc j.
Proof.
  induction args as [|f args IH]; intros i acc Hi B L.
  - exists acc. split; [reflexivity|]. split; [reflexivity|]. intros j. destruct (_ && _); [|reflexivity]. destruct (j - Z.to_nat i)%nat; reflexivity.
  - rewrite len_cons in B. pose proof (len_nonneg args). destruct f as [f|]; cbn [map pure option_map transform_args].
    + destruct (pyindex_nth (r_values r) i) as (x & E1 & E2); [lia|]. rewrite E1. cbn [bind]. destruct (list_set_ok i (f x) acc) as (l' & E & LL & N1 & N2); [unfold len in *; lia|]. rewrite E. cbn [bind].
      destruct (IH (i + 1) l') as (acc' & EA & LA & NA); [lia|lia|lia|]. exists acc'. split; [exact EA|]. split; [lia|]. intros j. rewrite NA. cbn [length].
      destruct (Nat.eq_dec j (Z.to_nat i)) as [->|NE].
      * replace ((Z.to_nat (i + 1) <=? Z.to_nat i)%nat) with false by (symmetry; apply Nat.leb_gt; lia). cbn [andb]. rewrite Nat.leb_refl, Nat.sub_diag. cbn [nth_error].
        replace ((Z.to_nat i <? Z.to_nat i + S (length args))%nat) with true by (symmetry; apply Nat.ltb_lt; lia). cbn [andb]. rewrite N1, E2. reflexivity.
      * destruct (Nat.leb_spec (Z.to_nat (i + 1)) j), (Nat.leb_spec (Z.to_nat i) j), (Nat.ltb_spec j (Z.to_nat (i + 1) + length args)), (Nat.ltb_spec j (Z.to_nat i + S (length args))); try lia; cbn [andb]; rewrite ?N2 by exact NE; auto.
        replace (j - Z.to_nat i)%nat with (S (j - Z.to_nat (i + 1))) by lia. cbn [nth_error]. reflexivity.
    + destruct (IH (i + 1) acc) as (acc' & EA & LA & NA); [lia|lia|lia|]. exists acc'. split; [exact EA|]. split; [lia|]. intros j. rewrite NA. cbn [length].
      destruct (Nat.eq_dec j (Z.to_nat i)) as [->|NE].
      * replace ((Z.to_nat (i + 1) <=? Z.to_nat i)%nat) with false by (symmetry; apply Nat.leb_gt; lia). cbn [andb]. rewrite Nat.sub_diag. cbn [nth_error]. destruct (_ && _); reflexivity.
      * destruct (Nat.leb_spec (Z.to_nat (i + 1)) j), (Nat.leb_spec (Z.to_nat i) j), (Nat.ltb_spec j (Z.to_nat (i + 1) + length args)), (Nat.ltb_spec j (Z.to_nat i + S (length args))); try lia; cbn [andb]; auto.
        replace (j - Z.to_nat i)%nat with (S (j - Z.to_nat (i + 1))) by lia. cbn [nth_error]. reflexivity.
Qed.
Lemma tkw_ok r (kw : list (text * option (V -> V))) : columns_ok r -> NoDup (dkeys kw) -> forall acc, (forall k f, In (k, Some f) kw -> In k (row_keys r)) -> length acc = length (r_values r) ->
  exists acc', transform_kw r (map (fun p => (fst p, pure (snd p))) kw) acc = Ok acc' /\ length acc' = length acc /\
    forall j k v, nth_error (column_names r) j = Some k -> nth_error (r_values r) j = Some v ->
      nth_error acc' j = match dget k kw with Some (Some f) => Some (f v) | _ => nth_error acc j end.
Proof.
  intros C. induction kw as [|[k f] kw IH]; intros ND acc KS L.
  - exists acc. cbn. auto.
  - inversion_clear ND as [|? ? N1 N2]. cbn [fst] in N1. destruct f as [f|]; cbn [map fst snd pure option_map transform_kw].
    + assert (KI : In k (row_keys r)) by (apply (KS k f); left; reflexivity). unfold index_from_key, row_getname. destruct (dget k (r_keymap r)) as [i|] eqn:G; [|apply dget_None in G; contradiction].
      pose proof (column_range r k i C G) as B. destruct (pyindex_nth (r_values r) i B) as (x & E1 & E2). rewrite E1. cbn [bind].
      destruct (list_set_ok i (f x) acc) as (l' & E & LL & M1 & M2); [unfold len in *; lia|]. rewrite E. cbn [bind].
      destruct (IH N2 l') as (acc' & EA & LA & NA); [intros k' f' I; apply (KS k' f'); right; exact I|lia|]. exists acc'. split; [exact EA|]. split; [lia|].
      intros j k' v NC NV. rewrite (NA j k' v NC NV). cbn [dget]. destruct (seqb_spec k' k) as [->|NE].
      * assert (D : dget k kw = None) by now apply dget_None. rewrite D.
        assert (J : dget k (r_keymap r) = Some (Z.of_nat j)) by (apply names_nth; [exact C|]; split; [lia|rewrite Nat2Z.id; exact NC]). rewrite G in J. injection J as ->. rewrite Nat2Z.id in *. rewrite M1. congruence.
      * rewrite M2; [reflexivity|]. intros ->. apply NE. apply names_nth in G as [_ G]; [|exact C]. congruence.
    + destruct (IH N2 acc) as (acc' & EA & LA & NA); [intros k' f' I; apply (KS k' f'); right; exact I|exact L|]. exists acc'. split; [exact EA|]. split; [lia|].
      intros j k' v NC NV. rewrite (NA j k' v NC NV). cbn [dget]. destruct (seqb_spec k' k) as [->|NE]; [|reflexivity]. assert (D : dget k kw = None) by now apply dget_None. rewrite D. reflexivity.
Qed.
Lemma transform_ok r args kw : columns_ok r -> NoDup (dkeys kw) -> len args <= len (r_values r) -> (forall k f, In (k, Some f) kw -> In k (row_keys r)) ->
  exists r', transform r (map pure args) (map (fun p => (fst p, pure (snd p))) kw) = Ok r' /\ r_keymap r' = r_keymap r /\ length (r_values r') = length (r_values r) /\
    forall i k v, nth_error (column_names r) i = Some k -> nth_error (r_values r) i = Some v -> nth_error (r_values r') i = Some (transformed args kw i k v).
Proof.
  intros C ND LA KS. unfold transform. destruct (targs_ok r args 0 (r_values r)) as (a1 & E1 & L1 & N1); [lia|lia|reflexivity|]. rewrite E1. cbn [bind].
  destruct (tkw_ok r kw C ND a1 KS L1) as (a2 & E2 & L2 & N2). rewrite E2. cbn [bind]. eexists. split; [reflexivity|]. cbn [from_sequence r_keymap r_values]. split; [reflexivity|]. split; [lia|].
  intros i k v NC NV. rewrite (N2 i k v NC NV). unfold transformed. rewrite N1. cbn [Z.to_nat Nat.leb Nat.add andb]. rewrite Nat.sub_0_r, NV.
  destruct (dget k kw) as [[f|]|]; [reflexivity| |].
  all: destruct (Nat.ltb_spec i (length args)) as [B|B]; [destruct (nth_error args i) as [[g|]|]; reflexivity|]; apply nth_error_None in B; rewrite B; reflexivity.
Qed.
Lemma tkw_unknown r (kw : list (text * option (V -> V))) k f : columns_ok r -> In (k, Some f) kw -> ~ In k (row_keys r) -> forall acc, length acc = length (r_values r) ->
  transform_kw r (map (fun p => (fst p, pure (snd p))) kw) acc = Err KeyError.
Proof.
  intros C I N. induction kw as [|[j g] kw IH]; intros acc L; [destruct I|]. destruct g as [g|]; cbn [map fst snd pure option_map transform_kw].
  - unfold index_from_key, row_getname. destruct (dget j (r_keymap r)) as [i|] eqn:G; [|reflexivity]. pose proof (column_range r j i C G) as B.
    destruct (pyindex_nth (r_values r) i B) as (x & E1 & E2). rewrite E1. cbn [bind]. destruct (list_set_ok i (g x) acc) as (l' & E & LL & _); [unfold len in *; lia|]. rewrite E. cbn [bind].
    apply IH; [|lia]. destruct I as [I|I]; [|exact I]. injection I as -> ->. exfalso. apply N. apply dget_In in G. apply (in_map fst) in G. exact G.
  - apply IH; [|exact L]. destruct I as [I|I]; [discriminate|exact I].
Qed.
Lemma transform_unknown r args kw k f : columns_ok r -> len args <= len (r_values r) -> In (k, Some f) kw -> ~ In k (row_keys r) ->
  transform r (map pure args) (map (fun p => (fst p, pure (snd p))) kw) = Err KeyError.
Proof.
  intros C LA I N. unfold transform. destruct (targs_ok r args 0 (r_values r)) as (a1 & E1 & L1 & N1); [lia|lia|reflexivity|]. rewrite E1. cbn [bind].
  rewrite (tkw_unknown r kw k f C I N a1 L1). reflexivity.
Qed.
End row.
