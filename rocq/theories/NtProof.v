(** NtProof.v *)
From Verif Require Import Base BaseProof PyStr PyInt PyIntProof PyDict PyDictProof ArrayModel RowProof NtModel NtSpec.
From Coq Require Import Permutation.
From Coq Require Import String.
Local Notation str s := (PyStr.str s%string).
Local Notation length := List.length.

Lemma replace_underscored t : py_replace [32] [95] t = underscored t.
Proof.
  unfold py_replace. induction t as [|c t IH]; [reflexivity|]. cbn [replace_go prefixb underscored map List.length Nat.sub app]. fold (underscored t).
  rewrite (Z.eqb_sym c 32). destruct (32 =? c); cbn [andb]; rewrite IH; reflexivity.
Qed.
Lemma mem_text_iff t l : mem_text t l = true <-> In t l.
Proof.
  unfold mem_text. rewrite existsb_exists. split; [intros (x & I & E)|intros I; exists t; split; [exact I|]].
  - destruct (seqb_spec t x); [subst; exact I|discriminate].
  - destruct (seqb_spec t t); [reflexivity|contradiction].
Qed.
Lemma has_repeat_false l : has_repeat l = false <-> NoDup l.
Proof.
  induction l as [|x l IH]; cbn [has_repeat]; [split; [constructor|reflexivity]|]. rewrite orb_false_iff, IH. split.
  - intros [M N]. constructor; [|exact N]. intros I. apply mem_text_iff in I. congruence.
  - intros N. inversion N; subst. split; [|assumption]. destruct (mem_text x l) eqn:E; [|reflexivity]. apply mem_text_iff in E. contradiction.
Qed.
Lemma keywords_are t : iskeyword t = true <-> In t python_keywords.
Proof.
  unfold iskeyword. rewrite mem_text_iff. set (a := keywords). set (b := python_keywords). assert (incl a b /\ incl b a) as [A B].
  { vm_compute. split; intros x; cbn [In]; tauto. }
  split; [apply A|apply B].
Qed.
Definition keep (P : pychars) (x : text) : bool := isidentifier P x && negb (iskeyword x) && negb (startswith_underscore x).
Lemma keep_plain P x : keep P x = true <-> plain P x.
Proof.
  unfold keep, plain. rewrite !andb_true_iff, !negb_true_iff. split.
  - intros [[I K] S]. split; [|intros H; apply keywords_are in H; congruence]. destruct x as [|c r]; [discriminate I|]. cbn [isidentifier startswith_underscore] in *.
    rewrite S, orb_false_r in I. apply andb_true_iff in I as [A B]. exists c, r. split; [reflexivity|]. split; [lia|]. split; [exact A|]. apply Forall_forall. intros d D. rewrite forallb_forall in B. apply B, D.
  - intros [(c & r & -> & N & A & B) K]. cbn [isidentifier startswith_underscore]. rewrite A. cbn [orb andb]. split; [split|].
    + apply forallb_forall. intros d D. rewrite Forall_forall in B. apply B, D.
    + destruct (iskeyword (c :: r)) eqn:E; [|reflexivity]. apply keywords_are in E. contradiction.
    + lia.
Qed.
Lemma rename_unfold P i seen x l : rename_go P i seen (x :: l) = (if keep P x && negb (mem_text x seen) then x else 95 :: str_int i) :: rename_go P (i + 1) (x :: seen) l.
Proof. cbn [rename_go]. unfold keep. destruct (isidentifier P x), (iskeyword x), (startswith_underscore x), (mem_text x seen); reflexivity. Qed.
Lemma rename_length P l : forall i seen, length (rename_go P i seen l) = length l.
Proof. induction l as [|x l IH]; intros i seen; cbn [rename_go List.length]; [reflexivity|]. rewrite IH. reflexivity. Qed.
Lemma rename_nth P l : forall i seen k x, nth_error l k = Some x ->
  nth_error (rename_go P i seen l) k = Some (if keep P x && negb (mem_text x (rev (firstn k l) ++ seen)) then x else 95 :: str_int (i + Z.of_nat k)).
Proof.
  induction l as [|y l IH]; intros i seen k x N; [destruct k; discriminate N|]. rewrite rename_unfold. destruct k as [|k]; cbn [nth_error] in *.
  - injection N as ->. cbn [firstn rev app]. rewrite Z.add_0_r. reflexivity.
  - rewrite (IH _ _ _ _ N). cbn [firstn rev]. rewrite <- app_assoc. cbn [app]. replace (i + 1 + Z.of_nat k) with (i + Z.of_nat (S k)) by lia. reflexivity.
Qed.
Lemma underscore_inj i j : 0 <= i -> 0 <= j -> 95 :: str_int i = 95 :: str_int j -> i = j.
Proof.
  intros A B E. assert (H : str_int i = str_int j) by congruence. unfold str_int in H. destruct (Z.ltb_spec i 0); [lia|]. destruct (Z.ltb_spec j 0); [lia|].
  rewrite <- (str_nat_value i), <- (str_nat_value j) by lia. rewrite H. reflexivity.
Qed.
Lemma rename_In P l : forall i seen y, In y (rename_go P i seen l) -> (plain P y /\ In y l /\ ~ In y seen) \/ exists k, (k < length l)%nat /\ y = 95 :: str_int (i + Z.of_nat k).
Proof.
  induction l as [|x l IH]; intros i seen y I; [destruct I|]. rewrite rename_unfold in I. destruct I as [E|I].
  - destruct (keep P x) eqn:K; cbn [andb] in E; [destruct (mem_text x seen) eqn:M; cbn [negb] in E|]; subst y.
    + right. exists O. cbn [List.length]. split; [lia|]. rewrite Z.add_0_r. reflexivity.
    + left. split; [apply keep_plain, K|]. split; [left; reflexivity|]. intros H. apply mem_text_iff in H. congruence.
    + right. exists O. cbn [List.length]. split; [lia|]. rewrite Z.add_0_r. reflexivity.
  - destruct (IH _ _ _ I) as [(A & B & C)|(k & K & ->)]; [left; split; [exact A|]; split; [right; exact B|intros H; apply C; right; exact H]|right; exists (S k); cbn [List.length]; split; [lia|f_equal; f_equal; lia]].
Qed.
Lemma plain_no_underscore P r : ~ plain P (95 :: r).
Proof. intros [(c & q & E & N & _) _]. congruence. Qed.
Lemma rename_NoDup P l : forall i seen, 0 <= i -> NoDup (rename_go P i seen l).
Proof.
  induction l as [|x l IH]; intros i seen H; [constructor|]. rewrite rename_unfold. constructor; [|apply IH; lia]. intros I.
  destruct (rename_In _ _ _ _ _ I) as [(A & B & C)|(k & K & E)].
  - destruct (keep P x && negb (mem_text x seen)) eqn:G; [apply C; left; reflexivity|exact (plain_no_underscore _ _ A)].
  - destruct (keep P x && negb (mem_text x seen)) eqn:G.
    + apply andb_true_iff in G as [G _]. apply keep_plain in G. rewrite E in G. exact (plain_no_underscore _ _ G).
    + apply underscore_inj in E; lia.
Qed.
Lemma rename_fields P cols : fields_of P cols (rename_go P 0 [] (map underscored cols)).
Proof.
  split; [rewrite rename_length, map_length; reflexivity|]. intros i col N.
  assert (M : nth_error (map underscored cols) i = Some (underscored col)) by (rewrite nth_error_map, N; reflexivity).
  rewrite (rename_nth _ _ _ _ _ _ M), app_nil_r. set (t := underscored col) in *. rewrite Z.add_0_l.
  assert (E : keep P t && negb (mem_text t (rev (firstn i (map underscored cols)))) = true <-> names_column P cols i t).
  { rewrite andb_true_iff, negb_true_iff. unfold names_column. rewrite keep_plain. split.
    - intros [A B]. split; [exact A|]. split; [rewrite N; reflexivity|]. intros j J H. enough (In t (rev (firstn i (map underscored cols)))) as I by (apply mem_text_iff in I; congruence).
      apply in_rev. rewrite rev_involutive. rewrite <- nth_error_map in H. clear - H J. revert i j J H. generalize (map underscored cols). induction l as [|y l IH]; intros i j J H; [destruct j; discriminate H|]. destruct i as [|i]; [lia|]. cbn [firstn]. destruct j as [|j]; [left; cbn in H; congruence|right; apply (IH i j); [lia|exact H]].
    - intros (A & _ & B). split; [exact A|]. destruct (mem_text _ _) eqn:G; [exfalso|reflexivity]. apply mem_text_iff in G. apply in_rev in G. clear - G B.
      assert (X : exists j, (j < i)%nat /\ nth_error (map underscored cols) j = Some t). { revert i G B. generalize (map underscored cols). intros l i G _. revert i G. induction l as [|y l IH]; intros i G; [destruct i; destruct G|]. destruct i as [|i]; [destruct G|]. destruct G as [->|G]; [exists O; split; [lia|reflexivity]|]. destruct (IH i G) as (j & J & H). exists (S j). split; [lia|exact H]. }
      destruct X as (j & J & H). apply (B j J). rewrite <- nth_error_map. exact H. }
  split; intros H; destruct (keep P t && negb (mem_text t (rev (firstn i (map underscored cols))))) eqn:G; try reflexivity; [apply E in H; congruence|exfalso; apply H, E, eq_refl].
Qed.
Lemma number_identifier P i : pychars_ok P -> 0 <= i -> isidentifier P (95 :: str_int i) = true /\ iskeyword (95 :: str_int i) = false.
Proof.
  intros OK H. split; [|reflexivity]. cbn [isidentifier]. rewrite Z.eqb_refl, orb_true_r. cbn [andb]. apply forallb_forall. intros c C.
  unfold str_int in C. destruct (Z.ltb_spec i 0); [lia|]. destruct (str_nat_digits i H) as [_ D]. rewrite Forall_forall in D. specialize (D c C).
  rewrite (co_cont P OK) by lia. unfold ascii_digit. destruct (Z.leb_spec 48 c); [|lia]. destruct (Z.leb_spec c 57); [|lia]. rewrite orb_true_r. reflexivity.
Qed.
Lemma rename_identifiers P l : pychars_ok P -> forallb (fun x => isidentifier P x && negb (iskeyword x)) (str "row" :: rename_go P 0 [] l) = true.
Proof.
  intros OK. cbn [forallb]. apply andb_true_iff. split.
  - change (str "row") with [114; 111; 119]. cbn [isidentifier forallb]. rewrite (co_start P OK), !(co_cont P OK) by lia. reflexivity.
  - apply forallb_forall. intros y I. destruct (rename_In _ _ _ _ _ I) as [(A & _)|(k & _ & ->)].
    + apply keep_plain in A. unfold keep in A. apply andb_true_iff in A as [A _]. exact A.
    + destruct (number_identifier P (0 + Z.of_nat k) OK ltac:(lia)) as [-> ->]. reflexivity.
Qed.
Lemma namedtuple_spec P id l : pychars_ok P ->
  let f := rename_go P 0 [] l in
  (NoDup (map (c_nfkc P) (str "_cls" :: f)) -> py_namedtuple P id l = Ok {| nt_id := id; nt_fields := f |}) /\
  (~ NoDup (map (c_nfkc P) (str "_cls" :: f)) -> py_namedtuple P id l = Err (OtherError 1)).
Proof.
  intros OK f. unfold py_namedtuple. fold f. pose proof (rename_identifiers P l OK) as I. fold f in I. rewrite I. cbn [negb].
  assert (N : has_repeat f = false) by (apply has_repeat_false, rename_NoDup; lia). rewrite N.
  destruct (has_repeat (map (c_nfkc P) (str "_cls" :: f))) eqn:E; split; intros H; try reflexivity.
  - apply has_repeat_false in H. congruence.
  - exfalso. apply H, has_repeat_false, E.
Qed.
Lemma eq_names_iff a : forall b, eq_names a b = true <-> a = b.
Proof.
  induction a as [|x a IH]; intros [|y b]; cbn [eq_names]; split; intros H; try discriminate; try reflexivity.
  - apply andb_true_iff in H as [A B]. apply IH in B. destruct (seqb_spec x y); [|discriminate]. congruence.
  - injection H as -> ->. destruct (seqb_spec y y); [|contradiction]. apply IH. reflexivity.
Qed.
Lemma cget_cset k v j c : cget j (cset k v c) = if eq_names j k then Some v else cget j c.
Proof.
  induction c as [|[m w] c IH]; cbn [cset cget]; [reflexivity|]. destruct (eq_names k m) eqn:E.
  - apply eq_names_iff in E. subst m. cbn [cget]. destruct (eq_names j k); reflexivity.
  - cbn [cget]. rewrite IH. destruct (eq_names j m) eqn:F; [|reflexivity]. apply eq_names_iff in F. subst m. destruct (eq_names j k) eqn:G; [|reflexivity]. apply eq_names_iff in G. subst k. assert (eq_names j j = true) by (apply eq_names_iff; reflexivity). congruence.
Qed.
(** the invariant of the cache *)
Definition inv (P : pychars) (w : world) : Prop :=
  forall k t, cget k (w_cache w) = Some t -> py_namedtuple P (nt_id t) k = Ok t /\ (nt_id t < w_made w)%nat.
Lemma namedtuple_id P i j k t : py_namedtuple P i k = Ok t -> py_namedtuple P j k = Ok {| nt_id := j; nt_fields := nt_fields t |} /\ nt_id t = i.
Proof.
  unfold py_namedtuple. destruct (negb _); [discriminate|]. destruct (has_repeat _); [discriminate|]. destruct (has_repeat _); [discriminate|]. intros E. apply Ok_inj in E. subst t. split; reflexivity.
Qed.
Lemma factory_inv P cols w : inv P w -> inv P (fst (factory P cols w)) /\ (w_made w <= w_made (fst (factory P cols w)))%nat.
Proof.
  intros I. unfold factory. destruct (cget _ _) as [t|] eqn:G; [cbn [fst]; auto|]. destruct (py_namedtuple P (w_made w) _) as [t|e] eqn:N; cbn [fst]; [|auto]. cbn [w_made]. split; [|lia]. intros k u H. cbn [w_cache w_made] in *. rewrite cget_cset in H.
  destruct (eq_names k _) eqn:E.
  - apply eq_names_iff in E. assert (u = t) by congruence. subst u k. destruct (namedtuple_id _ _ O _ _ N) as [_ X]. rewrite X. split; [exact N|lia].
  - destruct (I k u H) as [A B]. split; [exact A|lia].
Qed.
Lemma reached_inv P w : reached P w -> inv P w.
Proof. induction 1 as [|w cols R IH]; [intros k t H; discriminate H|]. apply factory_inv, IH. Qed.
Lemma map_underscored cols : map (py_replace [32] [95]) cols = map underscored cols.
Proof. apply map_ext. exact replace_underscored. Qed.
Lemma factory_spec P cols w : pychars_ok P -> inv P w ->
  let f := rename_go P 0 [] (map underscored cols) in
  (NoDup (map (c_nfkc P) (str "_cls" :: f)) -> exists t, snd (factory P cols w) = Ok t /\ nt_fields t = f /\ cget (map underscored cols) (w_cache (fst (factory P cols w))) = Some t) /\
  (~ NoDup (map (c_nfkc P) (str "_cls" :: f)) -> snd (factory P cols w) = Err (OtherError 1)).
Proof.
  intros OK I f. unfold factory. rewrite map_underscored. destruct (cget _ _) as [t|] eqn:G.
  - destruct (I _ _ G) as [N _]. destruct (namedtuple_spec P (nt_id t) (map underscored cols) OK) as [A B]. fold f in A, B. split; intros H; cbn [fst snd].
    + exists t. split; [reflexivity|]. split; [|exact G]. specialize (A H). rewrite N in A. apply Ok_inj in A. rewrite A. reflexivity.
    + specialize (B H). congruence.
  - destruct (namedtuple_spec P (w_made w) (map underscored cols) OK) as [A B]. fold f in A, B. split; intros H; [rewrite (A H)|rewrite (B H); reflexivity]. cbn [fst snd w_cache]. eexists. split; [reflexivity|]. split; [reflexivity|]. rewrite cget_cset. assert (eq_names (map underscored cols) (map underscored cols) = true) as -> by (apply eq_names_iff; reflexivity). reflexivity.
Qed.
Lemma ascii_fields P cols : pychars_ok P -> Forall ascii_text cols -> NoDup (map (c_nfkc P) (str "_cls" :: rename_go P 0 [] (map underscored cols))).
Proof.
  intros OK A. set (f := rename_go P 0 [] (map underscored cols)).
  assert (F : forall y, In y (str "_cls" :: f) -> ascii_text y).
  { intros y [<-|I]; [unfold ascii_text; repeat constructor; vm_compute; congruence|]. destruct (rename_In _ _ _ _ _ I) as [(_ & B & _)|(k & _ & ->)].
    - apply in_map_iff in B as (x & <- & B). rewrite Forall_forall in A. specialize (A x B). unfold ascii_text, underscored in *. rewrite Forall_map. eapply Forall_impl; [|exact A]. intros c C. destruct (Z.eqb_spec c 32); cbn beta iota; cbn beta in C; lia.
    - constructor; [lia|]. unfold str_int. destruct (Z.ltb_spec (0 + Z.of_nat k) 0); [lia|]. destruct (str_nat_digits (0 + Z.of_nat k) ltac:(lia)) as [_ D]. eapply Forall_impl; [|exact D]. cbn. lia. }
  rewrite (map_ext_in _ (fun x => x) _ (fun y I => co_nfkc P OK y (F y I))), map_id. constructor; [|apply rename_NoDup; lia].
  intros I. destruct (rename_In _ _ _ _ _ I) as [(B & _)|(k & _ & E)]; [exact (plain_no_underscore _ _ B)|].
  assert (X : In 99 (str_int (0 + Z.of_nat k))) by (change (str "_cls") with (95 :: [99; 108; 115]) in E; assert (E2 : [99; 108; 115] = str_int (0 + Z.of_nat k)) by congruence; rewrite <- E2; left; reflexivity).
  unfold str_int in X. destruct (Z.ltb_spec (0 + Z.of_nat k) 0); [lia|]. destruct (str_nat_digits (0 + Z.of_nat k) ltac:(lia)) as [_ D]. rewrite Forall_forall in D. specialize (D _ X). lia.
Qed.
Section rows.
Context {V : Type}.
Lemma field_index_nth f : NoDup f -> forall i name, nth_error f i = Some name -> field_index name f = Some i.
Proof.
  induction 1 as [|x f N ND IH]; intros i name E; [destruct i; discriminate E|]. cbn [field_index]. destruct i as [|i]; cbn [nth_error] in E.
  - injection E as ->. destruct (seqb_spec name name); [reflexivity|contradiction].
  - destruct (seqb_spec name x); [subst; exfalso; apply N; eapply nth_error_In; exact E|]. rewrite (IH i name E). reflexivity.
Qed.
Lemma starmap_spec t rows e : Forall (fun y : list V => length y = length (nt_fields t)) rows ->
  starmap_rows t rows e = (map (fun y => {| nr_type := t; nr_values := y |}) rows, e).
Proof.
  induction 1 as [|y rows L _ IH]; [reflexivity|]. cbn [starmap_rows map]. unfold nt_make, len. rewrite L, Z.eqb_refl, IH. reflexivity.
Qed.
End rows.
Lemma factory_keeps P w cols k t : cget k (w_cache w) = Some t -> cget k (w_cache (fst (factory P cols w))) = Some t.
Proof.
  intros H. unfold factory. destruct (cget (map _ cols) _) eqn:C; [exact H|]. destruct (py_namedtuple _ _ _); [|exact H]. cbn [fst w_cache]. rewrite cget_cset. destruct (eq_names k _) eqn:N; [|exact H]. apply eq_names_iff in N. congruence.
Qed.
Lemma others_keep P others : forall w k t, cget k (w_cache w) = Some t -> cget k (w_cache (fold_left (fun w c => fst (factory P c w)) others w)) = Some t.
Proof. induction others as [|o l IH]; intros w k t H; [exact H|]. cbn [fold_left]. apply IH, factory_keeps, H. Qed.
Lemma others_reached P others : forall w, reached P w -> reached P (fold_left (fun w c => fst (factory P c w)) others w).
Proof. induction others as [|o l IH]; intros w H; [exact H|]. cbn [fold_left]. apply IH. constructor. exact H. Qed.
Lemma factory_in P w cols t : snd (factory P cols w) = Ok t -> cget (map underscored cols) (w_cache (fst (factory P cols w))) = Some t.
Proof.
  intros E. unfold factory in *. rewrite map_underscored in *. destruct (cget _ (w_cache w)) as [t'|] eqn:C; cbn [fst snd] in *; [congruence|]. destruct (py_namedtuple _ _ _) as [t'|]; cbn [fst snd w_cache] in *; [|discriminate E]. apply Ok_inj in E. subst t'. rewrite cget_cset. assert (eq_names (map underscored cols) (map underscored cols) = true) as -> by (apply eq_names_iff; reflexivity). reflexivity.
Qed.
Lemma reached_injective P w : reached P w -> forall k k' u u', cget k (w_cache w) = Some u -> cget k' (w_cache w) = Some u' -> nt_id u = nt_id u' -> k = k'.
Proof.
  induction 1 as [|w c R J]; [intros k k' u u' H; discriminate H|]. pose proof (reached_inv P w R) as I.
  intros k k' u u' H H' X. unfold factory in H, H'. destruct (cget (map _ c) (w_cache w)) as [t|] eqn:C; [exact (J _ _ _ _ H H' X)|].
  destruct (py_namedtuple P (w_made w) _) as [t|e] eqn:M; cbn [fst w_cache] in H, H'; [|exact (J _ _ _ _ H H' X)]. rewrite cget_cset in H, H'. destruct (namedtuple_id _ _ O _ _ M) as [_ T].
  destruct (eq_names k _) eqn:A; destruct (eq_names k' _) eqn:B; try apply eq_names_iff in A; try apply eq_names_iff in B.
  - congruence.
  - exfalso. destruct (I _ _ H') as [_ L]. assert (u = t) by congruence. subst u. lia.
  - exfalso. destruct (I _ _ H) as [_ L]. assert (u' = t) by congruence. subst u'. lia.
  - exact (J _ _ _ _ H H' X).
Qed.

Lemma combine_index (cols : list text) : forall a n j, In (n, Z.of_nat j) (combine cols (map Z.of_nat (seq a (length cols)))) -> nth_error cols (j - a) = Some n /\ (a <= j)%nat.
Proof.
  induction cols as [|c cols IH]; intros a n j I; [destruct I|]. cbn [List.length seq map combine] in I. destruct I as [E|I].
  - assert (c = n) by congruence. assert (Z.of_nat a = Z.of_nat j) by congruence. assert (a = j) by lia. subst. rewrite Nat.sub_diag. split; [reflexivity|lia].
  - destruct (IH (S a) n j I) as [E L]. split; [|lia]. replace (j - a)%nat with (S (j - S a)) by lia. exact E.
Qed.
Lemma sorted_names (m : list (text * Z)) (cols : list text) : Permutation m (combine cols (map Z.of_nat (seq 0 (length cols)))) -> map fst (sort_cols m) = cols.
Proof.
  intros M. assert (Q : map snd (sort_cols m) = map Z.of_nat (seq 0 (length cols))).
  { rewrite (sort_snd m (Z.of_nat (length cols))); [unfold py_range; rewrite Nat2Z.id; reflexivity|]. unfold py_range. rewrite Nat2Z.id. eapply perm_trans; [apply Permutation_map; exact M|].
    rewrite map_snd_combine; [apply Permutation_refl|rewrite map_length, seq_length; reflexivity]. }
  pose proof (Permutation_trans (Permutation_sym (sort_perm m)) M) as PM. set (s := sort_cols m) in *. clearbody s. clear M m.
  assert (LS : length s = length cols) by (rewrite <- (map_length snd s), Q, map_length, seq_length; reflexivity).
  apply nth_error_ext. intros i. rewrite nth_error_map. destruct (nth_error s i) as [[n z]|] eqn:E; cbn [option_map fst].
  - assert (Z1 : z = Z.of_nat i).
    { assert (H : nth_error (map snd s) i = Some z) by (rewrite nth_error_map, E; reflexivity). rewrite Q, nth_error_map in H. assert (L : (i < length cols)%nat) by (rewrite <- LS; apply nth_error_Some; congruence).
      assert (G : nth_error (seq 0 (length cols)) i = Some i) by (rewrite (nth_error_nth' _ O) by (rewrite seq_length; exact L); rewrite seq_nth by exact L; reflexivity). rewrite G in H. cbn in H. congruence. }
    subst z. apply nth_error_In in E. apply (Permutation_in _ PM) in E. apply combine_index in E as [E _]. rewrite Nat.sub_0_r in E. congruence.
  - apply nth_error_None in E. symmetry. apply nth_error_None. lia.
Qed.
Lemma dupdate_keys (e : list (text * Z)) : forall d, NoDup (dkeys d) -> NoDup (dkeys (dupdate d e)) /\ forall x, In x (dkeys (dupdate d e)) <-> In x (dkeys d) \/ In x (dkeys e).
Proof.
  induction e as [|[k v] e IH]; intros d N; [split; [exact N|intros x; cbn; tauto]|]. unfold dupdate in *. cbn [fold_left fst snd]. destruct (IH (dset k v d) (dset_nodup k v d N)) as [A B]. split; [exact A|].
  intros x. rewrite B, dkeys_set. cbn [dkeys map fst In]. unfold dmem. destruct (dget k d) eqn:G.
  - assert (In k (dkeys d)) by (destruct (in_dec (list_eq_dec Z.eq_dec) k (dkeys d)) as [I|I]; [exact I|apply dget_None in I; congruence]). split; [intuition|intros [H1|[H1|H1]]; [auto|subst; auto|auto]].
  - rewrite in_app_iff. cbn [In]. tauto.
Qed.
Lemma dkeys_cols (cols : list text) : dkeys (combine cols (py_range (len cols))) = cols.
Proof. unfold dkeys. rewrite map_fst_combine; [reflexivity|]. unfold py_range, len. rewrite map_length, seq_length. lia. Qed.
Lemma attribute_map_names cols x : In x (map fst (attribute_map cols)) -> In x cols.
Proof. intros I. unfold attribute_map in I. apply (proj2 (dupdate_keys _ [] ltac:(constructor))) in I. rewrite dkeys_cols in I. destruct I as [[]|I]; exact I. Qed.
Lemma attribute_map_short cols : ~ NoDup cols -> (length (attribute_map cols) < length cols)%nat.
Proof.
  intros D. destruct (le_lt_dec (length cols) (length (attribute_map cols))) as [L|L]; [exfalso|exact L]. apply D.
  destruct (dupdate_keys (combine cols (py_range (len cols))) [] ltac:(constructor)) as [N I]. fold (attribute_map cols) in N, I.
  apply (NoDup_incl_NoDup N); [unfold dkeys; rewrite map_length; exact L|]. intros x X. exact (attribute_map_names cols x X).
Qed.
