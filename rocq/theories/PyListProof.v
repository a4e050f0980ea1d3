From Verif Require Import Base BaseProof PBufferModel PBufferProof PyList.

Lemma pyslice_firstn_skipn {A} (l : list A) i j : 0 <= i -> i <= j ->
  pyslice l i j = firstn (Z.to_nat (j - i)) (skipn (Z.to_nat i) l).
Proof.
  intros Hi Hj. unfold pyslice, py_bound.
  destruct (Z.ltb_spec i 0), (Z.ltb_spec j 0); try lia.
  destruct (Z.le_gt_cases (len l) i).
  - rewrite !skipn_all2 by (unfold len in *; lia). rewrite !firstn_nil. reflexivity.
  - destruct (Z.le_gt_cases j (len l)).
    + rewrite !Z.min_l by lia. reflexivity.
    + rewrite (Z.min_l i), (Z.min_r j) by lia. rewrite !firstn_all2; [reflexivity| |]; rewrite skipn_length; unfold len in *; lia.
Qed.
Lemma pyslice_app {A} (a b c : list A) i j : i = len a -> j = len a + len b -> pyslice (a ++ b ++ c) i j = b.
Proof.
  intros -> ->. pose proof (len_nonneg a). pose proof (len_nonneg b). rewrite pyslice_firstn_skipn by lia.
  replace (len a + len b - len a) with (len b) by lia. unfold len. rewrite !Nat2Z.id.
  rewrite skipn_app_exact by auto. apply firstn_app_exact; auto.
Qed.
Lemma pyslice_length {A} (l : list A) i j : 0 <= i -> i <= j ->
  len (pyslice l i j) = Z.min (j - i) (Z.max 0 (len l - i)).
Proof. intros. rewrite pyslice_firstn_skipn by lia. unfold len. rewrite firstn_length, skipn_length. lia. Qed.
(** a slice of full length is a segment *)
Lemma pyslice_split {A} (l : list A) i n : 0 <= i -> 0 <= n -> len (pyslice l i (i + n)) = n ->
  (i <= len l) -> l = firstn (Z.to_nat i) l ++ pyslice l i (i + n) ++ skipn (Z.to_nat (i + n)) l.
Proof.
  intros Hi Hn H Hl. rewrite pyslice_firstn_skipn by lia.
  replace (i + n - i) with n by lia. replace (Z.to_nat (i + n)) with (Z.to_nat n + Z.to_nat i)%nat by lia.
  rewrite Nat.add_comm, skipn_plus, firstn_skipn, firstn_skipn. reflexivity.
Qed.
Lemma pyslice_neg_stop_empty {A} (l : list A) i j : 0 <= i -> 0 <= j <= i -> pyslice l i j = [].
Proof.
  intros Hi Hj. unfold pyslice, py_bound. destruct (Z.ltb_spec i 0), (Z.ltb_spec j 0); try lia.
  replace (Z.to_nat _) with O by lia. reflexivity.
Qed.
