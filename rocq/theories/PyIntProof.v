From Verif Require Import PyStr PyStrProof BaseProof PyInt.

Lemma digit_ok c : 48 <= c <= 57 -> digit_value c = c - 48.
Proof. intros H. unfold digit_value, ascii_digit. replace ((48 <=? c) && (c <=? 57)) with true by lia. reflexivity. Qed.
Lemma int_digits_digits base s acc : 10 <= base ->
  Forall (fun c => 48 <= c <= 57) s ->
  int_digits base acc false s = Some (fold_left (fun a c => a * base + (c - 48)) s acc, []).
Proof.
  intros B. revert acc. induction s as [|c r IH]; intros acc F; [reflexivity|].
  inversion F; subst. cbn [int_digits fold_left]. rewrite digit_ok by assumption.
  replace (c =? 95) with false by lia. replace (c - 48 <? base) with true by lia. auto.
Qed.
Lemma skip_prefix10 s : skip_prefix 10 s = s.
Proof. destruct s as [|a [|p r]]; try reflexivity. unfold skip_prefix. destruct (negb (a =? 48)); reflexivity. Qed.
Lemma sign_digit c s : 48 <= c <= 57 -> sign_of (c :: s) = (1, c :: s).
Proof. intros H. unfold sign_of. replace (c =? 43) with false by lia. replace (c =? 45) with false by lia. reflexivity. Qed.
Lemma ascii_int_digits s : all_digits s -> ascii_int 10 s = Ok (digits_value s).
Proof.
  intros [N F]. destruct s as [|c r]; [congruence|]. inversion F; subst.
  unfold ascii_int. rewrite lstrip_head by (unfold c_space; lia). rewrite sign_digit by assumption.
  rewrite skip_prefix10. rewrite digit_ok by assumption. replace (c - 48 <? 10) with true by lia.
  cbn [negb]. rewrite int_digits_digits by (auto; lia). cbn [lstrip_by]. f_equal. unfold digits_value. lia.
Qed.
Lemma int_char_ascii U dv s : Forall (fun c => 0 <= c < 128) s -> map (int_char U dv) s = s.
Proof.
  induction 1 as [|c s H _ IH]; [reflexivity|]. cbn [map]. rewrite IH. unfold int_char.
  replace (c <? 128) with true by lia. reflexivity.
Qed.
Lemma py_int_digits U dv s : all_digits s -> py_int U dv 10 s = Ok (digits_value s).
Proof.
  intros H. unfold py_int. rewrite int_char_ascii. apply ascii_int_digits, H.
  destruct H as [_ F]. revert F. apply Forall_impl. lia.
Qed.

Lemma dec_digits_forall fuel n acc : 0 <= n -> Forall (fun c => 48 <= c <= 57) acc ->
  Forall (fun c => 48 <= c <= 57) (dec_digits fuel n acc).
Proof.
  revert n acc. induction fuel as [|k IH]; intros n acc H F; [exact F|]. cbn [dec_digits].
  assert (0 <= n mod 10 < 10) by (apply Z.mod_pos_bound; lia).
  destruct (n <? 10); [|apply IH; [apply Z.div_pos; lia|]]; constructor; auto; lia.
Qed.
Lemma digits_value_app a b : digits_value (a ++ b) = digits_value a * 10 ^ len b + digits_value b.
Proof.
  unfold digits_value. rewrite fold_left_app.
  assert (G : forall l acc, fold_left (fun a c => a * 10 + (c - 48)) l acc =
             acc * 10 ^ len l + fold_left (fun a c => a * 10 + (c - 48)) l 0).
  { induction l as [|x l IH]; intros acc; [unfold len; cbn; lia|]. cbn [fold_left]. rewrite IH, (IH (0 * 10 + (x - 48))).
    rewrite len_cons, Z.pow_add_r by (pose proof (len_nonneg l); lia). lia. }
  apply G.
Qed.
Lemma dec_digits_value fuel n acc : 0 <= n < Z.of_nat fuel ->
  digits_value (dec_digits fuel n acc) = n * 10 ^ len acc + digits_value acc.
Proof.
  revert n acc. induction fuel as [|k IH]; intros n acc H; [lia|]. cbn [dec_digits].
  assert (E : digits_value ((48 + n mod 10) :: acc) = (n mod 10) * 10 ^ len acc + digits_value acc).
  { change ((48 + n mod 10) :: acc) with ([48 + n mod 10] ++ acc). rewrite digits_value_app. unfold digits_value at 1. cbn [fold_left]. lia. }
  assert (D := Z.div_mod n 10 ltac:(lia)). assert (M := Z.mod_pos_bound n 10 ltac:(lia)).
  destruct (n <? 10) eqn:L.
  - rewrite E. replace (n mod 10) with n; [reflexivity|]. rewrite Z.mod_small; lia.
  - rewrite IH; [rewrite E, len_cons, Z.pow_add_r by (pose proof (len_nonneg acc); lia); lia|].
    split; [apply Z.div_pos; lia|]. assert (n / 10 < n) by (apply Z.div_lt; lia). lia.
Qed.
Lemma dec_digits_nonempty fuel n acc : (fuel <> 0)%nat -> dec_digits fuel n acc <> [].
Proof.
  revert n acc. induction fuel as [|k IH]; intros n acc H; [congruence|]. cbn [dec_digits].
  destruct (n <? 10); [discriminate|]. destruct k; [discriminate|]. apply IH. congruence.
Qed.
Lemma str_nat_digits n : 0 <= n -> all_digits (str_nat n).
Proof. intros H. split; [apply dec_digits_nonempty; congruence|]. apply dec_digits_forall; auto. Qed.
Lemma str_nat_value n : 0 <= n -> digits_value (str_nat n) = n.
Proof. intros H. unfold str_nat. rewrite dec_digits_value by lia. unfold len, digits_value; cbn [fold_left]. change (10 ^ Z.of_nat (length (@nil Z))) with 1. lia. Qed.
Lemma py_int_str_nat U dv n : 0 <= n -> py_int U dv 10 (str_nat n) = Ok n.
Proof. intros H. rewrite py_int_digits by (apply str_nat_digits, H). now rewrite str_nat_value. Qed.
