From Verif Require Import PyStr PyStrProof BaseProof PyInt PyIntProof ByteaModel ByteaSpec.

Lemma oct_val c : octal c -> digit_value c = c - 48.
Proof. intros H. apply digit_ok. unfold octal in H. lia. Qed.
Lemma py_int8 U dv a b c : octal a -> octal b -> octal c ->
  py_int U dv 8 [a; b; c] = Ok ((a - 48) * 64 + (b - 48) * 8 + (c - 48)).
Proof.
  unfold octal. intros A B C. unfold py_int. rewrite int_char_ascii by (repeat constructor; lia).
  unfold ascii_int. rewrite lstrip_head by (unfold c_space; lia). rewrite sign_digit by lia.
  assert (S : skip_prefix 8 [a; b; c] = [a; b; c]).
  { unfold skip_prefix. destruct (negb (a =? 48)); [reflexivity|].
    replace (8 =? 16) with false by lia. replace (8 =? 2) with false by lia. cbn [andb orb].
    replace (b =? 111) with false by lia. replace (b =? 79) with false by lia. reflexivity. }
  rewrite S. rewrite oct_val by (unfold octal; lia).
  cbn [int_digits]. rewrite !oct_val by (unfold octal; lia).
  replace (a =? 95) with false by lia. replace (b =? 95) with false by lia. replace (c =? 95) with false by lia.
  replace (a - 48 <? 8) with true by lia. replace (b - 48 <? 8) with true by lia. replace (c - 48 <? 8) with true by lia.
  cbn [negb lstrip_by]. f_equal. lia.
Qed.

Lemma denotes_bytes t d : denotes t d -> is_bytes d.
Proof. induction 1; constructor; auto; unfold is_byte, octal in *; lia. Qed.
Lemma denotes_encode U dv t d : unicode_ok U -> denotes t d -> bytea_encode U dv t = Ok d.
Proof.
  intros UO D. unfold bytea_encode.
  assert (E : encode_loop U dv t = Ok d).
  { induction D as [|c t d R N D IH|t d D IH|a b c t d v A B C V L D IH].
    - reflexivity.
    - cbn [encode_loop]. replace (c =? 92) with false by lia. rewrite IH. reflexivity.
    - cbn [encode_loop]. change (92 =? 92) with true. cbv iota. rewrite IH. reflexivity.
    - cbn [encode_loop]. change (92 =? 92) with true. cbv iota.
      unfold octal in *. replace (a =? 92) with false by lia.
      rewrite (uo_digit U UO) by lia. unfold ascii_digit. replace ((48 <=? a) && (a <=? 57)) with true by lia.
      rewrite py_int8 by (unfold octal; lia). rewrite IH. subst v. reflexivity. }
  rewrite E. cbn [bind]. replace (is_bytesb d) with true; [reflexivity|].
  symmetry. apply is_bytesb_spec. eapply denotes_bytes, D.
Qed.

Lemma octal3_spec i : is_byte i -> exists a b c, octal3 i = [a; b; c] /\ octal a /\ octal b /\ octal c /\
  i = (a - 48) * 64 + (b - 48) * 8 + (c - 48).
Proof.
  unfold is_byte, octal3, octal. intros H.
  assert (M1 := Z.mod_pos_bound i 8 ltac:(lia)). assert (M2 := Z.mod_pos_bound (i / 8) 8 ltac:(lia)).
  assert (D1 := Z.div_mod i 8 ltac:(lia)). assert (D2 := Z.div_mod (i / 8) 8 ltac:(lia)).
  rewrite Z.div_div in D2 by lia. change (8 * 8) with 64 in D2.
  do 3 eexists. split; [reflexivity|]. lia.
Qed.
Lemma decode_denotes d : is_bytes d -> denotes (bytea_decode d) d.
Proof.
  unfold bytea_decode. induction 1 as [|i d H F IH]; [constructor|]. cbn [map concat].
  unfold ord_to_seq. destruct (negb ((32 <? i) && (i <? 126))) eqn:P.
  - destruct (octal3_spec i H) as (a & b & c & E & A & B & C & V). rewrite E. cbn [app].
    apply den_octal; auto. unfold is_byte in H. lia.
  - destruct (i =? 92) eqn:Q.
    + apply Z.eqb_eq in Q. subst i. cbn [app]. apply den_backslash. exact IH.
    + cbn [app]. constructor; auto; unfold is_byte in H; lia.
Qed.
Lemma decode_printable d : is_bytes d -> Forall printable (bytea_decode d).
Proof.
  unfold bytea_decode. induction 1 as [|i d H F IH]; [constructor|]. cbn [map concat].
  apply Forall_app. split; [|exact IH]. unfold ord_to_seq, printable, is_byte in *.
  destruct (negb ((32 <? i) && (i <? 126))) eqn:P.
  - destruct (octal3_spec i H) as (a & b & c & E & A & B & C & V). rewrite E. unfold octal in *.
    repeat constructor; lia.
  - destruct (i =? 92) eqn:Q; repeat constructor; lia.
Qed.

(** encode is strict on plain texts *)
Lemma int_digits_last c : plain_char c -> forall base acc prev v r, base <= 10 ->
  int_digits base acc prev [c] = Some (v, r) -> c_space c = false ->
  lstrip_by c_space r = [] -> digit_value c < base /\ v = acc * base + digit_value c.
Proof.
  intros P base acc prev v r Bs H S L. cbn [int_digits] in H. unfold plain_char in P.
  replace (c =? 95) with false in H by lia.
  destruct (digit_value c <? base) eqn:D.
  - injection H as <- <-. lia.
  - destruct prev; [discriminate|]. injection H as <- <-. cbn [lstrip_by] in L. rewrite S in L. discriminate.
Qed.
Lemma plain_nospace c : plain_char c -> c_space c = false.
Proof. unfold plain_char, c_space. lia. Qed.
Lemma digit_lt8 c : digit_value c < 8 -> octal c /\ digit_value c = c - 48.
Proof.
  unfold digit_value, octal, ascii_digit, ascii_lowerc, ascii_upper.
  destruct ((48 <=? c) && (c <=? 57)) eqn:A; [lia|].
  destruct ((97 <=? c) && (c <=? 122)) eqn:B; [lia|].
  destruct ((65 <=? c) && (c <=? 90)) eqn:C; lia.
Qed.
Lemma py_int8_inv U dv a b c v : 48 <= a <= 57 -> plain_char b -> plain_char c ->
  py_int U dv 8 [a; b; c] = Ok v ->
  octal a /\ octal b /\ octal c /\ v = (a - 48) * 64 + (b - 48) * 8 + (c - 48).
Proof.
  intros A B C. unfold py_int. rewrite int_char_ascii by (unfold plain_char in *; repeat constructor; lia).
  unfold ascii_int. rewrite lstrip_head by (unfold c_space; lia). rewrite sign_digit by lia.
  assert (S : skip_prefix 8 [a; b; c] = [a; b; c]).
  { unfold skip_prefix. destruct (negb (a =? 48)); [reflexivity|].
    replace (8 =? 16) with false by lia. replace (8 =? 2) with false by lia. cbn [andb orb]. unfold plain_char in B.
    replace (b =? 111) with false by lia. replace (b =? 79) with false by lia. reflexivity. }
  rewrite S. destruct (digit_value a <? 8) eqn:DA; cbn [negb]; [|discriminate].
  destruct (digit_lt8 a ltac:(lia)) as [OA VA].
  cbn [int_digits]. unfold octal in OA. replace (a =? 95) with false by lia. rewrite DA.
  assert (Bu : (b =? 95) = false) by (unfold plain_char in B; lia). rewrite Bu.
  destruct (digit_value b <? 8) eqn:DB.
  - destruct (digit_lt8 b ltac:(lia)) as [OB VB].
    assert (Cu : (c =? 95) = false) by (unfold plain_char in C; lia). rewrite Cu.
    destruct (digit_value c <? 8) eqn:DC.
    + destruct (digit_lt8 c ltac:(lia)) as [OC VC]. intros H. cbn [lstrip_by] in H. okinv H. rewrite VA, VB, VC. unfold octal in *. lia.
    + intros H. cbn [lstrip_by] in H. rewrite (plain_nospace c C) in H. discriminate.
  - intros H. cbn [lstrip_by] in H. rewrite (plain_nospace b B) in H. discriminate.
Qed.
Lemma encode_loop_strict U dv : unicode_ok U -> forall n t d, (length t <= n)%nat ->
  Forall plain_char t -> encode_loop U dv t = Ok d -> is_bytes d -> denotes t d.
Proof.
  intros UO. induction n as [|n IH]; intros t d Ln F H Bd.
  - destruct t; [|cbn in Ln; lia]. okinv H. constructor.
  - destruct t as [|x r]; [okinv H; constructor|]. inversion F as [|? ? Px Fr]; subst. cbn [encode_loop] in H.
    cbn [length] in Ln.
    destruct (x =? 92) eqn:X.
    + apply Z.eqb_eq in X. subst x. destruct r as [|y r1]; [discriminate|]. inversion Fr as [|? ? Py Fr1]; subst.
      cbn [length] in Ln.
      destruct (y =? 92) eqn:Y.
      * apply Z.eqb_eq in Y. subst y. apply bind_Ok in H as (o & E & H). okinv H.
        inversion Bd; subst. apply den_backslash. apply IH; auto. lia.
      * rewrite (uo_digit U UO) in H by (unfold plain_char in Py; lia).
        destruct (ascii_digit y) eqn:D; [|discriminate].
        destruct r1 as [|a [|b r2]]; try discriminate. inversion Fr1 as [|? ? Pa F2]; subst. inversion F2 as [|? ? Pb F3]; subst.
        cbn [length] in Ln.
        destruct (py_int U dv 8 [y; a; b]) as [v|] eqn:V; [|discriminate].
        apply bind_Ok in H as (o & E & H). okinv H. inversion Bd as [|? ? Bv Bo]; subst.
        apply py_int8_inv in V as (O1 & O2 & O3 & Ev); auto; [|unfold ascii_digit in D; lia].
        apply den_octal; auto; [unfold is_byte in Bv; lia|]. apply IH; auto. lia.
    + apply bind_Ok in H as (o & E & H). okinv H. inversion Bd; subst.
      constructor; [unfold plain_char in Px; lia|lia|]. apply IH; auto. lia.
Qed.
Lemma encode_strict U dv t d : unicode_ok U -> Forall plain_char t -> bytea_encode U dv t = Ok d -> denotes t d.
Proof.
  intros UO F H. unfold bytea_encode in H. apply bind_Ok in H as (o & E & H).
  destruct (is_bytesb o) eqn:B; [|discriminate]. okinv H. apply is_bytesb_spec in B.
  eapply encode_loop_strict; eauto.
Qed.
Lemma denotes_fun t d : denotes t d -> forall d', denotes t d' -> d = d'.
Proof.
  induction 1; intros d' H'; inversion H'; subst; try (f_equal; auto); try congruence; unfold octal in *; try lia; auto.
Qed.
