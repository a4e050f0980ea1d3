(** FltProof.v: lemmas for C79 *)
From Verif Require Import Base BaseProof FltModel FltSpec.

Lemma digits_bounds m : 2 ^ (Zpos (digits2_pos m) - 1) <= Zpos m < 2 ^ Zpos (digits2_pos m).
Proof.
  induction m as [m IH|m IH|]; cbn [digits2_pos].
  - rewrite Pos2Z.inj_succ. set (d := Zpos (digits2_pos m)) in *. assert (0 < d) by (unfold d; lia). replace (Z.succ d - 1) with (Z.succ (d - 1)) by lia.
    rewrite (Z.pow_succ_r 2 (d - 1)), (Z.pow_succ_r 2 d) by lia. lia.
  - rewrite Pos2Z.inj_succ. set (d := Zpos (digits2_pos m)) in *. assert (0 < d) by (unfold d; lia). replace (Z.succ d - 1) with (Z.succ (d - 1)) by lia.
    rewrite (Z.pow_succ_r 2 (d - 1)), (Z.pow_succ_r 2 d) by lia. lia.
  - lia.
Qed.
Lemma digits_unique m d : 0 < d -> 2 ^ (d - 1) <= Zpos m < 2 ^ d -> Zpos (digits2_pos m) = d.
Proof.
  intros D H. pose proof (digits_bounds m) as B. set (k := Zpos (digits2_pos m)) in *. assert (0 < k) by (unfold k; lia).
  destruct (Z.lt_trichotomy k d) as [L|[E|L]]; [|exact E|].
  - assert (2 ^ k <= 2 ^ (d - 1)) by (apply Z.pow_le_mono_r; lia). lia.
  - assert (2 ^ d <= 2 ^ (k - 1)) by (apply Z.pow_le_mono_r; lia). lia.
Qed.
Lemma bounded_iff prec emax m e : 1 < prec -> 3 <= 2 * emax ->
  bounded prec emax m e = true <-> (Zpos m < 2 ^ (prec - 1) /\ e = 3 - emax - prec) \/ (2 ^ (prec - 1) <= Zpos m < 2 ^ prec /\ 3 - emax - prec <= e <= emax - prec).
Proof.
  intros P M. unfold bounded, canonical_mantissa, fexp, emin. rewrite andb_true_iff, <- Zeq_is_eq_bool, <- Zle_is_le_bool.
  pose proof (digits_bounds m) as B. set (d := Zpos (digits2_pos m)) in *. assert (0 < d) by (unfold d; lia).
  split.
  - intros [C L]. destruct (Z.lt_trichotomy d prec) as [D|[D|D]].
    + left. assert (2 ^ d <= 2 ^ (prec - 1)) by (apply Z.pow_le_mono_r; lia). lia.
    + right. subst prec. lia.
    + lia.
  - intros [[A E]|[A E]].
    + assert (d < prec). { destruct (Z.lt_ge_cases d prec) as [D|D]; [exact D|]. assert (2 ^ (prec - 1) <= 2 ^ (d - 1)) by (apply Z.pow_le_mono_r; lia). lia. }
      lia.
    + assert (d = prec) by (apply digits_unique; lia). lia.
Qed.

Section format.
Context (mw ew : Z) (MW : 1 <= mw) (EW : 2 <= ew).
Local Notation P := (2 ^ mw).
Local Notation Q := (2 ^ ew).
Lemma P_pos : 2 <= P. Proof. pose proof (Z.pow_le_mono_r 2 1 mw). lia. Qed.
Lemma Q_pos : 4 <= Q. Proof. pose proof (Z.pow_le_mono_r 2 2 ew). lia. Qed.
Lemma PQ : 2 ^ (mw + ew) = P * Q. Proof. apply Z.pow_add_r; lia. Qed.
Lemma half_Q : Q = 2 * 2 ^ (ew - 1). Proof. replace ew with (Z.succ (ew - 1)) at 1 by lia. apply Z.pow_succ_r. lia. Qed.
Lemma half_P : P = 2 * 2 ^ (mw - 1). Proof. replace mw with (Z.succ (mw - 1)) at 1 by lia. apply Z.pow_succ_r. lia. Qed.
Lemma join_fields s e f : 0 <= e < Q -> 0 <= f < P -> let b := join_bits mw ew s e f in
  (2 ^ (mw + ew) <=? b) = s /\ (b / 2 ^ mw) mod 2 ^ ew = e /\ b mod 2 ^ mw = f /\ 0 <= b < 2 * 2 ^ (mw + ew).
Proof.
  intros E F. cbv zeta. unfold join_bits. rewrite PQ. pose proof P_pos. pose proof Q_pos.
  assert (B : 0 <= e * P + f < P * Q) by nia.
  assert (D : ((if s then P * Q else 0) + e * P + f) = ((if s then Q else 0) + e) * P + f) by (destruct s; ring). rewrite D.
  assert (D1 : (((if s then Q else 0) + e) * P + f) mod P = f) by (rewrite Z.add_comm, Z.mod_add, Z.mod_small; lia).
  assert (D2 : (((if s then Q else 0) + e) * P + f) / P = (if s then Q else 0) + e) by (rewrite Z.div_add_l, Z.div_small; lia).
  rewrite D1, D2. split; [|split; [|split; [reflexivity|destruct s; nia]]].
  - destruct s; [apply Z.leb_le; nia|apply Z.leb_gt; lia].
  - destruct s; [|rewrite Z.add_0_l; apply Z.mod_small; lia]. replace (Q + e) with (e + 1 * Q) by ring. rewrite Z.mod_add, Z.mod_small; lia.
Qed.
Lemma split_join b : 0 <= b < 2 * 2 ^ (mw + ew) ->
  let e := (b / 2 ^ mw) mod 2 ^ ew in let f := b mod 2 ^ mw in
  b = join_bits mw ew (2 ^ (mw + ew) <=? b) e f /\ 0 <= e < Q /\ 0 <= f < P.
Proof.
  intros B. cbv zeta. unfold join_bits. rewrite PQ in *. pose proof P_pos. pose proof Q_pos.
  assert (F : 0 <= b mod P < P) by (apply Z.mod_pos_bound; lia). assert (E : 0 <= (b / P) mod Q < Q) by (apply Z.mod_pos_bound; lia).
  split; [|split; assumption]. pose proof (Z.div_mod b P ltac:(lia)) as DM.
  assert (BP : 0 <= b / P) by (apply Z.div_pos; lia).
  destruct (Z.leb_spec (P * Q) b).
  - assert (b / P = Q + (b / P) mod Q). { rewrite (Z.mod_eq (b / P) Q) by lia. assert (b / P / Q = 1) as ->; [|lia]. rewrite Z.div_div by lia. symmetry. apply (Z.div_unique b (P * Q) 1 (b - P * Q)); lia. }
    nia.
  - assert ((b / P) mod Q = b / P) as ->. { apply Z.mod_small. split; [lia|]. apply Z.div_lt_upper_bound; lia. } lia.
Qed.
Lemma of_bits_ieee s e f : 0 <= e < Q -> 0 <= f < P -> ieee mw ew s e f (float_of_bits mw ew (join_bits mw ew s e f)).
Proof.
  intros E F. destruct (join_fields s e f E F) as (B1 & B2 & B3 & _). unfold float_of_bits. cbv zeta. rewrite B1, B2, B3.
  pose proof half_Q as HQ. destruct (Z.eqb_spec e 0) as [->|NE].
  - destruct (Z.eqb_spec f 0) as [->|NF]; [constructor|]. assert (EF : f = Zpos (Z.to_pos f)) by (rewrite Z2Pos.id; lia). rewrite EF at 1.
    replace (f_emin mw ew) with (2 - 2 ^ (ew - 1) - mw) by (unfold f_emin, f_emax; lia). constructor. lia.
  - destruct (Z.eqb_spec e (Q - 1)) as [->|NE'].
    + destruct (Z.eqb_spec f 0) as [->|NF]; [constructor|]. constructor. lia.
    + replace (e - 1 + f_emin mw ew) with (e - (2 ^ (ew - 1) - 1) - mw) by (unfold f_emin, f_emax; lia). constructor; [lia|lia|]. rewrite Z2Pos.id; lia.
Qed.
Lemma ieee_unique s e f x y : ieee mw ew s e f x -> ieee mw ew s e f y -> x = y.
Proof.
  pose proof Q_pos. pose proof P_pos. intros A B. destruct A; inversion B; subst; try reflexivity; try lia.
  replace m0 with m by lia. reflexivity.
Qed.
Lemma ieee_fields s e f x : ieee mw ew s e f x -> 0 <= e < Q /\ 0 <= f < P.
Proof. pose proof Q_pos. pose proof P_pos. intros A. destruct A; lia. Qed.
Lemma bits_ieee x : valid_binary (mw + 1) (2 ^ (ew - 1)) x = true -> exists s e f, ieee mw ew s e f x /\ float_bits mw ew x = join_bits mw ew s e f.
Proof.
  intros V. pose proof Q_pos. pose proof P_pos. pose proof half_Q. pose proof half_P. destruct x as [s|s| |s m e]; cbn [float_bits].
  - exists s, 0, 0. split; [constructor|reflexivity].
  - exists s, (2 ^ ew - 1), 0. split; [constructor|reflexivity].
  - exists false, (2 ^ ew - 1), (2 ^ (mw - 1)). split; [constructor|reflexivity]. lia.
  - cbn [valid_binary] in V. apply bounded_iff in V; [|lia|lia]. replace (mw + 1 - 1) with mw in V by lia. replace (2 ^ (mw + 1)) with (2 * P) in V by (rewrite Z.add_1_r, Z.pow_succ_r; lia).
    destruct V as [[L ->]|[L E]].
    + rewrite (proj2 (Z.ltb_lt _ _) L). exists s, 0, (Zpos m). split; [|reflexivity]. replace (3 - 2 ^ (ew - 1) - (mw + 1)) with (2 - 2 ^ (ew - 1) - mw) by lia. constructor. lia.
    + rewrite (proj2 (Z.ltb_ge _ _)) by lia. exists s, (e - f_emin mw ew + 1), (Zpos m - P). split; [|reflexivity].
      replace e with (e - f_emin mw ew + 1 - (2 ^ (ew - 1) - 1) - mw) at 2 by (unfold f_emin, f_emax; lia).
      constructor; unfold f_emin, f_emax; lia.
Qed.
Lemma ieee_valid s e f x : ieee mw ew s e f x -> valid_binary (mw + 1) (2 ^ (ew - 1)) x = true.
Proof.
  intros A. pose proof Q_pos. pose proof P_pos. pose proof half_Q. destruct A as [s|s m Hm|s e f m He Hf Hm|s|s f Hf]; try reflexivity; cbn [valid_binary]; apply bounded_iff; try lia;
    replace (mw + 1 - 1) with mw by lia; replace (2 ^ (mw + 1)) with (2 * P) by (rewrite Z.add_1_r, Z.pow_succ_r; lia); [left|right]; lia.
Qed.
Lemma encodes_unique n b x y : encodes mw ew n b x -> encodes mw ew n b y -> x = y.
Proof.
  intros (_ & _ & s & e & f & I & E) (_ & _ & s' & e' & f' & I' & E').
  destruct (ieee_fields _ _ _ _ I) as [R1 R2]. destruct (ieee_fields _ _ _ _ I') as [R1' R2'].
  destruct (join_fields s e f R1 R2) as (A1 & A2 & A3 & _). destruct (join_fields s' e' f' R1' R2') as (B1 & B2 & B3 & _).
  unfold join_bits in *. rewrite <- E in *. rewrite <- E' in *. subst s e f. rewrite B1, B2, B3 in I. eapply ieee_unique; eassumption.
Qed.
Lemma encodes_inj n b c x : encodes mw ew n b x -> encodes mw ew n c x -> x <> S754_nan -> b = c.
Proof.
  intros (Y1 & L1 & s & e & f & I & E) (Y2 & L2 & s' & e' & f' & I' & E') N.
  assert (unbe b = unbe c). { rewrite E, E'. pose proof Q_pos. destruct I; inversion I'; subst; try reflexivity; try contradiction; try lia.
 }
  rewrite <- (be_unbe b Y1), <- (be_unbe c Y2). congruence.
Qed.
Lemma pack_encodes n x : 256 ^ Z.of_nat n = 2 * 2 ^ (mw + ew) -> valid_binary (mw + 1) (2 ^ (ew - 1)) x = true -> encodes mw ew n (be n (float_bits mw ew x)) x.
Proof.
  intros N V. destruct (bits_ieee x V) as (s & e & f & I & ->). destruct (ieee_fields _ _ _ _ I) as [R1 R2]. destruct (join_fields s e f R1 R2) as (_ & _ & _ & R).
  split; [apply be_bytes|]. split; [apply be_length|]. exists s, e, f. split; [exact I|]. rewrite unbe_be by lia. reflexivity.
Qed.
Lemma unpack_encodes n b : 256 ^ Z.of_nat n = 2 * 2 ^ (mw + ew) -> is_bytes b -> length b = n -> encodes mw ew n b (float_of_bits mw ew (unbe b)).
Proof.
  intros N Y L. pose proof (unbe_range b Y) as R. rewrite L, N in R. destruct (split_join (unbe b) R) as (E & R1 & R2). cbv zeta in *.
  split; [exact Y|]. split; [exact L|]. exists (2 ^ (mw + ew) <=? unbe b), ((unbe b / 2 ^ mw) mod 2 ^ ew), (unbe b mod 2 ^ mw). split; [|exact E].
  rewrite E at 4. apply of_bits_ieee; assumption.
Qed.
End format.
