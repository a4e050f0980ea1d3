(** FdtProof.v: rounding of fractions, and the two conversions between pairs and doubles *)
From Verif Require Import Base BaseProof FltModel FltSpec FltProof FltProof2 FltProps FdtModel.

(** the value of 1.0 in units *)
Definition U : Z := 2 ^ 1074.
Lemma U_pos : 0 < U. Proof. reflexivity. Qed.

Lemma nearest_int_err n d : 0 < d -> 2 * Z.abs (nearest_int n d * d - n) <= d.
Proof.
  intros D. unfold nearest_int. pose proof (Z.div_mod n d ltac:(lia)) as E. pose proof (Z.mod_pos_bound n d D) as B.
  set (q := n / d) in *. set (r := n mod d) in *. destruct ((2 * r <? d) || ((2 * r =? d) && Z.even q)) eqn:T.
  - assert (2 * r <= d). { apply orb_prop in T as [T|T]; [apply Z.ltb_lt in T; lia|]. apply andb_prop in T as [T _]. apply Z.eqb_eq in T. lia. } nia.
  - apply orb_false_elim in T as [T _]. apply Z.ltb_ge in T. nia.
Qed.
Lemma nearest_int_exact q d : 0 < d -> nearest_int (q * d) d = q.
Proof. intros D. unfold nearest_int. rewrite Z.div_mul, Z_mod_mult by lia. rewrite (proj2 (Z.ltb_lt (2 * 0) d)) by lia. reflexivity. Qed.
Lemma nearest_int_le n d k : 0 < d -> n <= k * d -> nearest_int n d <= k.
Proof. intros D H. pose proof (nearest_int_err n d D). nia. Qed.
Lemma nearest_int_ge n d k : 0 < d -> k * d <= n -> k <= nearest_int n d.
Proof. intros D H. pose proof (nearest_int_err n d D). nia. Qed.
Lemma abs_scale x p : 0 <= p -> Z.abs x * p = Z.abs (x * p). Proof. intros H. rewrite Z.abs_mul, (Z.abs_eq p) by exact H. reflexivity. Qed.
Lemma p_pos k : 0 <= k -> 0 < 2 ^ k. Proof. intros. apply Z.pow_pos_nonneg; lia. Qed.
(** powers with a sign, as two factors *)
Lemma p_shift e : - 1074 <= e -> 2 ^ Z.max 0 e * U = 2 ^ (e + 1074) * 2 ^ Z.max 0 (- e).
Proof. intros H. unfold U. rewrite <- !Z.pow_add_r by lia. f_equal. lia. Qed.

(** the exponent chosen *)
Definition lead (a d : Z) : Z := let l := Z.log2 a - Z.log2 d in if a * 2 ^ Z.max 0 (- l) <? d * 2 ^ Z.max 0 l then l - 1 else l.
Lemma scaled_le a d l k : -1074 <= k -> -1074 <= l -> k <= l -> 0 < a -> 0 < d -> d * 2 ^ Z.max 0 l <= a * 2 ^ Z.max 0 (- l) -> d * 2 ^ (k + 1074) <= a * U.
Proof.
  intros K L KL A D H. pose proof (p_shift l L) as S. pose proof (p_pos (Z.max 0 (- l)) ltac:(lia)) as P1. pose proof (p_pos (Z.max 0 l) ltac:(lia)) as P2.
  assert (H2 : d * 2 ^ (l + 1074) <= a * U). { apply (Z.mul_le_mono_pos_r _ _ (2 ^ Z.max 0 (- l))); [assumption|]. replace (d * 2 ^ (l + 1074) * 2 ^ Z.max 0 (- l)) with (d * 2 ^ Z.max 0 l * U) by (rewrite <- Z.mul_assoc, S; ring).
    replace (a * U * 2 ^ Z.max 0 (- l)) with (a * 2 ^ Z.max 0 (- l) * U) by ring. apply Z.mul_le_mono_nonneg_r; [apply Z.lt_le_incl, U_pos|assumption]. }
  pose proof (pow_up (k + 1074) (l + 1074) ltac:(lia)). nia.
Qed.
Lemma scaled_lt a d l k : -1074 <= k -> -1074 <= l -> l <= k -> 0 < a -> 0 < d -> a * 2 ^ Z.max 0 (- l) < d * 2 ^ Z.max 0 l -> a * U < d * 2 ^ (k + 1074).
Proof.
  intros K L KL A D H. pose proof (p_shift l L) as S. pose proof (p_pos (Z.max 0 (- l)) ltac:(lia)) as P1.
  assert (H2 : a * U < d * 2 ^ (l + 1074)). { apply (Z.mul_lt_mono_pos_r (2 ^ Z.max 0 (- l))); [assumption|]. replace (d * 2 ^ (l + 1074) * 2 ^ Z.max 0 (- l)) with (d * 2 ^ Z.max 0 l * U) by (rewrite <- Z.mul_assoc, S; ring).
    replace (a * U * 2 ^ Z.max 0 (- l)) with (a * 2 ^ Z.max 0 (- l) * U) by ring. apply Z.mul_lt_mono_pos_r; [exact U_pos|assumption]. }
  pose proof (pow_up (l + 1074) (k + 1074) ltac:(lia)). nia.
Qed.
Lemma lead_bounds a d : 0 < a -> 0 < d -> -1000 <= Z.log2 a - Z.log2 d -> d * 2 ^ (lead a d + 1074) <= a * U < d * 2 ^ (lead a d + 1 + 1074).
Proof.
  intros A D L. unfold lead. set (l := Z.log2 a - Z.log2 d) in *. pose proof (Z.log2_spec a A) as [A1 A2]. pose proof (Z.log2_spec d D) as [D1 D2].
  pose proof (Z.log2_nonneg a) as NA. pose proof (Z.log2_nonneg d) as ND.
  (* 2^(l-1) < a/d < 2^(l+1) *)
  assert (B1 : d * 2 ^ (l - 1 + 1074) <= a * U).
  { apply Z.le_trans with (2 ^ Z.succ (Z.log2 d) * 2 ^ (l - 1 + 1074)); [apply Z.mul_le_mono_nonneg_r; [apply Z.lt_le_incl, p_pos; lia|lia]|].
    replace (2 ^ Z.succ (Z.log2 d) * 2 ^ (l - 1 + 1074)) with (2 ^ Z.log2 a * U); [apply Z.mul_le_mono_nonneg_r; [apply Z.lt_le_incl, U_pos|lia]|]. unfold U. rewrite <- !Z.pow_add_r by lia. f_equal. lia. }
  assert (B2 : a * U < d * 2 ^ (l + 1 + 1074)).
  { apply Z.lt_le_trans with (2 ^ Z.succ (Z.log2 a) * U); [apply Z.mul_lt_mono_pos_r; [exact U_pos|lia]|].
    replace (2 ^ Z.succ (Z.log2 a) * U) with (2 ^ Z.log2 d * 2 ^ (l + 1 + 1074)); [apply Z.mul_le_mono_nonneg_r; [apply Z.lt_le_incl, p_pos; lia|lia]|]. unfold U. rewrite <- !Z.pow_add_r by lia. f_equal. lia. }
  destruct (a * 2 ^ Z.max 0 (- l) <? d * 2 ^ Z.max 0 l) eqn:T.
  - apply Z.ltb_lt in T. replace (l - 1 + 1 + 1074) with (l + 1074) by lia. split; [exact B1|]. apply (scaled_lt a d l l); lia.
  - apply Z.ltb_ge in T. split; [|exact B2]. apply (scaled_le a d l l); lia.
Qed.

(** what rounding gives, for fractions that are not very large or small *)
Lemma round64_spec n d : 0 < d -> n <> 0 -> d <= Z.abs n * 2 ^ 100 -> Z.abs n <= d * 2 ^ 100 ->
  exists m e, round64 n d = S754_finite (n <? 0) m e /\ python_float (S754_finite (n <? 0) m e) /\
    let u := units (S754_finite (n <? 0) m e) in
    (forall k, -500 <= k -> Z.abs n * U <= d * 2 ^ (k + 1074) -> 2 * Z.abs (u * d - n * U) <= d * 2 ^ (k - 52 + 1074)) /\
    (forall M E, -1074 <= E -> Z.abs M < 2 ^ 53 -> n * U = d * (M * 2 ^ (E + 1074)) -> u * d = n * U).
Proof.
  intros D N S1 S2. unfold round64. rewrite (proj2 (Z.eqb_neq n 0)) by assumption. cbv zeta. set (a := Z.abs n) in *. assert (A : 0 < a) by (unfold a; lia).
  assert (LL : -102 <= Z.log2 a - Z.log2 d <= 102).
  { pose proof (Z.log2_le_mono _ _ S1) as X1. pose proof (Z.log2_le_mono _ _ S2) as X2. rewrite Z.log2_mul_pow2 in X1, X2 by lia. lia. }
  pose proof (lead_bounds a d A D ltac:(lia)) as [LB1 LB2]. unfold lead in LB1, LB2. cbv zeta in LB1, LB2. set (l0 := Z.log2 a - Z.log2 d) in *.
  assert (LR : -103 <= (if a * 2 ^ Z.max 0 (- l0) <? d * 2 ^ Z.max 0 l0 then l0 - 1 else l0) <= 102) by (destruct (_ <? _); lia).
  set (l := if a * 2 ^ Z.max 0 (- l0) <? d * 2 ^ Z.max 0 l0 then l0 - 1 else l0) in *. clearbody l. clear l0 LL.
  rewrite (Z.max_l (l - 52) (-1074)) by lia. set (e := l - 52) in *.
  set (n' := a * 2 ^ Z.max 0 (- e)). set (d' := d * 2 ^ Z.max 0 e).
  pose proof (p_shift e ltac:(lia)) as PS. pose proof (p_pos (Z.max 0 (- e)) ltac:(lia)) as P1. pose proof (p_pos (Z.max 0 e) ltac:(lia)) as P2. pose proof (p_pos (e + 1074) ltac:(lia)) as P3. pose proof U_pos as P4.
  assert (D' : 0 < d') by (unfold d'; nia).
  set (Pm := 2 ^ Z.max 0 (- e)) in *. set (Pp := 2 ^ Z.max 0 e) in *. set (E1 := 2 ^ (e + 1074)) in *.
  assert (EL : 2 ^ (l + 1074) = 2 ^ 52 * E1) by (unfold E1; rewrite <- Z.pow_add_r by lia; f_equal; lia).
  assert (EL1 : 2 ^ (l + 1 + 1074) = 2 ^ 53 * E1) by (unfold E1; rewrite <- Z.pow_add_r by lia; f_equal; lia).
  rewrite EL in LB1. rewrite EL1 in LB2.
  assert (NQ : 2 ^ 52 <= nearest_int n' d' <= 2 ^ 53).
  { split; [apply nearest_int_ge|apply nearest_int_le]; try assumption; unfold n', d'.
    - apply (Z.mul_le_mono_pos_r _ _ U); [assumption|]. replace (2 ^ 52 * (d * Pp) * U) with (d * (2 ^ 52 * E1) * Pm); [|replace (2 ^ 52 * (d * Pp) * U) with (2 ^ 52 * d * (Pp * U)) by ring; rewrite PS; ring]. replace (a * Pm * U) with (a * U * Pm) by ring. apply Z.mul_le_mono_nonneg_r; lia.
    - apply (Z.mul_le_mono_pos_r _ _ U); [assumption|]. replace (2 ^ 53 * (d * Pp) * U) with (d * (2 ^ 53 * E1) * Pm); [|replace (2 ^ 53 * (d * Pp) * U) with (2 ^ 53 * d * (Pp * U)) by ring; rewrite PS; ring]. replace (a * Pm * U) with (a * U * Pm) by ring. apply Z.mul_le_mono_nonneg_r; lia. }
  pose proof (nearest_int_err n' d' D') as NE. assert (EX : forall q, n' = q * d' -> nearest_int n' d' = q) by (intros q ->; apply nearest_int_exact; exact D').
  set (q := nearest_int n' d') in *. clearbody q.
  (* the error in units *)
  assert (ER : 2 * Z.abs (q * E1 * d - a * U) <= d * E1).
  { apply (Z.mul_le_mono_pos_r _ _ Pm); [assumption|]. replace (d * E1 * Pm) with (d' * U) by (unfold d'; rewrite <- Z.mul_assoc, PS; ring).
    replace (2 * Z.abs (q * E1 * d - a * U) * Pm) with (2 * Z.abs (q * d' - n') * U); [apply Z.mul_le_mono_nonneg_r; lia|].
    rewrite <- !(Z.mul_assoc 2). f_equal. rewrite !abs_scale by lia. f_equal. unfold d', n'. replace ((q * (d * Pp) - a * Pm) * U) with (q * d * (Pp * U) - a * Pm * U) by ring. rewrite PS. ring. }
  assert (EXU : forall M E, -1074 <= E -> Z.abs M < 2 ^ 53 -> n * U = d * (M * 2 ^ (E + 1074)) -> q * E1 * d = a * U).
  { intros M E HE HM EQ. assert (EQ' : a * U = d * (Z.abs M * 2 ^ (E + 1074))).
    { unfold a. rewrite abs_scale, EQ, !Z.abs_mul, (Z.abs_eq d), (Z.abs_eq (2 ^ (E + 1074))) by (try lia; try apply Z.lt_le_incl, p_pos; lia). reflexivity. }
    assert (eE : e <= E). { destruct (Z_le_gt_dec e E) as [X|X]; [exact X|exfalso]. assert (Q : 2 * 2 ^ (E + 1074) <= E1) by (unfold E1; change (2 * 2 ^ (E + 1074)) with (2 ^ 1 * 2 ^ (E + 1074)); rewrite <- Z.pow_add_r by lia; apply pow_up; lia).
      pose proof (p_pos (E + 1074) ltac:(lia)) as PE. change (2 ^ 53) with (2 * 2 ^ 52) in HM. set (x := 2 ^ (E + 1074)) in *. assert (0 < 2 ^ 52) by reflexivity. set (y := 2 ^ 52) in *. assert (Y1 : d * (y * E1) <= d * (Z.abs M * x)) by (rewrite <- EQ'; exact LB1). assert (Y2 : y * E1 <= Z.abs M * x) by (apply (Z.mul_le_mono_pos_l _ _ d); assumption). assert (Y3 : Z.abs M * x <= (2 * y - 1) * x) by (apply Z.mul_le_mono_nonneg_r; lia). assert (Y4 : y * (2 * x) <= y * E1) by (apply Z.mul_le_mono_nonneg_l; lia). clear - Y2 Y3 Y4 PE. lia. }
    assert (PE : 2 ^ (E + 1074) = 2 ^ (E - e) * E1) by (unfold E1; rewrite <- Z.pow_add_r by lia; f_equal; lia). rewrite PE in EQ'.
    rewrite (EX (Z.abs M * 2 ^ (E - e))); [rewrite EQ'; ring|]. unfold n', d'. apply (Z.mul_reg_r _ _ U); [lia|]. replace (a * Pm * U) with (a * U * Pm) by ring. rewrite EQ'. replace (Z.abs M * 2 ^ (E - e) * (d * Pp) * U) with (Z.abs M * 2 ^ (E - e) * d * (Pp * U)) by ring. rewrite PS. ring. }
  set (q2 := if q =? 2 ^ 53 then 2 ^ 52 else q). set (e2 := if q =? 2 ^ 53 then e + 1 else e).
  assert (PAIR : (if q =? 2 ^ 53 then (2 ^ 52, e + 1) else (q, e)) = (q2, e2)) by (unfold q2, e2; destruct (q =? 2 ^ 53); reflexivity).
  assert (VAL : q2 * 2 ^ (e2 + 1074) = q * E1).
  { unfold q2, e2. destruct (Z.eqb_spec q (2 ^ 53)) as [->|_]; [|reflexivity]. unfold E1. rewrite <- !Z.pow_add_r by lia. f_equal. lia. }
  assert (RG : 2 ^ 52 <= q2 < 2 ^ 53) by (unfold q2; destruct (Z.eqb_spec q (2 ^ 53)); [split; [reflexivity|reflexivity]|lia]).
  assert (EG : -1074 <= e2 <= 971) by (clear - LR; unfold e2, e; destruct (_ =? _); lia).
  change (match (if q =? 2 ^ 53 then (2 ^ 52, e + 1) else (q, e)) with (q0, e0) => if q0 =? 0 then S754_zero (n <? 0) else if 971 <? e0 then S754_infinity (n <? 0) else S754_finite (n <? 0) (Z.to_pos q0) e0 end) with
    (let '(q0, e0) := (if q =? 2 ^ 53 then (2 ^ 52, e + 1) else (q, e)) in if q0 =? 0 then S754_zero (n <? 0) else if 971 <? e0 then S754_infinity (n <? 0) else S754_finite (n <? 0) (Z.to_pos q0) e0).
  rewrite PAIR. cbv beta iota zeta. assert (0 < 2 ^ 52) by reflexivity. rewrite (proj2 (Z.eqb_neq q2 0)) by lia. rewrite (proj2 (Z.ltb_ge 971 e2)) by lia.
  exists (Z.to_pos q2), e2. split; [reflexivity|]. split.
  { unfold python_float. cbn [valid_binary]. rewrite bounded_iff by lia. right. rewrite Z2Pos.id by lia. split; [exact RG|lia]. }
  cbn [units]. rewrite Z2Pos.id by lia.
  assert (SG : n = (if n <? 0 then -1 else 1) * a) by (clear; unfold a; destruct (Z.ltb_spec n 0); lia).
  set (sg := if n <? 0 then -1 else 1) in *. assert (SGV : sg = 1 \/ sg = -1) by (unfold sg; destruct (n <? 0); auto).
  assert (UE : sg * q2 * 2 ^ (e2 + 1074) = sg * (q * E1)) by (rewrite <- Z.mul_assoc, VAL; reflexivity). rewrite UE. split.
  - intros k K B. assert (KL : l <= k). { destruct (Z_le_gt_dec l k) as [X|X]; [exact X|exfalso]. assert (Y : 2 * 2 ^ (k + 1074) <= 2 ^ 52 * E1) by (rewrite <- EL; change (2 * 2 ^ (k + 1074)) with (2 ^ 1 * 2 ^ (k + 1074)); rewrite <- Z.pow_add_r by lia; apply pow_up; lia).
      pose proof (p_pos (k + 1074) ltac:(lia)). set (x := 2 ^ (k + 1074)) in *. set (y := 2 ^ 52 * E1) in *. assert (Y1 : d * y <= d * x) by (eapply Z.le_trans; [exact LB1|exact B]). apply (Z.mul_le_mono_pos_l _ _ d) in Y1; [|assumption]. clear - Y Y1 H0. lia. }
    assert (KE : E1 <= 2 ^ (k - 52 + 1074)) by (clear - KL LR; apply pow_up; unfold e; lia). rewrite SG. replace (sg * (q * E1) * d - sg * a * U) with (sg * (q * E1 * d - a * U)) by ring. rewrite Z.abs_mul. assert (Z.abs sg = 1) as -> by (destruct SGV as [-> | ->]; reflexivity). rewrite Z.mul_1_l.
    eapply Z.le_trans; [exact ER|]. apply Z.mul_le_mono_nonneg_l; [apply Z.lt_le_incl; exact D|exact KE].
  - intros M E HE HM EQ. specialize (EXU M E HE HM EQ). rewrite SG. replace (sg * (q * E1) * d) with (sg * (q * E1 * d)) by ring. rewrite EXU. ring.
Qed.
