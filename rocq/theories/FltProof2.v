(** FltProof2.v: single precision *)
From Verif Require Import Base BaseProof FltModel FltSpec FltProof.

Lemma pow_split a b : 0 <= a -> 0 <= b -> 2 ^ (a + b) = 2 ^ a * 2 ^ b. Proof. intros. apply Z.pow_add_r; lia. Qed.
Lemma rhe_spec m k : 0 <= m -> 0 <= k -> let q := round_half_even m k in
  2 * Z.abs (m - q * 2 ^ k) <= 2 ^ k /\ (2 * Z.abs (m - q * 2 ^ k) = 2 ^ k -> Z.even q = true) /\ m / 2 ^ k <= q <= m / 2 ^ k + 1 /\ (m mod 2 ^ k = 0 -> q = m / 2 ^ k).
Proof.
  intros M K. cbv zeta. unfold round_half_even. cbv zeta. assert (D : 0 < 2 ^ k) by (apply Z.pow_pos_nonneg; lia).
  pose proof (Z.div_mod m (2 ^ k) ltac:(lia)) as E. pose proof (Z.mod_pos_bound m (2 ^ k) D) as R. set (q := m / 2 ^ k) in *. set (r := m mod 2 ^ k) in *. set (D2 := 2 ^ k) in *.
  clearbody q r D2. destruct (Z.ltb_spec (2 * r) D2) as [L|L]; cbn [orb].
  - replace (m - q * D2) with r by lia. rewrite Z.abs_eq by lia. split; [lia|]. split; [lia|]. split; [lia|auto].
  - destruct (Z.eqb_spec (2 * r) D2) as [T|T]; cbn [andb].
    + destruct (Z.even q) eqn:EV.
      * replace (m - q * D2) with r by lia. rewrite Z.abs_eq by lia. split; [lia|]. split; [auto|]. split; [lia|auto].
      * replace (m - (q + 1) * D2) with (- r) by nia. rewrite Z.abs_opp, Z.abs_eq by lia. split; [lia|]. split; [intros _; rewrite Z.even_add, EV; reflexivity|]. split; [lia|lia].
    + replace (m - (q + 1) * D2) with (r - D2) by nia. rewrite Z.abs_neq by lia. split; [lia|]. split; [lia|]. split; [lia|lia].
Qed.
(** the nearest multiple of [u] *)
Lemma multiple_nearest x q u c : 0 < u -> 2 * Z.abs (x - q * u) <= u -> (2 * Z.abs (x - q * u) = u -> Z.even q = true) ->
  Z.abs (x - q * u) <= Z.abs (x - c * u) /\ (Z.abs (x - q * u) = Z.abs (x - c * u) -> c = q \/ Z.even q = true).
Proof.
  intros U H T. destruct (Z.eq_dec c q) as [->|N]; [split; [lia|auto]|].
  assert (u <= Z.abs (q * u - c * u)) by (replace (q * u - c * u) with ((q - c) * u) by ring; rewrite Z.abs_mul, (Z.abs_eq u) by lia; nia).
  split; [lia|]. intros E. right. apply T. lia.
Qed.
Record rounded (s : bool) (m : positive) (e q e' : Z) : Prop := {
  rd_near : 2 * Z.abs (Zpos m * 2 ^ (e + 1074) - q * 2 ^ (e' + 1074)) <= 2 ^ (e' + 1074);
  rd_tie : 2 * Z.abs (Zpos m * 2 ^ (e + 1074) - q * 2 ^ (e' + 1074)) = 2 ^ (e' + 1074) -> Z.even q = true;
  rd_low : 0 <= q <= 2 ^ 24;
  rd_exp : -149 <= e';
  rd_normal : -149 < e' -> 2 ^ 23 <= q /\ 2 ^ 23 * 2 ^ (e' + 1074) <= Zpos m * 2 ^ (e + 1074)
}.
Lemma rounding s m e : -1074 <= e -> let e' := Z.max (Zpos (digits2_pos m) + e - 24) (-149) in
  rounded s m e (if e' <=? e then Zpos m * 2 ^ (e - e') else round_half_even (Zpos m) (e' - e)) e'.
Proof.
  intros E. cbv zeta. pose proof (digits_bounds m) as B. set (d := Zpos (digits2_pos m)) in *. assert (D0 : 0 < d) by (unfold d; lia). clearbody d.
  set (e' := Z.max (d + e - 24) (-149)). assert (E1 : -149 <= e') by lia. assert (E2 : d + e - 24 <= e') by lia. assert (E3 : -149 < e' -> e' = d + e - 24) by lia. clearbody e'.
  destruct (Z.leb_spec e' e) as [L|L].
  - assert (EX : Zpos m * 2 ^ (e - e') * 2 ^ (e' + 1074) = Zpos m * 2 ^ (e + 1074)) by (rewrite <- Z.mul_assoc, <- pow_split by lia; f_equal; f_equal; lia).
    assert (UP : 0 < 2 ^ (e' + 1074)) by (apply Z.pow_pos_nonneg; lia). assert (KP : 0 < 2 ^ (e - e')) by (apply Z.pow_pos_nonneg; lia).
    constructor.
    + rewrite EX, Z.sub_diag. cbn [Z.abs]. lia.
    + rewrite EX, Z.sub_diag. cbn [Z.abs]. lia.
    + split; [nia|]. assert (Zpos m * 2 ^ (e - e') < 2 ^ d * 2 ^ (e - e')) by nia. rewrite <- pow_split in H by lia. assert (2 ^ (d + (e - e')) <= 2 ^ 24) by (apply Z.pow_le_mono_r; lia). lia.
    + exact E1.
    + intros N. assert (Q : 2 ^ 23 <= Zpos m * 2 ^ (e - e')). { assert (2 ^ (d - 1) * 2 ^ (e - e') <= Zpos m * 2 ^ (e - e')) by nia. rewrite <- pow_split in H by lia. replace (d - 1 + (e - e')) with 23 in H by lia. exact H. }
      split; [exact Q|]. rewrite <- EX. nia.
  - assert (K : 0 <= e' - e) by lia. destruct (rhe_spec (Zpos m) (e' - e) ltac:(lia) K) as (R1 & R2 & R3 & _). cbv zeta in *. set (q := round_half_even (Zpos m) (e' - e)) in *. clearbody q.
    assert (EP : 0 < 2 ^ (e + 1074)) by (apply Z.pow_pos_nonneg; lia). assert (KP : 0 < 2 ^ (e' - e)) by (apply Z.pow_pos_nonneg; lia).
    assert (UE : 2 ^ (e' + 1074) = 2 ^ (e' - e) * 2 ^ (e + 1074)) by (rewrite <- pow_split by lia; f_equal; lia).
    assert (AB : Z.abs (Zpos m * 2 ^ (e + 1074) - q * 2 ^ (e' + 1074)) = Z.abs (Zpos m - q * 2 ^ (e' - e)) * 2 ^ (e + 1074)).
    { rewrite UE. replace (Zpos m * 2 ^ (e + 1074) - q * (2 ^ (e' - e) * 2 ^ (e + 1074))) with ((Zpos m - q * 2 ^ (e' - e)) * 2 ^ (e + 1074)) by ring. rewrite Z.abs_mul, (Z.abs_eq (2 ^ (e + 1074))) by lia. reflexivity. }
    constructor.
    + rewrite AB, UE. nia.
    + rewrite AB, UE. intros T. apply R2. nia.
    + split; [assert (0 <= Zpos m / 2 ^ (e' - e)) by (apply Z.div_pos; lia); lia|].
      assert (Zpos m / 2 ^ (e' - e) < 2 ^ 24); [|lia]. apply Z.div_lt_upper_bound; [lia|]. rewrite <- pow_split by lia. assert (2 ^ d <= 2 ^ (e' - e + 24)) by (apply Z.pow_le_mono_r; lia). lia.
    + exact E1.
    + intros N. specialize (E3 N). split.
      * assert (2 ^ 23 <= Zpos m / 2 ^ (e' - e)); [|lia]. apply Z.div_le_lower_bound; [lia|]. rewrite <- pow_split by lia. replace (e' - e + 23) with (d - 1) by lia. lia.
      * rewrite UE, Z.mul_assoc. apply Z.mul_le_mono_nonneg_r; [lia|]. rewrite <- pow_split by lia. replace (23 + (e' - e)) with (d - 1) by lia. lia.
Qed.
(** a single as a multiple of a power of two *)
Lemma single_units z : single z -> finite z -> exists mz ez, Z.abs (units z) = mz * 2 ^ (ez + 1074) /\ 0 <= mz < 2 ^ 24 /\ -149 <= ez.
Proof.
  intros S F. destruct z as [s|s| |s m e]; try contradiction.
  - exists 0, (-149). split; [reflexivity|]. split; lia.
  - unfold single in S. cbn [valid_binary] in S. apply bounded_iff in S; [|lia|lia]. exists (Zpos m), e. cbn [units]. split; [|cbn in S; lia].
    assert (0 < 2 ^ (e + 1074)) by (apply Z.pow_pos_nonneg; [lia|]; cbn in S; lia). destruct s; rewrite ?Z.mul_1_l; [|apply Z.abs_eq; nia]. rewrite Z.abs_neq by nia. ring.
Qed.
Lemma rounded_nearest s m e q e' Z0 : rounded s m e q e' -> (exists mz ez, Z.abs Z0 = mz * 2 ^ (ez + 1074) /\ 0 <= mz < 2 ^ 24 /\ -149 <= ez) ->
  let X := Zpos m * 2 ^ (e + 1074) in let Y := q * 2 ^ (e' + 1074) in
  Z.abs (X - Y) <= Z.abs (X - Z0) /\ (Z.abs (X - Y) = Z.abs (X - Z0) -> Z0 = Y \/ Z.even q = true).
Proof.
  intros [N T B E R] (mz & ez & EZ & MZ & EZ'). cbv zeta. set (X := Zpos m * 2 ^ (e + 1074)) in *. assert (UP : 0 < 2 ^ (e' + 1074)) by (apply Z.pow_pos_nonneg; lia).
  destruct (Z.le_gt_cases e' ez) as [L|L].
  - assert (C : exists c, Z0 = c * 2 ^ (e' + 1074)).
    { assert (A : Z.abs Z0 = mz * 2 ^ (ez - e') * 2 ^ (e' + 1074)) by (rewrite EZ, <- Z.mul_assoc, <- pow_split by lia; f_equal; f_equal; lia).
      destruct (Z.abs_eq_or_opp Z0) as [P|P]; rewrite P in A; [eexists; exact A|exists (- (mz * 2 ^ (ez - e'))); lia]. }
    destruct C as (c & ->). destruct (multiple_nearest X q (2 ^ (e' + 1074)) c UP N T) as [A1 A2]. split; [exact A1|]. intros H. destruct (A2 H) as [->|]; auto.
  - destruct (R ltac:(lia)) as [Q1 Q2]. destruct (multiple_nearest X q (2 ^ (e' + 1074)) (2 ^ 23) UP N T) as [A1 _].
    assert (UH : 2 ^ (ez + 1074) * 2 <= 2 ^ (e' + 1074)). { replace (2 ^ (ez + 1074) * 2) with (2 ^ (ez + 1074 + 1)) by (rewrite pow_split by lia; reflexivity). apply Z.pow_le_mono_r; lia. }
    assert (EP : 0 < 2 ^ (ez + 1074)) by (apply Z.pow_pos_nonneg; lia).
    assert (Z.abs Z0 < 2 ^ 23 * 2 ^ (e' + 1074)) by (rewrite EZ; nia). split; lia.
Qed.
(** the numbers as units *)
Lemma valid64 s m e : python_float (S754_finite s m e) -> -1074 <= e <= 971 /\ Zpos m < 2 ^ 53.
Proof. unfold python_float. cbn [valid_binary]. intros V. apply bounded_iff in V; [|lia|lia]. cbn in V. lia. Qed.
Definition limit : Z := (2 ^ 25 - 1) * 2 ^ (103 + 1074).
Lemma pow_up a b : 0 <= a <= b -> 2 ^ a <= 2 ^ b. Proof. intros. apply Z.pow_le_mono_r; lia. Qed.
Lemma to_single_spec s m e : python_float (S754_finite s m e) ->
  (exists y, to_single (S754_finite s m e) = Ok y /\ nearest (S754_finite s m e) y /\ Zpos m * 2 ^ (e + 1074) < limit) \/
  (to_single (S754_finite s m e) = Err OverflowErr /\ limit <= Zpos m * 2 ^ (e + 1074)).
Proof.
  intros V. destruct (valid64 s m e V) as [RE RM]. cbn [to_single]. pose proof (rounding s m e ltac:(lia)) as RD. cbv zeta in *.
  set (e' := Z.max (Zpos (digits2_pos m) + e - 24) (-149)) in *. clearbody e'.
  set (q := if e' <=? e then Zpos m * 2 ^ (e - e') else round_half_even (Zpos m) (e' - e)) in *. clearbody q.
  (* the number after the carry *)
  set (q2 := if q =? 2 ^ 24 then 2 ^ 23 else q). set (e2 := if q =? 2 ^ 24 then e' + 1 else e').
  assert (EQ : (if q =? 2 ^ 24 then (2 ^ 23, e' + 1) else (q, e')) = (q2, e2)) by (unfold q2, e2; destruct (q =? 2 ^ 24); reflexivity).
  rewrite EQ. pose proof RD as [N T B E R].
  assert (QV : q2 * 2 ^ (e2 + 1074) = q * 2 ^ (e' + 1074)).
  { unfold q2, e2. destruct (Z.eqb_spec q (2 ^ 24)) as [Eq|]; [|reflexivity]. rewrite Eq. replace (e' + 1 + 1074) with (1 + (e' + 1074)) by lia. rewrite pow_split by lia. change (2 ^ 24) with (2 ^ 23 * 2 ^ 1). ring. }
  assert (QE : Z.even q = true -> Z.even q2 = true) by (unfold q2; destruct (Z.eqb_spec q (2 ^ 24)); [reflexivity|auto]).
  assert (Q2 : 0 <= q2 < 2 ^ 24 /\ -149 <= e2 /\ (q2 < 2 ^ 23 -> e2 = -149)).
  { unfold q2, e2. destruct (Z.eqb_spec q (2 ^ 24)); [lia|]. split; [lia|]. split; [lia|]. intros. destruct (Z.eq_dec e' (-149)); [assumption|]. destruct (R ltac:(lia)). lia. }
  assert (NS : forall y, units y = (if s then -1 else 1) * (q2 * 2 ^ (e2 + 1074)) -> single y -> finite y -> sign y = s -> (Z.even q = true -> even_single y) -> nearest (S754_finite s m e) y).
  { intros y UY SY FY GY EY. split; [exact SY|]. split; [exact FY|]. split; [exact GY|].
    assert (W : forall z, single z -> finite z -> Z.abs (units (S754_finite s m e) - units y) = Z.abs (Zpos m * 2 ^ (e + 1074) - q * 2 ^ (e' + 1074)) /\
       Z.abs (units (S754_finite s m e) - units z) = Z.abs (Zpos m * 2 ^ (e + 1074) - (if s then -1 else 1) * units z) /\
       exists mz ez, Z.abs ((if s then -1 else 1) * units z) = mz * 2 ^ (ez + 1074) /\ 0 <= mz < 2 ^ 24 /\ -149 <= ez).
    { intros z SZ FZ. rewrite UY, QV. cbn [units]. split; [destruct s; lia|]. split; [destruct s; lia|].
      destruct (single_units z SZ FZ) as (mz & ez & EZ & RZ). exists mz, ez. split; [|exact RZ]. destruct s; lia. }
    split; intros z SZ FZ; destruct (W z SZ FZ) as (W1 & W2 & W3); rewrite W1, W2; destruct (rounded_nearest s m e q e' _ RD W3) as [A1 A2]; cbv zeta in *; [exact A1|].
    intros H. destruct (A2 H) as [C|C]; [left; rewrite UY, QV; destruct s; lia|right; auto]. }
  assert (EP : 0 < 2 ^ (e + 1074)) by (apply Z.pow_pos_nonneg; lia). assert (UP : 0 < 2 ^ (e' + 1074)) by (apply Z.pow_pos_nonneg; lia).
  assert (LIM : limit = (2 ^ 24 - 1) * 2 ^ (104 + 1074) + 2 ^ (103 + 1074)).
  { unfold limit. replace (104 + 1074) with (1 + (103 + 1074)) by lia. rewrite (pow_split 1) by lia. change (2 ^ 25) with (2 ^ 24 * 2). ring. }
  assert (H104 : 2 ^ (104 + 1074) = 2 * 2 ^ (103 + 1074)) by (replace (104 + 1074) with (1 + (103 + 1074)) by lia; rewrite (pow_split 1) by lia; reflexivity).
  assert (SMALL : e2 <= 104 -> Zpos m * 2 ^ (e + 1074) < limit).
  { intros L. rewrite LIM. assert (PU : 2 ^ (e2 + 1074) <= 2 ^ (104 + 1074)) by (apply pow_up; lia).
    assert (UU : 2 ^ (e' + 1074) <= 2 ^ (e2 + 1074)) by (apply pow_up; unfold e2; destruct (_ =? _); lia).
    destruct (Z.eq_dec q (2 ^ 24)) as [C|C].
    - assert (E2E : e2 = e' + 1) by (unfold e2; rewrite (proj2 (Z.eqb_eq _ _) C); reflexivity).
      assert (UB : 2 ^ (e' + 1074) <= 2 ^ (103 + 1074)) by (apply pow_up; lia). rewrite C in N. change (2 ^ 24) with 16777216 in *. set (a := 2 ^ (103 + 1074)) in *. clearbody a. set (b := 2 ^ (e' + 1074)) in *. clearbody b. set (x := Zpos m * 2 ^ (e + 1074)) in *. clearbody x. lia.
    - assert (E2E : e2 = e') by (unfold e2; rewrite (proj2 (Z.eqb_neq _ _) C); reflexivity).
      assert (UB : 2 ^ (e' + 1074) <= 2 ^ (104 + 1074)) by (apply pow_up; lia).
      destruct (Z.eq_dec q (2 ^ 24 - 1)) as [C'|C'].
      + assert (2 * Z.abs (Zpos m * 2 ^ (e + 1074) - q * 2 ^ (e' + 1074)) <> 2 ^ (e' + 1074)) by (intros C2; specialize (T C2); rewrite C' in T; discriminate T).
        rewrite C' in *. change (2 ^ 24) with 16777216 in *. set (a := 2 ^ (103 + 1074)) in *. clearbody a. set (b := 2 ^ (e' + 1074)) in *. clearbody b. set (x := Zpos m * 2 ^ (e + 1074)) in *. clearbody x. lia.
      + assert (QL : q <= 2 ^ 24 - 2) by lia. change (2 ^ 24) with 16777216 in *. set (a := 2 ^ (103 + 1074)) in *. clearbody a. set (b := 2 ^ (e' + 1074)) in *. clearbody b. set (x := Zpos m * 2 ^ (e + 1074)) in *. clearbody x. nia. }
  assert (LARGE : 104 < e2 -> limit <= Zpos m * 2 ^ (e + 1074)).
  { intros L. rewrite LIM. destruct (Z.eq_dec q (2 ^ 24)) as [C|C].
    - assert (E2E : e2 = e' + 1) by (unfold e2; rewrite (proj2 (Z.eqb_eq _ _) C); reflexivity).
      assert (UB : 2 ^ (104 + 1074) <= 2 ^ (e' + 1074)) by (apply pow_up; lia). rewrite C in N. change (2 ^ 24) with 16777216 in *. set (a := 2 ^ (103 + 1074)) in *. clearbody a. set (b := 2 ^ (e' + 1074)) in *. clearbody b. set (x := Zpos m * 2 ^ (e + 1074)) in *. clearbody x. lia.
    - assert (E2E : e2 = e') by (unfold e2; rewrite (proj2 (Z.eqb_neq _ _) C); reflexivity).
      assert (UB : 2 ^ (105 + 1074) <= 2 ^ (e' + 1074)) by (apply pow_up; lia). assert (H105 : 2 ^ (105 + 1074) = 4 * 2 ^ (103 + 1074)) by (replace (105 + 1074) with (2 + (103 + 1074)) by lia; rewrite (pow_split 2) by lia; reflexivity).
      destruct (R ltac:(lia)) as [_ R2]. change (2 ^ 24) with 16777216 in *. change (2 ^ 23) with 8388608 in *. set (a := 2 ^ (103 + 1074)) in *. clearbody a. set (b := 2 ^ (e' + 1074)) in *. clearbody b. set (x := Zpos m * 2 ^ (e + 1074)) in *. clearbody x. lia. }
  destruct (Z.eqb_spec q2 0) as [Z2|NZ].
  - left. exists (S754_zero s). split; [reflexivity|]. split; [|apply SMALL; destruct Q2 as (_ & _ & Q2); rewrite Q2; lia]. apply NS; [cbn [units]; rewrite Z2; lia|reflexivity|exact Logic.I|reflexivity|intros _; exact Logic.I].
  - destruct (Z.ltb_spec 104 e2) as [L|L]; [right; split; [reflexivity|auto]|]. left. eexists. split; [reflexivity|]. split; [|auto].
    assert (ZP : Zpos (Z.to_pos q2) = q2) by (apply Z2Pos.id; lia). apply NS; [|  |exact Logic.I|reflexivity|].
    + cbn [units]. rewrite ZP. ring.
    + unfold single. cbn [valid_binary]. apply bounded_iff; [lia|lia|]. rewrite ZP. change (24 - 1) with 23. destruct (Z.lt_ge_cases q2 (2 ^ 23)) as [S|S]; [left; split; [exact S|]; lia|right; lia].
    + intros V'. cbn [even_single]. rewrite ZP. auto.
Qed.
Lemma of_single_valid x : single x -> python_float (of_single x).
Proof.
  destruct x as [s|s| |s m e]; try reflexivity. unfold single, python_float. cbn [of_single valid_binary]. intros V. apply bounded_iff in V; [|lia|lia]. change (24 - 1) with 23 in V.
  pose proof (digits_bounds m) as B. set (d := Zpos (digits2_pos m)) in *. assert (D0 : 0 < d) by (unfold d; lia).
  assert (D : d <= 24). { destruct (Z.le_gt_cases d 24) as [L|L]; [exact L|]. assert (2 ^ 24 <= 2 ^ (d - 1)) by (apply pow_up; lia). lia. } clearbody d.
  assert (KP : 0 < 2 ^ (53 - d)) by (apply Z.pow_pos_nonneg; lia). cbv zeta. apply bounded_iff; [lia|lia|]. rewrite Z2Pos.id by nia. right.
  assert (2 ^ (53 - 1) <= Zpos m * 2 ^ (53 - d)). { replace (53 - 1) with (d - 1 + (53 - d)) by lia. rewrite pow_split by lia. nia. }
  assert (Zpos m * 2 ^ (53 - d) < 2 ^ 53). { replace 53 with (d + (53 - d)) at 2 by lia. rewrite (pow_split d) by lia. nia. } lia.
Qed.
Lemma of_single_same x : single x -> units (of_single x) = units x /\ sign (of_single x) = sign x /\ (finite x <-> finite (of_single x)) /\ (~ finite x -> of_single x = x) /\ to_single (of_single x) = Ok x.
Proof.
  destruct x as [s|s| |s m e]; try (intros; cbn; tauto). unfold single. cbn [valid_binary]. intros V. apply bounded_iff in V; [|lia|lia]. change (24 - 1) with 23 in V.
  pose proof (digits_bounds m) as B. set (d := Zpos (digits2_pos m)) in *. assert (D0 : 0 < d) by (unfold d; lia).
  assert (D : d <= 24). { destruct (Z.le_gt_cases d 24) as [L|L]; [exact L|]. assert (2 ^ 24 <= 2 ^ (d - 1)) by (apply pow_up; lia). lia. }
  assert (DE : Z.max (d + e - 24) (-149) = e). { destruct V as [[L ->]|[L E]]; [lia|]. assert (d = 24) by (apply digits_unique; lia). lia. }
  assert (KP : 0 < 2 ^ (53 - d)) by (apply Z.pow_pos_nonneg; lia). cbn [of_single]. cbv zeta. fold d.
  assert (ZP : Zpos (Z.to_pos (Zpos m * 2 ^ (53 - d))) = Zpos m * 2 ^ (53 - d)) by (apply Z2Pos.id; nia).
  split; [|split; [reflexivity|split; [tauto|split; [intros C; destruct C; exact Logic.I|]]]].
  - assert (EL : -149 <= e) by (destruct V as [[_ ->]|[_ V]]; lia). clear V. cbn [units]. rewrite ZP. replace (e + 1074) with ((53 - d) + (e - (53 - d) + 1074)) by lia. rewrite (pow_split (53 - d) (e - (53 - d) + 1074)) by lia. ring.
  - cbn [to_single]. cbv zeta. rewrite (digits_unique _ 53); [|lia|].
    2:{ rewrite ZP. split; [replace (53 - 1) with (d - 1 + (53 - d)) by lia; rewrite pow_split by lia; apply Z.mul_le_mono_nonneg_r; lia|]. replace 53 with (d + (53 - d)) at 2 by lia. rewrite (pow_split d) by lia. apply Z.mul_lt_mono_pos_r; lia. }
    replace (53 + (e - (53 - d)) - 24) with (d + e - 24) by lia. rewrite DE. rewrite (proj2 (Z.leb_gt e (e - (53 - d)))) by lia.
    replace (e - (e - (53 - d))) with (53 - d) by lia. rewrite ZP.
    destruct (rhe_spec (Zpos m * 2 ^ (53 - d)) (53 - d) ltac:(nia) ltac:(lia)) as (_ & _ & _ & RX). rewrite RX by (apply Z.mod_mul; lia). rewrite Z.div_mul by lia.
    rewrite (proj2 (Z.eqb_neq (Zpos m) (2 ^ 24))) by lia. cbn [Z.eqb]. rewrite (proj2 (Z.ltb_ge 104 e)) by lia. reflexivity.
Qed.
