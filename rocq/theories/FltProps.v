(** FltProps.v: C79, floating point numbers on the wire *)
From Verif Require Import Base BaseProof FltModel FltSpec FltProof FltProof2.

Lemma e64 : 256 ^ Z.of_nat 8 = 2 * 2 ^ (52 + 11). Proof. reflexivity. Qed.
Lemma e32 : 256 ^ Z.of_nat 4 = 2 * 2 ^ (23 + 8). Proof. reflexivity. Qed.
(** the bytes of a double say exactly one number *)
Theorem C79_bytes b x y : double_bytes b x -> double_bytes b y -> x = y.
Proof. apply encodes_unique; lia. Qed.
(** float8: the IEEE 754 bytes of the number are sent, for every float *)
Theorem C79_double_pack x : python_float x -> double_bytes (double_pack x) x.
Proof. intros V. apply pack_encodes; [lia|lia|exact e64|exact V]. Qed.
(** ... the number of the bytes is received, for all bytes *)
Theorem C79_double_unpack b rest : is_bytes b -> length b = 8%nat -> exists x, double_unpack (b ++ rest) = Ok x /\ double_bytes b x /\ python_float x.
Proof.
  intros Y L. unfold double_unpack. rewrite (proj2 (Nat.ltb_ge _ _)) by (rewrite app_length; lia). rewrite firstn_app_exact by exact L. eexists. split; [reflexivity|].
  assert (E : double_bytes b (float_of_bits 52 11 (unbe b))) by (apply unpack_encodes; [lia|lia|exact e64|exact Y|exact L]). split; [exact E|].
  destruct E as (_ & _ & s & e & f & I & _). unfold python_float. exact (ieee_valid 52 11 ltac:(lia) ltac:(lia) _ _ _ _ I).
Qed.
Theorem C79_double_short b : (length b < 8)%nat -> double_unpack b = Err StructError.
Proof. intros L. unfold double_unpack. now rewrite (proj2 (Nat.ltb_lt _ _) L). Qed.
(** ... so a float comes back as it was, and the bytes of a number that is not NaN do *)
Theorem C79_double_back x : python_float x -> double_unpack (double_pack x) = Ok x.
Proof.
  intros V. pose proof (C79_double_pack x V) as E. destruct E as (Y & L & E0). destruct (C79_double_unpack (double_pack x) [] Y L) as (y & U & E & _). rewrite app_nil_r in U. rewrite U. f_equal.
  eapply C79_bytes; [exact E|]. apply C79_double_pack, V.
Qed.
Theorem C79_double_again b x : is_bytes b -> length b = 8%nat -> double_unpack b = Ok x -> x <> S754_nan -> double_pack x = b.
Proof.
  intros Y L U N. destruct (C79_double_unpack b [] Y L) as (y & U' & E & V). rewrite app_nil_r, U in U'. injection U' as <-.
  exact (encodes_inj 52 11 ltac:(lia) ltac:(lia) 8%nat _ _ x (C79_double_pack x V) E N).
Qed.

(** float4: a number is sent as the nearest single (the even one of two), an infinity or NaN as itself; OverflowError is raised for
    exactly the numbers that are half a unit or more beyond the largest single *)
Theorem C79_single_pack x : python_float x ->
  match float_pack x with
  | Ok b => exists y, single_bytes b y /\ (finite x -> nearest x y) /\ (~ finite x -> y = x)
  | Err e => e = OverflowErr
  end.
Proof.
  intros V. unfold float_pack. destruct x as [s|s| |s m e].
  4:{ destruct (to_single_spec s m e V) as [(y & -> & N & _)|(-> & _)]; cbn [bind]; [|reflexivity]. exists y. split; [|split; [auto|intros C; destruct C; exact Logic.I]].
      apply pack_encodes; [lia|lia|exact e32|exact (proj1 N)]. }
  all: cbn [to_single bind].
  - exists (S754_zero s). split; [apply pack_encodes; [lia|lia|exact e32|reflexivity]|]. split; [|intros C; destruct C; exact Logic.I]. intros _.
    split; [reflexivity|]. split; [exact Logic.I|]. split; [reflexivity|]. split; [intros z _ _; cbn [units]; lia|intros z _ _ _; right; exact Logic.I].
  - exists (S754_infinity s). split; [apply pack_encodes; [lia|lia|exact e32|reflexivity]|]. split; [intros []|reflexivity].
  - exists S754_nan. split; [apply pack_encodes; [lia|lia|exact e32|reflexivity]|]. split; [intros []|reflexivity].
Qed.
Theorem C79_single_overflow x : python_float x ->
  (float_pack x = Err OverflowErr <-> (2 ^ 25 - 1) * 2 ^ (103 + 1074) <= Z.abs (units x)).
Proof.
  intros V. unfold float_pack. destruct x as [s|s| |s m e].
  4:{ assert (A : Z.abs (units (S754_finite s m e)) = Zpos m * 2 ^ (e + 1074)).
      { destruct (valid64 s m e V) as [RE _]. assert (0 < 2 ^ (e + 1074)) by (apply Z.pow_pos_nonneg; lia). cbn [units]. destruct s; [rewrite Z.abs_neq by nia; ring|rewrite Z.abs_eq by nia; ring]. }
      rewrite A. destruct (to_single_spec s m e V) as [(y & -> & _ & L)|(-> & L)]; unfold limit in L; cbn [bind]; split; intros H; try discriminate H; try assumption; [exfalso; lia|reflexivity]. }
  all: cbn [to_single bind]; split; [discriminate|]; intros C; exfalso; revert C; cbn [units Z.abs]; apply Z.lt_nge; reflexivity.
Qed.
(** every single is received exactly *)
Theorem C79_single_unpack b rest : is_bytes b -> length b = 4%nat -> exists x y, float_unpack (b ++ rest) = Ok x /\ single_bytes b y /\ python_float x /\
  (finite y -> finite x /\ units x = units y /\ sign x = sign y) /\ (~ finite y -> x = y).
Proof.
  intros Y L. unfold float_unpack. rewrite (proj2 (Nat.ltb_ge _ _)) by (rewrite app_length; lia). rewrite firstn_app_exact by exact L.
  assert (E : single_bytes b (float_of_bits 23 8 (unbe b))) by (apply unpack_encodes; [lia|lia|exact e32|exact Y|exact L]).
  set (y := float_of_bits 23 8 (unbe b)) in *. clearbody y. assert (S : single y) by (destruct E as (_ & _ & s & e & f & I & _); exact (ieee_valid 23 8 ltac:(lia) ltac:(lia) _ _ _ _ I)).
  exists (of_single y), y. split; [reflexivity|]. split; [exact E|]. split; [apply of_single_valid, S|]. destruct (of_single_same y S) as (A1 & A2 & A3 & A4 & _). split; [intros F; split; [now apply A3|auto]|exact A4].
Qed.
(** ... and is sent again as the same bytes, if it is not NaN *)
Theorem C79_single_again b x : is_bytes b -> length b = 4%nat -> float_unpack b = Ok x -> x <> S754_nan -> float_pack x = Ok b.
Proof.
  intros Y L U N. unfold float_unpack in U. rewrite (proj2 (Nat.ltb_ge _ _)) in U by lia. replace (firstn 4 b) with b in U by (rewrite <- L, firstn_all; reflexivity). apply Ok_inj in U.
  assert (E : single_bytes b (float_of_bits 23 8 (unbe b))) by (apply unpack_encodes; [lia|lia|exact e32|exact Y|exact L]).
  set (y := float_of_bits 23 8 (unbe b)) in *. clearbody y. assert (S : single y) by (destruct E as (_ & _ & s & e & f & I & _); exact (ieee_valid 23 8 ltac:(lia) ltac:(lia) _ _ _ _ I)).
  subst x. destruct (of_single_same y S) as (_ & _ & _ & _ & T). unfold float_pack. rewrite T. cbn [bind]. f_equal.
  refine (encodes_inj 23 8 ltac:(lia) ltac:(lia) 4%nat _ _ y _ E _); [apply pack_encodes; [lia|lia|exact e32|exact S]|]. intros ->. apply N. reflexivity.
Qed.
Print Assumptions C79_bytes. Print Assumptions C79_double_pack. Print Assumptions C79_double_unpack. Print Assumptions C79_double_short. Print Assumptions C79_double_back. Print Assumptions C79_double_again.
Print Assumptions C79_single_pack. Print Assumptions C79_single_overflow. Print Assumptions C79_single_unpack. Print Assumptions C79_single_again.

(** 0.1 = 3FB999999999999A; its nearest single is 3DCCCCCD; 1e-45 is the smallest single; 3.4028235677973366e38 is too much, the double
    below it is not *)
Definition ex_tenth : spec_float := S754_finite false 7205759403792794 (-56).
Example C79_ex_tenth : python_float ex_tenth /\ double_pack ex_tenth = [63; 185; 153; 153; 153; 153; 153; 154] /\ float_pack ex_tenth = Ok [61; 204; 204; 205].
Proof. vm_compute. auto. Qed.
Example C79_ex_back : float_unpack [61; 204; 204; 205] = Ok (S754_finite false 7205759511166976 (-56)).
Proof. vm_compute. reflexivity. Qed.
Example C79_ex_overflow : float_pack (S754_finite false (2 ^ 53 - 2 ^ 28) 75) = Err OverflowErr /\ float_pack (S754_finite false (2 ^ 53 - 2 ^ 28 - 1) 75) = Ok [127; 127; 255; 255].
Proof. vm_compute. auto. Qed.
Example C79_ex_tiny : float_pack (S754_finite true 4503599627370496 (-202)) = Ok [128; 0; 0; 0] /\ float_pack (S754_finite true 4503599627370497 (-202)) = Ok [128; 0; 0; 1] /\
  float_unpack [0; 0; 0; 1] = Ok (S754_finite false 4503599627370496 (-201)).
Proof. vm_compute. auto. Qed.
