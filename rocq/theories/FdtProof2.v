(** FdtProof2.v: seconds and microseconds to a double and back *)
From Verif Require Import Base BaseProof FltModel FltSpec FltProof FltProof2 FltProps FdtModel FdtProof.

(** a finite number whose value is u units *)
Definition holds (x : spec_float) (u : Z) : Prop := python_float x /\ finite x /\ units x = u.
Lemma frac_holds x u : holds x u -> 0 < snd (frac x) /\ fst (frac x) * U = u * snd (frac x).
Proof.
  intros (V & F & <-). destruct x as [s|s| |s m e]; try contradiction; [split; reflexivity|].
  unfold python_float in V. cbn [valid_binary] in V. rewrite bounded_iff in V by lia. assert (E : -1074 <= e) by (clear - V; lia). clear V F. cbn [frac units].
  replace ((if s then -1 else 1) * Z.pos m) with (if s then Z.neg m else Z.pos m) by (destruct s; lia). set (w := if s then Z.neg m else Z.pos m).
  destruct (Z.leb_spec 0 e) as [L|L]; cbn [fst snd]; (split; [try reflexivity; apply p_pos; lia|]).
  - unfold U. rewrite Z.pow_add_r by lia. ring.
  - rewrite <- Z.mul_assoc. f_equal. unfold U. rewrite <- Z.pow_add_r by lia. f_equal. lia.
Qed.
Lemma round_of c N D w : 0 < c <= 2 ^ 20 -> 0 < D -> c * N * U = w * D -> (w = 0 \/ c * U <= Z.abs w * 2 ^ 100) -> Z.abs w <= c * U * 2 ^ 100 ->
  exists u, holds (round64 N D) u /\
    (forall k, -500 <= k -> Z.abs w <= c * 2 ^ (k + 1074) -> 2 * Z.abs (c * u - w) <= c * 2 ^ (k - 52 + 1074)) /\
    (forall M E, -1074 <= E -> Z.abs M < 2 ^ 53 -> w = c * (M * 2 ^ (E + 1074)) -> c * u = w).
Proof.
  intros C D0 EQ S1 S2. pose proof U_pos as UP.
  destruct (Z.eq_dec N 0) as [->|NZ].
  - assert (w = 0) as -> by (clear - EQ D0; nia). exists 0. split; [split; [reflexivity|split; reflexivity]|]. split; [|intros; lia].
    intros k K _. rewrite Z.mul_0_r. pose proof (p_pos (k - 52 + 1074) ltac:(lia)). clear - H C. nia.
  - assert (WZ : w <> 0) by (clear - EQ C UP NZ; nia). destruct S1 as [S1|S1]; [contradiction|].
    assert (ABS : c * Z.abs N * U = Z.abs w * D) by (rewrite <- (Z.abs_eq c) by lia; rewrite <- (Z.abs_eq U) by lia; rewrite <- !Z.abs_mul, EQ, Z.abs_mul, (Z.abs_eq D) by lia; reflexivity).
    assert (H1 : D <= Z.abs N * 2 ^ 100).
    { apply (Z.mul_le_mono_pos_r _ _ (c * U)); [clear - C UP; nia|]. replace (Z.abs N * 2 ^ 100 * (c * U)) with (c * Z.abs N * U * 2 ^ 100) by ring. rewrite ABS. replace (Z.abs w * D * 2 ^ 100) with (D * (Z.abs w * 2 ^ 100)) by ring. apply Z.mul_le_mono_nonneg_l; lia. }
    assert (H2 : Z.abs N <= D * 2 ^ 100).
    { apply (Z.mul_le_mono_pos_r _ _ (c * U)); [clear - C UP; nia|]. replace (Z.abs N * (c * U)) with (c * Z.abs N * U) by ring. rewrite ABS. replace (D * 2 ^ 100 * (c * U)) with (c * U * 2 ^ 100 * D) by ring. apply Z.mul_le_mono_nonneg_r; lia. }
    destruct (round64_spec N D D0 NZ H1 H2) as (m & e & R & V & B & X). cbv zeta in B, X. set (x := S754_finite (N <? 0) m e) in *. exists (units x). split; [rewrite R; split; [exact V|split; [exact Logic.I|reflexivity]]|].
    set (u := units x) in *. clearbody u. split.
    + intros k K BW. assert (BN : Z.abs N * U <= D * 2 ^ (k + 1074)).
      { apply (Z.mul_le_mono_pos_l _ _ c); [lia|]. replace (c * (Z.abs N * U)) with (c * Z.abs N * U) by ring. rewrite ABS. replace (c * (D * 2 ^ (k + 1074))) with (c * 2 ^ (k + 1074) * D) by ring. apply Z.mul_le_mono_nonneg_r; lia. }
      specialize (B k K BN). apply (Z.mul_le_mono_pos_r _ _ D); [lia|]. rewrite <- Z.mul_assoc, abs_scale by lia. replace ((c * u - w) * D) with (c * (u * D - N * U)) by (replace ((c * u - w) * D) with (c * u * D - w * D) by ring; rewrite <- EQ; ring).
      rewrite Z.abs_mul, (Z.abs_eq c) by lia. replace (2 * (c * Z.abs (u * D - N * U))) with (c * (2 * Z.abs (u * D - N * U))) by ring. replace (c * 2 ^ (k - 52 + 1074) * D) with (c * (D * 2 ^ (k - 52 + 1074))) by ring. apply Z.mul_le_mono_nonneg_l; lia.
    + intros M E HE HM W. assert (Y : N * U = D * (M * 2 ^ (E + 1074))) by (apply (Z.mul_reg_l _ _ c); [lia|]; rewrite Z.mul_assoc, EQ, W; ring). specialize (X M E HE HM Y).
      apply (Z.mul_reg_r _ _ D); [lia|]. rewrite <- EQ, <- Z.mul_assoc, X. ring.
Qed.
Lemma float_of_int_holds n : Z.abs n < 2 ^ 53 -> exists x, float_of_int n = Ok x /\ holds x (n * U).
Proof.
  intros H. pose proof U_pos as UP.
  assert (S1 : n * U = 0 \/ 1 * U <= Z.abs (n * U) * 2 ^ 100).
  { destruct (Z.eq_dec n 0) as [->|N]; [left; reflexivity|right]. rewrite Z.mul_1_l, Z.abs_mul, (Z.abs_eq U) by lia. assert (1 <= Z.abs n) by lia. set (p := 2 ^ 100). assert (1 <= p) by (unfold p; discriminate). clearbody p. apply Z.le_trans with (Z.abs n * U); [clear - UP H0; nia|]. apply Z.le_trans with (Z.abs n * U * 1); [lia|]. apply Z.mul_le_mono_nonneg_l; [clear - UP H0; nia|assumption]. }
  assert (S2 : Z.abs (n * U) <= 1 * U * 2 ^ 100).
  { rewrite Z.abs_mul, (Z.abs_eq U), Z.mul_1_l by lia. rewrite (Z.mul_comm U). apply Z.mul_le_mono_nonneg_r; [lia|]. change (2 ^ 100) with (2 ^ 47 * 2 ^ 53). assert (1 <= 2 ^ 47) by discriminate. set (p := 2 ^ 47) in *. set (q := 2 ^ 53) in *. clearbody p q. clear - H H0. nia. }
  destruct (round_of 1 n 1 (n * U)) as (u & (V & F & EU) & _ & X); [split; [lia|discriminate]|lia|ring|exact S1|exact S2|].
  - specialize (X n 0 ltac:(lia) H). rewrite !Z.mul_1_l in X. exists (round64 n 1). split; [|split; [exact V|split; [exact F|rewrite EU; apply X; reflexivity]]].
    unfold float_of_int. destruct (round64 n 1); try reflexivity; contradiction.
Qed.

Section ops.
Variables (x y : spec_float) (u v : Z).
Hypotheses (X : holds x u) (Y : holds y v).
Local Notation small w := (w%Z = 0 \/ U <= Z.abs w%Z * 2 ^ 100). Local Notation large w := (Z.abs w%Z <= U * 2 ^ 100).
Local Notation rounded z w := (exists r, holds z r /\ (forall k, -500 <= k -> Z.abs w <= 2 ^ (k + 1074) -> 2 * Z.abs (r - w) <= 2 ^ (k - 52 + 1074)) /\ (forall M E, -1074 <= E -> Z.abs M < 2 ^ 53 -> w = M * 2 ^ (E + 1074) -> r = w)).
Lemma simplify c N D w : c = 1 -> 0 < D -> c * N * U = w * D -> small w -> large w -> rounded (round64 N D) w.
Proof.
  intros -> D0 EQ S1 S2. destruct (round_of 1 N D w ltac:(split; [lia|discriminate]) D0 EQ ltac:(rewrite Z.mul_1_l; exact S1) ltac:(rewrite Z.mul_1_l; exact S2)) as (r & H & B & E).
  exists r. split; [exact H|]. split; [intros k K W; specialize (B k K); rewrite !Z.mul_1_l in B; exact (B W)|]. intros M E0 HE HM W. specialize (E M E0 HE HM). rewrite !Z.mul_1_l in E. exact (E W).
Qed.
Lemma fadd_holds : small (u + v) -> large (u + v) -> rounded (fadd64 x y) (u + v).
Proof.
  intros S1 S2. unfold fadd64. pose proof (frac_holds x u X) as fx. pose proof (frac_holds y v Y) as fy. destruct (frac x) as [a b], (frac y) as [c d]. cbn [fst snd] in *. destruct fx as [B EX], fy as [D EY]. apply (simplify 1); try assumption; [reflexivity|clear - B D; nia|].
  replace (1 * (a * d + c * b) * U) with (a * U * d + c * U * b) by ring. rewrite EX, EY. ring.
Qed.
Lemma fsub_holds : small (u - v) -> large (u - v) -> rounded (fsub64 x y) (u - v).
Proof.
  intros S1 S2. unfold fsub64. pose proof (frac_holds x u X) as fx. pose proof (frac_holds y v Y) as fy. destruct (frac x) as [a b], (frac y) as [c d]. cbn [fst snd] in *. destruct fx as [B EX], fy as [D EY]. apply (simplify 1); try assumption; [reflexivity|clear - B D; nia|].
  replace (1 * (a * d - c * b) * U) with (a * U * d - c * U * b) by ring. rewrite EX, EY. ring.
Qed.
Lemma fmul_holds n : u = n * U -> small (n * v) -> large (n * v) -> rounded (fmul64 x y) (n * v).
Proof.
  intros EU S1 S2. unfold fmul64. pose proof (frac_holds x u X) as fx. pose proof (frac_holds y v Y) as fy. destruct (frac x) as [a b], (frac y) as [c d]. cbn [fst snd] in *. destruct fx as [B EX], fy as [D EY]. apply (simplify 1); try assumption; [reflexivity|clear - B D; nia|].
  assert (EA : a = n * b) by (apply (Z.mul_reg_r _ _ U); [pose proof U_pos; lia|]; rewrite EX, EU; ring). rewrite EA. replace (1 * (n * b * c) * U) with (n * b * (c * U)) by ring. rewrite EY. ring.
Qed.
Lemma fdiv_holds n : 0 < n <= 2 ^ 20 -> v = n * U -> (u = 0 \/ n * U <= Z.abs u * 2 ^ 100) -> Z.abs u <= n * U * 2 ^ 100 ->
  exists r, holds (fdiv64 x y) r /\ (forall k, -500 <= k -> Z.abs u <= n * 2 ^ (k + 1074) -> 2 * Z.abs (n * r - u) <= n * 2 ^ (k - 52 + 1074)) /\ (u = 0 -> r = 0).
Proof.
  intros N EV S1 S2. unfold fdiv64. pose proof (frac_holds x u X) as fx. pose proof (frac_holds y v Y) as fy. destruct (frac x) as [a b], (frac y) as [c d]. cbn [fst snd] in *. destruct fx as [B EX], fy as [D EY].
  assert (EC : c = n * d) by (apply (Z.mul_reg_r _ _ U); [pose proof U_pos; lia|]; rewrite EY, EV; ring).
  destruct (round_of n (a * d) (b * c) u) as (r & H & Q & E); try assumption.
  - rewrite EC. assert (0 < n * d) by (clear - N D; nia). clear - H B. nia.
  - replace (n * (a * d) * U) with (n * d * (a * U)) by ring. rewrite EX, EC. ring.
  - exists r. split; [exact H|]. split; [exact Q|]. intros ->. specialize (E 0 0 ltac:(lia) ltac:(reflexivity)). clear - E N. lia.
Qed.
End ops.

Lemma ffloor_holds x u s : holds x u -> s * U <= u < (s + 1) * U -> ffloor x = Ok s.
Proof.
  intros H B. pose proof (frac_holds x u H) as [D E]. destruct H as (_ & F & _). pose proof U_pos as UP.
  assert (G : ffloor x = Ok (fst (frac x) / snd (frac x))) by (unfold ffloor; destruct x; try contradiction; destruct (frac _); reflexivity). rewrite G. f_equal.
  set (a := fst (frac x)) in *. set (d := snd (frac x)) in *. symmetry. apply Z.div_unique with (a - d * s); [|ring]. left.
  assert (L1 : s * d * U <= a * U) by (rewrite E; clear - B D; nia). assert (L2 : a * U < (s + 1) * d * U) by (rewrite E; clear - B D; nia).
  apply (Z.mul_le_mono_pos_r _ _ U UP) in L1. apply (Z.mul_lt_mono_pos_r U _ _ UP) in L2. clear - L1 L2. lia.
Qed.
Lemma fint_holds x u s : 0 <= s -> holds x u -> s * U <= u < (s + 1) * U -> fint x = Ok s.
Proof.
  intros S0 H B. pose proof (ffloor_holds x u s H B) as FL. pose proof (frac_holds x u H) as [D E]. destruct H as (_ & F & _). pose proof U_pos as UP.
  assert (A : 0 <= fst (frac x)). { assert (0 <= fst (frac x) * U) by (rewrite E; clear - S0 B D UP; nia). clear - H UP. nia. }
  unfold ffloor, fint in *. destruct x; try contradiction; destruct (frac _) as [a d]; cbn [fst snd] in *; rewrite Z.quot_div_nonneg by lia; exact FL.
Qed.

Lemma scale_up a z P k : a <= z * k -> 0 <= z -> k <= P -> a <= z * P.
Proof. intros. apply Z.le_trans with (z * k); [assumption|]. apply Z.mul_le_mono_nonneg_l; assumption. Qed.
(** an ulp of the numbers around one *)
Definition Y : Z := 2 ^ 1022.
Lemma UY : U = 4503599627370496 * Y. Proof. reflexivity. Qed.
Lemma Y_pos : 0 < Y. Proof. reflexivity. Qed.
Lemma p_0 : 2 ^ (0 + 1074) = U. Proof. reflexivity. Qed.
Lemma p_0' : 2 ^ (0 - 52 + 1074) = Y. Proof. reflexivity. Qed.
Lemma p_33 : 2 ^ (33 + 1074) = 8589934592 * U. Proof. reflexivity. Qed.
Lemma p_33' : 2 ^ (33 - 52 + 1074) = 8589934592 * Y. Proof. reflexivity. Qed.
Lemma p_20 : 2 ^ (20 + 1074) = 1048576 * U. Proof. reflexivity. Qed.
Lemma p_20' : 2 ^ (20 - 52 + 1074) = 1048576 * Y. Proof. reflexivity. Qed.
Definition P100 : Z := 2 ^ 100.
Lemma P100_big : 8589934593 <= P100. Proof. discriminate. Qed.
Lemma P100_eq : 2 ^ 100 = P100. Proof. reflexivity. Qed.
(** the double that is sent, and the pair that is read from it *)
Theorem pair_double s us : - 2 ^ 33 <= s < 2 ^ 33 -> 0 <= us < 1000000 ->
  exists x u us', mktime (s, us) = Ok x /\ holds x u /\ Z.abs (1000000 * u - (s * 1000000 + us) * U) * 2 ^ 20 <= 1000001 * U /\
    mktimetuple x = Ok (s, us') /\ (us' = us \/ us' = us - 1) /\ 0 <= us' /\ (us = 0 -> u = s * U).
Proof.
  change (2 ^ 33) with 8589934592. intros S US. pose proof U_pos as UP.
  destruct (float_of_int_holds s) as (xs & Es & Hs); [change (2 ^ 53) with 9007199254740992; lia|].
  destruct (float_of_int_holds us) as (xu & Eu & Hu); [change (2 ^ 53) with 9007199254740992; lia|].
  destruct (float_of_int_holds 1000000) as (xm & Em & Hm); [reflexivity|].
  pose proof UY as UY. pose proof Y_pos as YP. pose proof P100_big as BIG.
  destruct (fdiv_holds xu xm (us * U) (1000000 * U) Hu Hm 1000000) as (ub & Hb & Bb & Zb).
  { split; [lia|discriminate]. } { reflexivity. }
  { destruct (Z.eq_dec us 0) as [->|N]; [left; reflexivity|right]. rewrite P100_eq. rewrite Z.abs_eq by (clear - US UP; nia). assert (1 <= us) by lia. apply Z.le_trans with (U * P100); [rewrite (Z.mul_comm U); apply Z.mul_le_mono_nonneg_r; lia|]. apply Z.mul_le_mono_nonneg_r; [lia|]. clear - H UP. nia. }
  { rewrite P100_eq. rewrite Z.abs_eq by (clear - US UP; nia). apply Z.le_trans with (1000000 * U * 1); [clear - US UP; nia|]. apply Z.mul_le_mono_nonneg_l; lia. }
  specialize (Bb 0 ltac:(lia)). rewrite p_0 in Bb. rewrite p_0' in Bb. specialize (Bb ltac:(rewrite Z.abs_eq by (clear - US UP; nia); clear - US UP; nia)).
  set (b := fdiv64 xu xm) in *. assert (MK : mktime (s, us) = Ok (fadd64 xs b)) by (unfold mktime; cbn [fst snd]; rewrite Es, Eu, Em; reflexivity). clearbody b.
  assert (UB : 0 <= ub <= U).
  { destruct (Z.eq_dec us 0) as [->|N]; [rewrite (Zb eq_refl); lia|]. assert (US1 : U <= us * U) by (clear - N US UP; nia). assert (US2 : us * U <= 999999 * U) by (clear - US UP; nia). clear - Bb US1 US2 UY YP. lia. }
  destruct (fadd_holds xs b (s * U) ub Hs Hb) as (ts & Ht & Bt & Xt).
  { rewrite P100_eq. destruct (Z.eq_dec us 0) as [Z0|N].
    - rewrite (Zb ltac:(rewrite Z0; reflexivity)), Z.add_0_r. destruct (Z.eq_dec s 0) as [->|SN]; [left; reflexivity|right]. rewrite Z.abs_mul, (Z.abs_eq U) by lia. assert (1 <= Z.abs s) by lia. apply (scale_up _ _ _ 1); [clear - H UP; nia|clear - H UP; nia|lia].
    - right. assert (D : 1000000 * (s * U + ub) <> 0 /\ U <= 2 * (1000000 * Z.abs (s * U + ub))).
      { assert (US1 : U <= us * U) by (clear - N US UP; nia). assert (US2 : us * U <= 999999 * U) by (clear - US UP; nia). destruct (Z_lt_le_dec s 0) as [L|L].
        - assert (s * U <= - U) by (clear - L UP; nia). clear - Bb US1 US2 UY YP H. lia.
        - assert (0 <= s * U) by (clear - L UP; nia). clear - Bb US1 US2 UY YP H. lia. }
      assert (2 * 1000000 <= P100) by (clear - BIG; lia). set (z := Z.abs (s * U + ub)) in *. assert (0 <= z) by (unfold z; lia). apply (scale_up _ _ _ 2000000); [lia|assumption|exact H]. }
  { rewrite P100_eq. assert (Z.abs (s * U + ub) <= 8589934593 * U) by (assert (- 8589934592 * U <= s * U <= 8589934592 * U) by (clear - S UP; nia); clear - H UB UP; lia). assert (8589934593 <= P100) by (clear - BIG; lia). apply (scale_up _ _ _ 8589934593); [lia|lia|exact H0]. }
  specialize (Bt 33 ltac:(lia)). rewrite p_33 in Bt. rewrite p_33' in Bt.
  assert (SU : - 8589934592 * U <= s * U <= 8589934591 * U) by (clear - S UP; nia).
  specialize (Bt ltac:(clear - SU UB UP; lia)). set (t := fadd64 xs b) in *. clearbody t.
  destruct (Z.eq_dec us 0) as [Z0|N].
  - (* whole seconds *)
    subst us. specialize (Zb eq_refl). subst ub. rewrite Z.add_0_r in *.
    assert (ts = s * U) as ->. { apply (Xt s 0); [lia|change (2 ^ 53) with 9007199254740992; lia|reflexivity]. }
    exists t, (s * U), 0. split; [exact MK|]. split; [exact Ht|]. split; [replace (1000000 * (s * U) - (s * 1000000 + 0) * U) with 0 by ring; clear - UP; lia|].
    split; [|split; [left; reflexivity|split; [lia|reflexivity]]].
    unfold mktimetuple. rewrite (ffloor_holds t (s * U) s Ht) by (clear - UP; lia). cbn [bind]. rewrite Es. cbn [bind]. rewrite Em. cbn [bind].
    destruct (fsub_holds t xs (s * U) (s * U) Ht Hs) as (ud & Hd & _ & Xd); [left; lia|replace (s * U - s * U) with 0 by ring; clear - UP; lia|].
    assert (ud = 0) as ->. { rewrite (Xd 0 0); [ring|lia|reflexivity|ring]. }
    destruct (fmul_holds xm _ (1000000 * U) 0 Hm Hd 1000000 eq_refl) as (up & Hp & _ & Xp); [left; reflexivity|clear - UP; lia|].
    assert (up = 0) as ->. { rewrite (Xp 0 0); [reflexivity|lia|reflexivity|reflexivity]. }
    rewrite (fint_holds _ 0 0 ltac:(lia) Hp) by (clear - UP; lia). reflexivity.
  - assert (US1 : U <= us * U) by (clear - N US UP; nia). assert (US2 : us * U <= 999999 * U) by (clear - US UP; nia).
    assert (D1 : 0 < ts - s * U < U) by (clear - Bb Bt US1 US2 UY YP; lia).
    assert (ERR : Z.abs (1000000 * ts - (s * 1000000 + us) * U) * 1048576 <= 1000001 * U).
    { replace ((s * 1000000 + us) * U) with (1000000 * (s * U) + us * U) by ring. clear - Bb Bt UY YP. lia. }
    destruct (fsub_holds t xs ts (s * U) Ht Hs) as (ud & Hd & Bd & _).
    { right. rewrite P100_eq. assert (U <= (ts - s * U) * 100000000) by (clear - Bb Bt US1 US2 UY YP; lia). assert (100000000 <= P100) by (clear - BIG; lia). rewrite Z.abs_eq by lia. set (z := ts - s * U) in *. apply (scale_up _ _ _ 100000000); [exact H|lia|exact H0]. }
    { rewrite P100_eq. rewrite Z.abs_eq by lia. set (z := ts - s * U) in *. apply (scale_up _ _ _ 1); lia. }
    specialize (Bd 0 ltac:(lia)). rewrite p_0 in Bd. rewrite p_0' in Bd. specialize (Bd ltac:(clear - D1; lia)).
    assert (UD : 0 < ud <= U) by (clear - Bd Bb Bt US1 US2 UY YP; lia).
    destruct (fmul_holds xm _ (1000000 * U) ud Hm Hd 1000000 eq_refl) as (up & Hp & Bp & _).
    { right. rewrite P100_eq. rewrite Z.abs_eq by lia. assert (U <= ud * 100000000) by (clear - Bd Bb Bt US1 US2 UY YP; lia). assert (100000000 <= P100) by (clear - BIG; lia). apply (scale_up _ _ _ 100000000); [clear - H UD; lia|clear - UD; lia|exact H0]. }
    { rewrite P100_eq. rewrite Z.abs_eq by lia. apply (scale_up _ _ _ 1000000); [clear - UD; lia|clear - UP; lia|clear - BIG; lia]. }
    specialize (Bp 20 ltac:(lia)). rewrite p_20 in Bp. rewrite p_20' in Bp. specialize (Bp ltac:(clear - UD; lia)).
    assert (PR : (us - 1) * U < up < (us + 1) * U). { replace ((us - 1) * U) with (us * U - U) by ring. replace ((us + 1) * U) with (us * U + U) by ring. clear - Bp Bd Bb Bt UY YP. lia. }
    assert (TT : forall us', (us' = us \/ us' = us - 1) -> us' * U <= up < (us' + 1) * U -> mktimetuple t = Ok (s, us')).
    { intros us' C B. unfold mktimetuple. rewrite (ffloor_holds t ts s Ht) by (clear - D1; lia). cbn [bind]. rewrite Es. cbn [bind]. rewrite Em. cbn [bind]. rewrite (fint_holds _ up us' ltac:(clear - C N US; lia) Hp B). reflexivity. }
    change (2 ^ 20) with 1048576. destruct (Z_lt_le_dec up (us * U)) as [L|L].
    + exists t, ts, (us - 1). split; [exact MK|]. split; [exact Ht|]. split; [exact ERR|]. split; [apply TT; [auto|]|split; [auto|split; [lia|contradiction]]]. replace (us - 1 + 1) with us by ring. clear - PR L. lia.
    + exists t, ts, us. split; [exact MK|]. split; [exact Ht|]. split; [exact ERR|]. split; [apply TT; [auto|]|split; [auto|split; [lia|contradiction]]]. clear - PR L. lia.
Qed.
