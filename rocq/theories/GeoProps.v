(** GeoProps.v: C80, geometric types *)
From Verif Require Import Base BaseProof FltModel FltSpec FltProof FltProof2 FltProps GeoModel GeoSpec.

Lemma valid_iff s m e : python_float (S754_finite s m e) <-> (Zpos m < 2 ^ 52 /\ e = -1074) \/ (2 ^ 52 <= Zpos m < 2 ^ 53 /\ -1074 <= e <= 971).
Proof. unfold python_float. cbn [valid_binary]. rewrite bounded_iff by lia. reflexivity. Qed.
Lemma magnitude_lt m1 e1 m2 e2 : python_float (S754_finite false m1 e1) -> python_float (S754_finite false m2 e2) -> e1 < e2 ->
  Zpos m1 * 2 ^ (e1 + 1074) < Zpos m2 * 2 ^ (e2 + 1074).
Proof.
  intros V1 V2 L. apply valid_iff in V1. apply valid_iff in V2.
  assert (M1 : Zpos m1 < 2 ^ 53 /\ -1074 <= e1) by (change (2 ^ 52) with 4503599627370496 in *; change (2 ^ 53) with 9007199254740992 in *; lia).
  assert (M2 : 2 ^ 52 <= Zpos m2) by (change (2 ^ 52) with 4503599627370496 in *; change (2 ^ 53) with 9007199254740992 in *; lia).
  assert (P : 0 < 2 ^ (e1 + 1074)) by (apply Z.pow_pos_nonneg; lia).
  assert (Q : 2 * 2 ^ (e1 + 1074) <= 2 ^ (e2 + 1074)) by (replace (2 * 2 ^ (e1 + 1074)) with (2 ^ (1 + (e1 + 1074))) by (rewrite pow_split by lia; reflexivity); apply pow_up; lia).
  change (2 ^ 53) with (2 * 2 ^ 52) in M1. set (a := 2 ^ 52) in *. assert (0 < a) by reflexivity. clearbody a. nia.
Qed.
Lemma compare_units m1 e1 m2 e2 : python_float (S754_finite false m1 e1) -> python_float (S754_finite false m2 e2) ->
  match Z.compare e1 e2 with Lt => Lt | Gt => Gt | Eq => Pcompare m1 m2 Eq end = Z.compare (Zpos m1 * 2 ^ (e1 + 1074)) (Zpos m2 * 2 ^ (e2 + 1074)).
Proof.
  intros V1 V2. destruct (Z.compare_spec e1 e2) as [->|L|L].
  - apply valid_iff in V1. assert (P : 0 < 2 ^ (e2 + 1074)) by (apply Z.pow_pos_nonneg; lia). rewrite <- Zmult_compare_compat_r by lia. reflexivity.
  - symmetry. apply Z.compare_lt_iff. apply magnitude_lt; assumption.
  - symmetry. apply Z.compare_gt_iff. apply magnitude_lt; assumption.
Qed.
Lemma valid_sign s s' m e : python_float (S754_finite s m e) -> python_float (S754_finite s' m e). Proof. exact (fun H => H). Qed.
Lemma ltb_le x y : python_float x -> python_float y -> number x -> number y -> (SFltb y x = false <-> leF x y).
Proof.
  intros Vx Vy Nx Ny. destruct x as [sx|sx| |sx mx ex], y as [sy|sy| |sy my ey]; try (exfalso; now apply Nx); try (exfalso; now apply Ny);
    try (destruct sx; cbn; split; intros; try lia; try discriminate; try tauto; fail); try (destruct sy; cbn; split; intros; try lia; try discriminate; try tauto; fail);
    try (destruct sx, sy; cbn; split; intros; try lia; try discriminate; try tauto; fail).
  - assert (P : 0 < 2 ^ (ey + 1074)) by (apply Z.pow_pos_nonneg; [lia|]; apply valid_iff in Vy; lia). unfold SFltb, SFcompare, leF, units. destruct sy; split; intros; try discriminate; try lia; try nia.
  - assert (P : 0 < 2 ^ (ex + 1074)) by (apply Z.pow_pos_nonneg; [lia|]; apply valid_iff in Vx; lia). unfold SFltb, SFcompare, leF, units. destruct sx; split; intros; try discriminate; try lia; try nia.
  - assert (P : 0 < 2 ^ (ex + 1074)) by (apply Z.pow_pos_nonneg; [lia|]; apply valid_iff in Vx; lia).
    assert (P' : 0 < 2 ^ (ey + 1074)) by (apply Z.pow_pos_nonneg; [lia|]; apply valid_iff in Vy; lia).
    assert (C := compare_units my ey mx ex (valid_sign _ false _ _ Vy) (valid_sign _ false _ _ Vx)).
    unfold SFltb, SFcompare, leF, units. destruct sx, sy; try (split; intros; try discriminate; try reflexivity; nia).
    + destruct (Z.compare_spec (Zpos my * 2 ^ (ey + 1074)) (Zpos mx * 2 ^ (ex + 1074))); destruct (ey ?= ex); cbn [CompOpp]; try rewrite C; cbn [CompOpp]; split; intros; try discriminate; try reflexivity; lia.
    + destruct (Z.compare_spec (Zpos my * 2 ^ (ey + 1074)) (Zpos mx * 2 ^ (ex + 1074))); destruct (ey ?= ex); try discriminate C; try rewrite C; split; intros; try discriminate; try reflexivity; lia.
Qed.
Lemma ltb_total x y : python_float x -> python_float y -> number x -> number y -> SFltb x y = true -> leF x y.
Proof.
  intros Vx Vy Nx Ny H. apply ltb_le; try assumption. destruct (SFltb y x) eqn:E; [|reflexivity]. exfalso. unfold SFltb in *.
  destruct x as [sx|sx| |sx mx ex], y as [sy|sy| |sy my ey]; try (exfalso; now apply Nx); try (exfalso; now apply Ny); cbn in H, E; try (destruct sx; discriminate); try (destruct sy; discriminate); try (destruct sx, sy; discriminate).
  destruct sx, sy; try discriminate.
  - rewrite (Z.compare_antisym ey ex) in H. destruct (ey ?= ex); cbn in H, E; try discriminate. change (Pcompare mx my Eq) with ((mx ?= my)%positive) in *. change (Pcompare my mx Eq) with ((my ?= mx)%positive) in *. rewrite (Pos.compare_antisym mx my) in *. destruct (mx ?= my)%positive; discriminate.
  - rewrite (Z.compare_antisym ey ex) in H. destruct (ey ?= ex); cbn in H, E; try discriminate. change (Pcompare mx my Eq) with ((mx ?= my)%positive) in *. change (Pcompare my mx Eq) with ((my ?= mx)%positive) in *. rewrite (Pos.compare_antisym mx my) in *. destruct (mx ?= my)%positive; discriminate.
Qed.
(** Box: whichever two corners it is made of, the high point is not below or left of the low one, and each coordinate is one of those given. *)
Theorem C80_box one two : point_ok one -> point_ok two -> numbers one -> numbers two ->
  let b := box_new one two in let high := fst b in let low := snd b in
  leF (fst low) (fst high) /\ leF (snd low) (snd high) /\
  same_two (fst high) (fst low) (fst one) (fst two) /\ same_two (snd high) (snd low) (snd one) (snd two).
Proof.
  intros [V1 V2] [V3 V4] [N1 N2] [N3 N4]. cbv zeta. unfold box_new, fgt, same_two.
  destruct (SFltb (fst two) (fst one)) eqn:E1; destruct (SFltb (snd two) (snd one)) eqn:E2; cbn [fst snd];
    (split; [first [apply ltb_total; assumption|apply ltb_le; assumption]|split; [first [apply ltb_total; assumption|apply ltb_le; assumption]|auto]]).
Qed.
Lemma doubles_back l : Forall python_float l -> doubles_unpack (length l) (doubles_pack l) = Ok l.
Proof.
  intros F. induction F as [|x l V F IH]; [reflexivity|]. cbn [length doubles_unpack doubles_pack flat_map].
  destruct (C79_double_pack x V) as (Y & L & _).
  assert (E : double_unpack (double_pack x ++ flat_map double_pack l) = Ok x).
  { pose proof (C79_double_back x V) as B. unfold double_unpack in *. rewrite L in B. rewrite (proj2 (Nat.ltb_ge _ _)) by (rewrite app_length; lia). rewrite firstn_app_exact by exact L.
    cbn [Nat.ltb Nat.leb] in B. rewrite <- L, firstn_all in B at 1. exact B. }
  rewrite E. cbn [bind]. rewrite skipn_app, L, Nat.sub_diag, skipn_all2 by lia. cbn [skipn app]. unfold doubles_pack in IH. rewrite IH. reflexivity.
Qed.
Lemma doubles_sent l : Forall python_float l -> doubles_bytes (doubles_pack l) l.
Proof.
  intros F. exists (map double_pack l). split; [unfold doubles_pack; apply flat_map_concat_map|]. induction F; constructor; [apply C79_double_pack; assumption|assumption].
Qed.
(** On the wire: the coordinates in the order the server has them (backend/utils/adt/geo_ops.c: point_send, box_send with the high point
    first, lseg_send, circle_send) ... *)
Theorem C80_sent p l b c r : point_ok p -> point_ok (fst l) -> point_ok (snd l) -> point_ok (fst b) -> point_ok (snd b) -> point_ok c -> python_float r ->
  doubles_bytes (point_pack p) [fst p; snd p] /\ doubles_bytes (lseg_pack l) [fst (fst l); snd (fst l); fst (snd l); snd (snd l)] /\
  doubles_bytes (box_pack b) [fst (fst b); snd (fst b); fst (snd b); snd (snd b)] /\ doubles_bytes (circle_pack (c, r)) [fst c; snd c; r].
Proof. intros [] [] [] [] [] [] ?. unfold point_pack, lseg_pack, box_pack, circle_pack. cbn [fst snd]. repeat split; apply doubles_sent; repeat constructor; assumption. Qed.
(** ... and back *)
Theorem C80_point_back p : point_ok p -> point_unpack (point_pack p) = Ok p.
Proof. intros [V1 V2]. unfold point_unpack, point_pack. pose proof (doubles_back [fst p; snd p]) as D. cbn [length] in D. rewrite D by (repeat constructor; assumption). destruct p; reflexivity. Qed.
Theorem C80_lseg_back l : point_ok (fst l) -> point_ok (snd l) -> lseg_unpack (lseg_pack l) = Ok l.
Proof. intros [] []. unfold lseg_unpack, lseg_pack. pose proof (doubles_back [fst (fst l); snd (fst l); fst (snd l); snd (snd l)]) as D. cbn [length] in D. rewrite D by (repeat constructor; assumption). clear D. destruct l as [[] []]; reflexivity. Qed.
Lemma zeros_or x y : python_float x -> python_float y -> leF x y -> (forall b, SFltb x y = b -> (b = true \/ x = y \/ exists s, y = S754_zero s /\ x = S754_zero (negb s))).
Proof.
  intros Vx Vy L b E. destruct b; [auto|right].
  assert (Nx : number x) by (intros ->; exact L). assert (Ny : number y) by (intros ->; destruct x as [|[]| |]; exact L).
  apply (proj1 (ltb_le y x Vy Vx Ny Nx)) in E. destruct x as [sx|[]| |sx mx ex], y as [sy|[]| |sy my ey]; cbn [leF] in *; try contradiction; auto.
  - destruct (Bool.bool_dec sx sy) as [->|N]; [auto|]. right. exists sy. split; [reflexivity|]. destruct sx, sy; try reflexivity; contradiction.
  - exfalso. assert (P : 0 < 2 ^ (ey + 1074)) by (apply Z.pow_pos_nonneg; [lia|]; apply valid_iff in Vy; lia). cbn [units] in *. destruct sy; nia.
  - exfalso. assert (P : 0 < 2 ^ (ex + 1074)) by (apply Z.pow_pos_nonneg; [lia|]; apply valid_iff in Vx; lia). cbn [units] in *. destruct sx; nia.
  - left. assert (EQ : units (S754_finite sx mx ex) = units (S754_finite sy my ey)) by lia. cbn [units] in EQ.
    assert (P : 0 < 2 ^ (ex + 1074)) by (apply Z.pow_pos_nonneg; [lia|]; apply valid_iff in Vx; lia). assert (P' : 0 < 2 ^ (ey + 1074)) by (apply Z.pow_pos_nonneg; [lia|]; apply valid_iff in Vy; lia).
    assert (SS : sx = sy) by (destruct sx, sy; try reflexivity; nia). subst sy. f_equal.
    + assert (EM : Zpos mx * 2 ^ (ex + 1074) = Zpos my * 2 ^ (ey + 1074)) by (destruct sx; lia). destruct (Z.lt_trichotomy ex ey) as [C|[C|C]].
      * pose proof (magnitude_lt mx ex my ey Vx Vy C). lia.
      * subst ey. nia.
      * pose proof (magnitude_lt my ey mx ex Vy Vx C). lia.
    + assert (EM : Zpos mx * 2 ^ (ex + 1074) = Zpos my * 2 ^ (ey + 1074)) by (destruct sx; lia). destruct (Z.lt_trichotomy ex ey) as [C|[C|C]]; [|exact C|].
      * pose proof (magnitude_lt mx ex my ey Vx Vy C). lia.
      * pose proof (magnitude_lt my ey mx ex Vy Vx C). lia.
Qed.
(** A box comes back with the same corners (a 0.0 and a -0.0 may be exchanged). *)
Theorem C80_box_back b : point_ok (fst b) -> point_ok (snd b) -> leF (fst (snd b)) (fst (fst b)) -> leF (snd (snd b)) (snd (fst b)) ->
  exists b', box_unpack (box_pack b) = Ok b' /\
    same_high_low (fst (fst b)) (fst (snd b)) (fst (fst b')) (fst (snd b')) /\ same_high_low (snd (fst b)) (snd (snd b)) (snd (fst b')) (snd (snd b')).
Proof.
  intros [V1 V2] [V3 V4] L1 L2. unfold box_unpack, box_pack. pose proof (doubles_back [fst (fst b); snd (fst b); fst (snd b); snd (snd b)]) as D. cbn [length] in D. rewrite D by (repeat constructor; assumption). clear D.
  cbn [bind two_pair fst snd]. eexists. split; [reflexivity|]. unfold box_new, fgt. cbn [fst snd]. unfold same_high_low.
  destruct (SFltb (fst (snd b)) (fst (fst b))) eqn:E1, (SFltb (snd (snd b)) (snd (fst b))) eqn:E2; cbn [fst snd]; (split; [|]); auto;
    match goal with
    | E : SFltb ?x ?y = false, L : leF ?x ?y |- (?x = ?y /\ _) \/ _ => destruct (zeros_or x y ltac:(assumption) ltac:(assumption) L false E) as [C|[C|(s & C1 & C2)]]; [discriminate C|left; auto|right; exists s; auto]
    end.
Qed.
(** Circle: a negative radius is refused, any other circle comes back. *)
Theorem C80_circle c r : point_ok c -> python_float r ->
  (~ number r \/ leF (S754_zero false) r -> circle_new c r = Ok (c, r) /\ circle_unpack (circle_pack (c, r)) = Ok (c, r)) /\
  (number r -> ~ leF (S754_zero false) r -> circle_new c r = Err ValueError /\ circle_unpack (circle_pack (c, r)) = Err ValueError).
Proof.
  intros [V1 V2] V. assert (U : circle_unpack (circle_pack (c, r)) = circle_new c r).
  { unfold circle_unpack, circle_pack. cbn [fst snd]. pose proof (doubles_back [fst c; snd c; r]) as D. cbn [length] in D. rewrite D by (repeat constructor; assumption). clear D. destruct c; reflexivity. }
  rewrite U. unfold circle_new, flt. assert (NZ : number (S754_zero false)) by discriminate. split.
  - intros H. assert (E : SFltb r (S754_zero false) = false).
    { destruct H as [H|H]; [assert (RN : r = S754_nan) by (destruct r; [| |reflexivity|]; exfalso; apply H; intros X; discriminate X); rewrite RN; reflexivity|]. apply ltb_le; [reflexivity|exact V|exact NZ| |exact H]. intros ->. exact H. }
    rewrite E. auto.
  - intros N H. destruct (SFltb r (S754_zero false)) eqn:E; [auto|]. exfalso. apply H. apply ltb_le; [reflexivity|exact V|exact NZ|exact N|exact E].
Qed.
(** The sum and the product of points do not depend on the order. *)
Lemma fadd_comm x y : fadd x y = fadd y x.
Proof.
  destruct x as [sx|sx| |sx mx ex], y as [sy|sy| |sy my ey]; try reflexivity; try (destruct sx, sy; reflexivity).
  unfold fadd, SFadd. cbv zeta. rewrite (Z.min_comm ex ey). f_equal. apply Z.add_comm.
Qed.
Lemma fmul_comm x y : fmul x y = fmul y x.
Proof.
  destruct x as [sx|sx| |sx mx ex], y as [sy|sy| |sy my ey]; try reflexivity; try (destruct sx, sy; reflexivity).
  unfold fmul, SFmul. rewrite (Bool.xorb_comm sx sy), (Pos.mul_comm mx my), (Z.add_comm ex ey). reflexivity.
Qed.
Theorem C80_commute p q : point_add p q = point_add q p /\ point_mul p q = point_mul q p.
Proof.
  unfold point_add, point_mul. split; [rewrite (fadd_comm (fst p)), (fadd_comm (snd p)); reflexivity|].
  rewrite (fmul_comm (fst p) (fst q)), (fmul_comm (snd p) (snd q)). f_equal. rewrite fadd_comm. f_equal; apply fmul_comm.
Qed.
(** A box of the server with a NaN (which the server takes for the greatest number) does not come as it is: the corners are exchanged. *)
Theorem C80_nan_refuted : exists b b', box_unpack (box_pack b) = Ok b' /\ fst b = (S754_nan, S754_zero false) /\ snd b = (S754_zero false, S754_zero false) /\
  fst (fst b') = S754_zero false /\ fst (snd b') = S754_nan.
Proof. exists ((S754_nan, S754_zero false), (S754_zero false, S754_zero false)). eexists. repeat split. Qed.
Print Assumptions C80_box. Print Assumptions C80_sent. Print Assumptions C80_point_back. Print Assumptions C80_lseg_back. Print Assumptions C80_box_back. Print Assumptions C80_circle. Print Assumptions C80_commute. Print Assumptions C80_nan_refuted.
Definition ex_f (n : Z) : spec_float := match n with Zpos p => binary_round 53 1024 false p 0 | Zneg p => binary_round 53 1024 true p 0 | Z0 => S754_zero false end.
(** the example of the documentation: Box(((-4,0),(-2,-3))) has the corners (-2,0) and (-4,-3) *)
Example C80_ex : box_new (ex_f (-4), ex_f 0) (ex_f (-2), ex_f (-3)) = ((ex_f (-2), ex_f 0), (ex_f (-4), ex_f (-3))) /\ point_ok (ex_f (-4), ex_f 0) /\ numbers (ex_f (-2), ex_f (-3)).
Proof. vm_compute. repeat split; discriminate. Qed.
Example C80_ex_circle : circle_new (ex_f 1, ex_f 2) (ex_f (-1)) = Err ValueError. Proof. reflexivity. Qed.
(** (1,2)+(3,5) = (4,7), (1,2)-(3,5) = (-2,-3), and the product of complex numbers (1,2)*(3,5) = (-7,11) *)
Example C80_ex_arith : point_add (ex_f 1, ex_f 2) (ex_f 3, ex_f 5) = (ex_f 4, ex_f 7) /\ point_sub (ex_f 1, ex_f 2) (ex_f 3, ex_f 5) = (ex_f (-2), ex_f (-3)) /\
  point_mul (ex_f 1, ex_f 2) (ex_f 3, ex_f 5) = (ex_f (-7), ex_f 11).
Proof. split; [|split]; vm_compute; reflexivity. Qed.
