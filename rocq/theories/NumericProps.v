(** NumericProps.v: C07. *)
From Verif Require Import Base BaseProof TypeIOModel NumericModel NumericSpec NumericProof.

Definition finite (s : Z) (digits : list Z) (e : Z) : dec := {| dsign := s; ddigits := digits; dexpo := Fin e |}.

(** C07: what is sent is the server's representation of the same number, base 10000
    digits in range, display scale = number of decimals *)
Theorem C07_sent_value : forall s digits e d, (s = 0 \/ s = 1) -> is_digits digits ->
  numeric_pack (finite s digits e) = Ok d ->
  exists w gs, d = numeric_wire w s (Z.max 0 (- e)) gs /\ is_groups gs /\
    in_short (len gs) /\ in_short w /\ in_short (Z.max 0 (- e)) /\
    same_number (gval gs) (wire_exp w gs) (dval digits) e.
Proof. exact numeric_pack_inv. Qed.
Print Assumptions C07_sent_value.

(** and something is sent, for up to 131000 integral digits and 32767 decimals *)
Theorem C07_sent_total : forall s digits e, (s = 0 \/ s = 1) -> is_digits digits -> -32768 < e ->
  len digits + Z.max 0 e <= 131000 -> exists d, numeric_pack (finite s digits e) = Ok d.
Proof. exact numeric_pack_total. Qed.
Print Assumptions C07_sent_total.

(** C07: a received numeric is read as the same number, with its display scale as
    exponent, when the value has no digits beyond the display scale (which the server
    guarantees) *)
Theorem C07_received_value : forall w s ds gs, (s = 0 \/ s = 1) -> in_short (len gs) -> in_short w ->
  in_short ds -> is_groups gs -> (exists m, same_number (gval gs) (wire_exp w gs) m (- ds)) ->
  exists l, numeric_unpack (numeric_wire w s ds gs) = Ok (finite s l (- ds)) /\
    is_digits l /\ same_number (dval l) (- ds) (gval gs) (wire_exp w gs).
Proof. exact numeric_unpack_wire. Qed.
Print Assumptions C07_received_value.

(** C07, round trip: same sign, same number, exponent min(e, 0) (a positive exponent is
    written out, since numeric has no negative scale) *)
Theorem C07_roundtrip : forall s digits e d, (s = 0 \/ s = 1) -> is_digits digits ->
  numeric_pack (finite s digits e) = Ok d ->
  exists l, numeric_unpack d = Ok (finite s l (Z.min 0 e)) /\ is_digits l /\
    same_number (dval l) (Z.min 0 e) (dval digits) e.
Proof.
  intros s digits e d Hs Hd H. apply numeric_pack_inv in H as (w & gs & -> & Hg & H1 & H2 & H3 & Hv); auto.
  replace (Z.min 0 e) with (- Z.max 0 (- e)) by lia.
  destruct (numeric_unpack_wire w s (Z.max 0 (- e)) gs) as (l & E & Dl & V); auto.
  - destruct (Z.le_gt_cases e 0).
    + exists (dval digits). replace (- Z.max 0 (- e)) with e by lia. exact Hv.
    + exists (dval digits * 10 ^ e). eapply same_number_trans; [exact Hv|].
      replace (- Z.max 0 (- e)) with 0 by lia. apply (same_number_at _ _ _ _ 0); [lia|]. rewrite !Z.sub_0_r, Z.pow_0_r. lia.
  - exists l. split; [exact E|]. split; [exact Dl|]. eapply same_number_trans; eassumption.
Qed.
Print Assumptions C07_roundtrip.
(** in particular with decimals the integer of the digits is the same *)
Theorem C07_roundtrip_decimals : forall s digits e d, (s = 0 \/ s = 1) -> is_digits digits -> e <= 0 ->
  numeric_pack (finite s digits e) = Ok d ->
  exists l, numeric_unpack d = Ok (finite s l e) /\ is_digits l /\ dval l = dval digits.
Proof.
  intros s digits e d Hs Hd He H. destruct (C07_roundtrip s digits e d Hs Hd H) as (l & E & Dl & V).
  rewrite Z.min_r in E, V by lia. exists l. split; [exact E|]. split; [exact Dl|]. eapply same_number_eq; exact V.
Qed.
Print Assumptions C07_roundtrip_decimals.

Theorem C07_infinity_refused : forall s l, numeric_pack {| dsign := s; ddigits := l; dexpo := Inf |} = Err ValueError.
Proof. reflexivity. Qed.
Print Assumptions C07_infinity_refused.
(** refuted: NaN does not map to NaN: it cannot be sent (TypeError) ... *)
Theorem C07_nan_send_refuted : forall s l, numeric_pack {| dsign := s; ddigits := l; dexpo := NaN |} = Err TypeError.
Proof. reflexivity. Qed.
Print Assumptions C07_nan_send_refuted.
(** ... and the server's NaN (sign field 0xC000, no digit) cannot be read *)
Theorem C07_nan_receive_refuted : numeric_unpack (be 2 0 ++ be 2 0 ++ be 2 49152 ++ be 2 0) = Err ValueError.
Proof. vm_compute. reflexivity. Qed.
Print Assumptions C07_nan_receive_refuted.

Example C07_ex : numeric_pack (finite 1 [1;2;3;4;5;0;0] (-4)) = Ok (numeric_wire 0 1 4 [123; 4500]) /\
  numeric_unpack (numeric_wire 0 1 4 [123; 4500]) = Ok (finite 1 [1;2;3;4;5;0;0] (-4)) /\
  numeric_pack (finite 0 [1] (-5)) = Ok (numeric_wire (-2) 0 5 [1000]) /\
  numeric_pack (finite 0 [7] 6) = Ok (numeric_wire 1 0 0 [700]).
Proof. repeat split; vm_compute; reflexivity. Qed.
