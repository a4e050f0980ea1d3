(** GeoSpec.v: statement-level definitions for C80 *)
From Verif Require Import Base FltModel FltSpec GeoModel.

(** x <= y: the order of the values; NaN is in no order *)
Definition leF (x y : spec_float) : Prop :=
  match x, y with
  | S754_nan, _ | _, S754_nan => False
  | S754_infinity true, _ | _, S754_infinity false => True
  | S754_infinity false, _ | _, S754_infinity true => False
  | _, _ => units x <= units y
  end.
Definition number (x : spec_float) : Prop := x <> S754_nan.
Definition point_ok (p : point) : Prop := python_float (fst p) /\ python_float (snd p).
Definition numbers (p : point) : Prop := number (fst p) /\ number (snd p).
(** the same two numbers, one or the other first *)
Definition same_two (a b c d : spec_float) : Prop := (a = c /\ b = d) \/ (a = d /\ b = c).
(** the same numbers; only when they are the two zeros the signs may be exchanged *)
Definition same_high_low (h l h' l' : spec_float) : Prop := (h' = h /\ l' = l) \/ (exists s, h = S754_zero s /\ l = S754_zero (negb s) /\ h' = l /\ l' = h).
(** the bytes of numbers one after the other *)
Definition doubles_bytes (b : list Z) (l : list spec_float) : Prop := exists bs, b = concat bs /\ Forall2 double_bytes bs l.
