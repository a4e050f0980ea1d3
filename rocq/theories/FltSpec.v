(** FltSpec.v: statement-level definitions for C79.  IEEE 754-2008, 3.4: binary interchange formats. *)
From Verif Require Import Base FltModel.

(** the number with a sign bit, a biased exponent and a fraction; [w] is the width of the fraction, [ew] of the exponent *)
Inductive ieee (w ew : Z) : bool -> Z -> Z -> spec_float -> Prop :=
| ie_zero s : ieee w ew s 0 0 (S754_zero s)
| ie_subnormal s f : 0 < Zpos f < 2 ^ w -> ieee w ew s 0 (Zpos f) (S754_finite s f (2 - 2 ^ (ew - 1) - w))
| ie_normal s e f m : 0 < e < 2 ^ ew - 1 -> 0 <= f < 2 ^ w -> Zpos m = 2 ^ w + f -> ieee w ew s e f (S754_finite s m (e - (2 ^ (ew - 1) - 1) - w))
| ie_infinity s : ieee w ew s (2 ^ ew - 1) 0 (S754_infinity s)
| ie_nan s f : 0 < f < 2 ^ w -> ieee w ew s (2 ^ ew - 1) f S754_nan.
(** the bytes, the most significant first, of the three fields put together *)
Definition encodes (w ew : Z) (n : nat) (b : list Z) (x : spec_float) : Prop :=
  is_bytes b /\ length b = n /\ exists s e f, ieee w ew s e f x /\ unbe b = (if s : bool then 2 ^ (w + ew) else 0) + e * 2 ^ w + f.
Definition double_bytes := encodes 52 11 8.
Definition single_bytes := encodes 23 8 4.
(** the numbers that exist as Python floats: binary64 (Coq's own predicate) *)
Definition python_float (x : spec_float) : Prop := valid_binary 53 1024 x = true.
Definition single (x : spec_float) : Prop := valid_binary 24 128 x = true.

(** the value of a finite number, in units of 2^-1074: the smallest double *)
Definition units (x : spec_float) : Z :=
  match x with S754_finite s m e => (if s then -1 else 1) * Zpos m * 2 ^ (e + 1074) | _ => 0 end.
Definition finite (x : spec_float) : Prop := match x with S754_zero _ | S754_finite _ _ _ => True | _ => False end.
Definition sign (x : spec_float) : bool := match x with S754_zero s | S754_infinity s | S754_finite s _ _ => s | S754_nan => false end.
(** the last bit of the fraction *)
Definition even_single (x : spec_float) : Prop := match x with S754_finite _ m _ => Z.even (Zpos m) = true | _ => True end.
(** the single that is nearest to a double, and even if two are *)
Definition nearest (x y : spec_float) : Prop :=
  single y /\ finite y /\ sign y = sign x /\
  (forall z, single z -> finite z -> Z.abs (units x - units y) <= Z.abs (units x - units z)) /\
  (forall z, single z -> finite z -> Z.abs (units x - units y) = Z.abs (units x - units z) -> units z = units y \/ even_single y).
