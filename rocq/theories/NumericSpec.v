(** NumericSpec.v: what a decimal number and the server's numeric format denote. *)
From Verif Require Import Base.

(** the integer written by decimal digits *)
Fixpoint dval (l : list Z) : Z := match l with [] => 0 | x :: r => x * 10 ^ len r + dval r end.
Definition is_digits (l : list Z) : Prop := Forall (fun x => 0 <= x <= 9) l.
(** the integer written by base 10000 digits *)
Fixpoint gval (l : list Z) : Z := match l with [] => 0 | x :: r => x * 10000 ^ len r + gval r end.
Definition is_groups (l : list Z) : Prop := Forall (fun x => 0 <= x <= 9999) l.

(** m1 * 10^e1 = m2 * 10^e2, for exponents of any sign *)
Definition same_number (m1 e1 m2 e2 : Z) : Prop :=
  m1 * 10 ^ (e1 - Z.min e1 e2) = m2 * 10 ^ (e2 - Z.min e1 e2).

(** the server's format: ndigits, weight, sign, dscale, then the base 10000 digits, the
    first of weight 10000^weight; two byte signed fields.  Sign 0x4000 is minus. *)
Definition numeric_wire (weight sign dscale : Z) (gs : list Z) : list Z :=
  let h x := be 2 (x mod 2 ^ 16) in
  h (len gs) ++ h weight ++ h (if sign =? 1 then 16384 else 0) ++ h dscale ++ concat (map h gs).
(** the exponent (of ten) of the integer gval gs *)
Definition wire_exp (weight : Z) (gs : list Z) : Z := 4 * (weight + 1 - len gs).
Definition in_short (x : Z) : Prop := - 2 ^ 15 <= x < 2 ^ 15.
