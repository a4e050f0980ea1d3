(** FltModel.v: floating point numbers on the wire.  /repo/postgresql/python/structlib.py:12-27 (struct.Struct('!d'), '!f', '!dd', '!ddd',
    '!dddd'), types/io/builtins.py:30-50 (float4, float8), types/io/lib.py:9-31.
    A Python float is a binary64 number of Coq's SpecFloat (all NaNs are one: Python does not tell them apart either).  Only floats are
    packed here; that struct converts integers and objects with __float__ first is not modelled. *)
From Verif Require Import Base.
From Coq Require Export SpecFloat.

Section format.
(** width of the fraction, width of the exponent *)
Context (mw ew : Z).
Definition f_emax : Z := 2 ^ (ew - 1).
Definition f_emin : Z := 3 - f_emax - (mw + 1).
Definition join_bits (s : bool) (e f : Z) : Z := (if s then 2 ^ (mw + ew) else 0) + e * 2 ^ mw + f.
(** the bit pattern of a number (CPython Objects/floatobject.c: PyFloat_Pack8 and PyFloat_Pack4 copy the machine's IEEE number) *)
Definition float_bits (x : spec_float) : Z :=
  match x with
  | S754_zero s => join_bits s 0 0
  | S754_infinity s => join_bits s (2 ^ ew - 1) 0
  | S754_nan => join_bits false (2 ^ ew - 1) (2 ^ (mw - 1))
  | S754_finite s m e =>
      if Zpos m <? 2 ^ mw then join_bits s 0 (Zpos m) else join_bits s (e - f_emin + 1) (Zpos m - 2 ^ mw)
  end.
Definition float_of_bits (b : Z) : spec_float :=
  let s := 2 ^ (mw + ew) <=? b in
  let e := (b / 2 ^ mw) mod 2 ^ ew in
  let f := b mod 2 ^ mw in
  if e =? 0 then (if f =? 0 then S754_zero s else S754_finite s (Z.to_pos f) f_emin)
  else if e =? 2 ^ ew - 1 then (if f =? 0 then S754_infinity s else S754_nan)
  else S754_finite s (Z.to_pos (f + 2 ^ mw)) (e - 1 + f_emin).
End format.

(** '!d': pack and unpack_from (the bytes after the eighth are not looked at) *)
Definition double_pack (x : spec_float) : list Z := be 8 (float_bits 52 11 x).
Definition double_unpack (b : list Z) : res spec_float :=
  if (length b <? 8)%nat then Err StructError else Ok (float_of_bits 52 11 (unbe (firstn 8 b))).
(** '!dd', '!ddd', '!dddd' *)
Definition doubles_pack (l : list spec_float) : list Z := flat_map double_pack l.
Fixpoint doubles_unpack (n : nat) (b : list Z) : res (list spec_float) :=
  match n with
  | O => Ok []
  | S n => do x <- double_unpack b; do r <- doubles_unpack n (skipn 8 b); Ok (x :: r)
  end.

(** the conversion of a double to a float in C, rounding to the nearest, ties to even: the quotient by 2^k *)
Definition round_half_even (m : Z) (k : Z) : Z :=
  let q := m / 2 ^ k in
  let r := m mod 2 ^ k in
  if (2 * r <? 2 ^ k) || ((2 * r =? 2 ^ k) && Z.even q) then q else q + 1.
Definition to_single (x : spec_float) : res spec_float :=
  match x with
  | S754_finite s m e =>
      let e' := Z.max (Zpos (digits2_pos m) + e - 24) (-149) in
      let q := if e' <=? e then Zpos m * 2 ^ (e - e') else round_half_even (Zpos m) (e' - e) in
      let '(q, e') := if q =? 2 ^ 24 then (2 ^ 23, e' + 1) else (q, e') in
      if q =? 0 then Ok (S754_zero s) else if 104 <? e' then Err OverflowErr else Ok (S754_finite s (Z.to_pos q) e')
  | _ => Ok x
  end.
(** the conversion of a float to a double in C is exact; a subnormal number becomes a normal one *)
Definition of_single (x : spec_float) : spec_float :=
  match x with
  | S754_finite s m e =>
      let k := 53 - Zpos (digits2_pos m) in S754_finite s (Z.to_pos (Zpos m * 2 ^ k)) (e - k)
  | _ => x
  end.
(** '!f': PyFloat_Pack4 raises OverflowError when the conversion makes an infinity of a finite number *)
Definition float_pack (x : spec_float) : res (list Z) := do y <- to_single x; Ok (be 4 (float_bits 23 8 y)).
Definition float_unpack (b : list Z) : res spec_float :=
  if (length b <? 4)%nat then Err StructError else Ok (of_single (float_of_bits 23 8 (unbe (firstn 4 b)))).
