(** NumericModel.v: numeric <-> decimal.Decimal,
    /repo/postgresql/types/io/stdlib_decimal.py and lib.py:37-41. *)
From Verif Require Import Base Element3Model PyList TypeIOModel.

(** Decimal.as_tuple(): sign, digits, exponent; the exponent of the infinities is 'F',
    of the NaNs 'n' or 'N' *)
Inductive dexp := Fin (e : Z) | Inf | NaN.
Record dec := { dsign : Z; ddigits : list Z; dexpo : dexp }.

(** the number of leading zeros of a list (used on the reversed digits) *)
Fixpoint zeros (l : list Z) : Z :=
  match l with x :: r => if x =? 0 then 1 + zeros r else 0 | [] => 0 end.
(** stdlib_decimal.py:55-58: at most min(len(digits), -exponent) digits are looked at *)
Definition trailing_zeros (ds : list Z) (e : Z) : Z := zeros (firstn (Z.to_nat (- e)) (rev ds)).
(** stdlib_decimal.py:66-68, 87-89: what is missing to a multiple of four *)
Definition pad4 (x : Z) : Z := let r := x mod 4 in if r =? 0 then 0 else 4 - r.
(** stdlib_decimal.py:92-118, 126: groupby on a key that alternates every four digits,
    each digit multiplied by 1000, 100, 10, 1, summed (simplified: the last group would
    be summed with the same weights if it was short, as here) *)
Fixpoint groups4 (l : list Z) : list Z :=
  match l with
  | a :: b :: c :: d :: r => (a * 1000 + b * 100 + c * 10 + d) :: groups4 r
  | [a; b; c] => [a * 1000 + b * 100 + c * 10]
  | [a; b] => [a * 1000 + b * 100]
  | [a] => [a * 1000]
  | [] => []
  end.
Definition zlist (n : Z) : list Z := repeat 0 (Z.to_nat n).

(** the header and the groups given to lib.numeric_pack; stdlib_decimal.py:32-127 *)
Definition numeric_parts (s : Z) (xd : list Z) (e : Z) : (Z * Z * Z * Z) * list Z :=
  let '(digits, weight, ldigits, rdigits, rpad) :=
    if e <? 0 then
      let tz := trailing_zeros xd e in
      let digits := if tz =? 0 then xd else pyslice xd 0 (- tz) in
      let rdigits := - (e + tz) in
      (digits, 0, len digits - rdigits, rdigits, pad4 rdigits)
    else
      let r := e mod 4 in
      if negb (e =? 0) && negb (r =? 0)
      then let digits := xd ++ zlist r in (digits, e - r, len digits, 0, 0)
      else (xd, e, len xd, 0, 0) in
  let lpad := pad4 ldigits in
  let weight := weight + (ldigits + lpad) in
  (((ldigits + rdigits + lpad + rpad) / 4, weight / 4 - 1,
    (if s =? 1 then 16384 else s), (if e <? 0 then - e else 0)),
   groups4 (zlist lpad ++ digits ++ zlist rpad)).

(** lib.py:37-38 *)
Definition lib_numeric_pack (h : Z * Z * Z * Z) (ds : list Z) : res bytes :=
  let '(a, b, c, d) := h in
  do a <- short_pack a; do b <- short_pack b; do c <- short_pack c; do d <- short_pack d;
  do l <- mapM short_pack ds; Ok (a ++ b ++ c ++ d ++ concat l).
(** stdlib_decimal.py:41-44: 'F' raises ValueError, comparing 'n' < 0 TypeError *)
Definition numeric_pack (x : dec) : res bytes :=
  match dexpo x with
  | Inf => Err ValueError
  | NaN => Err TypeError
  | Fin e => let p := numeric_parts (dsign x) (ddigits x) e in lib_numeric_pack (fst p) (snd p)
  end.

(** lib.py:40-41 unpack("!8x%dh"): the data must be 8 + 2n bytes *)
Definition lib_numeric_unpack (d : bytes) : res ((Z * Z * Z * Z) * list Z) :=
  let h := firstn 8 d in
  do a <- short_unpack h; do b <- short_unpack (skipn 2 h); do c <- short_unpack (skipn 4 h);
  do s <- short_unpack (skipn 6 h);
  let n := Nat.div (length d - 8) 2 in
  if negb (Nat.eqb (length d) (8 + 2 * n)) then Err StructError
  else Ok ((a, b, c, s), map (to_signed 2) (parse_pairs2 n (skipn 8 d))).

(** the digits of str(n), for the n a 2 byte integer can be; '-' is not a digit *)
Definition str_digits (n : Z) : res (list Z) :=
  if n <? 0 then Err ValueError
  else if n <? 10 then Ok [n]
  else if n <? 100 then Ok [n / 10; n mod 10]
  else if n <? 1000 then Ok [n / 100; n / 10 mod 10; n mod 10]
  else if n <? 10000 then Ok [n / 1000; n / 100 mod 10; n / 10 mod 10; n mod 10]
  else Ok [n / 10000; n / 1000 mod 10; n / 100 mod 10; n / 10 mod 10; n mod 10].
Definition rjust4 (l : list Z) : list Z := repeat 0 (4 - length l) ++ l.
(** stdlib_decimal.py:129-141 numeric_convert_digits *)
Definition convert_digits (d : list Z) : res (list Z) :=
  match d with
  | [] => Ok []
  | g :: gs =>
      do a <- str_digits g;
      do b <- mapM (fun y => do l <- str_digits y; Ok (rjust4 l)) gs;
      Ok (a ++ concat b)
  end.
(** Decimal((sign, digits, exponent)): the sign must be 0 or 1.  Simplified: the
    leading zeros that Decimal drops are kept (they do not change the number). *)
Definition mk_decimal (s : Z) (ds : list Z) (e : Z) : res dec :=
  if (s =? 0) || (s =? 1) then Ok {| dsign := s; ddigits := ds; dexpo := Fin e |} else Err ValueError.
(** stdlib_decimal.py:143-160 numeric_unpack *)
Definition numeric_unpack (d : bytes) : res dec :=
  do p <- lib_numeric_unpack d;
  let '((nd, w, sg, ds), digits) := p in
  let npad := ds - (nd - (w + 1)) * 4 in
  do l <- convert_digits digits;
  mk_decimal (if sg =? 16384 then 1 else sg)
             (if 0 <=? npad then l ++ zlist npad else pyslice l 0 npad) (- ds).
