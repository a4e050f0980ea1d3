(** FdtModel.v: date and time type I/O in the floating point formats (servers with integer_datetimes off):
    /repo/postgresql/types/io/lib.py:66-71, 76-79, 85-88, 93-134, 180-197, structlib.py '!d', '!dl', '!dll',
    types/io/stdlib_datetime.py:56-61, 72-75, 210-245.
    The arithmetic is that of IEEE 754: the exact result, rounded to the nearest binary64 number, ties to even. *)
From Verif Require Import Base TypeIOModel DatetimeModel FltModel.

(** the integer nearest to n/d, ties to even *)
Definition nearest_int (n d : Z) : Z :=
  let q := n / d in
  let r := n mod d in
  if (2 * r <? d) || ((2 * r =? d) && Z.even q) then q else q + 1.
(** the binary64 number nearest to n/d, d > 0.  (A zero result is positive here: its sign makes no difference below.) *)
Definition round64 (n d : Z) : spec_float :=
  if n =? 0 then S754_zero false else
  let a := Z.abs n in
  let l := Z.log2 a - Z.log2 d in                                 (* 2^(l-1) < a/d < 2^(l+1) *)
  let l := if a * 2 ^ Z.max 0 (- l) <? d * 2 ^ Z.max 0 l then l - 1 else l in
  let e := Z.max (l - 52) (-1074) in
  let q := nearest_int (a * 2 ^ Z.max 0 (- e)) (d * 2 ^ Z.max 0 e) in
  let '(q, e) := if q =? 2 ^ 53 then (2 ^ 52, e + 1) else (q, e) in
  if q =? 0 then S754_zero (n <? 0)
  else if 971 <? e then S754_infinity (n <? 0) else S754_finite (n <? 0) (Z.to_pos q) e.
(** the value of a finite number as a fraction *)
Definition frac (x : spec_float) : Z * Z :=
  match x with
  | S754_finite s m e => let m := if s then Zneg m else Zpos m in if 0 <=? e then (m * 2 ^ e, 1) else (m, 2 ^ (- e))
  | _ => (0, 1)
  end.
(** + - * / of finite numbers *)
Definition fadd64 (x y : spec_float) : spec_float := let (a, b) := frac x in let (c, d) := frac y in round64 (a * d + c * b) (b * d).
Definition fsub64 (x y : spec_float) : spec_float := let (a, b) := frac x in let (c, d) := frac y in round64 (a * d - c * b) (b * d).
Definition fmul64 (x y : spec_float) : spec_float := let (a, b) := frac x in let (c, d) := frac y in round64 (a * c) (b * d).
(** y positive *)
Definition fdiv64 (x y : spec_float) : spec_float := let (a, b) := frac x in let (c, d) := frac y in round64 (a * d) (b * c).
(** float(n): OverflowError if it is too large *)
Definition float_of_int (n : Z) : res spec_float :=
  match round64 n 1 with S754_infinity _ => Err OverflowErr | x => Ok x end.
(** math.floor(x), int(x): of an infinity OverflowError, of NaN ValueError *)
Definition ffloor (x : spec_float) : res Z :=
  match x with S754_infinity _ => Err OverflowErr | S754_nan => Err ValueError | _ => let (n, d) := frac x in Ok (n / d) end.
Definition fint (x : spec_float) : res Z :=
  match x with S754_infinity _ => Err OverflowErr | S754_nan => Err ValueError | _ => let (n, d) := frac x in Ok (Z.quot n d) end.
(** lib.py:76-79 mktimetuple *)
Definition mktimetuple (ts : spec_float) : res (Z * Z) :=
  do seconds <- ffloor ts;
  do f <- float_of_int seconds;
  do million <- float_of_int 1000000;
  do us <- fint (fmul64 million (fsub64 ts f));
  Ok (seconds, us).
(** lib.py:85-88 mktime *)
Definition mktime (t : Z * Z) : res spec_float :=
  do s <- float_of_int (fst t);
  do us <- float_of_int (snd t);
  do million <- float_of_int 1000000;
  Ok (fadd64 s (fdiv64 us million)).
(** lib.py:93-95 time_pack, time_unpack *)
Definition ftime_pack (t : Z * Z) : res (list Z) := do x <- mktime t; Ok (double_pack x).
Definition ftime_unpack (d : list Z) : res (Z * Z) := do x <- double_unpack d; mktimetuple x.
(** structlib.py '!dl' and '!dll' *)
Definition dl_pack (x : spec_float) (l : Z) : res (list Z) := do b <- pack_s 4 l; Ok (double_pack x ++ b).
Definition dll_pack (x : spec_float) (l m : Z) : res (list Z) := do b <- pack_s 4 l; do c <- pack_s 4 m; Ok (double_pack x ++ b ++ c).
Definition dl_unpack (d : list Z) : res (spec_float * Z) :=
  if (length d <? 12)%nat then Err StructError else
  do x <- double_unpack d; do l <- unpack_s 4 (skipn 8 d); Ok (x, l).
Definition dll_unpack (d : list Z) : res (spec_float * Z * Z) :=
  if (length d <? 16)%nat then Err StructError else
  do x <- double_unpack d; do l <- unpack_s 4 (skipn 8 d); do m <- unpack_s 4 (skipn 12 d); Ok (x, l, m).
(** lib.py:97-112 *)
Definition finterval_pack (x : Z * Z * (Z * Z)) : res (list Z) :=
  let '(month, day, t) := x in do f <- mktime t; dll_pack f day month.
Definition finterval_unpack (d : list Z) : res (Z * Z * (Z * Z)) :=
  do r <- dll_unpack d; let '(tim, day, month) := r in do t <- mktimetuple tim; Ok (month, day, t).
(** lib.py:114-134 *)
Definition finterval_noday_pack (x : Z * Z * (Z * Z)) : res (list Z) :=
  let '(month, day, t) := x in
  let t := if day =? 0 then t else (fst t + day * 24 * 60 * 60, snd t) in
  do f <- mktime t; dl_pack f month.
Definition finterval_noday_unpack (d : list Z) : res (Z * Z * (Z * Z)) :=
  do r <- dl_unpack d; let '(tim, month) := r in do t <- mktimetuple tim; Ok (month, 0, t).
(** lib.py:180-197 *)
Definition ftimetz_pack (x : (Z * Z) * Z) : res (list Z) := do f <- mktime (fst x); dl_pack f (snd x).
Definition ftimetz_unpack (d : list Z) : res ((Z * Z) * Z) := do r <- dl_unpack d; do t <- mktimetuple (fst r); Ok (t, snd r).

(** lib.py:66-67; stdlib_datetime.py:56-61, 72-75 *)
Definition time_infinity : list Z := [127; 240; 0; 0; 0; 0; 0; 0].
Definition time_negative_infinity : list Z := [255; 240; 0; 0; 0; 0; 0; 0].
Definition time_const (x : arg pydt) : option (list Z) :=
  match x with
  | SInf => Some time_infinity
  | SNegInf => Some time_negative_infinity
  | Val a => if dt_eqb a infinity_datetime then Some time_infinity
             else if dt_eqb a negative_infinity_datetime then Some time_negative_infinity else None
  end.
Definition time_unconst (d : list Z) : option pydt :=
  if seqb d time_infinity then Some infinity_datetime
  else if seqb d time_negative_infinity then Some negative_infinity_datetime else None.

(** the FloatTimes entries of id_to_io, stdlib_datetime.py:216-245 *)
Definition ftime_io_pack (x : pytime) : res (list Z) := ftime_pack (time_pack x).
Definition ftime_io_unpack (d : list Z) : res pytime := do t <- ftime_unpack d; time_unpack t.
Definition ftimetz_io_pack (x : pytime) (off : option tdelta) : res (list Z) := do r <- timetz_pack x off; ftimetz_pack r.
Definition ftimetz_io_unpack (d : list Z) : res (pytime * tdelta) := do r <- ftimetz_unpack d; timetz_unpack r.
Definition ftimestamp_io_pack (x : arg pydt) : res (list Z) :=
  match time_const x, x with
  | Some b, _ => Ok b
  | None, Val a => do t <- timestamp_pack a; ftime_pack t
  | None, _ => Err AttributeError
  end.
Definition ftimestamp_io_unpack (d : list Z) : res pydt :=
  match time_unconst d with Some x => Ok x | None => do t <- ftime_unpack d; timestamp_unpack t end.
Definition ftimestamptz_io_pack (localoff : pydt -> tdelta) (x : arg anydt) : res (list Z) :=
  match x with
  | SInf => Ok time_infinity
  | SNegInf => Ok time_negative_infinity
  | Val (Aware d o) => do t <- timestamptz_pack localoff (Aware d o); ftime_pack t
  | Val (Naive d) =>
      match time_const (Val d) with
      | Some b => Ok b
      | None => do t <- timestamptz_pack localoff (Naive d); ftime_pack t
      end
  end.
Definition ftimestamptz_io_unpack (d : list Z) : res anydt :=
  match time_unconst d with Some x => Ok (Naive x) | None => do t <- ftime_unpack d; timestamptz_unpack t end.
Definition finterval_io_pack (x : tdelta) : res (list Z) := finterval_pack (interval_pack x).
Definition finterval_io_unpack (d : list Z) : res (tdelta * bool) := do t <- finterval_unpack d; interval_unpack t.
Definition finterval_noday_io_pack (x : tdelta) : res (list Z) := finterval_noday_pack (interval_pack x).
Definition finterval_noday_io_unpack (d : list Z) : res (tdelta * bool) := do t <- finterval_noday_unpack d; interval_unpack t.
