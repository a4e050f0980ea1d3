(** DatetimeModel.v: date and time type I/O, 64-bit integer format:
    /repo/postgresql/types/io/stdlib_datetime.py, the time part of
    /repo/postgresql/types/io/lib.py and /repo/postgresql/python/datetime.py.

    Python's datetime module (not part of the repository) is represented so:
    - date: its ordinal ([toordinal], 1 = 0001-01-01 .. 3652059 = 9999-12-31);
    - naive datetime: (ordinal, second of the day, microsecond);
    - aware datetime: the local datetime and the utc offset, a timedelta;
    - time: (hour, minute, second, microsecond), tzinfo separately;
    - timedelta: the normalised triple (days, seconds, microseconds).
    The float formats (FloatTimes, stdlib_datetime.py:216-245) are in FdtModel.v. *)
From Verif Require Import Base PBufferModel Element3Model TypeIOModel.

Record tdelta := { td_days : Z; td_secs : Z; td_us : Z }.
Record pydt := { dt_ord : Z; dt_sec : Z; dt_us : Z }.
Record pytime := { t_hour : Z; t_min : Z; t_sec : Z; t_us : Z }.

(** datetime.MAXYEAR / MINYEAR limits *)
Definition max_ordinal : Z := 3652059.
(** Python: timedelta(days, seconds, microseconds), normalisation and the
    OverflowError outside of +-999999999 days *)
Definition mk_tdelta (days secs us : Z) : res tdelta :=
  let secs := secs + us / 1000000 in
  let days := days + secs / 86400 in
  if (-999999999 <=? days) && (days <=? 999999999)
  then Ok {| td_days := days; td_secs := secs mod 86400; td_us := us mod 1000000 |}
  else Err OverflowErr.
(** Python: datetime - datetime (both naive, or both with the same tzinfo) *)
Definition dt_sub (a b : pydt) : res tdelta :=
  mk_tdelta (dt_ord a - dt_ord b) (dt_sec a - dt_sec b) (dt_us a - dt_us b).
(** Python: datetime + timedelta, OverflowError outside of years 1..9999 *)
Definition dt_add (a : pydt) (d : tdelta) : res pydt :=
  do r <- mk_tdelta (dt_ord a + td_days d) (dt_sec a + td_secs d) (dt_us a + td_us d);
  if (0 <? td_days r) && (td_days r <=? max_ordinal)
  then Ok {| dt_ord := td_days r; dt_sec := td_secs r; dt_us := td_us r |}
  else Err OverflowErr.
(** Python: timedelta negation *)
Definition td_neg (d : tdelta) : res tdelta := mk_tdelta (- td_days d) (- td_secs d) (- td_us d).
(** Python: date.fromordinal *)
Definition date_from_ordinal (n : Z) : res Z :=
  if (1 <=? n) && (n <=? max_ordinal) then Ok n else Err ValueError.
(** Python: time(h, m, s, us), ValueError when a field is out of range *)
Definition mk_time (h m s us : Z) : res pytime :=
  if (0 <=? h) && (h <? 24) && (0 <=? m) && (m <? 60) && (0 <=? s) && (s <? 60) && (0 <=? us) && (us <? 1000000)
  then Ok {| t_hour := h; t_min := m; t_sec := s; t_us := us |} else Err ValueError.

(** stdlib_datetime.py:35-41: datetime(2000, 1, 1) and its ordinal *)
Definition seconds_in_day : Z := 24 * 60 * 60.
Definition seconds_in_hour : Z := 60 * 60.
Definition pg_date_offset : Z := 730120.
Definition pg_epoch_datetime : pydt := {| dt_ord := pg_date_offset; dt_sec := 0; dt_us := 0 |}.

(** python/datetime.py:8-12 *)
Definition infinity_datetime : pydt := {| dt_ord := max_ordinal; dt_sec := 86399; dt_us := 999999 |}.
Definition negative_infinity_datetime : pydt := {| dt_ord := 1; dt_sec := 0; dt_us := 0 |}.
Definition infinity_date : Z := max_ordinal.
Definition negative_infinity_date : Z := 1.

(** lib.py:68-71 *)
Definition time64_infinity : bytes := [127;255;255;255;255;255;255;255].
Definition time64_negative_infinity : bytes := [128;0;0;0;0;0;0;0].
Definition date_infinity : bytes := [127;255;255;255].
Definition date_negative_infinity : bytes := [128;0;0;0].

(** lib.py:81-83 mktimetuple64, 89-91 mktime64 *)
Definition mktimetuple64 (ts : Z) : Z * Z := (ts / 1000000, ts mod 1000000).
Definition mktime64 (t : Z * Z) : Z := fst t * 1000000 + snd t.
(** lib.py:136-139 *)
Definition time64_pack (t : Z * Z) : res bytes := longlong_pack (mktime64 t).
Definition time64_unpack (d : bytes) : res (Z * Z) := do x <- longlong_unpack d; Ok (mktimetuple64 x).
(** structlib.py:31,35 "!qll" and "!ql": the fields one after the other; unpack_from
    raises unless all of the fields are there *)
Definition ql_pack (q l : Z) : res bytes := do a <- pack_s 8 q; do b <- pack_s 4 l; Ok (a ++ b).
Definition qll_pack (q l m : Z) : res bytes :=
  do a <- pack_s 8 q; do b <- pack_s 4 l; do c <- pack_s 4 m; Ok (a ++ b ++ c).
Definition ql_unpack (d : bytes) : res (Z * Z) :=
  if (length d <? 12)%nat then Err StructError else
  do q <- unpack_s 8 d; do l <- unpack_s 4 (skipn 8 d); Ok (q, l).
Definition qll_unpack (d : bytes) : res (Z * Z * Z) :=
  if (length d <? 16)%nat then Err StructError else
  do q <- unpack_s 8 d; do l <- unpack_s 4 (skipn 8 d); do m <- unpack_s 4 (skipn 12 d); Ok (q, l, m).
(** lib.py:141-156; the triple is (month, day, (seconds, microseconds)) *)
Definition interval64_pack (x : Z * Z * (Z * Z)) : res bytes :=
  let '(month, day, t) := x in qll_pack (mktime64 t) day month.
Definition interval64_unpack (d : bytes) : res (Z * Z * (Z * Z)) :=
  do r <- qll_unpack d; let '(tim, day, month) := r in Ok (month, day, mktimetuple64 tim).
(** lib.py:158-178 *)
Definition interval64_noday_pack (x : Z * Z * (Z * Z)) : res bytes :=
  let '(month, day, t) := x in
  let t := if day =? 0 then t else (fst t + day * 24 * 60 * 60, snd t) in
  ql_pack (mktime64 t) month.
Definition interval64_noday_unpack (d : bytes) : res (Z * Z * (Z * Z)) :=
  do r <- ql_unpack d; let '(tim, month) := r in Ok (month, 0, mktimetuple64 tim).
(** lib.py:199-216 *)
Definition timetz64_pack (x : (Z * Z) * Z) : res bytes := ql_pack (mktime64 (fst x)) (snd x).
Definition timetz64_unpack (d : bytes) : res ((Z * Z) * Z) :=
  do r <- ql_unpack d; Ok (mktimetuple64 (fst r), snd r).

(** What the user may give where infinity is possible: a value or one of the
    strings 'infinity' and '-infinity' (stdlib_datetime.py:50-67) *)
Inductive arg (A : Type) := Val (a : A) | SInf | SNegInf.
Arguments Val {A} a.  Arguments SInf {A}.  Arguments SNegInf {A}.

Definition dt_eqb (a b : pydt) : bool :=
  (dt_ord a =? dt_ord b) && (dt_sec a =? dt_sec b) && (dt_us a =? dt_us b).
(** time64_pack_constants.get, stdlib_datetime.py:50-55 (naive datetimes) *)
Definition time64_const (x : arg pydt) : option bytes :=
  match x with
  | SInf => Some time64_infinity
  | SNegInf => Some time64_negative_infinity
  | Val a => if dt_eqb a infinity_datetime then Some time64_infinity
             else if dt_eqb a negative_infinity_datetime then Some time64_negative_infinity else None
  end.
(** time64_unpack_constants.get, stdlib_datetime.py:68-71 *)
Definition time64_unconst (d : bytes) : option pydt :=
  if seqb d time64_infinity then Some infinity_datetime
  else if seqb d time64_negative_infinity then Some negative_infinity_datetime else None.
(** date_pack_constants, date_unpack_constants, stdlib_datetime.py:62-67,76-79 *)
Definition date_const (x : arg Z) : option bytes :=
  match x with
  | SInf => Some date_infinity
  | SNegInf => Some date_negative_infinity
  | Val a => if a =? infinity_date then Some date_infinity
             else if a =? negative_infinity_date then Some date_negative_infinity else None
  end.
Definition date_unconst (d : bytes) : option Z :=
  if seqb d date_infinity then Some infinity_date
  else if seqb d date_negative_infinity then Some negative_infinity_date else None.

(** stdlib_datetime.py:81-94 date_pack, date_unpack.  Other strings have no
    toordinal: not representable in [arg]. *)
Definition date_pack (x : arg Z) : res bytes :=
  match date_const x, x with
  | Some b, _ => Ok b
  | None, Val o => long_pack (o - pg_date_offset)
  | None, _ => Err AttributeError
  end.
Definition date_unpack (d : bytes) : res Z :=
  match date_unconst d with
  | Some o => Ok o
  | None => do x <- long_unpack d; date_from_ordinal (x + pg_date_offset)
  end.

(** stdlib_datetime.py:96-113 *)
Definition timestamp_pack (x : pydt) : res (Z * Z) :=
  do d <- dt_sub x pg_epoch_datetime; Ok (td_days d * seconds_in_day + td_secs d, td_us d).
Definition timestamp_unpack (t : Z * Z) : res pydt :=
  do d <- mk_tdelta 0 (fst t) (snd t); dt_add pg_epoch_datetime d.
(** the TIMESTAMPOID entry of id_to_io, stdlib_datetime.py:257-261, with
    proc_when_not_in (210-213) *)
Definition timestamp_io_pack (x : arg pydt) : res bytes :=
  match time64_const x, x with
  | Some b, _ => Ok b
  | None, Val a => do t <- timestamp_pack a; time64_pack t
  | None, _ => Err AttributeError
  end.
Definition timestamp_io_unpack (d : bytes) : res pydt :=
  match time64_unconst d with
  | Some x => Ok x
  | None => do t <- time64_unpack d; timestamp_unpack t
  end.

(** an aware or a naive datetime *)
Inductive anydt := Naive (d : pydt) | Aware (local : pydt) (offset : tdelta).
(** Python: x.astimezone(UTC) of an aware datetime: x - x.utcoffset().  (With
    UTC = FixedOffset(0), python/datetime.py:46, converting back adds 0.) *)
Definition astimezone_utc (local : pydt) (offset : tdelta) : res pydt :=
  do n <- td_neg offset; dt_add local n.
(** stdlib_datetime.py:115-124; a naive datetime is taken by astimezone() as
    system local time: [localoff], the offset the system says it has *)
Definition timestamptz_pack (localoff : pydt -> tdelta) (x : anydt) : res (Z * Z) :=
  do u <- match x with Naive d => astimezone_utc d (localoff d) | Aware d o => astimezone_utc d o end;
  do d <- dt_sub u pg_epoch_datetime; Ok (td_days d * seconds_in_day + td_secs d, td_us d).
(** stdlib_datetime.py:126-133: the result is aware, in UTC *)
Definition utc_offset : tdelta := {| td_days := 0; td_secs := 0; td_us := 0 |}.
Definition timestamptz_unpack (t : Z * Z) : res anydt :=
  do d <- mk_tdelta 0 (fst t) (snd t); do r <- dt_add pg_epoch_datetime d; Ok (Aware r utc_offset).
(** TIMESTAMPTZOID, stdlib_datetime.py:262-266.  The constants are naive and an
    aware datetime is never equal to a naive one. *)
Definition timestamptz_io_pack (localoff : pydt -> tdelta) (x : arg anydt) : res bytes :=
  match x with
  | SInf => Ok time64_infinity
  | SNegInf => Ok time64_negative_infinity
  | Val (Aware d o) => do t <- timestamptz_pack localoff (Aware d o); time64_pack t
  | Val (Naive d) =>
      match time64_const (Val d) with
      | Some b => Ok b
      | None => do t <- timestamptz_pack localoff (Naive d); time64_pack t
      end
  end.
Definition timestamptz_io_unpack (d : bytes) : res anydt :=
  match time64_unconst d with
  | Some x => Ok (Naive x)
  | None => do t <- time64_unpack d; timestamptz_unpack t
  end.

(** stdlib_datetime.py:135-153 *)
Definition time_pack (x : pytime) : Z * Z :=
  (t_hour x * seconds_in_hour + t_min x * 60 + t_sec x, t_us x).
Definition time_unpack (t : Z * Z) : res pytime :=
  let minutes := fst t / 60 in let sec := fst t mod 60 in
  let hours := minutes / 60 in let min := minutes mod 60 in
  mk_time hours min sec (snd t).
(** TIMEOID, stdlib_datetime.py:247-251 *)
Definition time_io_pack (x : pytime) : res bytes := time64_pack (time_pack x).
Definition time_io_unpack (d : bytes) : res pytime := do t <- time64_unpack d; time_unpack t.

(** stdlib_datetime.py:154-180; the warning is returned as a boolean *)
Definition interval_pack (x : tdelta) : Z * Z * (Z * Z) := (0, td_days x, (td_secs x, td_us x)).
Definition interval_unpack (x : Z * Z * (Z * Z)) : res (tdelta * bool) :=
  let '(months, days, t) := x in
  do d <- mk_tdelta (days + months * 30) (fst t) (snd t); Ok (d, negb (months =? 0)).
(** INTERVALOID, stdlib_datetime.py:267-276 *)
Definition interval_io_pack (x : tdelta) : res bytes := interval64_pack (interval_pack x).
Definition interval_io_unpack (d : bytes) : res (tdelta * bool) := do t <- interval64_unpack d; interval_unpack t.
Definition interval_noday_io_pack (x : tdelta) : res bytes := interval64_noday_pack (interval_pack x).
Definition interval_noday_io_unpack (d : bytes) : res (tdelta * bool) := do t <- interval64_noday_unpack d; interval_unpack t.

(** python/datetime.py:14-23 FixedOffset: the utcoffset it reports, in whole minutes *)
Definition fixed_offset (secs : Z) : res tdelta := mk_tdelta 0 (secs / 60 * 60) 0.
(** stdlib_datetime.py:182-191 timetz_pack; [None]: no tzinfo (AttributeError) *)
Definition timetz_pack (x : pytime) (off : option tdelta) : res ((Z * Z) * Z) :=
  match off with
  | None => Err AttributeError
  | Some td => Ok (time_pack x, td_days td * seconds_in_day + td_secs td)
  end.
(** stdlib_datetime.py:193-202 *)
Definition timetz_unpack (x : (Z * Z) * Z) : res (pytime * tdelta) :=
  do t <- time_unpack (fst x); do o <- fixed_offset (snd x); Ok (t, o).
(** TIMETZOID, stdlib_datetime.py:252-256 *)
Definition timetz_io_pack (x : pytime) (off : option tdelta) : res bytes :=
  do r <- timetz_pack x off; timetz64_pack r.
Definition timetz_io_unpack (d : bytes) : res (pytime * tdelta) :=
  do r <- timetz64_unpack d; timetz_unpack r.
