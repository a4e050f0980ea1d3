(** DatetimeSpec.v: PostgreSQL's binary date/time formats (integer datetimes) and
    Python's values, stated without the code. *)
From Verif Require Import Base TypeIOSpec DatetimeModel.

(** proleptic Gregorian calendar: the ordinal of January 1st of year y, day 1
    being 0001-01-01 *)
Definition jan1 (y : Z) : Z := 365 * (y - 1) + (y - 1) / 4 - (y - 1) / 100 + (y - 1) / 400 + 1.
(** Python's dates: 0001-01-01 .. 9999-12-31 *)
Definition is_date (o : Z) : Prop := jan1 1 <= o < jan1 10000.
Definition is_dt (d : pydt) : Prop :=
  is_date (dt_ord d) /\ 0 <= dt_sec d < 86400 /\ 0 <= dt_us d < 1000000.
Definition is_td (d : tdelta) : Prop :=
  - 999999999 <= td_days d <= 999999999 /\ 0 <= td_secs d < 86400 /\ 0 <= td_us d < 1000000.
Definition is_time (t : pytime) : Prop :=
  0 <= t_hour t < 24 /\ 0 <= t_min t < 60 /\ 0 <= t_sec t < 60 /\ 0 <= t_us t < 1000000.
(** the microseconds each denotes (a datetime: since the day before day 1) *)
Definition dt_micros (d : pydt) : Z := (dt_ord d * 86400 + dt_sec d) * 1000000 + dt_us d.
Definition td_micros (d : tdelta) : Z := (td_days d * 86400 + td_secs d) * 1000000 + td_us d.
Definition time_micros (t : pytime) : Z :=
  ((t_hour t * 60 + t_min t) * 60 + t_sec t) * 1000000 + t_us t.
(** PostgreSQL counts from 2000-01-01 00:00 *)
Definition epoch_day : Z := jan1 2000.
Definition epoch_micros : Z := epoch_day * 86400 * 1000000.

(** PostgreSQL's infinities *)
Definition date_posinf : Z := 2 ^ 31 - 1.   Definition date_neginf : Z := - 2 ^ 31.
Definition ts_posinf : Z := 2 ^ 63 - 1.     Definition ts_neginf : Z := - 2 ^ 63.
Definition last_date : Z := jan1 10000 - 1.
Definition last_dt : pydt := {| dt_ord := last_date; dt_sec := 86399; dt_us := 999999 |}.
Definition first_dt : pydt := {| dt_ord := jan1 1; dt_sec := 0; dt_us := 0 |}.

(** utc offsets of Python: strictly between -24h and 24h *)
Definition is_offset (o : tdelta) : Prop := is_td o /\ - 86400 * 1000000 < td_micros o < 86400 * 1000000.
Definition dt_of_any (x : anydt) : pydt := match x with Naive d => d | Aware d _ => d end.
(** the instant of an aware datetime *)
Definition instant (d : pydt) (o : tdelta) : Z := dt_micros d - td_micros o.
Definition representable (us : Z) : Prop := dt_micros first_dt <= us <= dt_micros last_dt.

(** interval: microseconds, days, months; timetz: microseconds and zone *)
Definition interval_wire (d : list Z) (us days months : Z) : Prop :=
  exists a b c, d = a ++ b ++ c /\ twos 8 a us /\ twos 4 b days /\ twos 4 c months.
Definition two_field_wire (d : list Z) (us l : Z) : Prop :=
  exists a b, d = a ++ b /\ twos 8 a us /\ twos 4 b l.

(** the number that stands for a date on the wire, and the date a number stands for;
    the first and the last date stand for the infinities *)
Definition date_code (o : Z) : Z :=
  if o =? last_date then date_posinf else if o =? jan1 1 then date_neginf else o - epoch_day.
Definition date_value (x : Z) : res Z :=
  if x =? date_posinf then Ok last_date else if x =? date_neginf then Ok (jan1 1)
  else if (jan1 1 <=? x + epoch_day) && (x + epoch_day <=? last_date) then Ok (x + epoch_day) else Err ValueError.
(** the number that stands for a timestamp *)
Definition is_same (a b : pydt) : bool :=
  (dt_ord a =? dt_ord b) && (dt_sec a =? dt_sec b) && (dt_us a =? dt_us b).
Definition dt_code (a : pydt) : Z :=
  if is_same a last_dt then ts_posinf else if is_same a first_dt then ts_neginf else dt_micros a - epoch_micros.
