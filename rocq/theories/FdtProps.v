(** FdtProps.v: C08, the float formats (a server with integer_datetimes off) *)
From Verif Require Import Base BaseProof TypeIOModel TypeIOSpec DatetimeModel DatetimeSpec DatetimeProof FltModel FltSpec FltProps FdtModel FdtSpec FdtProof4.

(** time: a double of the seconds, less than a microsecond off; it comes back as it was or one microsecond less, exactly if it has
    no microseconds *)
Theorem C08_float_time : forall t, is_time t ->
  exists d x t', ftime_io_pack t = Ok d /\ float_wire d x /\ seconds_near x (time_micros t) 1 /\
    ftime_io_unpack d = Ok t' /\ is_time t' /\ same_or_less (time_micros t') (time_micros t) /\ (t_us t = 0 -> t' = t).
Proof.
  intros t T. destruct (time_fields t T) as (s & P & S & M). pose proof T as (_ & _ & _ & US). destruct (near_33 s (t_us t)) as (x & us' & MK & N & TT & C & P0 & Z0); [change (2 ^ 33) with 8589934592; lia|exact US|].
  destruct (time_back t s us' T P M C P0) as (t' & E' & T' & C' & X'). destruct (near_bytes _ _ _ N) as [B1 B2]. exists (double_pack x), x, t'.
  split; [unfold ftime_io_pack, ftime_pack; rewrite P, MK; reflexivity|]. split; [exact B1|]. split; [rewrite M; exact N|]. split; [unfold ftime_io_unpack, ftime_unpack; rewrite B2; cbn [bind]; rewrite TT; exact E'|].
  split; [exact T'|]. split; [exact C'|]. intros E. apply X'. rewrite (proj2 (Z0 E)). symmetry. exact E.
Qed.
Print Assumptions C08_float_time.
(** timetz: the same; the zone as in the integer format *)
Theorem C08_float_timetz : forall t o, is_time t -> is_offset o ->
  exists d x t' o', ftimetz_io_pack t (Some o) = Ok d /\ float_wire1 d x (td_micros o / 1000000) /\ seconds_near x (time_micros t) 1 /\
    ftimetz_io_unpack d = Ok (t', o') /\ is_time t' /\ same_or_less (time_micros t') (time_micros t) /\ (t_us t = 0 -> t' = t) /\
    is_td o' /\ td_micros o' = td_micros o / 60000000 * 60000000.
Proof.
  intros t o T O. destruct (time_fields t T) as (s & P & S & M). pose proof T as (_ & _ & _ & US). destruct (near_33 s (t_us t)) as (x & us' & MK & N & TT & C & P0 & Z0); [change (2 ^ 33) with 8589934592; lia|exact US|].
  destruct (time_back t s us' T P M C P0) as (t' & E' & T' & C' & X'). destruct (near_float _ _ _ N) as [V F]. destruct O as [(O1 & O2 & O3) O4]. unfold td_micros in O4.
  set (z := td_days o * seconds_in_day + td_secs o). assert (ZE : td_micros o / 1000000 = z) by (unfold z, td_micros, seconds_in_day; lia). assert (ZB : - 86400 <= z < 86400) by (unfold z, seconds_in_day; lia).
  destruct (dl_ok x z V) as (d & D1 & D2 & D3); [change (2 ^ 31) with 2147483648; lia|].
  destruct (mk_tdelta_ok 0 (z / 60 * 60) 0) as (o' & E1 & E2 & E3); [lia|].
  exists d, x, t', o'. split; [unfold ftimetz_io_pack, timetz_pack; cbn [bind]; unfold ftimetz_pack; cbn [fst snd]; rewrite P, MK; exact D1|]. split; [rewrite ZE; exact D2|]. split; [rewrite M; exact N|].
  split; [unfold ftimetz_io_unpack, ftimetz_unpack; rewrite D3; cbn [bind fst snd]; rewrite TT; cbn [bind]; unfold timetz_unpack; cbn [fst snd]; rewrite E'; cbn [bind]; unfold fixed_offset; rewrite E1; reflexivity|].
  split; [exact T'|]. split; [exact C'|]. split; [intros E; apply X'; rewrite (proj2 (Z0 E)); symmetry; exact E|]. split; [exact E2|]. rewrite E3. lia.
Qed.
Print Assumptions C08_float_timetz.

(** timestamp: within 272 years of 2000-01-01 the same or one microsecond less, exactly if it has no microseconds ... *)
Lemma not_const a : is_dt a -> dt_micros a <> dt_micros last_dt -> dt_micros a <> dt_micros first_dt -> time_const (Val a) = None.
Proof.
  intros _ N1 N2. unfold time_const. change infinity_datetime with last_dt. change negative_infinity_datetime with first_dt. destruct (dt_eqb a last_dt) eqn:E1; [apply dt_eqb_eq in E1 as ->; contradiction|]. destruct (dt_eqb a first_dt) eqn:E2; [apply dt_eqb_eq in E2 as ->; contradiction|]. reflexivity.
Qed.
Lemma sub_rep a m : is_dt a -> - era <= dt_micros a - epoch_micros < era -> same_or_less m (dt_micros a) -> representable m.
Proof. intros A R C. unfold representable. rewrite first_micros, last_micros. rewrite epoch_micros_eq in R. unfold era in R. change (2 ^ 33) with 8589934592 in R. destruct C; lia. Qed.
Lemma pair_back a s us' : is_dt a -> - era <= dt_micros a - epoch_micros < era -> - 2 ^ 38 <= s < 2 ^ 38 -> forall us, s * 1000000 + us = dt_micros a - epoch_micros -> same_or_less us' us ->
  exists b, timestamp_unpack (s, us') = Ok b /\ is_dt b /\ same_or_less (dt_micros b) (dt_micros a).
Proof.
  intros A R S us E C. assert (C' : same_or_less (s * 1000000 + us' + epoch_micros) (dt_micros a)) by (destruct C; [left|right]; lia). destruct (ts_back s us' (s * 1000000 + us' + epoch_micros)) as (b & B1 & B2 & B3); [lia|exact (sub_rep a _ A R C')|lia|]. exists b. rewrite B3. auto.
Qed.
Theorem C08_float_timestamp : forall a, is_dt a -> - era <= dt_micros a - epoch_micros < era ->
  exists d x b, ftimestamp_io_pack (Val a) = Ok d /\ float_wire d x /\ seconds_near x (dt_micros a - epoch_micros) 1 /\
    ftimestamp_io_unpack d = Ok b /\ is_dt b /\ same_or_less (dt_micros b) (dt_micros a) /\ (dt_us a = 0 -> b = a).
Proof.
  intros a A R. destruct (ts_pair a A) as (s & us & E & US & M & S). pose proof R as R'. rewrite epoch_micros_eq in R'. unfold era in R'. change (2 ^ 33) with 8589934592 in R'.
  destruct (near_33 s us) as (x & us' & MK & N & TT & C & P0 & Z0); [change (2 ^ 33) with 8589934592; rewrite epoch_micros_eq in M; lia|exact US|].
  destruct (pair_back a s us' A R S us M C) as (b & B1 & B2 & B3). destruct (near_bytes _ _ _ N) as [Y1 Y2]. destruct (near_float _ _ _ N) as [V F]. exists (double_pack x), x, b.
  split; [unfold ftimestamp_io_pack; rewrite not_const; [rewrite E; cbn [bind]; unfold ftime_pack; rewrite MK; reflexivity|exact A|rewrite last_micros; lia|rewrite first_micros; lia]|].
  split; [exact Y1|]. split; [rewrite <- M; exact N|]. split; [unfold ftimestamp_io_unpack; rewrite (finite_unconst _ x Y1 F); unfold ftime_unpack; rewrite Y2; cbn [bind]; rewrite TT; exact B1|]. split; [exact B2|]. split; [exact B3|].
  intros E0. assert (us = 0) as -> by (unfold dt_micros in M; rewrite epoch_micros_eq in M; lia). destruct (Z0 eq_refl) as [_ ->]. destruct (ts_back s 0 (dt_micros a)) as (a' & A1 & A2 & A3); [lia|exact (dt_micros_rep a A)|lia|]. rewrite A1 in B1. injection B1 as <-. apply dt_eq; assumption.
Qed.
Print Assumptions C08_float_timestamp.
(** ... and anywhere else at most 31 microseconds off; the last 31 of the calendar may be read as the year 10000: OverflowError *)
Lemma any_back s' us' m : - 2 ^ 38 - 1 <= s' <= 2 ^ 38 + 1 -> representable m -> Z.abs (s' * 1000000 + us' - (m - epoch_micros)) <= 31 ->
  match timestamp_unpack (s', us') with Ok b => is_dt b /\ Z.abs (dt_micros b - m) <= 31 | Err e => e = OverflowErr /\ ~ representable (s' * 1000000 + us' + epoch_micros) end.
Proof.
  intros S R E. set (m' := s' * 1000000 + us' + epoch_micros). destruct (Z_le_dec (dt_micros first_dt) m') as [L1|L1]; [destruct (Z_le_dec m' (dt_micros last_dt)) as [L2|L2]|].
  - destruct (ts_back s' us' m' S) as (b & -> & B2 & B3); [split; assumption|unfold m'; lia|]. split; [exact B2|]. unfold m' in *. lia.
  - rewrite ts_add_err by (unfold mktime64; cbn [fst snd]; fold m'; unfold representable; lia). split; [reflexivity|unfold representable; lia].
  - rewrite ts_add_err by (unfold mktime64; cbn [fst snd]; fold m'; unfold representable; lia). split; [reflexivity|unfold representable; lia].
Qed.
Theorem C08_float_timestamp_far : forall a, is_dt a -> dt_micros a <> dt_micros last_dt -> dt_micros a <> dt_micros first_dt ->
  exists d x, ftimestamp_io_pack (Val a) = Ok d /\ float_wire d x /\ seconds_near x (dt_micros a - epoch_micros) 31 /\
    match ftimestamp_io_unpack d with
    | Ok b => is_dt b /\ Z.abs (dt_micros b - dt_micros a) <= 31
    | Err e => e = OverflowErr /\ (dt_micros a < dt_micros first_dt + 31 \/ dt_micros last_dt - 31 < dt_micros a)
    end.
Proof.
  intros a A N1 N2. destruct (ts_pair a A) as (s & us & E & US & M & S). destruct (near_38 s us S US) as (x & s' & us' & MK & N & TT & C & SB & UB).
  destruct (near_bytes _ _ _ N) as [Y1 Y2]. destruct (near_float _ _ _ N) as [V F]. exists (double_pack x), x.
  split; [unfold ftimestamp_io_pack; rewrite not_const by assumption; rewrite E; cbn [bind]; unfold ftime_pack; rewrite MK; reflexivity|].
  split; [exact Y1|]. split; [rewrite <- M; exact N|]. unfold ftimestamp_io_unpack. rewrite (finite_unconst _ x Y1 F). unfold ftime_unpack. rewrite Y2. cbn [bind]. rewrite TT. cbn [bind].
  rewrite M in C. pose proof (any_back s' us' (dt_micros a) SB (dt_micros_rep a A) C) as H. destruct (timestamp_unpack (s', us')); [exact H|]. destruct H as [H1 H2]. split; [exact H1|]. pose proof (dt_micros_rep a A) as R. unfold representable in *. lia.
Qed.
Print Assumptions C08_float_timestamp_far.
(** timestamptz: the instant, likewise, given back in UTC *)
Theorem C08_float_timestamptz : forall lo a o, is_dt a -> is_offset o -> representable (instant a o) ->
  exists d x, ftimestamptz_io_pack lo (Val (Aware a o)) = Ok d /\ float_wire d x /\ seconds_near x (instant a o - epoch_micros) 31 /\
    match ftimestamptz_io_unpack d with
    | Ok b => exists u, b = Aware u utc_offset /\ is_dt u /\ Z.abs (dt_micros u - instant a o) <= 31
    | Err e => e = OverflowErr /\ (instant a o < dt_micros first_dt + 31 \/ dt_micros last_dt - 31 < instant a o)
    end.
Proof.
  intros lo a o A O R. destruct (dt_of_micros _ R) as (u & U & EU). destruct (ts_pair u U) as (s & us & E & US & M & S). destruct (near_38 s us S US) as (x & s' & us' & MK & N & TT & C & SB & UB).
  destruct (near_bytes _ _ _ N) as [Y1 Y2]. destruct (near_float _ _ _ N) as [V F]. exists (double_pack x), x.
  split; [unfold ftimestamptz_io_pack, timestamptz_pack; rewrite (astz_ok a o u O U EU); cbn [bind]; unfold timestamp_pack in E; rewrite E; cbn [bind]; unfold ftime_pack; rewrite MK; reflexivity|].
  split; [exact Y1|]. split; [rewrite <- EU, <- M; exact N|]. unfold ftimestamptz_io_unpack. rewrite (finite_unconst _ x Y1 F). unfold ftime_unpack. rewrite Y2. cbn [bind]. rewrite TT. cbn [bind].
  rewrite M in C. pose proof (any_back s' us' (dt_micros u) SB (dt_micros_rep u U) C) as H. unfold timestamptz_unpack. unfold timestamp_unpack in H. destruct (mk_tdelta 0 (fst (s', us')) (snd (s', us'))) as [td|e]; cbn [bind] in *; [destruct (dt_add pg_epoch_datetime td) as [b|e]; cbn [bind] in *|].
  - exists b. rewrite <- EU. split; [reflexivity|exact H].
  - destruct H as [H1 H2]. split; [exact H1|]. unfold representable in *. lia.
  - destruct H as [H1 H2]. split; [exact H1|]. unfold representable in *. lia.
Qed.
Print Assumptions C08_float_timestamptz.
(** the infinities are IEEE's, and the last and first datetime *)
Theorem C08_float_infinity : forall lo,
  (exists d, ftimestamp_io_pack SInf = Ok d /\ ftimestamptz_io_pack lo SInf = Ok d /\ ftimestamp_io_pack (Val last_dt) = Ok d /\ float_wire d (S754_infinity false) /\ ftimestamp_io_unpack d = Ok last_dt) /\
  (exists d, ftimestamp_io_pack SNegInf = Ok d /\ ftimestamptz_io_pack lo SNegInf = Ok d /\ ftimestamp_io_pack (Val first_dt) = Ok d /\ float_wire d (S754_infinity true) /\ ftimestamp_io_unpack d = Ok first_dt).
Proof.
  intros lo. split; [exists time_infinity|exists time_negative_infinity]; (split; [reflexivity|]; split; [reflexivity|]; split; [reflexivity|]); [split; [exact inf_bytes|reflexivity]|split; [exact ninf_bytes|reflexivity]].
Qed.
Print Assumptions C08_float_infinity.
(** an infinite time and a NaN of any type is an error *)
Theorem C08_float_not_finite : forall d x, float_wire d x -> ~ finite x ->
  (x = S754_nan -> ftime_io_unpack d = Err ValueError /\ ftimestamp_io_unpack d = Err ValueError) /\ (x <> S754_nan -> ftime_io_unpack d = Err OverflowErr).
Proof.
  intros d x W F. pose proof W as (Y0 & L & _). destruct (C79_double_unpack d [] Y0 L) as (y & U & E & _). rewrite app_nil_r in U. rewrite (C79_bytes _ _ _ E W) in U.
  split.
  - intros ->. assert (T : ftime_unpack d = Err ValueError) by (unfold ftime_unpack; rewrite U; reflexivity). unfold ftime_io_unpack, ftimestamp_io_unpack. rewrite T. split; [reflexivity|]. replace (time_unconst d) with (@None pydt); [reflexivity|]. symmetry. unfold time_unconst.
    destruct (seqb d time_infinity) eqn:E1; [apply seqb_eq in E1 as ->; discriminate (C79_bytes _ _ _ W inf_bytes)|]. destruct (seqb d time_negative_infinity) eqn:E2; [apply seqb_eq in E2 as ->; discriminate (C79_bytes _ _ _ W ninf_bytes)|]. reflexivity.
  - intros N. unfold ftime_io_unpack, ftime_unpack. rewrite U. destruct x; try contradiction; try reflexivity; exfalso; apply F; exact Logic.I.
Qed.
Print Assumptions C08_float_not_finite.
(** interval: the seconds of the day like a time, days and months as in the integer format *)
Theorem C08_float_interval : forall t, is_td t ->
  exists d x t', finterval_io_pack t = Ok d /\ float_wire2 d x (td_days t) 0 /\ seconds_near x (td_secs t * 1000000 + td_us t) 1 /\
    finterval_io_unpack d = Ok (t', false) /\ is_td t' /\ same_or_less (td_micros t') (td_micros t) /\ (td_us t = 0 -> t' = t).
Proof.
  intros t T. pose proof T as (T1 & T2 & T3). destruct (near_33 (td_secs t) (td_us t)) as (x & us' & MK & N & TT & C & P0 & Z0); [change (2 ^ 33) with 8589934592; lia|exact T3|]. destruct (near_float _ _ _ N) as [V F].
  destruct (dll_ok x (td_days t) 0 V) as (d & D1 & D2 & D3); [change (2 ^ 31) with 2147483648; lia|change (2 ^ 31) with 2147483648; lia|].
  destruct (mk_tdelta_ok (td_days t + 0 * 30) (td_secs t) us') as (t' & E1 & E2 & E3); [destruct C; lia|].
  exists d, x, t'. split; [unfold finterval_io_pack, interval_pack, finterval_pack; rewrite MK; exact D1|]. split; [exact D2|]. split; [exact N|].
  split; [unfold finterval_io_unpack, finterval_unpack; rewrite D3; cbn [bind]; rewrite TT; cbn [bind]; unfold interval_unpack; cbn [fst snd]; rewrite E1; reflexivity|]. split; [exact E2|].
  assert (M : td_micros t' = (td_days t * 86400 + td_secs t) * 1000000 + us') by lia. split; [rewrite M; unfold td_micros; destruct C; [left|right]; lia|].
  intros E. apply td_eq; [exact E2|exact T|]. rewrite M. unfold td_micros. rewrite (proj2 (Z0 E)). lia.
Qed.
Print Assumptions C08_float_interval.
(** ... in the old format without days, within 272 years *)
Theorem C08_float_interval_noday : forall t, is_td t -> - era <= td_micros t < era ->
  exists d x t', finterval_noday_io_pack t = Ok d /\ float_wire1 d x 0 /\ seconds_near x (td_micros t) 1 /\
    finterval_noday_io_unpack d = Ok (t', false) /\ is_td t' /\ same_or_less (td_micros t') (td_micros t) /\ (td_us t = 0 -> t' = t).
Proof.
  intros t T R. pose proof T as (T1 & T2 & T3). unfold era, td_micros in R. change (2 ^ 33) with 8589934592 in R. set (s := td_secs t + td_days t * 24 * 60 * 60).
  destruct (near_33 s (td_us t)) as (x & us' & MK & N & TT & C & P0 & Z0); [change (2 ^ 33) with 8589934592; unfold s; lia|exact T3|]. destruct (near_float _ _ _ N) as [V F].
  destruct (dl_ok x 0 V) as (d & D1 & D2 & D3); [change (2 ^ 31) with 2147483648; lia|].
  destruct (mk_tdelta_ok (0 + 0 * 30) s us') as (t' & E1 & E2 & E3); [unfold s; destruct C; lia|].
  assert (M0 : td_micros t = s * 1000000 + td_us t) by (unfold td_micros, s; lia).
  exists d, x, t'. split; [unfold finterval_noday_io_pack, interval_pack, finterval_noday_pack; replace (if td_days t =? 0 then (td_secs t, td_us t) else (fst (td_secs t, td_us t) + td_days t * 24 * 60 * 60, snd (td_secs t, td_us t))) with (s, td_us t); [rewrite MK; exact D1|]|].
  { unfold s. cbn [fst snd]. destruct (Z.eqb_spec (td_days t) 0) as [->|]; [f_equal; lia|reflexivity]. }
  split; [exact D2|]. split; [rewrite M0; exact N|].
  split; [unfold finterval_noday_io_unpack, finterval_noday_unpack; rewrite D3; cbn [bind]; rewrite TT; cbn [bind]; unfold interval_unpack; cbn [fst snd]; rewrite E1; reflexivity|]. split; [exact E2|].
  assert (M : td_micros t' = s * 1000000 + us') by lia. split; [rewrite M, M0; destruct C; [left|right]; lia|].
  intros E. apply td_eq; [exact E2|exact T|]. rewrite M, M0. rewrite (proj2 (Z0 E)), E. reflexivity.
Qed.
Print Assumptions C08_float_interval_noday.

(** received intervals: for every number of seconds and microseconds there is a double for it (the nearest: [seconds_near]) such that
    whatever days and months the server puts behind it, the months count 30 days each, with a warning exactly when there are any, and
    a sum beyond timedelta is refused; whole seconds are exact *)
Theorem C08_float_interval_received : forall s us, - 2 ^ 33 <= s < 2 ^ 33 -> 0 <= us < 1000000 ->
  exists x, seconds_near x (s * 1000000 + us) 1 /\ (us = 0 -> units x = s * one) /\
  (forall d days months, float_wire2 d x days months ->
     let total := (days + 30 * months) * 86400000000 + s * 1000000 + us in
     (-999999999 * 86400000000 < total < 1000000000 * 86400000000 ->
        exists t, finterval_io_unpack d = Ok (t, negb (months =? 0)) /\ is_td t /\ same_or_less (td_micros t) total /\ (us = 0 -> td_micros t = total)) /\
     (~ -999999999 * 86400000000 <= total < 1000000000 * 86400000000 + 1 -> finterval_io_unpack d = Err OverflowErr)) /\
  (forall d months, float_wire1 d x months ->
     let total := 30 * months * 86400000000 + s * 1000000 + us in
     (-999999999 * 86400000000 < total < 1000000000 * 86400000000 ->
        exists t, finterval_noday_io_unpack d = Ok (t, negb (months =? 0)) /\ is_td t /\ same_or_less (td_micros t) total /\ (us = 0 -> td_micros t = total)) /\
     (~ -999999999 * 86400000000 <= total < 1000000000 * 86400000000 + 1 -> finterval_noday_io_unpack d = Err OverflowErr)).
Proof.
  intros s us Hs US. destruct (near_33 s us Hs US) as (x & us' & MK & N & TT & C & P0 & Z0). destruct (near_float _ _ _ N) as [V F]. exists x.
  split; [exact N|]. split; [intros E; exact (proj1 (Z0 E))|].
  assert (G : forall days months, let total := (days + 30 * months) * 86400000000 + s * 1000000 + us in
     (-999999999 * 86400000000 < total < 1000000000 * 86400000000 ->
        exists t, interval_unpack (months, days, (s, us')) = Ok (t, negb (months =? 0)) /\ is_td t /\ same_or_less (td_micros t) total /\ (us = 0 -> td_micros t = total)) /\
     (~ -999999999 * 86400000000 <= total < 1000000000 * 86400000000 + 1 -> interval_unpack (months, days, (s, us')) = Err OverflowErr)).
  { intros days months total. unfold interval_unpack. cbn [fst snd]. split; intros R.
    - destruct (mk_tdelta_ok (days + months * 30) s us') as (t & E1 & E2 & E3); [unfold total in R; destruct C; lia|]. exists t. rewrite E1. split; [reflexivity|]. split; [exact E2|].
      rewrite E3. unfold total, same_or_less. split; [destruct C; lia|]. intros E. rewrite (proj2 (Z0 E)), E. lia.
    - rewrite mk_tdelta_err; [reflexivity|]. unfold total in R. destruct C; lia. }
  split.
  - intros d days months W. pose proof (G days months) as G1. unfold finterval_io_unpack, finterval_unpack. rewrite (dll_wire _ _ _ _ V W). cbn [bind]. rewrite TT. cbn [bind]. exact G1.
  - intros d months W. pose proof (G 0 months) as G1. cbv zeta in *. rewrite Z.add_0_l in G1. unfold finterval_noday_io_unpack, finterval_noday_unpack. rewrite (dl_wire _ _ _ V W). cbn [bind]. rewrite TT. cbn [bind]. exact G1.
Qed.
Print Assumptions C08_float_interval_received.
(** one month and a second and a half, from a server without the day field *)
Example C08_float_interval_received_ex : finterval_noday_io_unpack ([63; 248; 0; 0; 0; 0; 0; 0] ++ [0; 0; 0; 1]) = Ok ({| td_days := 30; td_secs := 1; td_us := 500000 |}, true).
Proof. vm_compute. reflexivity. Qed.

(** refuted: the times, timestamps and intervals come back as they were.  00:00:01.001 comes back as 00:00:01.000999 *)
Theorem C08_float_refuted : exists t d t', is_time t /\ ftime_io_pack t = Ok d /\ ftime_io_unpack d = Ok t' /\ time_micros t = 1001000 /\ time_micros t' = 1000999.
Proof.
  exists {| t_hour := 0; t_min := 0; t_sec := 1; t_us := 1000 |}, [63; 240; 4; 24; 147; 116; 188; 106], {| t_hour := 0; t_min := 0; t_sec := 1; t_us := 999 |}.
  split; [unfold is_time; cbn; lia|]. split; [vm_compute; reflexivity|]. split; [vm_compute; reflexivity|]. split; reflexivity.
Qed.
Print Assumptions C08_float_refuted.
Example C08_float_ex : ftime_io_pack {| t_hour := 0; t_min := 0; t_sec := 1; t_us := 500000 |} = Ok [63; 248; 0; 0; 0; 0; 0; 0].
Proof. vm_compute. reflexivity. Qed.
(** the last second of year 9999 becomes the year 10000 *)
Example C08_float_ex_overflow : exists d, ftimestamp_io_pack (Val {| dt_ord := last_date; dt_sec := 86399; dt_us := 999998 |}) = Ok d /\ ftimestamp_io_unpack d = Err OverflowErr.
Proof. eexists. split; [vm_compute; reflexivity|vm_compute; reflexivity]. Qed.
