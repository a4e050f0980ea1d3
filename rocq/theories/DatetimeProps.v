(** DatetimeProps.v: C08. *)
From Verif Require Import Base BaseProof TypeIOModel TypeIOSpec DatetimeModel DatetimeSpec DatetimeProof.

(** ** date *)
Theorem C08_date_sent : forall o, is_date o -> exists d, date_pack (Val o) = Ok d /\ twos 4 d (date_code o).
Proof. exact date_pack_ok. Qed.
Print Assumptions C08_date_sent.
Theorem C08_date_received : forall d x, twos 4 d x -> date_unpack d = date_value x.
Proof. exact date_unpack_ok. Qed.
Print Assumptions C08_date_received.
Theorem C08_date_roundtrip : forall o, is_date o -> exists d, date_pack (Val o) = Ok d /\ date_unpack d = Ok o.
Proof. exact date_roundtrip. Qed.
Print Assumptions C08_date_roundtrip.
(** the strings 'infinity' and '-infinity' *)
Theorem C08_infinity_strings : forall lo,
  (exists d, date_pack SInf = Ok d /\ twos 4 d date_posinf) /\
  (exists d, date_pack SNegInf = Ok d /\ twos 4 d date_neginf) /\
  (exists d, timestamp_io_pack SInf = Ok d /\ timestamptz_io_pack lo SInf = Ok d /\ twos 8 d ts_posinf) /\
  (exists d, timestamp_io_pack SNegInf = Ok d /\ timestamptz_io_pack lo SNegInf = Ok d /\ twos 8 d ts_neginf).
Proof.
  intros lo. split; [|split; [|split]]; eexists; split; try reflexivity; try split; try reflexivity;
    [apply dinf|apply dninf|apply tinf|apply tninf].
Qed.
Print Assumptions C08_infinity_strings.
(** "the infinities map to the infinity codes only" is refuted for the last and the
    first date and timestamp: the finite dates 9999-12-31 and 0001-01-01 read from the
    server are written back as the infinities *)
Theorem C08_last_date_refuted : exists d d', twos 4 d (last_date - epoch_day) /\
  date_unpack d = Ok last_date /\ date_pack (Val last_date) = Ok d' /\ twos 4 d' date_posinf /\ d' <> d.
Proof.
  destruct (twos_exists 4 (last_date - epoch_day)) as (d & _ & T); [lia|vm_compute; split; [discriminate|reflexivity]|].
  exists d, date_infinity. split; [exact T|]. split; [rewrite (date_unpack_ok _ _ T); reflexivity|]. split; [reflexivity|].
  split; [exact dinf|]. intros <-. pose proof (twos_fun 4 _ _ _ ltac:(lia) T dinf). discriminate.
Qed.
Print Assumptions C08_last_date_refuted.

(** ** timestamp *)
Theorem C08_timestamp_sent : forall a, is_dt a ->
  exists d, timestamp_io_pack (Val a) = Ok d /\ twos 8 d (dt_code a).
Proof. exact timestamp_pack_ok. Qed.
Print Assumptions C08_timestamp_sent.
Theorem C08_timestamp_received : forall d x, twos 8 d x ->
  (x = ts_posinf -> timestamp_io_unpack d = Ok last_dt) /\
  (x = ts_neginf -> timestamp_io_unpack d = Ok first_dt) /\
  (x <> ts_posinf -> x <> ts_neginf ->
     (forall a, is_dt a -> dt_micros a = x + epoch_micros -> timestamp_io_unpack d = Ok a) /\
     (~ representable (x + epoch_micros) -> timestamp_io_unpack d = Err OverflowErr)).
Proof.
  intros d x H. split; [intros ->; apply timestamp_unpack_inf; auto|].
  split; [intros ->; apply timestamp_unpack_neginf; auto|]. intros N1 N2. split.
  - intros a Ha E. eapply timestamp_unpack_val; eauto.
  - intros R. eapply timestamp_unpack_err; eauto.
Qed.
Print Assumptions C08_timestamp_received.
(** the two cases of the previous theorem are all there is *)
Theorem C08_representable : forall us, representable us <-> exists a, is_dt a /\ dt_micros a = us.
Proof. intros us. split; [apply dt_of_micros|]. intros (a & H & <-). apply dt_micros_rep; auto. Qed.
Print Assumptions C08_representable.
Theorem C08_timestamp_roundtrip : forall a, is_dt a ->
  exists d, timestamp_io_pack (Val a) = Ok d /\ timestamp_io_unpack d = Ok a.
Proof. exact timestamp_roundtrip. Qed.
Print Assumptions C08_timestamp_roundtrip.

(** ** timestamptz: the instant is kept; the answer is in UTC *)
Theorem C08_timestamptz_sent : forall lo d o, is_dt d -> is_offset o -> representable (instant d o) ->
  exists w, timestamptz_io_pack lo (Val (Aware d o)) = Ok w /\ twos 8 w (instant d o - epoch_micros).
Proof. exact timestamptz_pack_ok. Qed.
Print Assumptions C08_timestamptz_sent.
Theorem C08_timestamptz_sent_out_of_range : forall lo d o, is_offset o -> ~ representable (instant d o) ->
  timestamptz_io_pack lo (Val (Aware d o)) = Err OverflowErr.
Proof. exact timestamptz_pack_err. Qed.
Print Assumptions C08_timestamptz_sent_out_of_range.
Theorem C08_timestamptz_received : forall w x, twos 8 w x -> x <> ts_posinf -> x <> ts_neginf ->
  (forall u, is_dt u -> dt_micros u = x + epoch_micros -> timestamptz_io_unpack w = Ok (Aware u utc_offset)) /\
  (~ representable (x + epoch_micros) -> timestamptz_io_unpack w = Err OverflowErr).
Proof.
  intros w x H N1 N2. split.
  - intros u Hu E. eapply timestamptz_unpack_val; eauto.
  - intros R. eapply timestamptz_unpack_err; eauto.
Qed.
Print Assumptions C08_timestamptz_received.
Theorem C08_timestamptz_roundtrip : forall lo d o, is_dt d -> is_offset o -> representable (instant d o) ->
  exists w u, timestamptz_io_pack lo (Val (Aware d o)) = Ok w /\ timestamptz_io_unpack w = Ok (Aware u utc_offset) /\
    is_dt u /\ instant u utc_offset = instant d o.
Proof. exact timestamptz_roundtrip. Qed.
Print Assumptions C08_timestamptz_roundtrip.
(** refuted: the infinities of timestamptz are read as naive datetimes, which cannot
    be compared with the other (aware) values of the column *)
Theorem C08_timestamptz_infinity_naive_refuted : forall w,
  (twos 8 w ts_posinf -> timestamptz_io_unpack w = Ok (Naive last_dt)) /\
  (twos 8 w ts_neginf -> timestamptz_io_unpack w = Ok (Naive first_dt)).
Proof. exact timestamptz_unpack_inf. Qed.
Print Assumptions C08_timestamptz_infinity_naive_refuted.

(** ** time *)
Theorem C08_time_sent : forall t, is_time t -> exists d, time_io_pack t = Ok d /\ twos 8 d (time_micros t).
Proof. exact time_pack_ok. Qed.
Print Assumptions C08_time_sent.
Theorem C08_time_roundtrip : forall t, is_time t -> exists d, time_io_pack t = Ok d /\ time_io_unpack d = Ok t.
Proof.
  intros t H. destruct (time_pack_ok t H) as (d & E & T). exists d. split; [exact E|]. eapply time_io_unpack_ok; eauto.
Qed.
Print Assumptions C08_time_roundtrip.
Theorem C08_time_received : forall d x, twos 8 d x ->
  (0 <= x < 86400000000 -> exists t, time_io_unpack d = Ok t /\ is_time t /\ time_micros t = x) /\
  (~ 0 <= x < 86400000000 -> time_io_unpack d = Err ValueError).
Proof.
  intros d x H. split.
  - intros R. destruct (time_of_micros x R) as (t & Ht & Et). exists t. split; [eapply time_io_unpack_ok; eauto|auto].
  - intros R. eapply time_io_unpack_err; eauto.
Qed.
Print Assumptions C08_time_received.
(** in particular PostgreSQL's time '24:00:00' cannot be read *)
Theorem C08_midnight24_refuted : exists d, twos 8 d (24 * 3600 * 1000000) /\ time_io_unpack d = Err ValueError.
Proof.
  destruct (twos_exists 8 (24 * 3600 * 1000000)) as (d & _ & T); [lia|vm_compute; split; [discriminate|reflexivity]|].
  exists d. split; [exact T|]. eapply time_io_unpack_err; eauto. lia.
Qed.
Print Assumptions C08_midnight24_refuted.

(** ** timetz *)
Theorem C08_timetz_sent : forall t o, is_time t -> is_offset o ->
  exists d, timetz_io_pack t (Some o) = Ok d /\ two_field_wire d (time_micros t) (td_micros o / 1000000).
Proof. exact timetz_pack_ok. Qed.
Print Assumptions C08_timetz_sent.
(** what comes back: the same time, the utc offset rounded down to a whole minute *)
Theorem C08_timetz_returns : forall t o, is_time t -> is_offset o ->
  exists d o', timetz_io_pack t (Some o) = Ok d /\ timetz_io_unpack d = Ok (t, o') /\ is_td o' /\
    td_micros o' = td_micros o / 60000000 * 60000000.
Proof. exact timetz_returns. Qed.
Print Assumptions C08_timetz_returns.
Theorem C08_timetz_roundtrip_partial : forall t o, is_time t -> is_offset o -> td_micros o mod 60000000 = 0 ->
  exists d, timetz_io_pack t (Some o) = Ok d /\ timetz_io_unpack d = Ok (t, o).
Proof.
  intros t o Ht Ho M. destruct (timetz_returns t o Ht Ho) as (d & o' & E1 & E2 & W & E3). exists d. split; [exact E1|].
  rewrite (td_eq o o'); [exact E2|apply Ho|exact W|lia].
Qed.
Print Assumptions C08_timetz_roundtrip_partial.
(** refuted: an offset with seconds is changed *)
Theorem C08_timetz_seconds_refuted : exists t o d o', is_time t /\ is_offset o /\
  timetz_io_pack t (Some o) = Ok d /\ timetz_io_unpack d = Ok (t, o') /\ td_micros o' <> td_micros o.
Proof.
  set (t := {| t_hour := 12; t_min := 0; t_sec := 0; t_us := 0 |}).
  destruct (offset_exists 1172) as (o & Ho & Eo); [lia|].
  assert (Ht : is_time t) by (unfold is_time; cbn; lia).
  destruct (timetz_returns t o Ht Ho) as (d & o' & E1 & E2 & W & E3). exists t, o, d, o'.
  repeat (split; [assumption|]). rewrite E3, Eo. lia.
Qed.
Print Assumptions C08_timetz_seconds_refuted.
(** refuted: PostgreSQL's zone field counts seconds WEST of UTC (the offset negated);
    the field sent for any non-zero offset of a whole second has the opposite sign *)
Theorem C08_timetz_zone_sign_refuted : forall t s, is_time t -> - 86400 < s < 86400 -> s <> 0 ->
  exists o d, is_offset o /\ td_micros o = s * 1000000 /\ timetz_io_pack t (Some o) = Ok d /\
    two_field_wire d (time_micros t) s /\ s <> - s.
Proof.
  intros t s Ht Hs N. destruct (offset_exists s Hs) as (o & Ho & Eo).
  destruct (timetz_pack_ok t o Ht Ho) as (d & E & W). exists o, d. split; [exact Ho|]. split; [exact Eo|]. split; [exact E|].
  split; [|lia]. replace s with (td_micros o / 1000000) by (rewrite Eo; apply Z.div_mul; lia). exact W.
Qed.
Print Assumptions C08_timetz_zone_sign_refuted.

(** ** interval *)
Theorem C08_interval_sent : forall t, is_td t -> exists d, interval_io_pack t = Ok d /\
  interval_wire d (td_secs t * 1000000 + td_us t) (td_days t) 0.
Proof. exact interval_pack_ok. Qed.
Print Assumptions C08_interval_sent.
Theorem C08_interval_roundtrip : forall t, is_td t ->
  exists d, interval_io_pack t = Ok d /\ interval_io_unpack d = Ok (t, false).
Proof. exact interval_roundtrip. Qed.
Print Assumptions C08_interval_roundtrip.
(** read: months count 30 days each, with a warning exactly when there are any; a
    value outside of timedelta's range is refused *)
Theorem C08_interval_received : forall d us days months, interval_wire d us days months ->
  let total := (days + 30 * months) * 86400000000 + us in
  (forall t, is_td t -> td_micros t = total -> interval_io_unpack d = Ok (t, negb (months =? 0))) /\
  (~ -999999999 * 86400000000 <= total < 1000000000 * 86400000000 -> interval_io_unpack d = Err OverflowErr).
Proof.
  intros d us days months H total. split.
  - intros t W E. eapply interval_unpack_ok; eauto.
  - intros R. eapply interval_unpack_err; eauto.
Qed.
Print Assumptions C08_interval_received.
(** servers up to 8.0, no day field: exactly the timedeltas of at most 2^63 microseconds *)
Theorem C08_interval_noday_roundtrip : forall t, is_td t -> - 2 ^ 63 <= td_micros t < 2 ^ 63 ->
  exists d, interval_noday_io_pack t = Ok d /\ interval_noday_io_unpack d = Ok (t, false).
Proof. exact noday_roundtrip. Qed.
Print Assumptions C08_interval_noday_roundtrip.
Theorem C08_interval_noday_range : forall t, is_td t -> ~ - 2 ^ 63 <= td_micros t < 2 ^ 63 ->
  forall d, interval_noday_io_pack t <> Ok d.
Proof. exact noday_pack_err. Qed.
Print Assumptions C08_interval_noday_range.
Theorem C08_interval_noday_received : forall d us months, two_field_wire d us months ->
  let total := 30 * months * 86400000000 + us in
  (forall t, is_td t -> td_micros t = total -> interval_noday_io_unpack d = Ok (t, negb (months =? 0))) /\
  (~ -999999999 * 86400000000 <= total < 1000000000 * 86400000000 -> interval_noday_io_unpack d = Err OverflowErr).
Proof.
  intros d us months H total. unfold interval_noday_io_unpack, interval64_noday_unpack. rewrite (ql_unpack_ok _ _ _ H). cbn [bind]. split.
  - intros t W E. apply interval_unpack_gen; auto.
  - intros R. apply interval_unpack_gen_err. unfold total in R. lia.
Qed.
Print Assumptions C08_interval_noday_received.

(** 2015-06-03 12:34:56.789012 +02:30 *)
Example C08_ex : let d := {| dt_ord := jan1 2015 + 153; dt_sec := 45296; dt_us := 789012 |} in
  let o := {| td_days := 0; td_secs := 9000; td_us := 0 |} in
  is_dt d /\ is_offset o /\ representable (instant d o) /\
  timestamp_io_pack (Val d) = Ok (be 8 486650096789012) /\
  timestamptz_io_pack (fun _ => o) (Val (Aware d o)) = Ok (be 8 (486650096789012 - 9000000000)) /\
  timestamp_io_unpack (be 8 486650096789012) = Ok d.
Proof.
  split; [unfold is_dt, is_date; cbn; vm_compute; repeat split; discriminate|].
  split; [unfold is_offset, is_td, td_micros; cbn; lia|].
  split; [unfold representable; rewrite first_micros, last_micros; vm_compute; split; discriminate|].
  repeat split; vm_compute; reflexivity.
Qed.
Example C08_ex_neg : let t := {| td_days := -1; td_secs := 86399; td_us := 999999 |} in
  is_td t /\ td_micros t = -1 /\ exists d, interval_io_pack t = Ok d /\ interval_io_unpack d = Ok (t, false).
Proof.
  split; [unfold is_td; cbn; lia|]. split; [reflexivity|]. eexists. split; [vm_compute; reflexivity|]. vm_compute. reflexivity.
Qed.
