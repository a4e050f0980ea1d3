(** DatetimeProof.v *)
From Verif Require Import Base BaseProof PBufferModel Element3Model TypeIOModel TypeIOSpec TypeIOProof DatetimeModel DatetimeSpec.

Lemma mk_tdelta_ok days secs us : let t := (days * 86400 + secs) * 1000000 + us in
  -999999999 * 86400000000 <= t < 1000000000 * 86400000000 ->
  exists d, mk_tdelta days secs us = Ok d /\ is_td d /\ td_micros d = t.
Proof.
  intros t H. unfold mk_tdelta, t in *. set (D := days + (secs + us / 1000000) / 86400).
  destruct ((-999999999 <=? D) && (D <=? 999999999)) eqn:E; [|subst D; lia].
  eexists. split; [reflexivity|]. unfold is_td, td_micros. cbn [td_days td_secs td_us]. subst D. lia.
Qed.
Lemma mk_tdelta_inv days secs us d : mk_tdelta days secs us = Ok d ->
  is_td d /\ td_micros d = (days * 86400 + secs) * 1000000 + us.
Proof.
  unfold mk_tdelta. set (D := days + (secs + us / 1000000) / 86400).
  destruct ((-999999999 <=? D) && (D <=? 999999999)) eqn:E; intros H; [|discriminate]. okinv H.
  unfold is_td, td_micros. cbn [td_days td_secs td_us]. subst D. lia.
Qed.
Lemma mk_tdelta_err days secs us : let t := (days * 86400 + secs) * 1000000 + us in
  ~ -999999999 * 86400000000 <= t < 1000000000 * 86400000000 ->
  mk_tdelta days secs us = Err OverflowErr.
Proof.
  intros t H. unfold mk_tdelta, t in *. set (D := days + (secs + us / 1000000) / 86400).
  destruct ((-999999999 <=? D) && (D <=? 999999999)) eqn:E; [|reflexivity]. subst D. lia.
Qed.

Lemma td_eq a b : is_td a -> is_td b -> td_micros a = td_micros b -> a = b.
Proof.
  destruct a as [a1 a2 a3], b as [b1 b2 b3]. unfold is_td, td_micros. cbn [td_days td_secs td_us]. intros. 
  assert (a1 = b1 /\ a2 = b2 /\ a3 = b3) as (-> & -> & ->) by lia. reflexivity.
Qed.
Lemma dt_eq a b : is_dt a -> is_dt b -> dt_micros a = dt_micros b -> a = b.
Proof.
  destruct a as [a1 a2 a3], b as [b1 b2 b3]. unfold is_dt, dt_micros. cbn [dt_ord dt_sec dt_us]. intros.
  assert (a1 = b1 /\ a2 = b2 /\ a3 = b3) as (-> & -> & ->) by lia. reflexivity.
Qed.
Lemma time_eq a b : is_time a -> is_time b -> time_micros a = time_micros b -> a = b.
Proof.
  destruct a as [a1 a2 a3 a4], b as [b1 b2 b3 b4]. unfold is_time, time_micros. cbn [t_hour t_min t_sec t_us]. intros.
  assert (a1 = b1 /\ a2 = b2 /\ a3 = b3 /\ a4 = b4) as (-> & -> & -> & ->) by lia. reflexivity.
Qed.
Lemma is_date_iff o : is_date o <-> 1 <= o <= 3652059.
Proof. unfold is_date. change (jan1 1) with 1. change (jan1 10000) with 3652060. lia. Qed.
Lemma epoch_day_eq : epoch_day = 730120. Proof. reflexivity. Qed.
Lemma last_date_eq : last_date = 3652059. Proof. reflexivity. Qed.
Lemma epoch_micros_eq : epoch_micros = 730120 * 86400 * 1000000. Proof. reflexivity. Qed.
Lemma first_micros : dt_micros first_dt = 86400000000. Proof. reflexivity. Qed.
Lemma last_micros : dt_micros last_dt = 3652060 * 86400000000 - 1. Proof. reflexivity. Qed.

Lemma dt_micros_range d : is_dt d <-> 0 <= dt_sec d < 86400 /\ 0 <= dt_us d < 1000000 /\ representable (dt_micros d).
Proof.
  unfold representable. rewrite first_micros, last_micros. unfold is_dt. rewrite is_date_iff.
  unfold dt_micros. lia.
Qed.
Lemma dt_micros_rep d : is_dt d -> representable (dt_micros d).
Proof. intros H. apply dt_micros_range in H. tauto. Qed.
Lemma dt_of_micros us : representable us -> exists d, is_dt d /\ dt_micros d = us.
Proof.
  unfold representable. rewrite first_micros, last_micros. intros H.
  exists {| dt_ord := us / 86400000000; dt_sec := us / 1000000 mod 86400; dt_us := us mod 1000000 |}.
  unfold is_dt. rewrite is_date_iff. unfold dt_micros. cbn [dt_ord dt_sec dt_us]. lia.
Qed.

Lemma dt_sub_ok a b : is_dt a -> is_dt b -> exists d, dt_sub a b = Ok d /\ is_td d /\
  td_micros d = dt_micros a - dt_micros b.
Proof.
  intros Ha Hb. apply dt_micros_rep in Ha, Hb. unfold representable in *. rewrite first_micros, last_micros in *.
  unfold dt_sub. destruct (mk_tdelta_ok (dt_ord a - dt_ord b) (dt_sec a - dt_sec b) (dt_us a - dt_us b)) as (d & E & H1 & H2).
  - unfold dt_micros in *. lia.
  - exists d. split; [exact E|]. split; [exact H1|]. rewrite H2. unfold dt_micros. lia.
Qed.
Lemma dt_add_ok a t x : is_dt x -> dt_micros x = dt_micros a + td_micros t -> dt_add a t = Ok x.
Proof.
  intros Hx E. unfold dt_add.
  pose proof (dt_micros_rep _ Hx) as R. unfold representable in R. rewrite first_micros, last_micros in R.
  destruct (mk_tdelta_ok (dt_ord a + td_days t) (dt_sec a + td_secs t) (dt_us a + td_us t)) as (d & E1 & H1 & H2).
  - unfold dt_micros, td_micros in *. lia.
  - rewrite E1. cbn [bind]. destruct x as [x1 x2 x3], d as [d1 d2 d3].
    unfold is_dt, is_td, dt_micros, td_micros in *. rewrite is_date_iff in Hx.
    cbn [dt_ord dt_sec dt_us td_days td_secs td_us] in *.
    assert (x1 = d1 /\ x2 = d2 /\ x3 = d3) as (-> & -> & ->) by lia.
    unfold max_ordinal. destruct (_ && _) eqn:B; [reflexivity|lia].
Qed.
Lemma dt_add_err a t : ~ representable (dt_micros a + td_micros t) -> dt_add a t = Err OverflowErr.
Proof.
  intros R. unfold dt_add. unfold representable in R. rewrite first_micros, last_micros in R.
  destruct (mk_tdelta _ _ _) as [d|e] eqn:E.
  - apply mk_tdelta_inv in E as [H1 H2]. cbn [bind]. unfold max_ordinal.
    unfold is_td, dt_micros, td_micros in *.
    destruct (_ && _) eqn:B; [|reflexivity]. exfalso. lia.
  - unfold mk_tdelta in E. destruct (_ && _); inversion E. reflexivity.
Qed.

(** *** two's complement *)
Lemma twos_exists n x : (0 < n)%nat -> - 2 ^ (8 * Z.of_nat n - 1) <= x < 2 ^ (8 * Z.of_nat n - 1) ->
  exists d, pack_s n x = Ok d /\ twos n d x.
Proof.
  intros Hn H. apply signed_range in H as [d H]; auto. exists d. split; [exact H|]. apply signed_pack_iff; auto.
Qed.
Lemma twos_pack n d x : (0 < n)%nat -> twos n d x -> pack_s n x = Ok d.
Proof. intros. apply signed_pack_iff; auto. Qed.
Lemma twos_unpack n d x r : (0 < n)%nat -> twos n d x -> unpack_s n (d ++ r) = Ok x.
Proof. intros Hn H. apply unpack_pack_s; auto. apply twos_pack; auto. Qed.
Lemma twos_unpack0 n d x : (0 < n)%nat -> twos n d x -> unpack_s n d = Ok x.
Proof. intros. rewrite <- (app_nil_r d). apply twos_unpack; auto. Qed.
Lemma twos_len n d x : twos n d x -> length d = n. Proof. intros H. apply H. Qed.
Lemma twos_inj n d e x : (0 < n)%nat -> twos n d x -> twos n e x -> d = e.
Proof. intros Hn H1 H2. apply twos_pack in H1, H2; auto. congruence. Qed.
Lemma twos_fun n d x y : (0 < n)%nat -> twos n d x -> twos n d y -> x = y.
Proof. intros Hn H1 H2. apply (twos_unpack0 _ _ _ Hn) in H1, H2. congruence. Qed.
Lemma twos_range n d x : twos n d x -> - 2 ^ (8 * Z.of_nat n - 1) <= x < 2 ^ (8 * Z.of_nat n - 1).
Proof. intros H. apply H. Qed.

Ltac tw8 x H := let d := fresh "d" in let E := fresh "E" in
  destruct (twos_exists 8 x) as (d & E & H); [lia| change (2 ^ (8 * Z.of_nat 8 - 1)) with 9223372036854775808; try lia |].

(** *** dates *)
Lemma dinf : twos 4 date_infinity date_posinf.
Proof. apply signed_pack_iff; [lia|reflexivity]. Qed.
Lemma dninf : twos 4 date_negative_infinity date_neginf.
Proof. apply signed_pack_iff; [lia|reflexivity]. Qed.
Lemma tinf : twos 8 time64_infinity ts_posinf.
Proof. apply signed_pack_iff; [lia|reflexivity]. Qed.
Lemma tninf : twos 8 time64_negative_infinity ts_neginf.
Proof. apply signed_pack_iff; [lia|reflexivity]. Qed.

Lemma date_pack_ok o : is_date o -> exists d, date_pack (Val o) = Ok d /\ twos 4 d (date_code o).
Proof.
  rewrite is_date_iff. intros H. unfold date_pack, date_const, date_code, infinity_date, negative_infinity_date, max_ordinal.
  rewrite last_date_eq, epoch_day_eq. change (jan1 1) with 1.
  destruct (Z.eqb_spec o 3652059); [exists date_infinity; split; [reflexivity|apply dinf]|].
  destruct (Z.eqb_spec o 1); [exists date_negative_infinity; split; [reflexivity|apply dninf]|].
  unfold long_pack, pg_date_offset. apply twos_exists; [lia|].
  change (2 ^ (8 * Z.of_nat 4 - 1)) with 2147483648. lia.
Qed.
Lemma date_unpack_ok d x : twos 4 d x -> date_unpack d = date_value x.
Proof.
  intros H. unfold date_unpack, date_unconst, date_value.
  destruct (seqb d date_infinity) eqn:E.
  - apply seqb_eq in E as ->. pose proof (twos_fun 4 _ _ _ ltac:(lia) H dinf) as ->. rewrite Z.eqb_refl. reflexivity.
  - apply seqb_neq in E. destruct (Z.eqb_spec x date_posinf) as [->|N]; [exfalso; apply E; eapply (twos_inj 4); eauto using dinf; lia|].
    destruct (seqb d date_negative_infinity) eqn:E2.
    + apply seqb_eq in E2 as ->. pose proof (twos_fun 4 _ _ _ ltac:(lia) H dninf) as ->. rewrite Z.eqb_refl. reflexivity.
    + apply seqb_neq in E2. destruct (Z.eqb_spec x date_neginf) as [->|N2]; [exfalso; apply E2; eapply (twos_inj 4); eauto using dninf; lia|].
      unfold long_unpack. rewrite (twos_unpack0 4 _ x) by (auto; lia). cbn [bind].
      unfold date_from_ordinal, max_ordinal. rewrite last_date_eq, epoch_day_eq. change (jan1 1) with 1. reflexivity.
Qed.
Lemma date_roundtrip o : is_date o -> exists d, date_pack (Val o) = Ok d /\ date_unpack d = Ok o.
Proof.
  intros H. destruct (date_pack_ok o H) as (d & E & T). exists d. split; [exact E|].
  rewrite (date_unpack_ok _ _ T). apply is_date_iff in H. unfold date_value, date_code.
  rewrite last_date_eq, epoch_day_eq. unfold date_posinf, date_neginf. change (jan1 1) with 1.
  change (2 ^ 31) with 2147483648.
  destruct (Z.eqb_spec o 3652059); [subst; reflexivity|]. destruct (Z.eqb_spec o 1); [subst; reflexivity|].
  destruct (Z.eqb_spec (o - 730120) (2147483648 - 1)); [lia|].
  destruct (Z.eqb_spec (o - 730120) (- (2147483648))); [lia|].
  replace (o - 730120 + 730120) with o by lia. destruct (_ && _) eqn:B; [reflexivity|lia].
Qed.

(** *** timestamps *)
Lemma dt_eqb_eq a b : dt_eqb a b = true <-> a = b.
Proof.
  destruct a as [a1 a2 a3], b as [b1 b2 b3]. unfold dt_eqb. cbn [dt_ord dt_sec dt_us]. split.
  - intros H. assert (a1 = b1 /\ a2 = b2 /\ a3 = b3) as (-> & -> & ->) by lia. reflexivity.
  - intros H. injection H as -> -> ->. rewrite !Z.eqb_refl. reflexivity.
Qed.
Lemma epoch_dt : is_dt pg_epoch_datetime /\ dt_micros pg_epoch_datetime = epoch_micros.
Proof. split; [|reflexivity]. split; [apply is_date_iff|]; vm_compute; repeat split; discriminate. Qed.
Lemma ts_pack_ok u : is_dt u -> exists d t,
  (do d <- dt_sub u pg_epoch_datetime; Ok (td_days d * seconds_in_day + td_secs d, td_us d)) = Ok t /\
  time64_pack t = Ok d /\ twos 8 d (dt_micros u - epoch_micros).
Proof.
  intros H. destruct epoch_dt as [He Em]. destruct (dt_sub_ok u _ H He) as (td & E & W & M).
  rewrite E. cbn [bind]. unfold time64_pack, mktime64. cbn [fst snd].
  pose proof (dt_micros_rep _ H) as R. unfold representable in R. rewrite first_micros, last_micros in R.
  replace ((td_days td * seconds_in_day + td_secs td) * 1000000 + td_us td) with (dt_micros u - epoch_micros)
    by (rewrite <- Em, <- M; unfold td_micros, seconds_in_day; lia).
  rewrite epoch_micros_eq. unfold longlong_pack.
  tw8 (dt_micros u - 730120 * 86400 * 1000000) T. do 2 eexists. split; [reflexivity|]. 
  cbn [fst snd].
  replace ((td_days td * seconds_in_day + td_secs td) * 1000000 + td_us td) with (dt_micros u - 730120 * 86400 * 1000000)
    by (change (730120 * 86400 * 1000000) with epoch_micros; rewrite <- Em, <- M; unfold td_micros, seconds_in_day; lia).
  split; [exact E0|exact T].
Qed.
Lemma timestamp_pack_ok a : is_dt a -> exists d, timestamp_io_pack (Val a) = Ok d /\ twos 8 d (dt_code a).
Proof.
  intros H. unfold timestamp_io_pack, time64_const, dt_code. change is_same with dt_eqb.
  change infinity_datetime with last_dt. change negative_infinity_datetime with first_dt.
  destruct (dt_eqb a last_dt); [exists time64_infinity; split; [reflexivity|apply tinf]|].
  destruct (dt_eqb a first_dt); [exists time64_negative_infinity; split; [reflexivity|apply tninf]|].
  destruct (ts_pack_ok a H) as (d & t & E & E2 & T). exists d. split; [|exact T].
  unfold timestamp_pack. rewrite E. exact E2.
Qed.
Lemma ts_unpack_ok d x : twos 8 d x -> exists t, time64_unpack d = Ok t /\ mktime64 t = x /\ 0 <= snd t < 1000000.
Proof.
  intros H. unfold time64_unpack, longlong_unpack. rewrite (twos_unpack0 8 _ x) by (auto; lia). cbn [bind].
  eexists. split; [reflexivity|]. unfold mktime64, mktimetuple64. cbn [fst snd]. lia.
Qed.
Lemma ts_add_ok t u : is_dt u -> mktime64 t = dt_micros u - epoch_micros ->
  timestamp_unpack t = Ok u.
Proof.
  intros H E. unfold timestamp_unpack, mktime64 in *. destruct epoch_dt as [_ Em].
  pose proof (dt_micros_rep _ H) as R. unfold representable in R. rewrite first_micros, last_micros, epoch_micros_eq in *.
  destruct (mk_tdelta_ok 0 (fst t) (snd t)) as (d & E1 & H1 & H2); [lia|]. rewrite E1. cbn [bind].
  apply dt_add_ok; [exact H|]. rewrite Em, H2. lia.
Qed.
Lemma ts_add_err t : ~ representable (mktime64 t + epoch_micros) -> timestamp_unpack t = Err OverflowErr.
Proof.
  intros H. unfold timestamp_unpack. destruct (mk_tdelta 0 (fst t) (snd t)) as [d|e] eqn:E.
  - apply mk_tdelta_inv in E as [_ E]. cbn [bind]. apply dt_add_err. intros R. apply H. destruct epoch_dt as [_ Em].
    rewrite Em in R. rewrite E in R. unfold mktime64. replace (fst t * 1000000 + snd t + epoch_micros) with (epoch_micros + ((0 * 86400 + fst t) * 1000000 + snd t)) by lia. exact R.
  - unfold mk_tdelta in E. destruct (_ && _); inversion E. reflexivity.
Qed.
Lemma unconst_spec d x : twos 8 d x -> time64_unconst d =
  if x =? ts_posinf then Some last_dt else if x =? ts_neginf then Some first_dt else None.
Proof.
  intros H. unfold time64_unconst.
  change infinity_datetime with last_dt. change negative_infinity_datetime with first_dt.
  destruct (seqb d time64_infinity) eqn:E.
  - apply seqb_eq in E as ->. pose proof (twos_fun 8 _ _ _ ltac:(lia) H tinf) as ->. rewrite Z.eqb_refl. reflexivity.
  - apply seqb_neq in E. destruct (Z.eqb_spec x ts_posinf) as [->|N]; [exfalso; apply E; eapply (twos_inj 8); eauto using tinf; lia|].
    destruct (seqb d time64_negative_infinity) eqn:E2.
    + apply seqb_eq in E2 as ->. pose proof (twos_fun 8 _ _ _ ltac:(lia) H tninf) as ->. rewrite Z.eqb_refl. reflexivity.
    + apply seqb_neq in E2. destruct (Z.eqb_spec x ts_neginf) as [->|N2]; [exfalso; apply E2; eapply (twos_inj 8); eauto using tninf; lia|reflexivity].
Qed.
Lemma timestamp_unpack_val d x a : twos 8 d x -> x <> ts_posinf -> x <> ts_neginf ->
  is_dt a -> dt_micros a = x + epoch_micros -> timestamp_io_unpack d = Ok a.
Proof.
  intros H N1 N2 Ha E. unfold timestamp_io_unpack. rewrite (unconst_spec _ _ H).
  destruct (Z.eqb_spec x ts_posinf); [contradiction|]. destruct (Z.eqb_spec x ts_neginf); [contradiction|].
  destruct (ts_unpack_ok _ _ H) as (t & -> & Et & _). cbn [bind]. apply ts_add_ok; [exact Ha|lia].
Qed.
Lemma timestamp_unpack_inf d : twos 8 d ts_posinf -> timestamp_io_unpack d = Ok last_dt.
Proof. intros H. unfold timestamp_io_unpack. rewrite (unconst_spec _ _ H). reflexivity. Qed.
Lemma timestamp_unpack_neginf d : twos 8 d ts_neginf -> timestamp_io_unpack d = Ok first_dt.
Proof. intros H. unfold timestamp_io_unpack. rewrite (unconst_spec _ _ H). reflexivity. Qed.
Lemma timestamp_unpack_err d x : twos 8 d x -> x <> ts_posinf -> x <> ts_neginf ->
  ~ representable (x + epoch_micros) -> timestamp_io_unpack d = Err OverflowErr.
Proof.
  intros H N1 N2 R. unfold timestamp_io_unpack. rewrite (unconst_spec _ _ H).
  destruct (Z.eqb_spec x ts_posinf); [contradiction|]. destruct (Z.eqb_spec x ts_neginf); [contradiction|].
  destruct (ts_unpack_ok _ _ H) as (t & -> & Et & _). cbn [bind]. apply ts_add_err. rewrite Et. exact R.
Qed.
Lemma timestamp_roundtrip a : is_dt a -> exists d, timestamp_io_pack (Val a) = Ok d /\ timestamp_io_unpack d = Ok a.
Proof.
  intros H. destruct (timestamp_pack_ok a H) as (d & E & T). exists d. split; [exact E|]. unfold dt_code in T. change is_same with dt_eqb in T.
  destruct (dt_eqb a last_dt) eqn:B; [apply dt_eqb_eq in B as ->; apply timestamp_unpack_inf; auto|].
  destruct (dt_eqb a first_dt) eqn:B2; [apply dt_eqb_eq in B2 as ->; apply timestamp_unpack_neginf; auto|].
  pose proof (dt_micros_rep _ H) as R. unfold representable in R. rewrite first_micros, last_micros in R.
  eapply timestamp_unpack_val; eauto; unfold ts_posinf, ts_neginf; change (2 ^ 63) with 9223372036854775808; rewrite ?epoch_micros_eq; lia.
Qed.

(** *** timestamptz *)
Lemma td_neg_ok o : is_offset o -> exists n, td_neg o = Ok n /\ is_td n /\ td_micros n = - td_micros o.
Proof.
  intros [W R]. unfold td_neg. destruct (mk_tdelta_ok (- td_days o) (- td_secs o) (- td_us o)) as (n & E & H1 & H2).
  - unfold td_micros in R. lia.
  - exists n. split; [exact E|]. split; [exact H1|]. rewrite H2. unfold td_micros. lia.
Qed.
Lemma astz_ok d o u : is_offset o -> is_dt u -> dt_micros u = instant d o -> astimezone_utc d o = Ok u.
Proof.
  intros Ho Hu E. unfold astimezone_utc. destruct (td_neg_ok o Ho) as (n & -> & _ & En). cbn [bind].
  apply dt_add_ok; [exact Hu|]. rewrite E. unfold instant. lia.
Qed.
Lemma astz_err d o : is_offset o -> ~ representable (instant d o) -> astimezone_utc d o = Err OverflowErr.
Proof.
  intros Ho R. unfold astimezone_utc. destruct (td_neg_ok o Ho) as (n & -> & _ & En). cbn [bind].
  apply dt_add_err. unfold instant in R. rewrite En. exact R.
Qed.
Lemma timestamptz_pack_ok lo d o : is_dt d -> is_offset o -> representable (instant d o) ->
  exists w, timestamptz_io_pack lo (Val (Aware d o)) = Ok w /\ twos 8 w (instant d o - epoch_micros).
Proof.
  intros Hd Ho R. destruct (dt_of_micros _ R) as (u & Hu & Eu).
  unfold timestamptz_io_pack, timestamptz_pack. rewrite (astz_ok d o u) by auto. cbn [bind].
  destruct (ts_pack_ok u Hu) as (w & t & E & E2 & T). exists w. rewrite E. cbn [bind]. rewrite E2. split; [reflexivity|]. rewrite <- Eu. exact T.
Qed.
Lemma timestamptz_pack_err lo d o : is_offset o -> ~ representable (instant d o) ->
  timestamptz_io_pack lo (Val (Aware d o)) = Err OverflowErr.
Proof.
  intros Ho R. unfold timestamptz_io_pack, timestamptz_pack. rewrite astz_err by auto. reflexivity.
Qed.
Lemma utc_micros : td_micros utc_offset = 0. Proof. reflexivity. Qed.
Lemma timestamptz_unpack_val w x u : twos 8 w x -> x <> ts_posinf -> x <> ts_neginf -> is_dt u ->
  dt_micros u = x + epoch_micros -> timestamptz_io_unpack w = Ok (Aware u utc_offset).
Proof.
  intros H N1 N2 Hu E. unfold timestamptz_io_unpack. rewrite (unconst_spec _ _ H).
  destruct (Z.eqb_spec x ts_posinf); [contradiction|]. destruct (Z.eqb_spec x ts_neginf); [contradiction|].
  destruct (ts_unpack_ok _ _ H) as (t & -> & Et & _). cbn [bind].
  pose proof (ts_add_ok t u Hu ltac:(lia)) as A. unfold timestamp_unpack in A. unfold timestamptz_unpack.
  destruct (mk_tdelta _ _ _); [|discriminate]. cbn [bind] in *. rewrite A. reflexivity.
Qed.
Lemma timestamptz_unpack_err w x : twos 8 w x -> x <> ts_posinf -> x <> ts_neginf ->
  ~ representable (x + epoch_micros) -> timestamptz_io_unpack w = Err OverflowErr.
Proof.
  intros H N1 N2 R. unfold timestamptz_io_unpack. rewrite (unconst_spec _ _ H).
  destruct (Z.eqb_spec x ts_posinf); [contradiction|]. destruct (Z.eqb_spec x ts_neginf); [contradiction|].
  destruct (ts_unpack_ok _ _ H) as (t & -> & Et & _). cbn [bind].
  pose proof (ts_add_err t) as A. rewrite Et in A. specialize (A R). unfold timestamp_unpack in A. unfold timestamptz_unpack.
  destruct (mk_tdelta _ _ _); cbn [bind] in *; [rewrite A; reflexivity|congruence].
Qed.
Lemma timestamptz_unpack_inf : forall w, (twos 8 w ts_posinf -> timestamptz_io_unpack w = Ok (Naive last_dt)) /\
  (twos 8 w ts_neginf -> timestamptz_io_unpack w = Ok (Naive first_dt)).
Proof. intros w; split; intros H; unfold timestamptz_io_unpack; rewrite (unconst_spec _ _ H); reflexivity. Qed.
Lemma timestamptz_roundtrip lo d o : is_dt d -> is_offset o -> representable (instant d o) ->
  exists w u, timestamptz_io_pack lo (Val (Aware d o)) = Ok w /\ timestamptz_io_unpack w = Ok (Aware u utc_offset) /\
    is_dt u /\ instant u utc_offset = instant d o.
Proof.
  intros Hd Ho R. destruct (timestamptz_pack_ok lo d o Hd Ho R) as (w & E & T).
  destruct (dt_of_micros _ R) as (u & Hu & Eu). exists w, u. split; [exact E|]. split.
  - unfold representable in R. rewrite first_micros, last_micros in R.
    eapply timestamptz_unpack_val; eauto; unfold ts_posinf, ts_neginf; change (2 ^ 63) with 9223372036854775808; rewrite ?epoch_micros_eq in *; lia.
  - split; [exact Hu|]. unfold instant at 1. rewrite utc_micros. lia.
Qed.

(** *** time *)
Lemma time_pack_ok t : is_time t -> exists d, time_io_pack t = Ok d /\ twos 8 d (time_micros t).
Proof.
  intros H. unfold time_io_pack, time64_pack, longlong_pack.
  replace (mktime64 (time_pack t)) with (time_micros t)
    by (unfold mktime64, time_pack, time_micros, seconds_in_hour; cbn [fst snd]; lia).
  unfold is_time, time_micros in *. apply twos_exists; [lia|].
  change (2 ^ (8 * Z.of_nat 8 - 1)) with 9223372036854775808. lia.
Qed.
Lemma time_unpack_ok t x : is_time x -> mktime64 t = time_micros x -> 0 <= snd t < 1000000 -> time_unpack t = Ok x.
Proof.
  intros H E B. unfold time_unpack, mk_time, mktime64, time_micros, is_time in *. destruct x as [h m s u]. cbn [t_hour t_min t_sec t_us] in *.
  assert (fst t / 60 / 60 = h /\ fst t / 60 mod 60 = m /\ fst t mod 60 = s /\ snd t = u) as (E1 & E2 & E3 & E4) by lia.
  rewrite E1, E2, E3, E4. destruct (_ && _) eqn:C; [reflexivity|lia].
Qed.
Lemma time_unpack_err t : 0 <= snd t < 1000000 -> ~ 0 <= mktime64 t < 86400000000 -> time_unpack t = Err ValueError.
Proof.
  intros B R. unfold time_unpack, mk_time, mktime64 in *. destruct (_ && _) eqn:C; [|reflexivity]. exfalso. lia.
Qed.
Lemma time_of_micros x : 0 <= x < 86400000000 -> exists t, is_time t /\ time_micros t = x.
Proof.
  intros H. exists {| t_hour := x / 1000000 / 60 / 60; t_min := x / 1000000 / 60 mod 60; t_sec := x / 1000000 mod 60; t_us := x mod 1000000 |}.
  unfold is_time, time_micros. cbn [t_hour t_min t_sec t_us]. lia.
Qed.
Lemma time_io_unpack_ok d x t : twos 8 d x -> is_time t -> time_micros t = x -> time_io_unpack d = Ok t.
Proof.
  intros H Ht E. unfold time_io_unpack. destruct (ts_unpack_ok _ _ H) as (p & -> & Ep & B). cbn [bind].
  apply time_unpack_ok; auto. lia.
Qed.
Lemma time_io_unpack_err d x : twos 8 d x -> ~ 0 <= x < 86400000000 -> time_io_unpack d = Err ValueError.
Proof.
  intros H R. unfold time_io_unpack. destruct (ts_unpack_ok _ _ H) as (p & -> & Ep & B). cbn [bind].
  apply time_unpack_err; auto. lia.
Qed.

(** *** intervals *)
Lemma qll_pack_iff q l m d : qll_pack q l m = Ok d <-> interval_wire d q l m.
Proof.
  unfold qll_pack, interval_wire. split.
  - intros H. binv H. binv H. binv H. okinv H. do 3 eexists. split; [reflexivity|].
    split; [|split]; (apply signed_pack_iff; [lia|eassumption]).
  - intros (a & b & c & -> & H1 & H2 & H3). rewrite (twos_pack 8 _ _ ltac:(lia) H1), (twos_pack 4 _ _ ltac:(lia) H2), (twos_pack 4 _ _ ltac:(lia) H3). reflexivity.
Qed.
Lemma ql_pack_iff q l d : ql_pack q l = Ok d <-> two_field_wire d q l.
Proof.
  unfold ql_pack, two_field_wire. split.
  - intros H. binv H. binv H. okinv H. do 2 eexists. split; [reflexivity|].
    split; (apply signed_pack_iff; [lia|eassumption]).
  - intros (a & b & -> & H1 & H2). rewrite (twos_pack 8 _ _ ltac:(lia) H1), (twos_pack 4 _ _ ltac:(lia) H2). reflexivity.
Qed.
Lemma qll_unpack_ok d q l m : interval_wire d q l m -> qll_unpack d = Ok (q, l, m).
Proof.
  intros (a & b & c & -> & H1 & H2 & H3). pose proof (twos_len _ _ _ H1). pose proof (twos_len _ _ _ H2). pose proof (twos_len _ _ _ H3).
  unfold qll_unpack. rewrite !app_length. destruct (Nat.ltb_spec (length a + (length b + length c)) 16); [lia|].
  rewrite (twos_unpack 8 _ q) by (auto; lia). cbn [bind]. rewrite skipn_app_exact by auto.
  rewrite (twos_unpack 4 _ l) by (auto; lia). cbn [bind].
  rewrite (app_assoc a b c), skipn_app_exact by (rewrite app_length; lia). rewrite (twos_unpack0 4 _ m) by (auto; lia). reflexivity.
Qed.
Lemma ql_unpack_ok d q l : two_field_wire d q l -> ql_unpack d = Ok (q, l).
Proof.
  intros (a & b & -> & H1 & H2). pose proof (twos_len _ _ _ H1). pose proof (twos_len _ _ _ H2).
  unfold ql_unpack. rewrite !app_length. destruct (Nat.ltb_spec (length a + length b) 12); [lia|].
  rewrite (twos_unpack 8 _ q) by (auto; lia). cbn [bind]. rewrite skipn_app_exact by auto.
  rewrite (twos_unpack0 4 _ l) by (auto; lia). reflexivity.
Qed.
Ltac pw := change (2 ^ (8 * Z.of_nat 8 - 1)) with 9223372036854775808; change (2 ^ (8 * Z.of_nat 4 - 1)) with 2147483648.
Lemma interval_pack_ok t : is_td t -> exists d, interval_io_pack t = Ok d /\
  interval_wire d (td_secs t * 1000000 + td_us t) (td_days t) 0.
Proof.
  intros H. unfold interval_io_pack, interval64_pack, interval_pack, mktime64. cbn [fst snd]. unfold is_td in H.
  destruct (twos_exists 8 (td_secs t * 1000000 + td_us t)) as (a & _ & Ha); [lia|pw; lia|].
  destruct (twos_exists 4 (td_days t)) as (b & _ & Hb); [lia|pw; lia|].
  destruct (twos_exists 4 0) as (c & _ & Hc); [lia|pw; lia|].
  assert (W : interval_wire (a ++ b ++ c) (td_secs t * 1000000 + td_us t) (td_days t) 0) by (exists a, b, c; auto).
  exists (a ++ b ++ c). split; [apply qll_pack_iff; exact W|exact W].
Qed.
Lemma interval_unpack_gen us days months t : is_td t ->
  td_micros t = (days + 30 * months) * 86400000000 + us ->
  interval_unpack (months, days, mktimetuple64 us) = Ok (t, negb (months =? 0)).
Proof.
  intros W E. unfold interval_unpack, mktimetuple64. cbn [fst snd].
  destruct (mk_tdelta_ok (days + months * 30) (us / 1000000) (us mod 1000000)) as (t' & -> & W' & E').
  - unfold is_td, td_micros in *. lia.
  - cbn [bind]. rewrite (td_eq t' t); auto. lia.
Qed.
Lemma interval_unpack_gen_err us days months : 
  ~ -999999999 * 86400000000 <= (days + 30 * months) * 86400000000 + us < 1000000000 * 86400000000 ->
  interval_unpack (months, days, mktimetuple64 us) = Err OverflowErr.
Proof.
  intros R. unfold interval_unpack, mktimetuple64. cbn [fst snd]. rewrite mk_tdelta_err; [reflexivity|]. lia.
Qed.
Lemma interval_unpack_ok d us days months t : interval_wire d us days months -> is_td t ->
  td_micros t = (days + 30 * months) * 86400000000 + us ->
  interval_io_unpack d = Ok (t, negb (months =? 0)).
Proof.
  intros H W E. unfold interval_io_unpack, interval64_unpack. rewrite (qll_unpack_ok _ _ _ _ H). cbn [bind].
  apply interval_unpack_gen; auto.
Qed.
Lemma interval_unpack_err d us days months : interval_wire d us days months -> 
  ~ -999999999 * 86400000000 <= (days + 30 * months) * 86400000000 + us < 1000000000 * 86400000000 ->
  interval_io_unpack d = Err OverflowErr.
Proof.
  intros H R. unfold interval_io_unpack, interval64_unpack. rewrite (qll_unpack_ok _ _ _ _ H). cbn [bind].
  apply interval_unpack_gen_err; auto.
Qed.
Lemma interval_roundtrip t : is_td t -> exists d, interval_io_pack t = Ok d /\ interval_io_unpack d = Ok (t, false).
Proof.
  intros H. destruct (interval_pack_ok t H) as (d & E & W). exists d. split; [exact E|].
  apply (interval_unpack_ok _ _ _ _ t W H). unfold td_micros. lia.
Qed.
Lemma noday_pack_iff t d : is_td t -> (interval_noday_io_pack t = Ok d <-> two_field_wire d (td_micros t) 0).
Proof.
  intros H. unfold interval_noday_io_pack, interval64_noday_pack, interval_pack, mktime64.
  replace (fst (if td_days t =? 0 then (td_secs t, td_us t) else (fst (td_secs t, td_us t) + td_days t * 24 * 60 * 60, snd (td_secs t, td_us t))) * 1000000 +
   snd (if td_days t =? 0 then (td_secs t, td_us t) else (fst (td_secs t, td_us t) + td_days t * 24 * 60 * 60, snd (td_secs t, td_us t)))) with (td_micros t)
   by (unfold td_micros; destruct (Z.eqb_spec (td_days t) 0); cbn [fst snd]; lia).
  apply ql_pack_iff.
Qed.
Lemma noday_roundtrip t : is_td t -> - 2 ^ 63 <= td_micros t < 2 ^ 63 ->
  exists d, interval_noday_io_pack t = Ok d /\ interval_noday_io_unpack d = Ok (t, false).
Proof.
  intros H R. destruct (twos_exists 8 (td_micros t)) as (a & _ & Ha); [lia|exact R|].
  destruct (twos_exists 4 0) as (b & _ & Hb); [lia|pw; lia|].
  assert (W : two_field_wire (a ++ b) (td_micros t) 0) by (exists a, b; auto).
  exists (a ++ b). split; [apply noday_pack_iff; auto|].
  unfold interval_noday_io_unpack, interval64_noday_unpack. rewrite (ql_unpack_ok _ _ _ W). cbn [bind].
  apply (interval_unpack_gen _ 0 0 t); auto; lia.
Qed.
Lemma noday_pack_err t : is_td t -> ~ - 2 ^ 63 <= td_micros t < 2 ^ 63 -> forall d, interval_noday_io_pack t <> Ok d.
Proof.
  intros H R d E. apply noday_pack_iff in E; auto. destruct E as (a & b & _ & Ha & _). apply twos_range in Ha.
  change (2 ^ (8 * Z.of_nat 8 - 1)) with (2 ^ 63) in Ha. lia.
Qed.

(** *** timetz *)
Lemma timetz_pack_ok t o : is_time t -> is_offset o -> exists d, timetz_io_pack t (Some o) = Ok d /\
  two_field_wire d (time_micros t) (td_micros o / 1000000).
Proof.
  intros Ht [Wo Ro]. unfold timetz_io_pack, timetz_pack. cbn [bind]. unfold timetz64_pack. cbn [fst snd].
  replace (mktime64 (time_pack t)) with (time_micros t)
    by (unfold mktime64, time_pack, time_micros, seconds_in_hour; cbn [fst snd]; lia).
  replace (td_days o * seconds_in_day + td_secs o) with (td_micros o / 1000000)
    by (unfold td_micros, seconds_in_day, is_td in *; lia).
  unfold is_time, time_micros in *. 
  destruct (twos_exists 8 (((t_hour t * 60 + t_min t) * 60 + t_sec t) * 1000000 + t_us t)) as (a & _ & Ha); [lia|pw; lia|].
  destruct (twos_exists 4 (td_micros o / 1000000)) as (b & _ & Hb); [lia|pw; lia|].
  exists (a ++ b). assert (W : two_field_wire (a ++ b) (((t_hour t * 60 + t_min t) * 60 + t_sec t) * 1000000 + t_us t) (td_micros o / 1000000)) by (exists a, b; auto).
  split; [apply ql_pack_iff|]; exact W.
Qed.
Lemma timetz_unpack_ok d us z t o : two_field_wire d us z -> is_time t -> time_micros t = us -> is_td o ->
  td_micros o = z / 60 * 60 * 1000000 -> timetz_io_unpack d = Ok (t, o).
Proof.
  intros H Ht Et Ho Eo. unfold timetz_io_unpack, timetz64_unpack. rewrite (ql_unpack_ok _ _ _ H). cbn [bind fst snd].
  unfold timetz_unpack. cbn [fst snd]. rewrite (time_unpack_ok _ t); auto.
  - cbn [bind]. unfold fixed_offset. destruct (mk_tdelta_ok 0 (z / 60 * 60) 0) as (o' & -> & W & E).
    + unfold is_td, td_micros in *. lia.
    + cbn [bind]. rewrite (td_eq o' o); auto. lia.
  - rewrite Et. unfold mktime64, mktimetuple64. cbn [fst snd]. lia.
  - unfold mktimetuple64. cbn [snd]. lia.
Qed.
Lemma offset_exists s : - 86400 < s < 86400 -> exists o, is_offset o /\ td_micros o = s * 1000000.
Proof.
  intros H. exists {| td_days := s / 86400; td_secs := s mod 86400; td_us := 0 |}.
  unfold is_offset, is_td, td_micros. cbn [td_days td_secs td_us]. lia.
Qed.
Lemma timetz_returns t o : is_time t -> is_offset o -> exists d o',
  timetz_io_pack t (Some o) = Ok d /\ timetz_io_unpack d = Ok (t, o') /\ is_td o' /\
  td_micros o' = td_micros o / 60000000 * 60000000.
Proof.
  intros Ht Ho. destruct (timetz_pack_ok t o Ht Ho) as (d & E & W). destruct Ho as [Wo Ro].
  destruct (mk_tdelta_ok 0 (td_micros o / 60000000 * 60) 0) as (o' & _ & W' & E'); [lia|].
  exists d, o'. split; [exact E|]. split.
  - eapply timetz_unpack_ok; eauto. rewrite E'. lia.
  - split; [exact W'|]. rewrite E'. lia.
Qed.
