(** FdtProof4.v: the wire formats *)
From Verif Require Import Base BaseProof TypeIOModel TypeIOSpec DatetimeModel DatetimeSpec DatetimeProof FltModel FltSpec FltProof FltProps FdtModel FdtSpec FdtProof FdtProof2 FdtProof3.

Lemma near_33 s us : - 2 ^ 33 <= s < 2 ^ 33 -> 0 <= us < 1000000 ->
  exists x us', mktime (s, us) = Ok x /\ seconds_near x (s * 1000000 + us) 1 /\ mktimetuple x = Ok (s, us') /\ same_or_less us' us /\ 0 <= us' /\ (us = 0 -> units x = s * one /\ us' = 0).
Proof.
  intros S US. destruct (pair_double s us S US) as (x & u & us' & MK & (V & F & EU) & ERR & TT & C & P & Z0). exists x, us'. split; [exact MK|]. split.
  - split; [exact V|]. split; [exact F|]. rewrite EU. fold U in *. change one with U. pose proof U_pos as UP. change (2 ^ 20) with 1048576 in ERR. clear - ERR UP. lia.
  - split; [exact TT|]. split; [exact C|]. split; [exact P|]. intros E. split; [rewrite EU; exact (Z0 E)|]. destruct C as [C|C]; lia.
Qed.
Lemma near_38 s us : - 2 ^ 38 <= s < 2 ^ 38 -> 0 <= us < 1000000 ->
  exists x s' us', mktime (s, us) = Ok x /\ seconds_near x (s * 1000000 + us) 31 /\ mktimetuple x = Ok (s', us') /\
    Z.abs (s' * 1000000 + us' - (s * 1000000 + us)) <= 31 /\ - 2 ^ 38 - 1 <= s' <= 2 ^ 38 + 1 /\ Z.abs us' <= 1000001.
Proof.
  intros S US. destruct (pair_any s us S US) as (x & u & s' & us' & MK & (V & F & EU) & ERR & TT & C & P). exists x, s', us'. split; [exact MK|]. split.
  - split; [exact V|]. split; [exact F|]. rewrite EU. exact ERR.
  - auto.
Qed.
Lemma near_float x us n : seconds_near x us n -> python_float x /\ finite x. Proof. intros (V & F & _). auto. Qed.
Lemma near_bytes x us n : seconds_near x us n -> double_bytes (double_pack x) x /\ double_unpack (double_pack x) = Ok x.
Proof. intros (V & _). split; [exact (C79_double_pack x V)|exact (C79_double_back x V)]. Qed.
Lemma unpack_app a x r : double_bytes a x -> python_float x -> double_unpack (a ++ r) = Ok x.
Proof.
  intros E V. destruct E as (Y0 & L & E'). destruct (C79_double_unpack a r Y0 L) as (y & U & E & _). rewrite U. f_equal. eapply C79_bytes; [exact E|]. split; [exact Y0|split; [exact L|exact E']].
Qed.
Lemma dl_ok x l : python_float x -> - 2 ^ 31 <= l < 2 ^ 31 -> exists d, dl_pack x l = Ok d /\ float_wire1 d x l /\ dl_unpack d = Ok (x, l).
Proof.
  intros V L. destruct (twos_exists 4 l) as (b & Eb & Tb); [lia|exact L|]. exists (double_pack x ++ b). pose proof (C79_double_pack x V) as D. split; [unfold dl_pack; rewrite Eb; reflexivity|]. split; [exists (double_pack x), b; auto|].
  assert (LD : length (double_pack x) = 8%nat) by apply D. pose proof (twos_len _ _ _ Tb) as LB. unfold dl_unpack. rewrite (proj2 (Nat.ltb_ge _ _)) by (rewrite app_length; lia). rewrite (unpack_app _ x _ D V). cbn [bind].
  rewrite <- LD at 1. rewrite skipn_app, skipn_all, Nat.sub_diag. cbn [skipn app]. rewrite (twos_unpack0 4 b l ltac:(lia) Tb). reflexivity.
Qed.
Lemma dll_ok x l m : python_float x -> - 2 ^ 31 <= l < 2 ^ 31 -> - 2 ^ 31 <= m < 2 ^ 31 -> exists d, dll_pack x l m = Ok d /\ float_wire2 d x l m /\ dll_unpack d = Ok (x, l, m).
Proof.
  intros V L M. destruct (twos_exists 4 l) as (b & Eb & Tb); [lia|exact L|]. destruct (twos_exists 4 m) as (c & Ec & Tc); [lia|exact M|]. exists (double_pack x ++ b ++ c). pose proof (C79_double_pack x V) as D. split; [unfold dll_pack; rewrite Eb, Ec; reflexivity|]. split; [exists (double_pack x), b, c; auto|].
  assert (LD : length (double_pack x) = 8%nat) by apply D. pose proof (twos_len _ _ _ Tb) as LB. pose proof (twos_len _ _ _ Tc) as LC. unfold dll_unpack. rewrite (proj2 (Nat.ltb_ge _ _)) by (rewrite !app_length; lia). rewrite (unpack_app _ x _ D V). cbn [bind].
  assert (S8 : skipn 8 (double_pack x ++ b ++ c) = b ++ c) by (rewrite <- LD; rewrite skipn_app, skipn_all, Nat.sub_diag; reflexivity).
  assert (S12 : skipn 12 (double_pack x ++ b ++ c) = c). { change 12%nat with (4 + 8)%nat. rewrite app_assoc. replace (4 + 8)%nat with (length (double_pack x ++ b)) by (rewrite app_length; lia). rewrite skipn_app, skipn_all, Nat.sub_diag. reflexivity. }
  rewrite S8, S12, (twos_unpack 4 b l c ltac:(lia) Tb). cbn [bind]. rewrite (twos_unpack0 4 c m ltac:(lia) Tc). reflexivity.
Qed.
Lemma dl_wire x l d : python_float x -> float_wire1 d x l -> dl_unpack d = Ok (x, l).
Proof.
  intros V (a & b & -> & D & Tb). assert (LD : length a = 8%nat) by apply D. pose proof (twos_len _ _ _ Tb) as LB. unfold dl_unpack. rewrite (proj2 (Nat.ltb_ge _ _)) by (rewrite app_length; lia). rewrite (unpack_app _ x _ D V). cbn [bind].
  rewrite <- LD at 1. rewrite skipn_app, skipn_all, Nat.sub_diag. cbn [skipn app]. rewrite (twos_unpack0 4 b l ltac:(lia) Tb). reflexivity.
Qed.
Lemma dll_wire x l m d : python_float x -> float_wire2 d x l m -> dll_unpack d = Ok (x, l, m).
Proof.
  intros V (a & b & c & -> & D & Tb & Tc). assert (LD : length a = 8%nat) by apply D. pose proof (twos_len _ _ _ Tb) as LB. pose proof (twos_len _ _ _ Tc) as LC. unfold dll_unpack. rewrite (proj2 (Nat.ltb_ge _ _)) by (rewrite !app_length; lia). rewrite (unpack_app _ x _ D V). cbn [bind].
  assert (S8 : skipn 8 (a ++ b ++ c) = b ++ c) by (rewrite <- LD; rewrite skipn_app, skipn_all, Nat.sub_diag; reflexivity).
  assert (S12 : skipn 12 (a ++ b ++ c) = c). { change 12%nat with (4 + 8)%nat. rewrite app_assoc. replace (4 + 8)%nat with (length (a ++ b)) by (rewrite app_length; lia). rewrite skipn_app, skipn_all, Nat.sub_diag. reflexivity. }
  rewrite S8, S12, (twos_unpack 4 b l c ltac:(lia) Tb). cbn [bind]. rewrite (twos_unpack0 4 c m ltac:(lia) Tc). reflexivity.
Qed.
(** the infinities *)
Lemma inf_bytes : double_bytes time_infinity (S754_infinity false).
Proof. exact (C79_double_pack (S754_infinity false) eq_refl). Qed.
Lemma ninf_bytes : double_bytes time_negative_infinity (S754_infinity true).
Proof. exact (C79_double_pack (S754_infinity true) eq_refl). Qed.
Lemma finite_unconst d x : double_bytes d x -> finite x -> time_unconst d = None.
Proof.
  intros D F. unfold time_unconst. destruct (seqb d time_infinity) eqn:E1.
  - apply seqb_eq in E1 as ->. rewrite (C79_bytes _ _ _ D inf_bytes) in F. contradiction.
  - destruct (seqb d time_negative_infinity) eqn:E2; [|reflexivity]. apply seqb_eq in E2 as ->. rewrite (C79_bytes _ _ _ D ninf_bytes) in F. contradiction.
Qed.
(** time *)
Lemma time_fields t : is_time t -> exists s, time_pack t = (s, t_us t) /\ 0 <= s < 86400 /\ time_micros t = s * 1000000 + t_us t.
Proof. intros (H1 & H2 & H3 & H4). exists (fst (time_pack t)). split; [reflexivity|]. unfold time_pack, time_micros, seconds_in_hour. cbn [fst]. lia. Qed.
Lemma time_back t s us' : is_time t -> time_pack t = (s, t_us t) -> time_micros t = s * 1000000 + t_us t -> same_or_less us' (t_us t) -> 0 <= us' ->
  exists t', time_unpack (s, us') = Ok t' /\ is_time t' /\ same_or_less (time_micros t') (time_micros t) /\ (us' = t_us t -> t' = t).
Proof.
  intros T P M C P0. pose proof T as (H1 & H2 & H3 & H4). assert (R : 0 <= s * 1000000 + us' < 86400000000) by (unfold time_micros in M; destruct C; lia).
  destruct (time_of_micros _ R) as (t' & T' & E'). exists t'. assert (B : 0 <= us' < 1000000) by (destruct C; lia). split; [apply (time_unpack_ok _ t' T'); [unfold mktime64; cbn [fst snd]; lia|exact B]|]. split; [exact T'|]. split; [destruct C; [left|right]; lia|].
  intros ->. apply time_eq; [exact T'|exact T|lia].
Qed.
(** timestamps *)
Lemma ts_pair u : is_dt u -> exists s us, timestamp_pack u = Ok (s, us) /\ 0 <= us < 1000000 /\ s * 1000000 + us = dt_micros u - epoch_micros /\ - 2 ^ 38 <= s < 2 ^ 38.
Proof.
  intros U. destruct (ts_pack_ok u U) as (d & t & E & Q). unfold timestamp_pack. destruct epoch_dt as [ED EM]. destruct (dt_sub_ok u pg_epoch_datetime U ED) as (e & Ee & TD & ME). rewrite Ee. cbn [bind]. eexists _, _. split; [reflexivity|].
  destruct TD as (T1 & T2 & T3). rewrite EM in ME. unfold td_micros in ME. pose proof (dt_micros_rep u U) as R. unfold representable in R. rewrite first_micros, last_micros in R. rewrite epoch_micros_eq in *. unfold seconds_in_day. split; [lia|]. change (2 ^ 38) with 274877906944. lia.
Qed.
Lemma ts_back s us m : - 2 ^ 38 - 1 <= s <= 2 ^ 38 + 1 -> representable m -> s * 1000000 + us = m - epoch_micros -> exists b, timestamp_unpack (s, us) = Ok b /\ is_dt b /\ dt_micros b = m.
Proof.
  intros S R E. destruct (dt_of_micros m R) as (b & B & M). exists b. split; [|auto]. apply ts_add_ok; [exact B|]. unfold mktime64. cbn [fst snd]. lia.
Qed.
