(** FdtProof3.v: seconds and microseconds to a double and back, for all timestamps *)
From Verif Require Import Base BaseProof FltModel FltSpec FltProof FltProof2 FltProps FdtModel FdtProof FdtProof2.

Definition G : Z := 2 ^ 994.
Lemma UG : U = 2 ^ 80 * G. Proof. reflexivity. Qed.
Lemma G_pos : 0 < G. Proof. reflexivity. Qed.
Lemma p_38 : 2 ^ (38 + 1074) = 274877906944 * U. Proof. reflexivity. Qed.
Lemma p_38' : 2 ^ (38 - 52 + 1074) = 274877906944 * Y. Proof. reflexivity. Qed.
Lemma U_27 : U = 2 ^ 27 * 2 ^ 1047. Proof. reflexivity. Qed.
(** a number that is not too small is a multiple of 2^-80 *)
Lemma coarse x u : holds x u -> U <= Z.abs u * 2 ^ 27 -> exists q, u = q * G.
Proof.
  intros (V & F & <-) B. destruct x as [s|s| |s m e]; [exists 0; reflexivity|contradiction|contradiction|].
  unfold python_float in V. cbn [valid_binary] in V. rewrite bounded_iff in V by lia. assert (VE : -1074 <= e) by (clear - V; lia). assert (M : Zpos m < 2 ^ 53) by (clear - V; change (2 ^ (53 - 1)) with 4503599627370496 in V; change (2 ^ 53) with 9007199254740992 in *; lia). clear V F. cbn [units] in *.
  assert (A : Z.abs ((if s then -1 else 1) * Z.pos m * 2 ^ (e + 1074)) = Z.pos m * 2 ^ (e + 1074)).
  { pose proof (p_pos (e + 1074) ltac:(lia)) as P. set (w := 2 ^ (e + 1074)) in *. clearbody w. rewrite Z.abs_mul, Z.abs_mul, (Z.abs_eq w) by (clear - P; lia). destruct s; reflexivity. }
  rewrite A in B. assert (E : -80 <= e).
  { destruct (Z_lt_le_dec e (-80)) as [L|L]; [exfalso|exact L]. rewrite U_27 in B. assert (P : 2 ^ (e + 1074) <= 2 ^ 993) by (apply Z.pow_le_mono_r; lia).
    change (2 ^ 1047) with (2 ^ 54 * 2 ^ 993) in B. pose proof (p_pos (e + 1074) ltac:(lia)) as P0. set (w := 2 ^ (e + 1074)) in *. set (v := 2 ^ 993) in *. clearbody w v. change (2 ^ 53) with 9007199254740992 in M. change (2 ^ 54) with 18014398509481984 in B. change (2 ^ 27) with 134217728 in B. clear - B P M P0. nia. }
  exists ((if s then -1 else 1) * Z.pos m * 2 ^ (e + 80)). replace (2 ^ (e + 1074)) with (2 ^ (e + 80) * G) by (unfold G; rewrite <- Z.pow_add_r by lia; f_equal; lia). ring.
Qed.
Lemma fint_any x u : holds x u -> exists z, fint x = Ok z /\ Z.abs (z * U - u) < U.
Proof.
  intros H. pose proof (frac_holds x u H) as [D E]. destruct H as (_ & F & _). pose proof U_pos as UP.
  assert (X : fint x = Ok (Z.quot (fst (frac x)) (snd (frac x)))) by (unfold fint; destruct x; try contradiction; destruct (frac _); reflexivity).
  exists (Z.quot (fst (frac x)) (snd (frac x))). split; [exact X|]. set (a := fst (frac x)) in *. set (d := snd (frac x)) in *. clearbody a d.
  pose proof (Z.quot_rem a d ltac:(lia)) as QR. pose proof (Z.rem_bound_abs a d ltac:(lia)) as RB. rewrite (Z.abs_eq d) in RB by lia. set (q := Z.quot a d) in *. set (r := Z.rem a d) in *. clearbody q r.
  apply (Z.mul_lt_mono_pos_r d _ _ D). rewrite abs_scale by (clear - D; lia). replace ((q * U - u) * d) with (- r * U) by (replace ((q * U - u) * d) with (q * d * U - u * d) by ring; rewrite <- E, QR; ring). rewrite Z.abs_mul, Z.abs_opp, (Z.abs_eq U) by lia. clear - RB UP. nia.
Qed.
Lemma us_part us xu xm : 0 <= us < 1000000 -> holds xu (us * U) -> holds xm (1000000 * U) ->
  exists ub, holds (fdiv64 xu xm) ub /\ 2 * Z.abs (1000000 * ub - us * U) <= 1000000 * Y /\ 0 <= ub <= U /\ (us = 0 -> ub = 0).
Proof.
  intros US Hu Hm. pose proof U_pos as UP. pose proof UY as UY. pose proof Y_pos as YP. pose proof P100_big as BIG.
  destruct (fdiv_holds xu xm (us * U) (1000000 * U) Hu Hm 1000000) as (ub & Hb & Bb & Zb).
  { split; [lia|discriminate]. } { reflexivity. }
  { destruct (Z.eq_dec us 0) as [->|N]; [left; reflexivity|right]. rewrite P100_eq. rewrite Z.abs_eq by (clear - US UP; nia). assert (1 <= us) by lia. apply Z.le_trans with (U * P100); [rewrite (Z.mul_comm U); apply Z.mul_le_mono_nonneg_r; lia|]. apply Z.mul_le_mono_nonneg_r; [lia|]. clear - H UP. nia. }
  { rewrite P100_eq. rewrite Z.abs_eq by (clear - US UP; nia). apply Z.le_trans with (1000000 * U * 1); [clear - US UP; nia|]. apply Z.mul_le_mono_nonneg_l; lia. }
  specialize (Bb 0 ltac:(lia)). rewrite p_0 in Bb. rewrite p_0' in Bb. specialize (Bb ltac:(rewrite Z.abs_eq by (clear - US UP; nia); clear - US UP; nia)).
  assert (Zb' : us = 0 -> ub = 0) by (intros ->; apply Zb; reflexivity).
  exists ub. split; [exact Hb|]. split; [exact Bb|]. split; [|exact Zb'].
  destruct (Z.eq_dec us 0) as [E|N]; [rewrite (Zb' E); lia|]. assert (US1 : U <= us * U) by (clear - N US UP; nia). assert (US2 : us * U <= 999999 * U) by (clear - US UP; nia). clear - Bb US1 US2 UY YP. lia.
Qed.
Theorem pair_any s us : - 2 ^ 38 <= s < 2 ^ 38 -> 0 <= us < 1000000 ->
  exists x u s' us', mktime (s, us) = Ok x /\ holds x u /\ Z.abs (1000000 * u - (s * 1000000 + us) * U) < 31 * U /\
    mktimetuple x = Ok (s', us') /\ Z.abs (s' * 1000000 + us' - (s * 1000000 + us)) <= 31 /\ - 2 ^ 38 - 1 <= s' <= 2 ^ 38 + 1 /\ Z.abs us' <= 1000001.
Proof.
  change (2 ^ 38) with 274877906944. intros S US. pose proof U_pos as UP. pose proof UY as UY. pose proof Y_pos as YP. pose proof P100_big as BIG.
  destruct (float_of_int_holds s) as (xs & Es & Hs); [change (2 ^ 53) with 9007199254740992; lia|].
  destruct (float_of_int_holds us) as (xu & Eu & Hu); [change (2 ^ 53) with 9007199254740992; lia|].
  destruct (float_of_int_holds 1000000) as (xm & Em & Hm); [reflexivity|].
  destruct (us_part us xu xm US Hu Hm) as (ub & Hb & Bb & UB & Zb).
  set (b := fdiv64 xu xm) in *. assert (MK : mktime (s, us) = Ok (fadd64 xs b)) by (unfold mktime; cbn [fst snd]; rewrite Es, Eu, Em; reflexivity). clearbody b.
  assert (US1 : us <> 0 -> U <= us * U) by (clear - US UP; nia). assert (US2 : us * U <= 999999 * U) by (clear - US UP; nia).
  assert (SU : - 274877906944 * U <= s * U <= 274877906943 * U) by (clear - S UP; nia).
  assert (S1 : 1 <= s -> U <= s * U) by (clear - UP; nia). assert (S2 : s <= -2 -> s * U <= - 2 * U) by (clear - UP; nia).
  destruct (fadd_holds xs b (s * U) ub Hs Hb) as (ts & Ht & Bt & Xt).
  { rewrite P100_eq. destruct (Z.eq_dec us 0) as [Z0|N].
    - rewrite (Zb Z0), Z.add_0_r. destruct (Z.eq_dec s 0) as [->|SN]; [left; reflexivity|right]. rewrite Z.abs_mul, (Z.abs_eq U) by (clear - UP; lia). assert (1 <= Z.abs s) by (clear - SN; lia). apply (scale_up _ _ _ 1); [clear - H UP; nia|clear - H UP; nia|lia].
    - right. specialize (US1 N). apply (scale_up _ _ _ 2000000); [|apply Z.abs_nonneg|clear - BIG; lia].
      assert (s <= -2 \/ s = -1 \/ s = 0 \/ 1 <= s) as [L|[L|[L|L]]] by (clear; lia); [specialize (S2 L)|subst s|subst s|specialize (S1 L)]; clear - Bb US1 US2 UY YP UB S1 S2; lia. }
  { rewrite P100_eq. apply (scale_up _ _ _ 274877906945); [clear - SU UB UP; lia|lia|]. clear. unfold P100. discriminate. }
  pose proof (Bt 38 ltac:(lia)) as B38. rewrite p_38 in B38. rewrite p_38' in B38. specialize (B38 ltac:(clear - SU UB UP; lia)).
  pose proof (Bt 0 ltac:(lia)) as B0. rewrite p_0 in B0. rewrite p_0' in B0.
  assert (BIG1 : ts = 0 \/ U <= Z.abs ts * 2 ^ 27).
  { change (2 ^ 27) with 134217728. destruct (Z.eq_dec us 0) as [Z0|N].
    - assert (ts = s * U). { rewrite (Zb Z0), Z.add_0_r in Xt. apply (Xt s 0); [clear; lia|change (2 ^ 53) with 9007199254740992; clear - S; lia|reflexivity]. }
      subst ts. destruct (Z.eq_dec s 0) as [->|SN]; [left; reflexivity|right]. rewrite Z.abs_mul, (Z.abs_eq U) by (clear - UP; lia). assert (1 <= Z.abs s) by (clear - SN; lia). clear - H UP. nia.
    - right. specialize (US1 N). assert (s <= -2 \/ s = -1 \/ s = 0 \/ 1 <= s) as [L|[L|[L|L]]] by (clear; lia); [specialize (S2 L)|subst s; specialize (B0 ltac:(clear - UB; lia))|subst s; specialize (B0 ltac:(clear - UB; lia))|specialize (S1 L)]; clear - Bb US1 US2 UY YP UB S1 S2 B38 B0; lia. }
  assert (GR : exists q, ts = q * G) by (destruct BIG1 as [->|H]; [exists 0; reflexivity|exact (coarse _ ts Ht H)]).
  set (t := fadd64 xs b) in *. clearbody t. clear Bt Xt B0.
  set (s' := ts / U). set (d := ts mod U). assert (TD : ts = s' * U + d) by (unfold s', d; rewrite (Z.div_mod ts U) at 1 by lia; ring). assert (DB : 0 <= d < U) by (apply Z.mod_pos_bound; exact UP).
  assert (TB : - 274877906945 * U <= ts <= 274877906945 * U) by (clear - B38 SU UB UY YP; lia).
  assert (SB : - 274877906945 <= s' <= 274877906945) by (clear - TB TD DB UP; nia).
  assert (DG : d = 0 \/ G <= d).
  { destruct GR as (q & Q). pose proof UG as UG. pose proof G_pos as GP. assert (exists r, d = r * G) as (r & R). { exists (q - s' * 2 ^ 80). transitivity (ts - s' * U); [clear - TD; lia|]. rewrite Q, UG. ring. } clear - R DB GP. assert (0 <= r) by nia. destruct (Z.eq_dec r 0) as [->|N]; [left; lia|right; nia]. }
  clearbody s' d.
  destruct (float_of_int_holds s') as (xf & Ef & Hf); [change (2 ^ 53) with 9007199254740992; clear - SB; lia|].
  assert (TS : ts - s' * U = d) by (clear - TD; lia).
  assert (DSM : d = 0 \/ U <= d * P100). { destruct DG as [->|H]; [left; reflexivity|right]. pose proof UG as UG. apply (scale_up _ _ _ (2 ^ 80)); [rewrite UG, (Z.mul_comm d); apply Z.mul_le_mono_nonneg_l; [discriminate|exact H]|clear - DB; lia|clear; unfold P100; discriminate]. }
  destruct (fsub_holds t xf ts (s' * U) Ht Hf) as (ud & Hd & Bd & Xd).
  { rewrite P100_eq, TS, Z.abs_eq by (clear - DB; lia). exact DSM. }
  { rewrite P100_eq, TS, Z.abs_eq by (clear - DB; lia). apply (scale_up _ _ _ 1); [clear - DB; lia|clear - UP; lia|clear - BIG; lia]. }
  rewrite TS in Bd, Xd. pose proof (Bd 0 ltac:(clear; lia)) as D0. rewrite p_0, p_0', Z.abs_eq in D0 by (clear - DB; lia). specialize (D0 ltac:(clear - DB; lia)).
  assert (UD : ud = 0 /\ d = 0 \/ U <= ud * P100 * 2 /\ 0 < ud).
  { destruct DG as [E|H]; [left; split; [|exact E]; rewrite (Xd 0 0); [exact E|clear; lia|reflexivity|rewrite E; reflexivity]|right].
    pose proof G_pos as GP. assert (DP : 0 < d) by (clear - H GP; lia). destruct DSM as [E|DSM]; [clear - E DP; lia|]. destruct (Z.log2_spec d DP) as [L1 L2]. assert (LG : 994 <= Z.log2 d) by (change 994 with (Z.log2 G); apply Z.log2_le_mono; exact H).
    specialize (Bd (Z.log2 d + 1 - 1074) ltac:(clear - LG; lia)). replace (Z.log2 d + 1 - 1074 + 1074) with (Z.succ (Z.log2 d)) in Bd by (clear; lia). specialize (Bd ltac:(rewrite Z.abs_eq by (clear - DP; lia); clear - L2; lia)).
    assert (P : 2 ^ (Z.log2 d + 1 - 1074 - 52 + 1074) <= 2 ^ Z.log2 d) by (apply Z.pow_le_mono_r; clear - LG; lia).
    set (w := 2 ^ (Z.log2 d + 1 - 1074 - 52 + 1074)) in *. set (v := 2 ^ Z.log2 d) in *. clearbody w v. assert (HU : d <= 2 * ud) by (clear - Bd P L1 DP; lia). split; [|clear - HU DP; lia].
    apply Z.le_trans with (d * P100); [exact DSM|]. replace (ud * P100 * 2) with (2 * ud * P100) by ring. apply Z.mul_le_mono_nonneg_r; [clear - BIG; lia|exact HU]. }
  assert (UD1 : 0 <= ud <= U + Y) by (destruct UD as [[-> _]|[_ UD]]; [clear - UP YP; lia|clear - D0 UD DB YP; lia]).
  destruct (fmul_holds xm _ (1000000 * U) ud Hm Hd 1000000 eq_refl) as (up & Hp & Bp & _).
  { rewrite P100_eq, Z.abs_eq by (clear - UD1; lia). destruct UD as [[-> _]|[UD _]]; [left; reflexivity|right]. replace (1000000 * ud * P100) with (500000 * (ud * P100 * 2)) by ring. clear - UD UP. lia. }
  { rewrite P100_eq, Z.abs_eq by (clear - UD1; lia). apply (scale_up _ _ _ 2000000); [clear - UD1 UY YP; lia|clear - UP; lia|clear - BIG; lia]. }
  specialize (Bp 20 ltac:(clear; lia)). rewrite p_20 in Bp. rewrite p_20' in Bp. specialize (Bp ltac:(clear - UD1 UY YP; lia)).
  destruct (fint_any _ up Hp) as (us' & Eus & Bus).
  assert (ERR : Z.abs (1000000 * ts - (s * 1000000 + us) * U) < 31 * U).
  { replace ((s * 1000000 + us) * U) with (1000000 * (s * U) + us * U) by ring. clear - Bb B38 UY YP. lia. }
  assert (FIN : Z.abs (s' * 1000000 + us' - (s * 1000000 + us)) * U < 32 * U).
  { rewrite abs_scale by (clear - UP; lia). replace ((s' * 1000000 + us' - (s * 1000000 + us)) * U) with (1000000 * (s' * U) + us' * U - 1000000 * (s * U) - us * U) by ring. clear - Bus Bp D0 TD Bb B38 UY YP. lia. }
  assert (USB : Z.abs us' * U < 1000002 * U). { rewrite abs_scale by (clear - UP; lia). clear - Bus Bp UD1 UY YP. lia. }
  apply (Z.mul_lt_mono_pos_r U _ _ UP) in FIN. apply (Z.mul_lt_mono_pos_r U _ _ UP) in USB.
  exists t, ts, s', us'. split; [exact MK|]. split; [exact Ht|]. split; [exact ERR|]. split; [|split; [clear - FIN; lia|split; [clear - SB; lia|clear - USB; lia]]].
  unfold mktimetuple. rewrite (ffloor_holds t ts s' Ht) by (rewrite TD; clear - DB; lia). cbn [bind]. rewrite Ef. cbn [bind]. rewrite Em. cbn [bind]. rewrite Eus. reflexivity.
Qed.
