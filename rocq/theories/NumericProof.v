From Verif Require Import Base BaseProof PBufferProof Element3Model Element3Proof PyList PyListProof TypeIOModel TypeIOProof TypeIOProof2 NumericModel NumericSpec.

(** ** same_number *)
Lemma same_number_at m1 e1 m2 e2 k : k <= Z.min e1 e2 ->
  (same_number m1 e1 m2 e2 <-> m1 * 10 ^ (e1 - k) = m2 * 10 ^ (e2 - k)).
Proof.
  intros Hk. unfold same_number. set (m := Z.min e1 e2) in *.
  replace (e1 - k) with ((e1 - m) + (m - k)) by lia. replace (e2 - k) with ((e2 - m) + (m - k)) by lia.
  rewrite !Z.pow_add_r by (unfold m in *; lia). rewrite !Z.mul_assoc.
  assert (P : 0 < 10 ^ (m - k)) by (apply Z.pow_pos_nonneg; lia). split; intros H; [rewrite H; reflexivity|].
  apply Z.mul_cancel_r in H; lia.
Qed.
Lemma same_number_trans a e1 b e2 c e3 : same_number a e1 b e2 -> same_number b e2 c e3 -> same_number a e1 c e3.
Proof.
  intros H1 H2. pose (k := Z.min e1 (Z.min e2 e3)).
  apply (same_number_at _ _ _ _ k) in H1; [|unfold k; lia]. apply (same_number_at _ _ _ _ k) in H2; [|unfold k; lia].
  apply (same_number_at _ _ _ _ k); [unfold k; lia|]. congruence.
Qed.
Lemma same_number_sym a e1 b e2 : same_number a e1 b e2 -> same_number b e2 a e1.
Proof. unfold same_number. rewrite (Z.min_comm e2 e1). auto. Qed.
Lemma same_number_eq a b e : same_number a e b e -> a = b.
Proof. unfold same_number. rewrite Z.min_id, Z.sub_diag, Z.pow_0_r. lia. Qed.

(** ** digit strings *)
Lemma dval_app a b : dval (a ++ b) = dval a * 10 ^ len b + dval b.
Proof.
  induction a as [|x a IH]; cbn [app dval]; [lia|]. rewrite IH, len_app, Z.pow_add_r by apply len_nonneg. lia.
Qed.
Lemma len_zlist n : 0 <= n -> len (zlist n) = n.
Proof. intros H. unfold zlist, len. rewrite repeat_length. lia. Qed.
Lemma dval_zlist n : dval (zlist n) = 0.
Proof. unfold zlist. induction (Z.to_nat n); cbn; auto. Qed.
Lemma dval_pad_right l n : 0 <= n -> dval (l ++ zlist n) = dval l * 10 ^ n.
Proof. intros H. rewrite dval_app, dval_zlist, len_zlist; lia. Qed.
Lemma dval_pad_left l n : dval (zlist n ++ l) = dval l.
Proof. rewrite dval_app, dval_zlist. lia. Qed.
Lemma is_digits_app a b : is_digits (a ++ b) <-> is_digits a /\ is_digits b. Proof. apply Forall_app. Qed.
Lemma is_digits_zlist n : is_digits (zlist n).
Proof. unfold zlist. induction (Z.to_nat n); constructor; auto; lia. Qed.
Lemma dval_range l : is_digits l -> 0 <= dval l < 10 ^ len l.
Proof.
  induction 1 as [|x l H1 H2 IH]; [cbn; lia|]. cbn [dval]. rewrite len_cons, Z.pow_add_r by (pose proof (len_nonneg l); lia).
  change (10 ^ 1) with 10. nia.
Qed.
Lemma dval_drop l k : is_digits l -> 0 <= k -> dval (firstn (Z.to_nat (len l - k)) l) = dval l / 10 ^ k.
Proof.
  intros H Hk. assert (P : 0 < 10 ^ k) by (apply Z.pow_pos_nonneg; lia).
  destruct (Z.le_gt_cases k (len l)) as [L|L].
  - replace (dval l) with (dval (firstn (Z.to_nat (len l - k)) l ++ skipn (Z.to_nat (len l - k)) l)) by (rewrite firstn_skipn; reflexivity).
    rewrite dval_app.
    assert (Ls : len (skipn (Z.to_nat (len l - k)) l) = k) by (unfold len in *; rewrite skipn_length; lia).
    assert (Hs : is_digits (skipn (Z.to_nat (len l - k)) l)).
    { generalize (Z.to_nat (len l - k)); intros q. rewrite <- (firstn_skipn q l) in H. apply is_digits_app in H. tauto. }
    apply dval_range in Hs. rewrite Ls in *. rewrite Z.div_add_l by lia. rewrite Z.div_small by lia. lia.
  - replace (Z.to_nat (len l - k)) with O by lia. cbn [firstn dval]. symmetry. apply Z.div_small.
    pose proof (dval_range l H). split; [lia|]. eapply Z.lt_le_trans; [apply H0|]. apply Z.pow_le_mono_r; lia.
Qed.

(** ** groups of four *)
Lemma groups4_ok n : forall l, length l = (4 * n)%nat -> is_digits l ->
  gval (groups4 l) = dval l /\ len (groups4 l) = Z.of_nat n /\ is_groups (groups4 l).
Proof.
  induction n as [|n IH]; intros l L H.
  - destruct l; [|cbn in L; lia]. cbn. repeat split; auto. constructor.
  - do 4 (destruct l as [|? l]; [cbn in L; lia|]). cbn [groups4].
    unfold is_digits in H. do 4 apply Forall_cons_iff in H as [? H]. 
    destruct (IH l) as (I1 & I2 & I3); [cbn in L; lia|exact H|].
    cbn [gval]. rewrite I1, I2. split; [|split].
    + cbn [dval]. rewrite !len_cons. assert (E : len l = 4 * Z.of_nat n) by (unfold len; cbn in L; lia).
      rewrite E. rewrite !Z.pow_add_r by lia. replace (10000 ^ Z.of_nat n) with (10 ^ (4 * Z.of_nat n)) by (rewrite Z.pow_mul_r by lia; reflexivity).
      change (10 ^ 1) with 10. ring.
    + rewrite len_cons. lia.
    + constructor; [lia|exact I3].
Qed.

Lemma str_digits_ok n : 0 <= n <= 9999 ->
  exists l, str_digits n = Ok l /\ is_digits l /\ dval l = n /\ (length l <= 4)%nat.
Proof.
  intros H. unfold str_digits.
  destruct (Z.ltb_spec n 0); [lia|].
  destruct (Z.ltb_spec n 10); [|destruct (Z.ltb_spec n 100); [|destruct (Z.ltb_spec n 1000); [|destruct (Z.ltb_spec n 10000); [|lia]]]];
    (eexists; split; [reflexivity|]; split; [repeat constructor; lia|]; split; [|cbn; lia]);
    cbn [dval]; unfold len; cbn [length]; change (Z.of_nat 3) with 3; change (Z.of_nat 2) with 2; change (Z.of_nat 1) with 1; change (Z.of_nat 0) with 0;
    change (10 ^ 3) with 1000; change (10 ^ 2) with 100; change (10 ^ 1) with 10; change (10 ^ 0) with 1; lia.
Qed.
Lemma rjust4_ok l : is_digits l -> (length l <= 4)%nat -> is_digits (rjust4 l) /\ dval (rjust4 l) = dval l /\ len (rjust4 l) = 4.
Proof.
  intros H L. unfold rjust4.
  replace (repeat 0 (4 - length l)) with (zlist (4 - len l)) by (unfold zlist; f_equal; unfold len; lia).
  split; [apply is_digits_app; split; [apply is_digits_zlist|auto]|]. split; [apply dval_pad_left|].
  rewrite len_app, len_zlist by (unfold len; lia). lia.
Qed.
Lemma convert_digits_ok gs : is_groups gs -> exists l, convert_digits gs = Ok l /\ is_digits l /\ dval l = gval gs.
Proof.
  intros H. destruct gs as [|g gs]; [exists []; repeat split; auto; constructor|].
  cbn [convert_digits]. unfold is_groups in H. apply Forall_cons_iff in H as [Hg H].
  destruct (str_digits_ok g Hg) as (a & Ea & Da & Va & _). rewrite Ea. cbn [bind].
  assert (T : exists b, mapM (fun y => do l <- str_digits y; Ok (rjust4 l)) gs = Ok b /\ is_digits (concat b) /\
            dval (concat b) = gval gs /\ len (concat b) = 4 * len gs).
  { clear Hg Ea. induction H as [|y gs Hy Hs (b & E & I1 & I2 & I3)]; [exists []; repeat split; auto; constructor|].
    destruct (str_digits_ok y Hy) as (l & El & Dl & Vl & Ll). destruct (rjust4_ok l Dl Ll) as (J1 & J2 & J3).
    cbn [mapM]. rewrite El. cbn [bind]. rewrite E. cbn [bind]. eexists; split; [reflexivity|]. cbn [concat].
    split; [apply is_digits_app; auto|]. rewrite dval_app, len_app, I2, I3, J2, J3, Vl. cbn [gval]. rewrite len_cons.
    split; [|lia]. f_equal. f_equal. rewrite Z.pow_mul_r by (pose proof (len_nonneg gs); lia). reflexivity. }
  destruct T as (b & E & I1 & I2 & I3). rewrite E. cbn [bind]. eexists; split; [reflexivity|].
  split; [apply is_digits_app; auto|]. rewrite dval_app, I2, I3, Va. cbn [gval]. f_equal. f_equal.
  rewrite Z.pow_mul_r by (pose proof (len_nonneg gs); lia). reflexivity.
Qed.

(** ** trailing zeros *)
Lemma zeros_spec l : 0 <= zeros l <= len l /\ exists r, l = zlist (zeros l) ++ r.
Proof.
  induction l as [|x l [I1 (r & I2)]]; cbn [zeros].
  - split; [cbn; lia|]. exists []. reflexivity.
  - rewrite len_cons. destruct (Z.eqb_spec x 0) as [->|N].
    + split; [lia|]. exists r. replace (zlist (1 + zeros l)) with (0 :: zlist (zeros l)).
      * cbn. f_equal. exact I2.
      * unfold zlist. replace (Z.to_nat (1 + zeros l)) with (S (Z.to_nat (zeros l))) by lia. reflexivity.
    + split; [pose proof (len_nonneg l); lia|]. exists (x :: l). reflexivity.
Qed.
Lemma rev_zlist n : rev (zlist n) = zlist n.
Proof.
  unfold zlist. induction (Z.to_nat n) as [|k IH]; [reflexivity|]. cbn [repeat rev]. rewrite IH.
  clear. induction k; cbn; [reflexivity|]. f_equal. exact IHk.
Qed.
Lemma trailing_spec xd e : e < 0 -> let tz := trailing_zeros xd e in
  0 <= tz <= - e /\ exists r, xd = r ++ zlist tz /\ (if tz =? 0 then xd else pyslice xd 0 (- tz)) = r.
Proof.
  intros He tz. unfold trailing_zeros in tz. pose proof (zeros_spec (firstn (Z.to_nat (- e)) (rev xd))) as [Z1 (r & Z2)].
  fold tz in Z1, Z2. split.
  - split; [lia|]. assert (len (firstn (Z.to_nat (- e)) (rev xd)) <= - e); [|lia]. unfold len. rewrite firstn_length. lia.
  - exists (rev (r ++ skipn (Z.to_nat (- e)) (rev xd))).
    assert (E : xd = rev (r ++ skipn (Z.to_nat (- e)) (rev xd)) ++ zlist tz).
    { rewrite <- (rev_zlist tz) at 1. rewrite <- rev_app_distr, app_assoc, <- Z2, firstn_skipn, rev_involutive. reflexivity. }
    split; [exact E|]. destruct (Z.eqb_spec tz 0) as [Ez|N].
    + rewrite E at 1. rewrite Ez. unfold zlist. cbn. apply app_nil_r.
    + rewrite E at 1. set (q := rev _). unfold pyslice, py_bound. rewrite len_app, len_zlist by lia.
      pose proof (len_nonneg q). destruct (Z.ltb_spec 0 0); [lia|]. destruct (Z.ltb_spec (- tz) 0); [|lia].
      rewrite Z.min_l, Z.max_r by lia. cbn [skipn Z.to_nat].
      replace (Z.to_nat _) with (length q) by (unfold len; lia). apply firstn_app_exact; reflexivity.
Qed.

Lemma pad4_spec x : 0 <= pad4 x < 4 /\ (x + pad4 x) mod 4 = 0.
Proof. unfold pad4. destruct (Z.eqb_spec (x mod 4) 0); lia. Qed.

Lemma numeric_parts_ok s xd e nd w sg ds gs : is_digits xd ->
  numeric_parts s xd e = ((nd, w, sg, ds), gs) ->
  nd = len gs /\ is_groups gs /\ sg = (if s =? 1 then 16384 else s) /\ ds = Z.max 0 (- e) /\
  (4 * len gs <= len xd + 6 /\ Z.min e 0 <= 4 * (w + 1) <= len xd + Z.max 0 e + 6) /\
  same_number (gval gs) (wire_exp w gs) (dval xd) e.
Proof.
  intros Hd H. unfold numeric_parts in H.
  destruct (Z.ltb_spec e 0) as [He|He].
  - destruct (trailing_spec xd e He) as (Ht & r & Ex & Er). set (tz := trailing_zeros xd e) in *. rewrite Er in H.
    set (rdig := - (e + tz)) in *. set (ldig := len r - rdig) in *.
    destruct (pad4_spec rdig) as [P1 P2]. destruct (pad4_spec ldig) as [P3 P4].
    set (rpad := pad4 rdig) in *. set (lpad := pad4 ldig) in *.
    injection H as <- <- <- <- <-.
    assert (Dr : is_digits r) by (rewrite Ex in Hd; apply is_digits_app in Hd; tauto).
    set (full := zlist lpad ++ r ++ zlist rpad).
    assert (Lf : len full = lpad + len r + rpad) by (unfold full; rewrite !len_app, !len_zlist by lia; lia).
    set (n := (ldig + rdig + lpad + rpad) / 4).
    assert (Ln : len full = 4 * n) by (unfold n, ldig in *; lia).
    assert (0 <= n) by (pose proof (len_nonneg full); lia).
    destruct (groups4_ok (Z.to_nat n) full) as (G1 & G2 & G3).
    { unfold len in Ln. lia. }
    { unfold full. rewrite !is_digits_app. auto using is_digits_zlist. }
    rewrite Z2Nat.id in G2 by lia.
    split; [auto|]. split; [auto|]. split; [auto|]. split; [lia|].
    assert (Lx : len xd = len r + tz) by (clearbody tz; rewrite Ex, len_app, len_zlist by lia; reflexivity).
    split; [rewrite G2; unfold ldig, rdig in *; pose proof (len_nonneg r); lia|].
    unfold wire_exp. rewrite G1, G2. unfold full. rewrite dval_pad_left, dval_pad_right by lia.
    assert (Ev : dval xd = dval r * 10 ^ tz) by (clearbody tz; rewrite Ex, dval_pad_right by lia; reflexivity). rewrite Ev.
    replace (4 * ((0 + (ldig + lpad)) / 4 - 1 + 1 - n)) with (e + tz - rpad).
    2:{ unfold n, ldig, rdig in *. lia. }
    rewrite (same_number_at _ _ _ _ (e - rpad)) by lia.
    rewrite <- !Z.mul_assoc, <- !Z.pow_add_r by lia. f_equal. f_equal. lia.
  - set (rr := e mod 4) in *.
    assert (X : exists z, (0 <= z <= e /\ z < 4) /\ (e - z) mod 4 = 0 /\
       (if negb (e =? 0) && negb (rr =? 0)
        then (xd ++ zlist rr, e - rr, len (xd ++ zlist rr), 0, 0) else (xd, e, len xd, 0, 0))
       = (xd ++ zlist z, e - z, len (xd ++ zlist z), 0, 0)).
    { destruct (Z.eqb_spec e 0); [|destruct (Z.eqb_spec rr 0)]; cbn [negb andb].
      - exists 0. split; [lia|]. split; [lia|]. cbn. rewrite app_nil_r, Z.sub_0_r. reflexivity.
      - exists 0. split; [lia|]. split; [unfold rr in *; lia|]. cbn. rewrite app_nil_r, Z.sub_0_r. reflexivity.
      - exists rr. unfold rr in *. split; [lia|]. split; [lia|]. reflexivity. }
    destruct X as (z & Hz & Hz4 & X). rewrite X in H. clear X.
    set (digits := xd ++ zlist z) in *. set (ldig := len digits) in *.
    destruct (pad4_spec ldig) as [P3 P4]. set (lpad := pad4 ldig) in *.
    injection H as <- <- <- <- <-.
    assert (Dr : is_digits digits) by (unfold digits; apply is_digits_app; split; auto using is_digits_zlist).
    set (full := zlist lpad ++ digits ++ zlist 0).
    assert (Lf : len full = lpad + ldig) by (unfold full; rewrite !len_app, !len_zlist by lia; unfold ldig; lia).
    set (n := (ldig + 0 + lpad + 0) / 4).
    assert (Ln : len full = 4 * n) by (unfold n in *; lia).
    assert (0 <= n) by (pose proof (len_nonneg full); lia).
    destruct (groups4_ok (Z.to_nat n) full) as (G1 & G2 & G3).
    { unfold len in Ln. lia. }
    { unfold full. rewrite !is_digits_app. auto using is_digits_zlist. }
    rewrite Z2Nat.id in G2 by lia.
    split; [auto|]. split; [auto|]. split; [auto|]. split; [lia|].
    assert (Lx : ldig = len xd + z) by (unfold ldig, digits; rewrite len_app, len_zlist by lia; reflexivity).
    split; [rewrite G2; pose proof (len_nonneg xd); lia|].
    unfold wire_exp. rewrite G1, G2. unfold full. rewrite dval_pad_left, dval_pad_right by lia.
    unfold digits. rewrite dval_pad_right by lia.
    replace (4 * ((e - z + (ldig + lpad)) / 4 - 1 + 1 - n)) with (e - z).
    2:{ unfold n in *. lia. }
    rewrite (same_number_at _ _ _ _ (e - z)) by lia.
    rewrite <- !Z.mul_assoc, <- !Z.pow_add_r by lia. f_equal. f_equal. lia.
Qed.

(** ** the wire *)
Definition h2 (x : Z) := be 2 (x mod 2 ^ 16).
Lemma short_pack_h2 x : in_short x -> short_pack x = Ok (h2 x).
Proof. intros H. unfold short_pack. rewrite pack_s_ok by exact H. reflexivity. Qed.
Lemma short_pack_inv x d : short_pack x = Ok d -> in_short x /\ d = h2 x.
Proof. intros H. apply pack_s_inv in H. exact H. Qed.
Lemma short_unpack_h2 x r : in_short x -> short_unpack (h2 x ++ r) = Ok x.
Proof. intros H. apply (unpack_pack_s 2 x (h2 x) r); [lia|]. apply short_pack_h2; auto. Qed.
Lemma to_signed_h2 x : in_short x -> to_signed 2 (unbe (h2 x)) = x.
Proof. intros H. unfold h2. rewrite unbe_be by (apply Z.mod_pos_bound; lia). apply (to_signed_mod 2 x); [lia|exact H]. Qed.
Lemma parse_pairs2_h2 l r : Forall in_short l -> map (to_signed 2) (parse_pairs2 (length l) (concat (map h2 l) ++ r)) = l.
Proof.
  induction 1 as [|x l H1 H2 IH]; cbn [length parse_pairs2 map concat]; [reflexivity|].
  rewrite <- app_assoc. unfold h2 at 1 3. rewrite firstn_be, skipn_be, IH.
  change (be 2 (x mod 2 ^ 16)) with (h2 x). rewrite to_signed_h2 by auto. reflexivity.
Qed.
Lemma wire_length weight sign dscale gs : length (numeric_wire weight sign dscale gs) = (8 + 2 * length gs)%nat.
Proof.
  unfold numeric_wire. rewrite !app_length, !be_length.
  assert (E : forall l, length (concat (map (fun x => be 2 (x mod 2 ^ 16)) l)) = (2 * length l)%nat).
  { induction l as [|x l IH]; [reflexivity|]. cbn [map concat]. rewrite app_length, be_length, IH. cbn. lia. }
  rewrite E. lia.
Qed.
Definition wsign (s : Z) := if s =? 1 then 16384 else 0.
Lemma lib_unpack_wire w s ds gs : in_short (len gs) -> in_short w -> in_short ds -> Forall in_short gs ->
  lib_numeric_unpack (numeric_wire w s ds gs) = Ok ((len gs, w, wsign s, ds), gs).
Proof.
  intros H1 H2 H3 H4. unfold lib_numeric_unpack. rewrite wire_length.
  assert (Hs : in_short (wsign s)) by (unfold wsign, in_short; destruct (s =? 1); lia).
  replace ((8 + 2 * length gs - 8) / 2)%nat with (length gs).
  2:{ replace (8 + 2 * length gs - 8)%nat with (length gs * 2)%nat by lia. symmetry. apply Nat.div_mul. lia. }
  rewrite Nat.eqb_refl. cbn [negb].
  unfold numeric_wire. fold (wsign s). change (fun x => be 2 (x mod 2 ^ 16)) with h2.
  set (G := concat (map h2 gs)). fold (h2 (len gs)) (h2 w) (h2 (wsign s)) (h2 ds).
  assert (E8 : firstn 8 (h2 (len gs) ++ h2 w ++ h2 (wsign s) ++ h2 ds ++ G) = h2 (len gs) ++ h2 w ++ h2 (wsign s) ++ h2 ds).
  { rewrite !app_assoc. apply firstn_app_exact. unfold h2. rewrite !app_length, !be_length. reflexivity. }
  assert (S8 : skipn 8 (h2 (len gs) ++ h2 w ++ h2 (wsign s) ++ h2 ds ++ G) = G).
  { rewrite !app_assoc. apply skipn_app_exact. unfold h2. rewrite !app_length, !be_length. reflexivity. }
  rewrite E8, S8. rewrite short_unpack_h2 by auto. cbn [bind].
  assert (K : forall x r, skipn 2 (h2 x ++ r) = r) by (intros; apply skipn_app_exact; apply be_length).
  assert (K4 : forall x y r, skipn 4 (h2 x ++ h2 y ++ r) = r).
  { intros. change 4%nat with (2 + 2)%nat. rewrite skipn_plus, !K. reflexivity. }
  assert (K6 : forall x y z r, skipn 6 (h2 x ++ h2 y ++ h2 z ++ r) = r).
  { intros. change 6%nat with (2 + 4)%nat. rewrite skipn_plus, K, K4. reflexivity. }
  rewrite K, K4, K6. rewrite !short_unpack_h2 by auto. cbn [bind].
  rewrite <- (app_nil_r (h2 ds)), short_unpack_h2 by auto. cbn [bind].
  rewrite <- (app_nil_r G). unfold G. rewrite parse_pairs2_h2 by auto. reflexivity.
Qed.
Lemma groups_short gs : is_groups gs -> Forall in_short gs.
Proof. intros H. eapply Forall_impl; [|exact H]. unfold in_short. intros; lia. Qed.

Lemma numeric_unpack_wire w s ds gs : (s = 0 \/ s = 1) -> in_short (len gs) -> in_short w -> in_short ds -> is_groups gs ->
  (exists m, same_number (gval gs) (wire_exp w gs) m (- ds)) ->
  exists l, numeric_unpack (numeric_wire w s ds gs) = Ok {| dsign := s; ddigits := l; dexpo := Fin (- ds) |} /\
    is_digits l /\ same_number (dval l) (- ds) (gval gs) (wire_exp w gs).
Proof.
  intros Hs H1 H2 H3 Hg (m & Hm). unfold numeric_unpack. rewrite lib_unpack_wire by auto using groups_short. cbn [bind].
  destruct (convert_digits_ok gs Hg) as (l & El & Dl & Vl). rewrite El. cbn [bind].
  assert (Esg : (if wsign s =? 16384 then 1 else wsign s) = s) by (destruct Hs as [-> | ->]; reflexivity). rewrite Esg.
  unfold mk_decimal. assert (Eok : ((s =? 0) || (s =? 1)) = true) by (destruct Hs as [-> | ->]; reflexivity). rewrite Eok.
  eexists. split; [reflexivity|]. set (npad := ds - (len gs - (w + 1)) * 4).
  assert (En : wire_exp w gs = npad - ds) by (unfold wire_exp, npad; lia).
  destruct (Z.leb_spec 0 npad) as [P|P].
  - split; [apply is_digits_app; split; auto using is_digits_zlist|].
    rewrite dval_pad_right, Vl, En by lia. rewrite (same_number_at _ _ _ _ (- ds)) by lia.
    replace (- ds - - ds) with 0 by lia. replace (npad - ds - - ds) with npad by lia. rewrite Z.pow_0_r. lia.
  - assert (Ep : pyslice l 0 npad = firstn (Z.to_nat (len l - - npad)) l).
    { unfold pyslice, py_bound. destruct (Z.ltb_spec 0 0); [lia|]. destruct (Z.ltb_spec npad 0); [|lia].
      pose proof (len_nonneg l). rewrite Z.min_l by lia. cbn [Z.to_nat skipn]. f_equal. lia. }
    rewrite Ep. split.
    { generalize (Z.to_nat (len l - - npad)); intros q. rewrite <- (firstn_skipn q l) in Dl. apply is_digits_app in Dl. tauto. }
    rewrite dval_drop, Vl by (auto; lia). rewrite En in Hm. 
    rewrite (same_number_at _ _ _ _ (npad - ds)) in Hm by lia. replace (npad - ds - (npad - ds)) with 0 in Hm by lia.
    replace (- ds - (npad - ds)) with (- npad) in Hm by lia. rewrite Z.pow_0_r, Z.mul_1_r in Hm.
    rewrite Hm, Z.div_mul by (apply Z.pow_nonzero; lia). rewrite En.
    rewrite (same_number_at _ _ _ _ (npad - ds)) by lia. rewrite Z.sub_diag, Z.pow_0_r, Z.mul_1_r.
    f_equal. f_equal. lia.
Qed.

Lemma numeric_pack_inv s xd e d : (s = 0 \/ s = 1) -> is_digits xd ->
  numeric_pack {| dsign := s; ddigits := xd; dexpo := Fin e |} = Ok d ->
  exists w gs, d = numeric_wire w s (Z.max 0 (- e)) gs /\ is_groups gs /\
    in_short (len gs) /\ in_short w /\ in_short (Z.max 0 (- e)) /\
    same_number (gval gs) (wire_exp w gs) (dval xd) e.
Proof.
  intros Hs Hd H. unfold numeric_pack in H. cbn [dexpo dsign ddigits] in H.
  destruct (numeric_parts s xd e) as [[[[nd w] sg] ds] gs] eqn:P. cbn [fst snd] in H.
  apply numeric_parts_ok in P as (-> & Hg & -> & -> & _ & Hv); auto.
  unfold lib_numeric_pack in H. binv H. binv H. binv H. binv H. binv H. okinv H.
  repeat match goal with H : short_pack _ = Ok _ |- _ => apply short_pack_inv in H as [? ->] end.
  exists w, gs.
  match goal with H : mapM _ _ = Ok _ |- _ => rename H into E5 end.
  rewrite (mapM_ok short_pack h2) in E5.
  2:{ eapply Forall_impl; [|apply groups_short; exact Hg]. intros x Hx. apply short_pack_h2; auto. }
  okinv E5. repeat (split; auto). unfold numeric_wire. f_equal. f_equal. f_equal.
  destruct Hs as [-> | ->]; reflexivity.
Qed.

Lemma numeric_pack_total s xd e : (s = 0 \/ s = 1) -> is_digits xd -> -32768 < e -> len xd + Z.max 0 e <= 131000 ->
  exists d, numeric_pack {| dsign := s; ddigits := xd; dexpo := Fin e |} = Ok d.
Proof.
  intros Hs Hd He Hl. unfold numeric_pack. cbn [dexpo dsign ddigits].
  destruct (numeric_parts s xd e) as [[[[nd w] sg] ds] gs] eqn:P. cbn [fst snd].
  apply numeric_parts_ok in P as (-> & Hg & -> & -> & [B1 B2] & Hv); auto.
  pose proof (len_nonneg gs). pose proof (len_nonneg xd).
  assert (Hsg : in_short (if s =? 1 then 16384 else s)) by (unfold in_short; destruct Hs as [-> | ->]; cbn; lia).
  unfold lib_numeric_pack. rewrite !short_pack_h2 by (try exact Hsg; unfold in_short; lia). cbn [bind].
  rewrite (mapM_ok short_pack h2); [cbn [bind]; eauto|].
  eapply Forall_impl; [|apply groups_short; exact Hg]. intros x Hx. apply short_pack_h2; auto.
Qed.
