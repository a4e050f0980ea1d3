(** TypeIOProof.v *)
From Verif Require Import Base BaseProof PBufferModel PBufferProof Element3Model Element3Spec Element3Proof
  PyList PyListProof IterModel IterSpec IterProof TypeIOModel TypeIOSpec.

(** ** integers *)
Lemma be_value_unbe d : be_value d = unbe d.
Proof.
  assert (H : forall l a, fold_left (fun a b => a * 256 + b) l a = a * 256 ^ len l + be_value l).
  { induction l as [|b l IH]; intros a; cbn [fold_left be_value].
    - change (len []) with 0. rewrite Z.pow_0_r. lia.
    - rewrite IH, len_cons, Z.pow_add_r by (pose proof (len_nonneg l); lia). lia. }
  unfold unbe. rewrite H. lia.
Qed.
Lemma pow_2_256 n : 2 ^ (8 * Z.of_nat n) = 256 ^ Z.of_nat n.
Proof. rewrite Z.pow_mul_r by lia. reflexivity. Qed.
Lemma half_2_256 n : (0 < n)%nat -> 2 ^ (8 * Z.of_nat n - 1) = 256 ^ Z.of_nat n / 2.
Proof. intros H. rewrite <- pow_2_256, Z.pow_sub_r by lia. reflexivity. Qed.
Lemma twos_unsigned_range n d : length d = n -> is_bytes d -> 0 <= be_value d < 2 ^ (8 * Z.of_nat n).
Proof. intros <- H. rewrite be_value_unbe, pow_2_256. apply unbe_range; auto. Qed.

Lemma signed_pack_iff n x d : (0 < n)%nat -> (pack_s n x = Ok d <-> twos n d x).
Proof.
  intros Hn. unfold twos. rewrite half_2_256, pow_2_256, be_value_unbe by auto.
  pose proof (half_pow n Hn) as Hp. pose proof (pow256_pos n) as Hq. split.
  - intros H. apply pack_s_inv in H as [H ->]. rewrite be_length. repeat split; try lia.
    + apply be_bytes.
    + rewrite unbe_be by (apply Z.mod_pos_bound; lia).
      destruct (Z.leb_spec 0 x).
      * left. apply Z.mod_small. lia.
      * right. symmetry. apply (Z.mod_unique x _ (-1)); lia.
  - intros (Hl & Hb & Hx & E). rewrite pack_s_ok by lia. f_equal.
    subst n. transitivity (be (length d) (unbe d)); [|apply be_unbe; auto]. f_equal.
    pose proof (unbe_range d Hb). destruct E as [E|E].
    + rewrite E. apply Z.mod_small. lia.
    + rewrite E. symmetry. apply (Z.mod_unique x _ (-1)); lia.
Qed.
Lemma signed_unpack_iff n x d : (0 < n)%nat -> length d = n -> is_bytes d -> (unpack_s n d = Ok x <-> twos n d x).
Proof.
  intros Hn Hl Hb. split.
  - intros H. apply signed_pack_iff; auto. eapply pack_unpack_s; eauto.
  - intros H. apply signed_pack_iff in H; auto. apply (unpack_pack_s _ _ _ []) in H; auto. rewrite app_nil_r in H. auto.
Qed.
Lemma signed_range n x : (0 < n)%nat -> ((exists d, pack_s n x = Ok d) <-> - (2 ^ (8 * Z.of_nat n - 1)) <= x < 2 ^ (8 * Z.of_nat n - 1)).
Proof.
  intros Hn. rewrite half_2_256 by auto. split.
  - intros [d H]. apply pack_s_inv in H as [H _]. lia.
  - intros H. rewrite pack_s_ok by lia. eauto.
Qed.
Lemma signed_unpack_total n d : (0 < n)%nat -> (n <= length d)%nat -> exists x, unpack_s n d = Ok x.
Proof. intros Hn H. unfold unpack_s. rewrite unpack_u_ok by auto. cbn. eauto. Qed.
Lemma unsigned_pack_iff n x d : (pack_u n x = Ok d <-> unsigned n d x).
Proof.
  unfold unsigned. rewrite be_value_unbe. split.
  - intros H. apply pack_u_inv in H as [H ->]. rewrite be_length, unbe_be by auto. repeat split; auto. apply be_bytes.
  - intros (Hl & Hb & <-). subst n. rewrite pack_u_ok by (apply unbe_range; auto). rewrite be_unbe; auto.
Qed.
Lemma unsigned_unpack_iff n x d : length d = n -> is_bytes d -> (unpack_u n d = Ok x <-> unsigned n d x).
Proof.
  intros Hl Hb. rewrite unpack_u_ok by lia. subst n. rewrite firstn_all. unfold unsigned. rewrite be_value_unbe.
  split; [intros H; okinv H; auto|intros (_ & _ & ->); auto].
Qed.
Lemma unsigned_range n x : (exists d, pack_u n x = Ok d) <-> 0 <= x < 2 ^ (8 * Z.of_nat n).
Proof.
  rewrite pow_2_256. split.
  - intros [d H]. apply pack_u_inv in H as [H _]. lia.
  - intros H. rewrite pack_u_ok by lia. eauto.
Qed.
Lemma unpack_short n d : (length d < n)%nat -> unpack_u n d = Err StructError /\ unpack_s n d = Err StructError.
Proof. intros H. unfold unpack_s, unpack_u. destruct (Nat.ltb_spec (length d) n); [auto|lia]. Qed.

(** reading a fixed-width field from the front *)
Lemma unpack_u_inv n t x : is_bytes t -> unpack_u n t = Ok x ->
  t = be n x ++ skipn n t /\ 0 <= x < 256 ^ Z.of_nat n.
Proof.
  intros Hb H. unfold unpack_u in H. destruct (Nat.ltb_spec (length t) n) as [L|L]; [discriminate|]. okinv H.
  assert (El : length (firstn n t) = n) by (rewrite firstn_length; lia).
  pose proof (unbe_range _ (is_bytes_firstn n t Hb)) as R. rewrite El in R. split; [|auto].
  rewrite <- El at 1. rewrite be_unbe by (apply is_bytes_firstn; auto). symmetry. apply firstn_skipn.
Qed.
Lemma unpack_u_firstn_inv n t x : is_bytes t -> unpack_u n (firstn n t) = Ok x ->
  t = be n x ++ skipn n t /\ 0 <= x < 256 ^ Z.of_nat n.
Proof.
  intros Hb H. assert (H' : unpack_u n t = Ok x).
  { unfold unpack_u in *. rewrite firstn_length in H. destruct (Nat.ltb_spec (Nat.min n (length t)) n); [discriminate|].
    destruct (Nat.ltb_spec (length t) n); [lia|]. rewrite firstn_firstn, Nat.min_id in H. auto. }
  apply unpack_u_inv; auto.
Qed.
Lemma unpack_s_firstn_inv n t x : (0 < n)%nat -> is_bytes t -> unpack_s n (firstn n t) = Ok x ->
  t = be n (x mod 256 ^ Z.of_nat n) ++ skipn n t /\ - (256 ^ Z.of_nat n / 2) <= x < 256 ^ Z.of_nat n / 2.
Proof.
  intros Hn Hb H. unfold unpack_s in H. binv H. okinv H. apply unpack_u_firstn_inv in E as [E R]; auto.
  pose proof (half_pow n Hn). unfold to_signed. destruct (Z.ltb_spec a (256 ^ Z.of_nat n / 2)).
  - rewrite Z.mod_small by lia. split; auto. lia.
  - rewrite <- (Z.mod_unique (a - 256 ^ Z.of_nat n) (256 ^ Z.of_nat n) (-1) a) by lia. split; auto. lia.
Qed.
Lemma pyslice_field {A} (l : list A) i n : 0 <= i -> pyslice l i (i + Z.of_nat n) = firstn n (skipn (Z.to_nat i) l).
Proof. intros H. rewrite pyslice_firstn_skipn by lia. f_equal. lia. Qed.
Lemma pyslice4 {A} (l : list A) i : 0 <= i -> pyslice l i (i + 4) = firstn 4 (skipn (Z.to_nat i) l).
Proof. exact (pyslice_field l i 4). Qed.
Lemma skipn_off {A} (l : list A) i n : 0 <= i -> 0 <= n -> skipn (Z.to_nat (i + n)) l = skipn (Z.to_nat n) (skipn (Z.to_nat i) l).
Proof. intros H1 H2. rewrite <- skipn_plus. f_equal. lia. Qed.

(** ** records *)
Lemma nullmark_eq : nullmark = [255;255;255;255]. Proof. reflexivity. Qed.
Lemma be4_null x : 0 <= x < 2 ^ 32 -> be 4 x = nullmark -> x = 2 ^ 32 - 1.
Proof.
  intros H E. apply (f_equal unbe) in E. rewrite unbe_be in E by exact H.
  change (unbe nullmark) with (2 ^ 32 - 1) in E. auto.
Qed.
Lemma long_pack_small x : 0 <= x < 2 ^ 31 -> long_pack x = Ok (be 4 x).
Proof.
  intros H. unfold long_pack. rewrite pack_s_ok by (cbn; lia). f_equal. f_equal. apply Z.mod_small. cbn. lia.
Qed.
Lemma long_pack_big x : 2 ^ 31 <= x -> long_pack x = Err StructError.
Proof. intros H. unfold long_pack, pack_s. change (256 ^ Z.of_nat 4 / 2) with (2 ^ 31). destruct (_ && _) eqn:E; [lia|reflexivity]. Qed.
Definition col_wire (c : Z * option bytes) := be 4 (fst c) ++ sized_wire (snd c).
Lemma record_att_ok c : 0 <= fst c < 2 ^ 32 -> small (snd c) -> record_att_pack c = Ok (col_wire c).
Proof.
  intros H1 H2. unfold record_att_pack, ulong_pack. rewrite pack_u_ok by exact H1. cbn [bind].
  destruct c as [o [v|]]; cbn [snd fst] in *; [|reflexivity].
  pose proof (len_nonneg v). cbn in H2. rewrite long_pack_small by lia. reflexivity.
Qed.
Lemma record_pack_ok l : wf_record l -> record_pack l = Ok (record_wire l).
Proof.
  intros [H1 H2]. unfold record_pack. pose proof (len_nonneg l). rewrite long_pack_small by lia. cbn [bind].
  assert (E : mapM record_att_pack l = Ok (map col_wire l)).
  { clear H1 H. induction H2 as [|c l [H1 H2] H3 IH]; cbn [mapM map]; [reflexivity|].
    rewrite record_att_ok by auto. cbn [bind]. rewrite IH. reflexivity. }
  rewrite E. reflexivity.
Qed.
Lemma record_pack_inv l d : record_pack l = Ok d -> wf_record l.
Proof.
  unfold record_pack. intros H. binv H. binv H. clear H. split.
  - destruct (Z.lt_ge_cases (len l) (2 ^ 31)); auto. rewrite long_pack_big in E by lia. discriminate.
  - clear E a. revert a0 E0. induction l as [|c l IH]; intros x H; [constructor|]. cbn [mapM] in H. binv H. binv H.
    constructor; [|eauto]. unfold record_att_pack in E. binv E. apply pack_u_inv in E1 as [E1 _]. split; [exact E1|].
    destruct (snd c) as [v|]; cbn; auto. destruct (Z.lt_ge_cases (len v) (2 ^ 31)); auto.
    rewrite long_pack_big in E by lia. discriminate.
Qed.
Lemma to_signed4_small x : 0 <= x < 2 ^ 31 -> to_signed 4 x = x.
Proof. intros H. unfold to_signed. change (256 ^ Z.of_nat 4 / 2) with (2 ^ 31). destruct (Z.ltb_spec x (2 ^ 31)); lia. Qed.

Lemma long_unpack_be x r : 0 <= x < 2 ^ 31 -> long_unpack (be 4 x ++ r) = Ok x.
Proof.
  intros H. unfold long_unpack, unpack_s. rewrite unpack_u_be by (cbn; lia). cbn [bind].
  rewrite to_signed4_small by lia. reflexivity.
Qed.
Lemma field_at {A} (pre v post : list A) i j : i = len pre -> j = i + len v -> pyslice (pre ++ v ++ post) i j = v.
Proof. intros -> ->. apply pyslice_app; auto. Qed.

Lemma record_loop_ok l : Forall (fun c => 0 <= fst c < 2 ^ 32 /\ small (snd c)) l -> forall pre post,
  record_loop (length l) (pre ++ concat (map col_wire l) ++ post) (len pre)
  = Ok (l, len pre + len (concat (map col_wire l))).
Proof.
  induction 1 as [|[o a] l [Ho Ha] Hl IH]; intros pre post; cbn [length record_loop map concat].
  - change (len []) with 0. rewrite Z.add_0_r. reflexivity.
  - cbn [fst snd] in *. rewrite <- !app_assoc.
    set (data := pre ++ _).
    assert (F1 : pyslice data (len pre) (len pre + 4) = be 4 o).
    { unfold data, col_wire at 1. cbn [fst snd]. rewrite <- !app_assoc. apply field_at; rewrite ?len_be; auto. }
    rewrite F1. unfold ulong_unpack. rewrite unpack_u_be' by exact Ho. cbn [bind].
    destruct a as [v|].
    + cbn in Ha. pose proof (len_nonneg v).
      assert (F2 : pyslice data (len pre + 4) (len pre + 4 + 4) = be 4 (len v)).
      { unfold data, col_wire at 1. cbn [fst snd sized_wire]. rewrite <- !app_assoc, (app_assoc pre (be 4 o)).
        apply field_at; rewrite ?len_app, ?len_be; lia. }
      assert (F3 : pyslice data (len pre + 4 + 4) (len pre + 4 + 4 + len v) = v).
      { unfold data, col_wire at 1. cbn [fst snd sized_wire].
        rewrite <- !app_assoc, (app_assoc pre (be 4 o)), (app_assoc _ (be 4 (len v))).
        apply field_at; rewrite ?len_app, ?len_be; lia. }
      rewrite F2, nullmark_be by lia.
      rewrite <- (app_nil_r (be 4 (len v))), long_unpack_be by lia. cbn [bind].
      rewrite F3. destruct (Z.ltb_spec (len v) (-1)); [lia|]. rewrite Z.eqb_refl. cbn [orb negb].
      specialize (IH (pre ++ col_wire (o, Some v)) post). rewrite <- app_assoc in IH. fold data in IH.
      assert (L : len (col_wire (o, Some v)) = 8 + len v) by (unfold col_wire; cbn [fst snd sized_wire]; rewrite !len_app, !len_be; lia).
      rewrite len_app, L in IH.
      replace (len pre + 4 + 4 + len v) with (len pre + (8 + len v)) by lia. rewrite IH. cbn [bind fst snd].
      rewrite len_app, L. f_equal. f_equal. lia.
    + assert (F2 : pyslice data (len pre + 4) (len pre + 4 + 4) = nullmark).
      { unfold data, col_wire at 1. cbn [fst snd sized_wire]. rewrite <- !app_assoc, (app_assoc pre (be 4 o)).
        apply (field_at (pre ++ be 4 o) nullmark); rewrite ?len_app, ?len_be; change (len nullmark) with 4; lia. }
      rewrite F2, seqb_refl.
      specialize (IH (pre ++ col_wire (o, None)) post). rewrite <- app_assoc in IH. fold data in IH.
      assert (L : len (col_wire (o, None)) = 8) by (unfold col_wire; cbn [fst snd sized_wire]; rewrite !len_app, !len_be; reflexivity).
      rewrite len_app, L in IH.
      replace (len pre + 4 + 4) with (len pre + 8) by lia. rewrite IH. cbn [bind fst snd].
      rewrite len_app, L. f_equal. f_equal. lia.
Qed.
Lemma record_unpack_ok l : wf_record l -> record_unpack (record_wire l) = Ok l.
Proof.
  intros [H1 H2]. unfold record_unpack, record_wire. pose proof (len_nonneg l).
  rewrite long_unpack_be by lia. cbn [bind]. rewrite to_nat_len.
  pose proof (record_loop_ok l H2 (be 4 (len l)) []) as R. rewrite len_be, app_nil_r in R.
  change (Z.of_nat 4) with 4 in R. fold col_wire in *.
  change (fun c : Z * option (list Z) => be 4 (fst c) ++ sized_wire (snd c)) with col_wire.
  rewrite R. cbn [bind fst snd]. rewrite len_app, len_be.
  replace (Z.of_nat 4 + len (concat (map col_wire l)) - (4 + len (concat (map col_wire l)))) with 0 by lia.
  reflexivity.
Qed.

Lemma record_loop_inv n : forall data off l off', is_bytes data -> 0 <= off ->
  record_loop n data off = Ok (l, off') ->
  length l = n /\ Forall (fun c => 0 <= fst c < 2 ^ 32 /\ small (snd c)) l /\
  off' = off + len (concat (map col_wire l)) /\
  skipn (Z.to_nat off) data = concat (map col_wire l) ++ skipn (Z.to_nat off') data.
Proof.
  induction n as [|n IH]; intros data off l off' Hb Hoff H; cbn [record_loop] in H.
  - okinv H. injection H as <- <-. repeat split; auto; try reflexivity. change (len (concat (map col_wire []))) with 0. lia.
  - binv H. rewrite pyslice4 in E by lia. apply unpack_u_firstn_inv in E as [E Ho]; [|apply is_bytes_skipn; auto].
    change (256 ^ Z.of_nat 4) with (2 ^ 32) in Ho.
    pose proof (skipn_off data off 4 Hoff ltac:(lia)) as S1. change (Z.to_nat 4) with 4%nat in S1. rewrite <- S1 in E.
    rewrite (pyslice4 data (off + 4)) in H by lia.
    destruct (seqb _ nullmark) eqn:En.
    + binv H. destruct a0 as [l' o']. cbn [fst snd] in H. okinv H. injection H as <- <-.
      apply IH in E0 as (I1 & I2 & I3 & I4); [|auto|lia].
      apply seqb_eq in En.
      pose proof (skipn_off data (off + 4) 4 ltac:(lia) ltac:(lia)) as S2. change (Z.to_nat 4) with 4%nat in S2.
      assert (E2 : skipn (Z.to_nat (off + 4)) data = nullmark ++ skipn (Z.to_nat (off + 4 + 4)) data).
      { rewrite S2, <- En. symmetry. apply firstn_skipn. }
      cbn [length map concat]. repeat split; auto.
      * constructor; auto. split; cbn; auto.
      * subst o'. unfold col_wire at 2. cbn [fst snd sized_wire]. rewrite !len_app, len_be. change (len [255;255;255;255]) with 4. lia.
      * rewrite E, E2, I4. unfold col_wire at 2. cbn [fst snd sized_wire]. rewrite <- !app_assoc. reflexivity.
    + binv H. unfold long_unpack in E0. apply unpack_s_firstn_inv in E0 as [E0 Hs]; [|lia|apply is_bytes_skipn; auto].
      change (256 ^ Z.of_nat 4) with (2 ^ 32) in *. change (2 ^ 32 / 2) with (2 ^ 31) in Hs.
      pose proof (skipn_off data (off + 4) 4 ltac:(lia) ltac:(lia)) as S2. change (Z.to_nat 4) with 4%nat in S2. rewrite <- S2 in E0.
      destruct ((a0 <? -1) || _) eqn:G; [discriminate|]. apply orb_false_elim in G as [G1 G2]. apply negb_false_iff, Z.eqb_eq in G2.
      assert (Hpos : 0 <= a0).
      { rewrite <- G2. apply len_nonneg. }
      binv H. destruct a1 as [l' o']. cbn [fst snd] in H. okinv H. injection H as <- <-.
      apply IH in E1 as (I1 & I2 & I3 & I4); [|auto|lia].
      rewrite Z.mod_small in E0 by lia.
      set (v := pyslice data (off + 4 + 4) (off + 4 + 4 + a0)) in *.
      assert (E2 : skipn (Z.to_nat (off + 4 + 4)) data = v ++ skipn (Z.to_nat (off + 4 + 4 + a0)) data).
      { rewrite (skipn_off data (off + 4 + 4) a0) by lia. unfold v. rewrite pyslice_firstn_skipn by lia.
        replace (off + 4 + 4 + a0 - (off + 4 + 4)) with a0 by lia. symmetry. apply firstn_skipn. }
      cbn [length map concat]. repeat split; auto.
      * constructor; auto. split; cbn; auto. lia.
      * subst o'. unfold col_wire at 2. cbn [fst snd sized_wire]. rewrite !len_app, !len_be. lia.
      * rewrite E, E0, E2, I4. unfold col_wire at 2. cbn [fst snd sized_wire]. rewrite G2, <- !app_assoc. reflexivity.
Qed.
Lemma record_unpack_inv d l : is_bytes d -> record_unpack d = Ok l ->
  (wf_record l /\ d = record_wire l) \/
  (l = [] /\ exists c, - 2 ^ 31 <= c < 0 /\ d = be 4 (c mod 2 ^ 32)).
Proof.
  intros Hb H. unfold record_unpack in H. binv H. binv H. destruct a0 as [l' off]. cbn [fst snd] in H.
  destruct (negb _) eqn:G; [discriminate|]. apply negb_false_iff, Z.eqb_eq in G. okinv H.
  apply record_loop_inv in E0 as (I1 & I2 & I3 & I4); [|auto|lia].
  assert (Hu : unpack_s 4 (firstn 4 d) = Ok a).
  { unfold long_unpack, unpack_s, unpack_u in *. rewrite firstn_length. destruct (Nat.ltb_spec (length d) 4); [discriminate|].
    destruct (Nat.ltb_spec (Nat.min 4 (length d)) 4); [lia|]. rewrite firstn_firstn, Nat.min_id. auto. }
  apply unpack_s_firstn_inv in Hu as [Hd Hr]; [|lia|auto].
  change (256 ^ Z.of_nat 4) with (2 ^ 32) in *. change (2 ^ 32 / 2) with (2 ^ 31) in Hr.
  change (Z.to_nat 4) with 4%nat in I4.
  rewrite (skipn_all2 d (n := Z.to_nat off)) in I4 by (unfold len in *; lia). rewrite app_nil_r in I4.
  destruct (Z.leb_spec 0 a) as [P|P].
  - left. assert (len l = a) by (unfold len; lia). split; [split; [lia|auto]|].
    rewrite Hd, I4, Z.mod_small by lia. unfold record_wire. rewrite H. reflexivity.
  - right. assert (l = []) by (destruct l; [auto|cbn in I1; lia]). subst l. split; auto.
    exists a. split; [lia|]. rewrite Hd, I4. apply app_nil_r.
Qed.
