(** CrypProof2.v: the key schedule *)
From Verif Require Import Base CrypTable CrypModel CrypSpec CrypProof.
From Coq Require Import Bool NArith.

(** *** the program on words of sums *)
Definition xPERM (a b : list N) (n : nat) (m : Z) : list N * list N :=
  let t := xand m (xxor (xshr n a) b) in (xxor a (xshl n t), xxor b t).
Definition xHPERM (a : list N) : list N :=
  let t := xand 0xcccc0000 (xxor (xshl 18 a) a) in xxor (xxor a t) (xand 0x3fff (xshr 18 t)).
Definition xstart (c d : list N) : list N * option (list N) :=
  let '(d, c) := xPERM d c 4 0x0f0f0f0f in
  let c := xHPERM c in
  let d := xHPERM d in
  let '(d, c) := xPERM d c 1 0x55555555 in
  let '(c, d) := xPERM c d 8 0x00ff00ff in
  let '(d, c) := xPERM d c 1 0x55555555 in
  (xand 0x0fffffff c,
   xor_ (xor_ (xor_ (Some (xshl 16 (xand 0x000000ff d))) (Some (xand 0x0000ff00 d))) (Some (xshr 16 (xand 0x00ff0000 d))))
        (Some (xand 0x0f000000 (xshr 4 c)))).
Definition omap (f : list N -> list N) (o : option (list N)) : option (list N) := match o with Some l => Some (f l) | None => None end.
Definition xkey_round (shift : Z) (c d : list N) : option (list N * list N * (list N * list N)) :=
  let n := if shift =? 0 then 1%nat else 2%nat in
  let oc := xor_ (Some (xshr n c)) (Some (xshl (28 - n) c)) in
  let od := xor_ (Some (xshr n d)) (Some (xshl (28 - n) d)) in
  match oc, od with
  | Some c, Some d =>
      let c := xand 0x0fffffff c in
      let d := xand 0x0fffffff d in
      let s := xor_ (xor_ (xor_ (xlook (skb_ 0) (Some (xand 0x3f c)))
                 (xlook (skb_ 1) (xor_ (Some (xand 0x03 (xshr 6 c))) (Some (xand 0x3c (xshr 7 c))))))
                 (xlook (skb_ 2) (xor_ (Some (xand 0x0f (xshr 13 c))) (Some (xand 0x30 (xshr 14 c))))))
                 (xlook (skb_ 3) (xor_ (xor_ (Some (xand 0x01 (xshr 20 c))) (Some (xand 0x06 (xshr 21 c)))) (Some (xand 0x38 (xshr 22 c))))) in
      let t := xor_ (xor_ (xor_ (xlook (skb_ 4) (Some (xand 0x3f d)))
                 (xlook (skb_ 5) (xor_ (Some (xand 0x03 (xshr 7 d))) (Some (xand 0x3c (xshr 8 d))))))
                 (xlook (skb_ 6) (Some (xand 0x3f (xshr 15 d)))))
                 (xlook (skb_ 7) (xor_ (Some (xand 0x0f (xshr 21 d))) (Some (xand 0x30 (xshr 22 d))))) in
      match s, t with
      | Some s, Some t =>
          match xor_ (Some (xshl 16 t)) (Some (xand 0x0000ffff s)), xor_ (Some (xshr 16 s)) (Some (xand 0xffff0000 t)) with
          | Some k0, Some s =>
              match xor_ (Some (xshl 4 s)) (Some (xand 0x0f (xshr 28 s))) with
              | Some s => Some (c, d, (xand 0xffffffff k0, xand 0xffffffff s))
              | None => None
              end
          | _, _ => None
          end
      | _, _ => None
      end
  | _, _ => None
  end.
Fixpoint xkey_rounds (shifts : list Z) (c d : list N) : option (list (list N * list N)) :=
  match shifts with
  | [] => Some []
  | x :: r =>
      match xkey_round x c d with
      | Some (c, d, k) => match xkey_rounds r c d with Some l => Some (k :: l) | None => None end
      | None => None
      end
  end.
(** the variables are the bits of the key in the order of the standard *)
Definition keyword (j : nat) : list N :=
  flat_map (fun j => 0%N :: map (fun s => var (8 * j + 7 - s)) (seq 1 7)) (seq j 4).
Definition xkey : option (list (list N * list N)) :=
  match xstart (keyword 0) (keyword 4) with
  | (c, Some d) => xkey_rounds shifts2 c d
  | _ => None
  end.
Definition keyvars : list N := map var (seq 0 64).

(** the words in which the groups of 6 bits of a key are *)
Definition grp {A} (i : nat) (l : list A) : list A := firstn 6 (skipn (6 * i) l).
Definition ka {A} (d : A) (K : list A) : list A := flat_map (fun j => grp (2 * j) K ++ [d; d]) (seq 0 4).
Definition kb {A} (d : A) (K : list A) : list A :=
  let x := flat_map (fun j => grp (2 * j + 1) K ++ [d; d]) (seq 0 4) in skipn 28 x ++ firstn 28 x.
Definition same (l e : list N) : bool :=
  forallb (fun b => (b =? 0)%N) (skipn (length e) l) && (length (firstn (length e) l) =? length e)%nat
  && forallb (fun p => (fst p =? snd p)%N) (combine (firstn (length e) l) e).
Definition key_ok : bool :=
  match xkey with
  | Some l => (length l =? 16)%nat &&
              forallb (fun p => same (fst (fst p)) (ka 0%N (snd p)) && same (snd (fst p)) (kb 0%N (snd p)))
                      (combine l (des_keys 0%N keyvars))
  | None => false
  end.
Lemma key_checked : key_ok = true.
Proof. vm_compute. reflexivity. Qed.

(** *** that this is what the program does *)
Section Sound.
Variable rho : nat -> bool.
Notation rep := (rep rho).
Notation orep := (orep rho).
Notation evb := (evb rho).
Lemma rep_shl' a la n k : n = Z.of_nat k -> rep a la -> rep (Z.shiftl a n) (xshl k la).
Proof. intros ->. apply rep_shl. Qed.
Lemma rep_shr' a la n k : n = Z.of_nat k -> rep a la -> rep (Z.shiftr a n) (xshr k la).
Proof. intros ->. apply rep_shr. Qed.
Lemma PERM_rep a b n k m la lb : n = Z.of_nat k -> rep a la -> rep b lb ->
  rep (fst (PERM_OP a b n m)) (fst (xPERM la lb k m)) /\ rep (snd (PERM_OP a b n m)) (snd (xPERM la lb k m)).
Proof.
  intros E Ha Hb. unfold PERM_OP, xPERM. cbv zeta. cbn [fst snd].
  assert (Ht : rep (Z.land (Z.lxor (Z.shiftr a n) b) m) (xand m (xxor (xshr k la) lb))).
  { apply rep_and, rep_xor; [apply rep_shr'; assumption|exact Hb]. }
  split; apply rep_xor; try assumption. apply rep_shl'; assumption.
Qed.
Lemma HPERM_rep a la : rep a la -> rep (HPERM_OP a) (xHPERM la).
Proof.
  intros Ha. unfold HPERM_OP, xHPERM. cbv zeta.
  assert (Ht : rep (Z.land (Z.lxor (Z.shiftl a 18) a) 0xcccc0000) (xand 0xcccc0000 (xxor (xshl 18 la) la))).
  { apply rep_and, rep_xor; [apply rep_shl'; [reflexivity|exact Ha]|exact Ha]. }
  apply rep_xor; [apply rep_xor; assumption|]. apply rep_and. apply rep_shr'; [reflexivity|exact Ht].
Qed.
Ltac sym := repeat first
  [ assumption | reflexivity | apply orep_some | apply orep_or | apply orep_look | apply rep_and | apply rep_xor
  | apply rep_shl' | apply rep_shr' ].
Lemma start_rep c d lc ld cc dd : rep (Z.shiftl (Z.land c 0x7f7f7f7f) 1) lc -> rep (Z.shiftl (Z.land d 0x7f7f7f7f) 1) ld ->
  xstart lc ld = (cc, Some dd) -> rep (fst (key_start c d)) cc /\ rep (snd (key_start c d)) dd.
Proof.
  intros Hc Hd E. unfold key_start, xstart in *. cbv zeta in *.
  pose proof (PERM_rep _ _ 4 4 0x0f0f0f0f _ _ eq_refl Hd Hc) as [H1 H2].
  destruct (PERM_OP (Z.shiftl (Z.land d 0x7f7f7f7f) 1) (Z.shiftl (Z.land c 0x7f7f7f7f) 1) 4 0x0f0f0f0f) as [d1 c1], (xPERM ld lc 4 0x0f0f0f0f) as [ld1 lc1].
  cbn [fst snd] in H1, H2. apply HPERM_rep in H1, H2.
  revert E H1 H2. generalize (HPERM_OP d1) (xHPERM ld1) (HPERM_OP c1) (xHPERM lc1). clear. intros d1 ld1 c1 lc1 E H1 H2.
  pose proof (PERM_rep _ _ 1 1 0x55555555 _ _ eq_refl H1 H2) as [H3 H4].
  destruct (PERM_OP d1 c1 1 0x55555555) as [d2 c2], (xPERM ld1 lc1 1 0x55555555) as [ld2 lc2]. cbn [fst snd] in H3, H4.
  pose proof (PERM_rep _ _ 8 8 0x00ff00ff _ _ eq_refl H4 H3) as [H5 H6].
  destruct (PERM_OP c2 d2 8 0x00ff00ff) as [c3 d3], (xPERM lc2 ld2 8 0x00ff00ff) as [lc3 ld3]. cbn [fst snd] in H5, H6.
  pose proof (PERM_rep _ _ 1 1 0x55555555 _ _ eq_refl H6 H5) as [H7 H8].
  destruct (PERM_OP d3 c3 1 0x55555555) as [d4 c4], (xPERM ld3 lc3 1 0x55555555) as [ld4 lc4]. cbn [fst snd] in H7, H8 |- *.
  pose proof (f_equal fst E) as E1. pose proof (f_equal snd E) as E2. cbn [fst snd] in E1, E2. clear E. subst cc.
  split; [sym|].
  revert E2. match goal with |- ?x = Some dd -> rep ?z dd => refine ((_ : orep z x) dd) end. sym.
Qed.
Lemma round_rep sh c d lc ld r : rep c lc -> rep d ld -> xkey_round sh lc ld = Some r ->
  rep (fst (fst (key_round sh c d))) (fst (fst r)) /\ rep (snd (fst (key_round sh c d))) (snd (fst r)) /\
  rep (fst (snd (key_round sh c d))) (fst (snd r)) /\ rep (snd (snd (key_round sh c d))) (snd (snd r)).
Proof.
  intros Hc Hd E. unfold key_round, xkey_round in *. cbv zeta in E.
  set (c1 := if sh =? 0 then Z.lor (Z.shiftr c 1) (Z.shiftl c 27) else Z.lor (Z.shiftr c 2) (Z.shiftl c 26)).
  set (d1 := if sh =? 0 then Z.lor (Z.shiftr d 1) (Z.shiftl d 27) else Z.lor (Z.shiftr d 2) (Z.shiftl d 26)).
  replace (if sh =? 0 then (Z.lor (Z.shiftr c 1) (Z.shiftl c 27), Z.lor (Z.shiftr d 1) (Z.shiftl d 27))
           else (Z.lor (Z.shiftr c 2) (Z.shiftl c 26), Z.lor (Z.shiftr d 2) (Z.shiftl d 26))) with (c1, d1)
    by (unfold c1, d1; destruct (sh =? 0); reflexivity).
  set (n := if sh =? 0 then 1%nat else 2%nat) in E.
  assert (Hc1 : orep c1 (xor_ (Some (xshr n lc)) (Some (xshl (28 - n) lc)))) by (unfold c1, n; destruct (sh =? 0); sym).
  assert (Hd1 : orep d1 (xor_ (Some (xshr n ld)) (Some (xshl (28 - n) ld)))) by (unfold d1, n; destruct (sh =? 0); sym).
  clearbody c1 d1 n.
  destruct (xor_ (Some (xshr n lc)) (Some (xshl (28 - n) lc))) as [lc1|]; [|discriminate E].
  destruct (xor_ (Some (xshr n ld)) (Some (xshl (28 - n) ld))) as [ld1|]; [|discriminate E].
  specialize (Hc1 _ eq_refl). specialize (Hd1 _ eq_refl).
  apply (rep_and rho _ _ 0x0fffffff) in Hc1, Hd1.
  revert E Hc1 Hd1. generalize (Z.land c1 0x0fffffff) (xand 0x0fffffff lc1) (Z.land d1 0x0fffffff) (xand 0x0fffffff ld1).
  clear. intros c lc d ld E Hc Hd. cbv zeta.
  match type of E with match ?xs with Some _ => match ?xt with Some _ => _ | None => _ end | None => _ end = _ =>
    match goal with |- context [Z.lor (Z.shiftl ?t 16) (Z.land ?s 0x0000ffff)] =>
      assert (Hs : orep s xs) by sym; assert (Ht : orep t xt) by sym; revert E Hs Ht; generalize xs, xt, s, t end end.
  intros xs xt s t E Hs Ht. destruct xs as [xs|]; [|discriminate E]. destruct xt as [xt|]; [|discriminate E].
  specialize (Hs _ eq_refl). specialize (Ht _ eq_refl).
  assert (Hk : orep (Z.lor (Z.shiftl t 16) (Z.land s 0x0000ffff)) (xor_ (Some (xshl 16 xt)) (Some (xand 0x0000ffff xs)))) by sym.
  assert (Hs1 : orep (Z.lor (Z.shiftr s 16) (Z.land t 0xffff0000)) (xor_ (Some (xshr 16 xs)) (Some (xand 0xffff0000 xt)))) by sym.
  destruct (xor_ (Some (xshl 16 xt)) (Some (xand 0x0000ffff xs))) as [k0|]; [|discriminate E].
  destruct (xor_ (Some (xshr 16 xs)) (Some (xand 0xffff0000 xt))) as [s1|]; [|discriminate E].
  specialize (Hk _ eq_refl). specialize (Hs1 _ eq_refl).
  revert Hs1 E. generalize (Z.lor (Z.shiftr s 16) (Z.land t 0xffff0000)). intros z Hs1 E.
  assert (Hs2 : orep (Z.lor (Z.shiftl z 4) (Z.land (Z.shiftr z 28) 0x0f)) (xor_ (Some (xshl 4 s1)) (Some (xand 0x0f (xshr 28 s1))))) by sym.
  destruct (xor_ (Some (xshl 4 s1)) (Some (xand 0x0f (xshr 28 s1)))) as [s2|]; [|discriminate E].
  specialize (Hs2 _ eq_refl). injection E as <-. cbn [fst snd]. repeat split; sym.
Qed.
Lemma rounds_rep sh : forall c d lc ld r, rep c lc -> rep d ld -> xkey_rounds sh lc ld = Some r ->
  Forall2 (fun k x => rep (fst k) (fst x) /\ rep (snd k) (snd x)) (key_rounds sh c d) r.
Proof.
  induction sh as [|x sh IH]; intros c d lc ld r Hc Hd E; cbn [key_rounds xkey_rounds] in *.
  - injection E as <-. constructor.
  - destruct (xkey_round x lc ld) as [p|] eqn:E1; [|discriminate E].
    pose proof (round_rep _ _ _ _ _ _ Hc Hd E1) as (H1 & H2 & H3 & H4).
    destruct p as [[c' d'] k'], (key_round x c d) as [[zc zd] zk]. cbn [fst snd] in *.
    destruct (xkey_rounds sh c' d') as [l|] eqn:E2; [|discriminate E]. injection E as <-.
    constructor; [split; assumption|]. eapply IH; eassumption.
Qed.
Lemma same_rep z l e : rep z l -> same l e = true -> z = B (map evb e).
Proof.
  unfold same. intros -> H. apply andb_prop in H as [H H3]. apply andb_prop in H as [H1 H2]. apply Nat.eqb_eq in H2.
  assert (Q : forall a b : list N, length a = length b -> forallb (fun p => (fst p =? snd p)%N) (combine a b) = true -> a = b).
  { clear. induction a as [|x a IH]; intros [|y b] Hl F; try discriminate Hl; [reflexivity|].
    cbn [combine forallb fst snd] in F. apply andb_prop in F as [F1 F2]. apply N.eqb_eq in F1. injection Hl as Hl. rewrite F1, (IH b Hl F2). reflexivity. }
  apply Q in H3; [|exact H2]. unfold evw. rewrite <- (firstn_skipn (length e) l). rewrite H3. rewrite map_app.
  revert H1. generalize (skipn (length e) l). clear. intros r Hr.
  induction e as [|x e IH]; cbn [map app B]; [|f_equal; f_equal; exact IH].
  induction r as [|y r IH]; [reflexivity|]. cbn [forallb] in Hr. apply andb_prop in Hr as [H1 H2]. apply N.eqb_eq in H1 as ->.
  cbn [map B]. rewrite IH by exact H2. reflexivity.
Qed.
End Sound.

(** *** the tables of the standard say the same of bits and of sums *)
Lemma pick_map {A C} (f : A -> C) d t l : map f (pick d t l) = pick (f d) t (map f l).
Proof. unfold pick. rewrite map_map. apply map_ext. intros i. symmetry. apply map_nth. Qed.
Lemma rotate_map {A C} (f : A -> C) n l : map f (rotate_left n l) = rotate_left n (map f l).
Proof. unfold rotate_left. rewrite map_app, skipn_map, firstn_map. reflexivity. Qed.
Lemma schedule_map {A C} (f : A -> C) d sh : forall c e, map (map f) (schedule d sh c e) = schedule (f d) sh (map f c) (map f e).
Proof.
  induction sh as [|n sh IH]; intros c e; cbn [schedule map]; [reflexivity|].
  rewrite pick_map, map_app, !rotate_map, IH, !rotate_map. reflexivity.
Qed.
Lemma des_keys_map {A C} (f : A -> C) d key : map (map f) (des_keys d key) = des_keys (f d) (map f key).
Proof. unfold des_keys. rewrite schedule_map, <- firstn_map, <- skipn_map, pick_map. reflexivity. Qed.
Lemma grp_map {A C} (f : A -> C) i l : map f (grp i l) = grp i (map f l).
Proof. unfold grp. rewrite skipn_map, firstn_map. reflexivity. Qed.
Lemma ka_map {A C} (f : A -> C) d l : map f (ka d l) = ka (f d) (map f l).
Proof. unfold ka. cbn [flat_map seq]. rewrite !map_app, !grp_map. reflexivity. Qed.
Lemma kb_map {A C} (f : A -> C) d l : map f (kb d l) = kb (f d) (map f l).
Proof. unfold kb. cbn [flat_map seq]. rewrite map_app, <- skipn_map, <- firstn_map, !map_app, !grp_map. reflexivity. Qed.

(** *** the bits of the password *)
Lemma bit_low a x n : 0 <= n < 8 -> Z.testbit (a + 256 * x) n = Z.testbit a n.
Proof.
  intros Hn. change 256 with (2 ^ 8). rewrite <- (Z.mod_pow2_bits_low (a + 2 ^ 8 * x) 8 n) by lia.
  rewrite Z.mul_comm, Z_mod_plus_full. apply Z.mod_pow2_bits_low. lia.
Qed.
Lemma bit_high a x n : 0 <= a < 256 -> 8 <= n -> Z.testbit (a + 256 * x) n = Z.testbit x (n - 8).
Proof.
  intros Ha Hn. replace n with ((n - 8) + 8) at 1 by lia. rewrite <- Z.div_pow2_bits by lia.
  change (2 ^ 8) with 256. rewrite Z.mul_comm, Z_div_plus_full by lia. rewrite Z.div_small by lia. reflexivity.
Qed.
Lemma le_int_land b0 b1 b2 b3 m : 0 <= m < 2 ^ 32 ->
  Z.land (le_int b0 b1 b2 b3) m = Z.land (b0 + 256 * (b1 + 256 * (b2 + 256 * b3))) m.
Proof.
  intros Hm. unfold le_int. cbv zeta.
  replace (b0 + 256 * b1 + 65536 * b2 + 16777216 * b3) with (b0 + 256 * (b1 + 256 * (b2 + 256 * b3))) by ring.
  generalize (b0 + 256 * (b1 + 256 * (b2 + 256 * b3))). intros n. destruct (n <? 2147483648); [reflexivity|].
  apply Z.bits_inj'. intros k Hk. rewrite !Z.land_spec. destruct (Z.ltb_spec k 32) as [L|L].
  - f_equal. rewrite <- (Z.mod_pow2_bits_low (n - 4294967296) 32 k), <- (Z.mod_pow2_bits_low n 32 k) by lia.
    f_equal. change (2 ^ 32) with 4294967296. replace (n - 4294967296) with (n + (-1) * 4294967296) by ring. apply Z_mod_plus_full.
  - replace (Z.testbit m k) with false; [rewrite !andb_false_r; reflexivity|]. symmetry.
    destruct (Z.eq_dec m 0) as [->|]; [apply Z.bits_0|]. apply Z.bits_above_log2; [lia|].
    apply Z.log2_lt_pow2; [lia|]. eapply Z.lt_le_trans; [apply Hm|]. apply Z.pow_le_mono_r; lia.
Qed.
Definition byte (b : Z) : Prop := 0 <= b < 256.
Definition krho (pw : list Z) (i : nat) : bool := nth i (key_of pw) false.
Lemma key_of_nth pw j m : (j < 8)%nat -> (m < 7)%nat -> nth (8 * j + m) (key_of pw) false = Z.testbit (nth j pw 0) (6 - Z.of_nat m).
Proof.
  intros Hj Hm. unfold key_of. do 8 (destruct j as [|j]; [do 7 (destruct m as [|m]; [reflexivity|]); lia|]). lia.
Qed.
Lemma keyword_rep pw b0 b1 b2 b3 j : byte b0 -> byte b1 -> byte b2 -> byte b3 ->
  (j = 0 \/ j = 4)%nat -> b0 = nth j pw 0 -> b1 = nth (j + 1) pw 0 -> b2 = nth (j + 2) pw 0 -> b3 = nth (j + 3) pw 0 ->
  rep (krho pw) (Z.shiftl (Z.land (le_int b0 b1 b2 b3) 0x7f7f7f7f) 1) (keyword j).
Proof.
  intros B0 B1 B2 B3 Hj E0 E1 E2 E3. rewrite le_int_land by lia. apply rep_bits. intros n Hn.
  destruct (Z.ltb_spec n 32) as [L|L].
  2:{ rewrite nth_overflow; [|unfold keyword; cbn [flat_map seq map app length]; lia].
      rewrite Z.shiftl_spec, Z.land_spec by lia.
      replace (Z.testbit 0x7f7f7f7f (n - 1)) with false; [rewrite andb_false_r; reflexivity|].
      symmetry. apply Z.bits_above_log2; [lia|]. apply Z.log2_lt_pow2; [lia|].
      apply (Z.lt_le_trans _ (2 ^ 31)); [lia|]. apply Z.pow_le_mono_r; lia. }
  rewrite Z.shiftl_spec, Z.land_spec by lia.
  set (x := b0 + 256 * (b1 + 256 * (b2 + 256 * b3))).
  assert (T0 : forall k, 0 <= k < 8 -> Z.testbit x k = Z.testbit b0 k) by (intros; apply bit_low; lia).
  assert (T1 : forall k, 8 <= k < 16 -> Z.testbit x k = Z.testbit b1 (k - 8)).
  { intros k Hk. unfold x. rewrite bit_high by (assumption || lia). apply bit_low; lia. }
  assert (T2 : forall k, 16 <= k < 24 -> Z.testbit x k = Z.testbit b2 (k - 16)).
  { intros k Hk. unfold x. rewrite !bit_high by (assumption || lia). rewrite bit_low by lia. f_equal. lia. }
  assert (T3 : forall k, 24 <= k < 32 -> Z.testbit x k = Z.testbit b3 (k - 24)).
  { intros k Hk. unfold x. rewrite !bit_high by (assumption || lia). f_equal. lia. }
  assert (Cases : forall P : Z -> Prop, (forall k : nat, (k < 32)%nat -> P (Z.of_nat k)) -> P n).
  { intros P H. rewrite <- (Z2Nat.id n) by lia. apply H. lia. }
  pattern n. apply Cases. clear n Hn L Cases. intros k Hk. rewrite Nat2Z.id.
  assert (KN : forall q s b, (q < 4)%nat -> (1 <= s <= 7)%nat -> b = nth (j + q) pw 0 ->
             evb (krho pw) (var (8 * (j + q) + 7 - s)) = Z.testbit b (Z.of_nat s - 1)).
  { intros q s b Hq Hs ->. rewrite evb_var. unfold krho. replace (8 * (j + q) + 7 - s)%nat with (8 * (j + q) + (7 - s))%nat by lia.
    rewrite key_of_nth by lia. f_equal. lia. }
  assert (NK : nth k (keyword j) 0%N = match (k mod 8)%nat with O => 0%N | s => var (8 * (j + k / 8) + 7 - s) end).
  { clear - Hk Hj. destruct Hj as [-> | ->]; do 32 (destruct k as [|k]; [vm_compute; reflexivity|]); lia. }
  rewrite NK. clear NK.
  pose proof (Nat.div_mod k 8 ltac:(lia)) as DM. pose proof (Nat.mod_upper_bound k 8 ltac:(lia)) as MB.
  assert (Mask : Z.testbit 0x7f7f7f7f (Z.of_nat k - 1) = match (k mod 8)%nat with O => false | _ => true end).
  { clear - Hk. do 32 (destruct k as [|k]; [vm_compute; reflexivity|]); lia. }
  rewrite Mask. destruct (k mod 8)%nat as [|s] eqn:Es.
  - rewrite andb_false_r. reflexivity.
  - rewrite andb_true_r.
    assert (Q : (k / 8 < 4)%nat) by (apply Nat.div_lt_upper_bound; lia).
    destruct (k / 8)%nat as [|[|[|[|q]]]] eqn:Eq; [| | | |lia].
    + rewrite (KN 0%nat (S s) b0); [|lia|lia|rewrite Nat.add_0_r; exact E0]. rewrite T0 by lia. f_equal. lia.
    + rewrite (KN 1%nat (S s) b1); [|lia|lia|exact E1]. rewrite T1 by lia. f_equal. lia.
    + rewrite (KN 2%nat (S s) b2); [|lia|lia|exact E2]. rewrite T2 by lia. f_equal. lia.
    + rewrite (KN 3%nat (S s) b3); [|lia|lia|exact E3]. rewrite T3 by lia. f_equal. lia.
Qed.

Lemma key_of_vars pw : map (evb (krho pw)) keyvars = key_of pw.
Proof.
  unfold keyvars. rewrite map_map. transitivity (map (fun i => nth i (key_of pw) false) (seq 0 64)).
  - apply map_ext. intros i. apply evb_var.
  - unfold key_of. reflexivity.
Qed.
Lemma keys_length {A} (d : A) key : length (des_keys d key) = 16%nat.
Proof. reflexivity. Qed.
Lemma keys_48 {A} (d : A) key K : In K (des_keys d key) -> length K = 48%nat.
Proof.
  unfold des_keys. generalize (firstn 28 (pick d PC1 key)), (skipn 28 (pick d PC1 key)), left_shifts.
  intros c e l; revert c e. induction l as [|n l IH]; intros c e H; [destruct H|].
  cbn [schedule In] in H. destruct H as [<-|H]; [reflexivity|eapply IH; exact H].
Qed.
Theorem set_key_spec pw : length pw = 8%nat -> Forall byte pw ->
  set_key pw = map (fun K => (B (ka false K), B (kb false K))) (des_keys false (key_of pw)).
Proof.
  intros L F. unfold set_key.
  assert (Nb : forall i, byte (nth i pw 0)).
  { intros i. destruct (nth_in_or_default i pw 0) as [H|H]; [rewrite Forall_forall in F; apply F; exact H|rewrite H; split; lia]. }
  pose proof (keyword_rep pw _ _ _ _ 0 (Nb 0%nat) (Nb 1%nat) (Nb 2%nat) (Nb 3%nat) (or_introl eq_refl) eq_refl eq_refl eq_refl eq_refl) as Hc.
  pose proof (keyword_rep pw _ _ _ _ 4 (Nb 4%nat) (Nb 5%nat) (Nb 6%nat) (Nb 7%nat) (or_intror eq_refl) eq_refl eq_refl eq_refl eq_refl) as Hd.
  pose proof key_checked as K. unfold key_ok, xkey in K.
  destruct (xstart (keyword 0) (keyword 4)) as [c [d|]] eqn:E; [|discriminate K].
  pose proof (start_rep _ _ _ _ _ _ _ Hc Hd E) as [Rc Rd]. clear Hc Hd E.
  destruct (key_start _ _) as [zc zd]. cbn [fst snd] in Rc, Rd.
  destruct (xkey_rounds shifts2 c d) as [l|] eqn:E; [|discriminate K].
  pose proof (rounds_rep _ _ _ _ _ _ _ Rc Rd E) as H. clear E Rc Rd.
  apply andb_prop in K as [K1 K2]. apply Nat.eqb_eq in K1.
  rewrite <- (key_of_vars pw). change false with (evb (krho pw) 0%N) at 3. rewrite <- (des_keys_map (evb (krho pw)) 0%N keyvars).
  rewrite map_map. pose proof (keys_length 0%N keyvars) as KL. rewrite <- K1 in KL.
  revert l H K1 K2 KL. generalize (key_rounds shifts2 zc zd), (des_keys 0%N keyvars). clear.
  intros z ks l H _. revert ks. induction H as [|k x z l [H1 H2] H IH]; intros ks K2 KL.
  - destruct ks; [reflexivity|discriminate KL].
  - destruct ks as [|K ks]; [discriminate KL|]. cbn [combine forallb fst snd] in K2. apply andb_prop in K2 as [K2 K3].
    apply andb_prop in K2 as [Ka Kb]. cbn [map]. f_equal.
    + destruct k as [k0 k1]. cbn [fst snd] in *. rewrite (same_rep _ _ _ _ H1 Ka), (same_rep _ _ _ _ H2 Kb).
      rewrite ka_map, kb_map. reflexivity.
    + apply IH; [exact K3|]. injection KL as KL. exact KL.
Qed.
