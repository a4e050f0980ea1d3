(** CrypProof4.v: crypt() is crypt(3) *)
From Verif Require Import Base CrypTable CrypModel CrypSpec CrypProof CrypProof2 CrypProof3.
From Coq Require Import Bool NArith.

Lemma cipher_length s R K : length (cipher_f s R K) = 32%nat.
Proof. unfold cipher_f. rewrite pick_length. reflexivity. Qed.
Section Rounds.
Variables (f : Z * Z -> Z -> Z -> Z) (g : list bool -> Z * Z) (s : list bool).
Hypothesis Hf : forall L R K, length L = 32%nat -> length R = 32%nat -> length K = 48%nat ->
  f (g K) (W L) (W R) = W (xor_bits L (cipher_f s R K)).
Lemma rounds_spec keys : (forall K, In K keys -> length K = 48%nat) ->
  forall L R, length L = 32%nat -> length R = 32%nat ->
  let '(L', R') := des_rounds s keys L R in
  rounds f (map g keys) (W L) (W R) = (W L', W R')
  /\ length L' = 32%nat /\ length R' = 32%nat.
Proof.
  induction keys as [|K keys IH]; intros HK L R HL HR; cbn [des_rounds rounds map]; [auto|].
  rewrite Hf; [|assumption..|apply HK; left; reflexivity].
  apply IH; [intros K' H'; apply HK; right; exact H'|exact HR|].
  rewrite xor_length; [exact HL|]. rewrite cipher_length. exact HL.
Qed.
End Rounds.

(** *** the permutations *)
Lemma pick_pick {A} (d : A) t u l : forallb (fun i => (1 <=? i) && (i <=? length u))%nat t = true ->
  pick d t (pick d u l) = pick d (pick 0%nat t u) l.
Proof.
  intros H. unfold pick. rewrite map_map. apply map_ext_in. intros i Hi. rewrite forallb_forall in H. specialize (H i Hi).
  apply andb_prop in H as [H1 H2]. apply Nat.leb_le in H1, H2.
  rewrite (nth_indep _ d ((fun i => nth (i - 1) l d) 0%nat)) by (rewrite map_length; lia).
  rewrite (map_nth (fun i => nth (i - 1) l d)). reflexivity.
Qed.
Lemma pick_id {A} (d : A) l : pick d (seq 1 (length l)) l = l.
Proof.
  unfold pick. induction l as [|x l IH]; [reflexivity|]. cbn [length seq map]. f_equal.
  rewrite <- seq_shift, map_map. rewrite <- IH at 2. apply map_ext_in. intros i Hi. apply in_seq in Hi.
  destruct i as [|i]; [lia|]. cbn [Nat.sub nth]. rewrite Nat.sub_0_r. reflexivity.
Qed.
Lemma IP_FP l : length l = 64%nat -> pick false IP (pick false IP_inverse l) = l.
Proof.
  intros H. rewrite pick_pick by reflexivity. replace (pick 0%nat IP IP_inverse) with (seq 1 (length l)); [apply pick_id|].
  rewrite H. vm_compute. reflexivity.
Qed.

Section Passes.
Variables (f : Z * Z -> Z -> Z -> Z) (g : list bool -> Z * Z) (s : list bool).
Hypothesis Hf : forall L R K, length L = 32%nat -> length R = 32%nat -> length K = 48%nat ->
  f (g K) (W L) (W R) = W (xor_bits L (cipher_f s R K)).
Lemma passes_spec key : forall n L R, length L = 32%nat -> length R = 32%nat ->
  exists L' R', passes n f (map g (des_keys false key)) (W L) (W R) = (W L', W R')
  /\ length L' = 32%nat /\ length R' = 32%nat
  /\ times n (des s key) (pick false IP_inverse (R ++ L)) = pick false IP_inverse (R' ++ L').
Proof.
  induction n as [|n IH]; intros L R HL HR.
  - exists L, R. repeat split; assumption.
  - cbn [passes].
    pose proof (rounds_spec f g s Hf (des_keys false key) (fun K => keys_48 false key K) R L HR HL) as H.
    destruct (des_rounds s (des_keys false key) R L) as [L1 R1] eqn:E. destruct H as (H & H1 & H2). rewrite H.
    destruct (IH L1 R1 H1 H2) as (L' & R' & P & HL' & HR' & T). exists L', R'. rewrite P. repeat split; try assumption.
    rewrite <- T.
    assert (D : des s key (pick false IP_inverse (R ++ L)) = pick false IP_inverse (R1 ++ L1)).
    { unfold des. cbv zeta. rewrite IP_FP by (rewrite app_length; lia).
      rewrite firstn_app, HR, Nat.sub_diag, firstn_O, app_nil_r, firstn_all2 by lia.
      rewrite skipn_app, HR, Nat.sub_diag, skipn_all2 by lia. rewrite app_nil_l. change (skipn 0 L) with L. rewrite E. reflexivity. }
    rewrite <- D. clear. generalize (pick false IP_inverse (R ++ L)), (des s key). intros x h. induction n as [|n IH]; [reflexivity|].
    cbn [times] in *. rewrite IH. reflexivity.
Qed.
End Passes.

(** *** the end *)
Definition xend (l r : list N) : option (list N * list N) :=
  match xor_ (Some (xand 0x7fffffff (xshr 1 l))) (Some (xshl 31 (xand 0x1 l))), xor_ (Some (xand 0x7fffffff (xshr 1 r))) (Some (xshl 31 (xand 0x1 r))) with
  | Some l, Some r =>
      let '(r, l) := xPERM r l 1 0x55555555 in
      let '(l, r) := xPERM l r 8 0x00ff00ff in
      let '(r, l) := xPERM r l 2 0x33333333 in
      let '(l, r) := xPERM l r 16 0x0000ffff in
      let '(r, l) := xPERM r l 4 0x0f0f0f0f in
      Some (l, r)
  | _, _ => None
  end.
Definition xsix (o1 o2 : list N) : list (option (list N)) :=
  let t1 := xor_ (xor_ (Some (xand 0xff0000 (xshl 16 o1))) (Some (xand 0xff00 o1))) (Some (xand 0xff (xshr 16 o1))) in
  let t2 := xor_ (xor_ (Some (xand 0xff0000 (xshr 8 o1))) (Some (xand 0xff00 (xshl 8 o2)))) (Some (xand 0xff (xshr 8 o2))) in
  let t3 := xor_ (Some (xand 0xff0000 o2)) (Some (xand 0xff00 (xshr 16 o2))) in
  let s n := omap (fun t => xand 0x3f (xshr n t)) in
  [s 18%nat t1; s 12%nat t1; s 6%nat t1; s 0%nat t1; s 18%nat t2; s 12%nat t2; s 6%nat t2; s 0%nat t2; s 18%nat t3; s 12%nat t3; s 6%nat t3].
Definition sixes {A} (d : A) (block : list A) : list (list A) := map (fun i => firstn 6 (skipn (6 * i) (block ++ [d; d]))) (seq 0 11).
Definition Lv : list N := map var (seq 0 32).
Definition Rv : list N := map var (seq 32 32).
Definition end_ok : bool :=
  match xend (rot 0%N Lv) (rot 0%N Rv) with
  | Some (l, r) => forallb (fun p => osame (fst p) (rev (snd p))) (combine (xsix l r) (sixes 0%N (pick 0%N IP_inverse (Rv ++ Lv))))
  | None => false
  end.
Lemma end_checked : end_ok = true.
Proof. vm_compute. reflexivity. Qed.

Section Sound.
Variable rho : nat -> bool.
Notation rep := (rep rho).
Notation orep := (orep rho).
Notation evb := (evb rho).
Ltac sym := repeat first
  [ assumption | reflexivity | apply orep_some | apply orep_or | apply orep_look | apply rep_and | apply rep_xor
  | apply rep_shl' | apply rep_shr' ].
Lemma end_rep l r ll lr p : rep l ll -> rep r lr -> xend ll lr = Some p ->
  rep (fst (body_end l r)) (fst p) /\ rep (snd (body_end l r)) (snd p).
Proof.
  intros Hl Hr E. unfold xend, body_end in *. cbv zeta.
  assert (H1 : orep (Z.lor (Z.land (Z.shiftr l 1) 0x7fffffff) (Z.shiftl (Z.land l 0x1) 31))
                 (xor_ (Some (xand 0x7fffffff (xshr 1 ll))) (Some (xshl 31 (xand 0x1 ll))))) by sym.
  assert (H2 : orep (Z.lor (Z.land (Z.shiftr r 1) 0x7fffffff) (Z.shiftl (Z.land r 0x1) 31))
                 (xor_ (Some (xand 0x7fffffff (xshr 1 lr))) (Some (xshl 31 (xand 0x1 lr))))) by sym.
  revert E H1 H2.
  generalize (Z.lor (Z.land (Z.shiftr l 1) 0x7fffffff) (Z.shiftl (Z.land l 0x1) 31)) (Z.lor (Z.land (Z.shiftr r 1) 0x7fffffff) (Z.shiftl (Z.land r 0x1) 31))
    (xor_ (Some (xand 0x7fffffff (xshr 1 ll))) (Some (xshl 31 (xand 0x1 ll)))) (xor_ (Some (xand 0x7fffffff (xshr 1 lr))) (Some (xshl 31 (xand 0x1 lr)))).
  clear. intros l r o1 o2 E H1 H2. destruct o1 as [ll|]; [|discriminate E]. destruct o2 as [lr|]; [|discriminate E].
  specialize (H1 _ eq_refl). specialize (H2 _ eq_refl).
  pose proof (PERM_rep rho r l 1 1 0x55555555 lr ll eq_refl H2 H1) as [A1 A2].
  destruct (PERM_OP r l 1 0x55555555) as [r1 l1], (xPERM lr ll 1 0x55555555) as [xr1 xl1]. cbn [fst snd] in A1, A2.
  pose proof (PERM_rep rho l1 r1 8 8 0x00ff00ff xl1 xr1 eq_refl A2 A1) as [A3 A4].
  destruct (PERM_OP l1 r1 8 0x00ff00ff) as [l2 r2], (xPERM xl1 xr1 8 0x00ff00ff) as [xl2 xr2]. cbn [fst snd] in A3, A4.
  pose proof (PERM_rep rho r2 l2 2 2 0x33333333 xr2 xl2 eq_refl A4 A3) as [A5 A6].
  destruct (PERM_OP r2 l2 2 0x33333333) as [r3 l3], (xPERM xr2 xl2 2 0x33333333) as [xr3 xl3]. cbn [fst snd] in A5, A6.
  pose proof (PERM_rep rho l3 r3 16 16 0x0000ffff xl3 xr3 eq_refl A6 A5) as [A7 A8].
  destruct (PERM_OP l3 r3 16 0x0000ffff) as [l4 r4], (xPERM xl3 xr3 16 0x0000ffff) as [xl4 xr4]. cbn [fst snd] in A7, A8.
  pose proof (PERM_rep rho r4 l4 4 4 0x0f0f0f0f xr4 xl4 eq_refl A8 A7) as [A9 A10].
  destruct (PERM_OP r4 l4 4 0x0f0f0f0f) as [r5 l5], (xPERM xr4 xl4 4 0x0f0f0f0f) as [xr5 xl5]. cbn [fst snd] in A9, A10.
  injection E as <-. cbn [fst snd]. split; assumption.
Qed.
Lemma shr_0 a : a = Z.shiftr a 0. Proof. reflexivity. Qed.
Lemma six_rep o1 o2 l1 l2 : rep o1 l1 -> rep o2 l2 -> Forall2 (fun z o => orep z o) (six o1 o2) (xsix l1 l2).
Proof.
  intros H1 H2. unfold six, xsix. cbv zeta.
  assert (T1 : orep (Z.lor (Z.lor (Z.land (Z.shiftl o1 16) 0xff0000) (Z.land o1 0xff00)) (Z.land (Z.shiftr o1 16) 0xff))
    (xor_ (xor_ (Some (xand 0xff0000 (xshl 16 l1))) (Some (xand 0xff00 l1))) (Some (xand 0xff (xshr 16 l1))))) by sym.
  assert (T2 : orep (Z.lor (Z.lor (Z.land (Z.shiftr o1 8) 0xff0000) (Z.land (Z.shiftl o2 8) 0xff00)) (Z.land (Z.shiftr o2 8) 0xff))
    (xor_ (xor_ (Some (xand 0xff0000 (xshr 8 l1))) (Some (xand 0xff00 (xshl 8 l2)))) (Some (xand 0xff (xshr 8 l2))))) by sym.
  assert (T3 : orep (Z.lor (Z.land o2 0xff0000) (Z.land (Z.shiftr o2 16) 0xff00))
    (xor_ (Some (xand 0xff0000 l2)) (Some (xand 0xff00 (xshr 16 l2))))) by sym.
  revert T1 T2 T3.
  generalize (Z.lor (Z.lor (Z.land (Z.shiftl o1 16) 0xff0000) (Z.land o1 0xff00)) (Z.land (Z.shiftr o1 16) 0xff))
    (Z.lor (Z.lor (Z.land (Z.shiftr o1 8) 0xff0000) (Z.land (Z.shiftl o2 8) 0xff00)) (Z.land (Z.shiftr o2 8) 0xff))
    (Z.lor (Z.land o2 0xff0000) (Z.land (Z.shiftr o2 16) 0xff00))
    (xor_ (xor_ (Some (xand 0xff0000 (xshl 16 l1))) (Some (xand 0xff00 l1))) (Some (xand 0xff (xshr 16 l1))))
    (xor_ (xor_ (Some (xand 0xff0000 (xshr 8 l1))) (Some (xand 0xff00 (xshl 8 l2)))) (Some (xand 0xff (xshr 8 l2))))
    (xor_ (Some (xand 0xff0000 l2)) (Some (xand 0xff00 (xshr 16 l2)))).
  clear. intros t1 t2 t3 x1 x2 x3 T1 T2 T3.
  assert (G : forall z x n k, n = Z.of_nat k -> orep z x -> orep (Z.land (Z.shiftr z n) 0x3f) (omap (fun t => xand 0x3f (xshr k t)) x)).
  { intros z x n k -> H. apply (orep_map rho _ z); [|exact H]. intros l Hl. sym. }
  assert (G0 : forall z x, orep z x -> orep (Z.land z 0x3f) (omap (fun t => xand 0x3f (xshr 0 t)) x)).
  { intros z x H. rewrite (shr_0 z) at 1. apply (G z x 0 0%nat); [reflexivity|exact H]. }
  repeat (apply Forall2_cons; [first [apply G; [reflexivity|assumption] | apply G0; assumption]|]).
  apply Forall2_nil.
Qed.
End Sound.

Lemma osame_all rho zs os es : Forall2 (fun z o => orep rho z o) zs os -> length os = length es ->
  forallb (fun p => osame (fst p) (rev (snd p))) (combine os es) = true ->
  zs = map (fun e => B (rev (map (evb rho) e))) es.
Proof.
  intros H; revert es. induction H as [|z o zs os Hz H IH]; intros [|e es] L F; try discriminate L; [reflexivity|].
  cbn [combine forallb fst snd map] in *. apply andb_prop in F as [F1 F2]. injection L as L.
  rewrite (osame_rep _ _ _ _ Hz F1), map_rev. f_equal. apply IH; assumption.
Qed.
Lemma sixes_map {A C} (f : A -> C) d l : map (map f) (sixes d l) = sixes (f d) (map f l).
Proof.
  unfold sixes. rewrite map_map. apply map_ext. intros i. rewrite <- firstn_map, <- skipn_map, map_app. reflexivity.
Qed.
Lemma end_spec L R : length L = 32%nat -> length R = 32%nat ->
  six (fst (body_end (W L) (W R))) (snd (body_end (W L) (W R))) = map (fun g => B (rev g)) (sixes false (pick false IP_inverse (R ++ L))).
Proof.
  intros HL HR. pose proof end_checked as C. unfold end_ok in C.
  destruct (xend (rot 0%N Lv) (rot 0%N Rv)) as [[l r]|] eqn:E; [|discriminate C].
  set (rho := fun i => nth i (L ++ R) false).
  assert (EL : map (evb rho) Lv = L).
  { pose proof (vars_read (L ++ R) 0) as H. rewrite app_length, HL, HR in H. change (skipn 0 (L ++ R)) with (L ++ R) in H.
    change (32 + 32 - 0)%nat with (32 + 32)%nat in H. rewrite seq_app, !map_app in H.
    apply app_front in H; [exact H|]. rewrite !map_length, seq_length. symmetry. exact HL. }
  assert (ER : map (evb rho) Rv = R).
  { pose proof (vars_read (L ++ R) 32) as H. rewrite app_length, HL, HR in H.
    rewrite skipn_app, HL, Nat.sub_diag in H. rewrite skipn_all2 in H by lia. exact H. }
  assert (RL : rep rho (W L) (rot 0%N Lv)) by (unfold rep, evw; rewrite rot_map, EL; reflexivity).
  assert (RR : rep rho (W R) (rot 0%N Rv)) by (unfold rep, evw; rewrite rot_map, ER; reflexivity).
  pose proof (end_rep rho _ _ _ _ _ RL RR E) as [H1 H2]. cbn [fst snd] in H1, H2.
  pose proof (six_rep rho _ _ _ _ H1 H2) as H.
  assert (LE : length (xsix l r) = length (sixes 0%N (pick 0%N IP_inverse (Rv ++ Lv)))) by reflexivity.
  rewrite (osame_all rho _ _ _ H LE C).
  rewrite <- EL, <- ER at 1. rewrite <- map_app. change false with (evb rho 0%N). rewrite <- pick_map, <- sixes_map, map_map. reflexivity.
Qed.
Lemma number_B l : number_of l = B (rev l).
Proof.
  unfold number_of. rewrite <- (rev_involutive l) at 1. generalize (rev l). clear. intros l.
  induction l as [|b l IH]; [reflexivity|]. cbn [rev]. rewrite fold_left_app. cbn [fold_left B]. rewrite IH. lia.
Qed.
Lemma alphabet_same : cov_2char = alphabet.
Proof. reflexivity. Qed.
Lemma printed_spec block : printed block = map (fun i => at_ cov_2char i) (map (fun g => B (rev g)) (sixes false block)).
Proof.
  rewrite alphabet_same. unfold printed, sixes. rewrite !map_map. apply map_ext. intros i. rewrite number_B. reflexivity.
Qed.

(** *** the salt *)
Lemma salt_checked : forallb (fun c => (at_ con_salt (Z.land c 0x7f) =? value c alphabet) && (0 <=? value c alphabet) && (value c alphabet <? 64)) alphabet = true.
Proof. vm_compute. reflexivity. Qed.
Lemma salt_spec c : In c alphabet -> at_ con_salt (Z.land c 0x7f) = value c alphabet /\ 0 <= value c alphabet < 64.
Proof.
  intros H. pose proof salt_checked as C. rewrite forallb_forall in C. specialize (C c H).
  apply andb_prop in C as [C C3]. apply andb_prop in C as [C1 C2]. apply Z.eqb_eq in C1. apply Z.leb_le in C2. apply Z.ltb_lt in C3. auto.
Qed.
Lemma key_pad pw : key_of (firstn 8 (pw ++ [0; 0; 0; 0; 0; 0; 0; 0])) = key_of pw.
Proof.
  unfold key_of. f_equal. apply map_ext_in. intros i Hi. apply in_seq in Hi. f_equal. f_equal.
  transitivity (nth i (pw ++ [0; 0; 0; 0; 0; 0; 0; 0]) 0).
  - rewrite <- (firstn_skipn 8 (pw ++ [0; 0; 0; 0; 0; 0; 0; 0])) at 2. symmetry. apply app_nth1.
    rewrite firstn_length, app_length. cbn [length]. lia.
  - destruct (le_lt_dec (length pw) i) as [H|H].
    + rewrite app_nth2 by exact H. rewrite (nth_overflow pw) by exact H.
      change [0; 0; 0; 0; 0; 0; 0; 0] with (repeat 0 8). apply nth_repeat.
    + apply app_nth1. exact H.
Qed.
Lemma zero_block : pick false IP_inverse (repeat false 32 ++ repeat false 32) = repeat false 64.
Proof. reflexivity. Qed.
Theorem crypt_spec pw a b rest : Forall byte pw -> In a alphabet -> In b alphabet -> crypt pw (a :: b :: rest) = unix_crypt pw a b.
Proof.
  intros Fp Ia Ib. unfold crypt. cbv beta zeta. change (fill (a :: b :: rest)) with (a :: b :: rest).
  destruct (salt_spec a Ia) as [Sa Va]. destruct (salt_spec b Ib) as [Sb Vb].
  change (nth 0 (a :: b :: rest) 0) with a. change (nth 1 (a :: b :: rest) 0) with b. rewrite Sa, Sb.
  change (firstn 2 (a :: b :: rest)) with [a; b].
  rewrite set_key_spec; [|rewrite firstn_length, app_length; cbn [length]; lia|].
  2:{ apply Forall_forall. intros x Hx. assert (Hx' : In x (pw ++ [0; 0; 0; 0; 0; 0; 0; 0])).
      { rewrite <- (firstn_skipn 8). apply in_or_app. left. exact Hx. }
      apply in_app_or in Hx' as [H|H]; [rewrite Forall_forall in Fp; apply Fp; exact H|].
      cbn [In] in H. unfold byte. lia. }
  rewrite key_pad. unfold body.
  destruct (passes_spec (feistel (value a alphabet) (Z.shiftl (value b alphabet) 4)) (fun K => (B (ka false K), B (kb false K)))
              (salt_of (value a alphabet) (value b alphabet))
              (fun L R K HL HR HK => feistel_spec _ _ L R K Va Vb HL HR HK) (key_of pw) 25 (repeat false 32) (repeat false 32) eq_refl eq_refl)
    as (L & R & P & HL & HR & T).
  change (W (repeat false 32)) with 0 in P. rewrite P. clear P.
  pose proof (end_spec L R HL HR) as E. destruct (body_end (W L) (W R)) as [o1 o2]. cbn [fst snd] in E. rewrite E. clear E.
  unfold unix_crypt. rewrite printed_spec. rewrite zero_block in T. fold (salt_bits a b) in T. unfold salt_of in T.
  change (rev (bits_of 6 (value a alphabet)) ++ rev (bits_of 6 (value b alphabet))) with (salt_bits a b) in T. rewrite T. reflexivity.
Qed.
