(** StrProof.v: quoting and split_using. *)
From Verif Require Import PyStr RegexModel StrModel StrSpec BaseProof PBufferModel PBufferProof PyListProof PyStrProof.

(** ** C16 *)
Lemma qbody_flat q v rest : (forall r, rest <> q :: r) ->
  qbody q (flat_map (fun x => if x =? q then [q; q] else [x]) v ++ q :: rest) v rest.
Proof.
  intros H. induction v as [|c v IH]; cbn [flat_map app].
  - constructor; auto.
  - destruct (Z.eqb_spec c q) as [->|N]; cbn [app]; constructor; auto.
Qed.
Lemma qbody_det q t v r : qbody q t v r -> forall v' r', qbody q t v' r' -> v = v' /\ r = r'.
Proof.
  induction 1 as [rest H|t v rest H IH|c t v rest Hc H IH]; intros v' r' H'.
  all: inversion H'; subst; try congruence;
    try (exfalso; match goal with H : forall r, _ <> _ :: r |- _ => eapply H; reflexivity end);
    try match goal with I : forall v' r', qbody _ _ v' r' -> _, H : qbody _ _ _ _ |- _ => destruct (I _ _ H); subst; auto end.
  auto.
Qed.
Lemma quote_literal_lexed s rest : (forall r, rest <> 39 :: r) -> quoted 39 (quote_literal s ++ rest) s rest.
Proof.
  intros H. unfold quote_literal. rewrite replace1. eexists. split; [cbn [app]; rewrite <- app_assoc; reflexivity|].
  cbn [app]. apply qbody_flat; auto.
Qed.
Lemma quote_ident_lexed s rest : (forall r, rest <> 34 :: r) -> quoted 34 (quote_ident s ++ rest) s rest.
Proof.
  intros H. unfold quote_ident. rewrite replace1. eexists. split; [cbn [app]; rewrite <- app_assoc; reflexivity|].
  cbn [app]. apply qbody_flat; auto.
Qed.
Lemma quoted_det q t v r v' r' : quoted q t v r -> quoted q t v' r' -> v = v' /\ r = r'.
Proof. intros (x & -> & H) (y & E & H'). injection E as <-. eapply qbody_det; eauto. Qed.

(** ** split_using *)
Fixpoint sep_pos (q s : Z) (inq : bool) (t : text) : option nat :=
  match t with
  | [] => None
  | c :: r => if c =? q then option_map S (sep_pos q s (negb inq) r)
              else if (c =? s) && negb inq then Some O
              else option_map S (sep_pos q s inq r)
  end.
Definition shift (k : nat) (o : option nat) : option nat := option_map (Nat.add k) o.
Lemma shift_S k o : option_map S (shift k o) = shift (S k) o.
Proof. destruct o; reflexivity. Qed.
Lemma sep_pos_pre q s inq a r : ~ In q a -> (inq = false -> ~ In s a) -> sep_pos q s inq (a ++ r) = shift (length a) (sep_pos q s inq r).
Proof.
  intros H1 H2. induction a as [|c a IH]; cbn [app length]; [destruct (sep_pos q s inq r); reflexivity|].
  cbn [sep_pos]. destruct (Z.eqb_spec c q); [exfalso; apply H1; left; auto|].
  destruct (Z.eqb_spec c s) as [->|]; cbn [andb].
  - destruct inq; cbn [negb].
    + rewrite IH, shift_S; auto. intros X; apply H1; right; auto. intros; discriminate.
    + exfalso. apply (H2 eq_refl). left; auto.
  - rewrite IH, shift_S; auto. intros X; apply H1; right; auto. intros E X; apply (H2 E); right; auto.
Qed.
Lemma sep_pos_None q s inq a : ~ In s a -> sep_pos q s inq a = None.
Proof.
  revert inq. induction a as [|c a IH]; intros inq H; [reflexivity|]. cbn [sep_pos].
  assert (H' : ~ In s a) by (intros X; apply H; right; auto).
  destruct (c =? q); rewrite ?IH by auto; auto. destruct (Z.eqb_spec c s); [exfalso; apply H; left; auto|]. reflexivity.
Qed.

Definition posZ (o : nat) (x : option nat) : Z := match x with Some k => Z.of_nat (o + k) | None => -1 end.
Lemma pyfind_at c t o : (o <= length t)%nat ->
  pyfind [c] t (Z.of_nat o) (len t) = posZ o (index_of [c] (skipn o t)).
Proof.
  intros H. rewrite pyfind_end by (unfold len; lia). rewrite Nat2Z.id. unfold posZ. destruct (index_of [c] (skipn o t)); auto. lia.
Qed.
Lemma skipn_app_cons {A} (t : list A) o a c b : skipn o t = a ++ c :: b -> skipn (o + length a + 1) t = b /\ (o + length a + 1 <= length t)%nat.
Proof.
  intros H. assert (L : (length (skipn o t) = length a + 1 + length b)%nat) by (rewrite H, app_length; cbn; lia).
  rewrite skipn_length in L. split; [|lia]. rewrite <- Nat.add_assoc, skipn_plus, H. replace (length a + 1)%nat with (S (length a)) by lia. apply skipn_S_app.
Qed.
(** the closing quote of a quotation whose content starts at [o] *)
Lemma eat_spec q s t : s <> q -> forall fuel o, (o <= length t)%nat -> (length t - o <= 2 * fuel)%nat ->
  let r := eat_quoted fuel q t (pyfind [q] t (Z.of_nat o) (len t)) in
  (r = -1 /\ sep_pos q s true (skipn o t) = None) \/
  (exists c d, r = Z.of_nat (o + length c) /\ skipn o t = c ++ q :: d /\ sep_pos q s true (skipn o t) = shift (length c + 1) (sep_pos q s false d)).
Proof.
  intros Hsq. induction fuel as [|fuel IH]; intros o Ho Hf; cbn zeta.
  - assert (E : skipn o t = []) by (apply skipn_all2; lia). rewrite pyfind_at by lia. rewrite E. cbn. left. auto.
  - rewrite pyfind_at by lia. destruct (index_of [q] (skipn o t)) as [k|] eqn:E.
    2:{ cbn [posZ eat_quoted Z.eqb]. left. split; [reflexivity|]. apply index1_None in E.
        rewrite <- (app_nil_r (skipn o t)), sep_pos_pre; auto. discriminate. }
    apply index1_Some in E as (E & Hn & Hk). set (c := firstn k (skipn o t)) in *. set (d := skipn (S k) (skipn o t)) in *.
    assert (Lc : length c = k) by (unfold c; rewrite firstn_length; lia).
    cbn [posZ]. cbn [eat_quoted]. destruct (Z.eqb_spec (Z.of_nat (o + k)) (-1)); [lia|].
    destruct (skipn_app_cons t o c q d E) as (Ed & Ld).
    replace (Z.of_nat (o + k) + 2) with (Z.of_nat (o + k) + Z.of_nat 2) by lia. rewrite pyfind_upto by lia. rewrite Nat2Z.id.
    assert (Ek : skipn (o + k) t = q :: d). { rewrite skipn_plus, E. rewrite skipn_app_exact; auto. }
    rewrite Ek. destruct d as [|e d'] eqn:Ed'.
    + cbn [firstn index_of prefixb]. rewrite Z.eqb_refl. cbn [andb]. destruct (Z.eqb_spec (-1) (Z.of_nat (o + k))); [lia|]. cbn [negb].
      right. exists c, []. split; [lia|]. split; [exact E|]. rewrite E. rewrite sep_pos_pre by (auto; discriminate). cbn [sep_pos]. rewrite Z.eqb_refl. reflexivity.
    + cbn [firstn index_of prefixb]. rewrite Z.eqb_refl. destruct (Z.eqb_spec q e) as [->|Ne].
      * (* a doubled quote *) cbn [andb]. destruct (Z.eqb_spec (Z.of_nat (o + k) + Z.of_nat 0) (Z.of_nat (o + k))); [|lia]. cbn [negb].
        assert (E2 : skipn (o + k + 2) t = d'). { rewrite skipn_plus, Ek. reflexivity. }
        assert (L2 : (o + k + 2 <= length t)%nat). { assert (L : length (skipn (o + k) t) = S (S (length d'))) by (rewrite Ek; reflexivity). rewrite skipn_length in L. lia. }
        replace (Z.of_nat (o + k) + Z.of_nat 2) with (Z.of_nat (o + k + 2)) by lia.
        specialize (IH (o + k + 2)%nat L2). cbn zeta in IH. rewrite E2 in IH.
        assert (P : sep_pos e s true (skipn o t) = shift (k + 2) (sep_pos e s true d')).
        { rewrite E. rewrite sep_pos_pre by (auto; discriminate). cbn [sep_pos]. rewrite Z.eqb_refl. cbn [negb]. rewrite Lc.
          destruct (sep_pos e s true d'); cbn; auto. f_equal. lia. }
        destruct IH as [(Hr & Hp)|(c2 & d2 & Hr & E3 & Hp)]; [lia| |].
        -- left. split; [exact Hr|]. rewrite P, Hp. reflexivity.
        -- right. exists (c ++ e :: e :: c2), d2. rewrite !app_length. cbn [length]. rewrite Lc. split; [rewrite Hr; lia|]. split.
           ++ rewrite E, E3, <- app_assoc. reflexivity.
           ++ rewrite P, Hp. destruct (sep_pos e s false d2); cbn; auto. f_equal. lia.
      * cbn [andb]. destruct (Z.eqb_spec (-1) (Z.of_nat (o + k))); [lia|]. cbn [negb].
        right. exists c, (e :: d'). split; [lia|]. split; [exact E|]. rewrite E. rewrite sep_pos_pre by (auto; discriminate).
        cbn [sep_pos]. rewrite Z.eqb_refl. cbn [negb]. rewrite Lc. destruct (Z.eqb_spec e q); [congruence|].
        destruct (e =? s); cbn [andb negb]; [cbn; f_equal; lia|]. destruct (sep_pos q s false d'); cbn; auto. f_equal. lia.
Qed.

Lemma skipn_len {A} o (t : list A) : length (skipn o t) = (length t - o)%nat.
Proof. apply skipn_length. Qed.
Lemma firstn_In {A} (x : A) k l : In x (firstn k l) -> In x l.
Proof. intros H. rewrite <- (firstn_skipn k l). apply in_or_app; auto. Qed.
Lemma index_before c d l k j : index_of [c] l = Some k -> index_of [d] (firstn k l) = Some j -> index_of [d] l = Some j /\ ~ In c (firstn j l) /\ (j < k)%nat.
Proof.
  intros H1 H2. apply index1_Some in H1 as (E1 & N1 & L1). apply index1_Some in H2 as (E2 & N2 & L2).
  rewrite firstn_length in L2. rewrite firstn_firstn, Nat.min_l in E2, N2 by lia.
  split; [|split; [|lia]].
  - rewrite <- (firstn_skipn k l), E2. rewrite <- app_assoc. cbn [app]. rewrite index1_app by auto. f_equal. rewrite firstn_length. lia.
  - intros X. apply N1. rewrite E2. apply in_or_app. auto.
Qed.
Lemma seek_spec q s t : s <> q -> forall fuel o ks, (o <= length t)%nat -> (length t - o <= 2 * fuel)%nat ->
  index_of [s] (skipn o t) = Some ks ->
  seek_sep fuel q s t (pyfind [q] t (Z.of_nat o) (Z.of_nat (o + ks))) (Z.of_nat (o + ks)) = posZ o (sep_pos q s false (skipn o t)).
Proof.
  intros Hsq. induction fuel as [|fuel IH]; intros o ks Ho Hf Hs.
  - assert (E : skipn o t = []) by (apply skipn_all2; lia). rewrite E in Hs. discriminate.
  - rewrite Nat2Z.inj_add, pyfind_upto by lia. rewrite Nat2Z.id.
    destruct (index_of [q] (firstn ks (skipn o t))) as [j|] eqn:Eq.
    2:{ cbn [seek_sep Z.eqb]. apply index1_None in Eq. pose proof Hs as Hs0. apply index1_Some in Hs as (E & Hn & Hk).
        rewrite E, sep_pos_pre by auto. cbn [sep_pos]. destruct (Z.eqb_spec s q); [congruence|]. rewrite Z.eqb_refl. cbn [andb negb].
        unfold shift, option_map, posZ. rewrite firstn_length. cbn [Pos.eqb]. lia. }
    destruct (index_before _ _ _ _ _ Hs Eq) as (Eq2 & Nj & Lj). apply index1_Some in Eq2 as (E & Hn & Hk).
    set (a := firstn j (skipn o t)) in *. set (b := skipn (S j) (skipn o t)) in *.
    assert (La : length a = j) by (unfold a; rewrite firstn_length; lia).
    destruct (skipn_app_cons t o a q b E) as (Eb & Lb). rewrite La in Eb, Lb.
    cbn [seek_sep]. destruct (Z.eqb_spec (Z.of_nat o + Z.of_nat j) (-1)); [lia|]. cbn zeta.
    replace (Z.of_nat o + Z.of_nat j + 1) with (Z.of_nat (o + j + 1)) by lia.
    pose proof (eat_spec q s t Hsq (length t) (o + j + 1)%nat Lb ltac:(lia)) as He. cbn zeta in He. rewrite Eb in He.
    assert (P : sep_pos q s false (skipn o t) = shift (j + 1) (sep_pos q s true b)).
    { rewrite E, sep_pos_pre by auto. cbn [sep_pos]. rewrite Z.eqb_refl. cbn [negb]. rewrite La. destruct (sep_pos q s true b); cbn; auto. f_equal. lia. }
    destruct He as [(Hr & Hp)|(c & d & Hr & Ec & Hp)].
    + rewrite Hr. cbn [Z.eqb]. rewrite P, Hp. reflexivity.
    + rewrite Hr. destruct (Z.eqb_spec (Z.of_nat (o + j + 1 + length c)) (-1)); [lia|].
      rewrite <- Eb in Ec. destruct (skipn_app_cons t _ c q d Ec) as (Edd & Ldd).
      replace (Z.of_nat (o + j + 1 + length c) + 1) with (Z.of_nat (o + j + 1 + length c + 1)) by lia.
      rewrite pyfind_at by lia. rewrite Edd. rewrite P, Hp. destruct (index_of [s] d) as [kd|] eqn:Ekd.
      * cbn [posZ]. destruct (Z.eqb_spec (Z.of_nat (o + j + 1 + length c + 1 + kd)) (-1)); [lia|].
        rewrite IH; [|lia|lia|rewrite Edd; auto]. rewrite Edd. destruct (sep_pos q s false d); cbn; lia.
      * cbn [posZ Z.eqb]. apply index1_None in Ekd. rewrite (sep_pos_None q s false d) by auto. reflexivity.
Qed.

Lemma cuts_None q s inq left t cur : sep_pos q s inq t = None -> cuts q s inq left t cur = [rev cur ++ t].
Proof.
  revert inq cur. induction t as [|c t IH]; intros inq cur H; cbn [cuts sep_pos] in *; [rewrite app_nil_r; auto|].
  destruct (c =? q).
  - rewrite IH by (destruct (sep_pos q s (negb inq) t); [discriminate|auto]). cbn [rev]. rewrite <- app_assoc. reflexivity.
  - destruct ((c =? s) && negb inq) eqn:E; [discriminate|]. cbn [andb]. rewrite IH by (destruct (sep_pos q s inq t); [discriminate|auto]).
    cbn [rev]. rewrite <- app_assoc. reflexivity.
Qed.
Lemma cuts_zero q s inq t cur : cuts q s inq 0 t cur = [rev cur ++ t].
Proof.
  revert inq cur. induction t as [|c t IH]; intros inq cur; cbn [cuts]; [rewrite app_nil_r; auto|].
  cbn [Z.eqb negb]. rewrite andb_false_r, !IH. cbn [rev]. rewrite <- app_assoc. destruct (c =? q); reflexivity.
Qed.
Lemma cuts_Some q s inq left t cur k : left <> 0 -> sep_pos q s inq t = Some k ->
  cuts q s inq left t cur = (rev cur ++ firstn k t) :: cuts q s false (left - 1) (skipn (S k) t) [].
Proof.
  intros Hl. revert inq cur k. induction t as [|c t IH]; intros inq cur k H; cbn [cuts sep_pos] in *; [discriminate|].
  destruct (c =? q).
  - destruct (sep_pos q s (negb inq) t) as [j|] eqn:E; [|discriminate]. cbn in H. injection H as <-. rewrite (IH _ _ j) by auto.
    cbn [rev firstn skipn]. rewrite <- app_assoc. reflexivity.
  - destruct ((c =? s) && negb inq) eqn:E.
    + injection H as <-. cbn [andb]. destruct (Z.eqb_spec left 0); [congruence|]. cbn [negb firstn skipn]. rewrite app_nil_r.
      destruct inq; [rewrite andb_false_r in E; discriminate|]. reflexivity.
    + cbn [andb]. destruct (sep_pos q s inq t) as [j|] eqn:E2; [|discriminate]. cbn in H. injection H as <-. rewrite (IH _ _ j) by auto.
      cbn [rev firstn skipn]. rewrite <- app_assoc. reflexivity.
Qed.
Lemma sep_pos_bound q s inq t k : sep_pos q s inq t = Some k -> (k < length t)%nat.
Proof.
  revert inq k. induction t as [|c t IH]; intros inq k; cbn [sep_pos length]; [discriminate|].
  destruct (c =? q).
  - destruct (sep_pos q s (negb inq) t) eqn:E; [|discriminate]. intros [= <-]. apply IH in E. lia.
  - destruct ((c =? s) && negb inq); [intros [= <-]; lia|]. destruct (sep_pos q s inq t) eqn:E; [|discriminate]. intros [= <-]. apply IH in E. lia.
Qed.
Lemma slice_to_end {A} (t : list A) o : (o <= length t)%nat -> pyslice t (Z.of_nat o) (len t) = skipn o t.
Proof.
  intros H. rewrite pyslice_firstn_skipn by (unfold len; lia). rewrite Nat2Z.id. apply firstn_all2. rewrite skipn_length. unfold len. lia.
Qed.
Lemma loop_spec q s t : s <> q -> forall fuel left o, (o <= length t)%nat -> (length t - o <= fuel)%nat ->
  split_using_loop fuel q s t left (Z.of_nat o) = cuts q s false left (skipn o t) [].
Proof.
  intros Hsq. induction fuel as [|fuel IH]; intros left o Ho Hf; cbn [split_using_loop].
  - assert (E : skipn o t = []) by (apply skipn_all2; lia). rewrite pyfind_at by lia. rewrite E. cbn [index_of prefixb posZ Z.eqb].
    rewrite slice_to_end by lia. rewrite E. destruct (left =? 0); reflexivity.
  - rewrite slice_to_end by lia. destruct (Z.eqb_spec left 0) as [->|Hl]; [rewrite cuts_zero; reflexivity|].
    rewrite pyfind_at by lia. destruct (index_of [s] (skipn o t)) as [ks|] eqn:Es.
    2:{ cbn [posZ Z.eqb]. apply index1_None in Es. rewrite cuts_None; auto. apply sep_pos_None; auto. }
    cbn [posZ]. destruct (Z.eqb_spec (Z.of_nat (o + ks)) (-1)); [lia|].
    rewrite seek_spec; auto; [|lia]. destruct (sep_pos q s false (skipn o t)) as [k|] eqn:Ep.
    + cbn [posZ]. destruct (Z.eqb_spec (Z.of_nat (o + k)) (-1)); [lia|]. pose proof (sep_pos_bound _ _ _ _ _ Ep) as B. rewrite skipn_length in B.
      rewrite (cuts_Some _ _ _ _ _ _ _ Hl Ep). f_equal.
      * rewrite pyslice_firstn_skipn by lia. rewrite Nat2Z.id. cbn [rev app]. f_equal. lia.
      * replace (Z.of_nat (o + k) + 1) with (Z.of_nat (o + k + 1)) by lia. rewrite IH by lia. f_equal.
        rewrite <- skipn_plus. f_equal. lia.
    + cbn [posZ Z.eqb]. rewrite cuts_None; auto.
Qed.
Lemma cuts_split q s t : ~ In q t -> cuts q s false (-1) t [] = py_split [s] t.
Proof.
  enough (G : forall l cur, l < 0 -> ~ In q t -> cuts q s false l t cur = split_go [s] t O cur) by (intros; apply G; auto; lia).
  induction t as [|c t IH]; intros l cur Hl N; cbn [cuts split_go]; [reflexivity|].
  destruct (Z.eqb_spec c q); [exfalso; apply N; left; auto|]. cbn [prefixb]. rewrite (Z.eqb_sym s c), andb_true_r.
  assert (N' : ~ In q t) by (intros X; apply N; right; auto).
  destruct (c =? s); cbn [andb negb].
  - destruct (Z.eqb_spec l 0); [lia|]. cbn [negb length Nat.sub]. rewrite IH by (auto; lia). destruct t; reflexivity.
  - rewrite IH by auto. reflexivity.
Qed.
Lemma cuts_neg q s inq l1 l2 t cur : l1 < 0 -> l2 < 0 -> cuts q s inq l1 t cur = cuts q s inq l2 t cur.
Proof.
  revert inq l1 l2 cur. induction t as [|c t IH]; intros inq l1 l2 cur H1 H2; cbn [cuts]; [reflexivity|].
  destruct (c =? q); [auto|]. destruct (Z.eqb_spec l1 0), (Z.eqb_spec l2 0); try lia.
  destruct ((c =? s) && negb inq); cbn [andb negb]; [f_equal; apply IH; lia|auto].
Qed.
Lemma cuts_splitn q s n t : ~ In q t -> cuts q s false (Z.of_nat n) t [] = py_splitn n [s] t.
Proof.
  revert t. induction n as [|n IH]; intros t N; [rewrite cuts_zero; reflexivity|].
  cbn [py_splitn]. destruct (index_of [s] t) as [k|] eqn:E.
  - apply index1_Some in E as (E & Hn & Hk). assert (Eq : sep_pos q s false t = Some k).
    { rewrite E, sep_pos_pre; auto; [|intros X; apply N; eapply firstn_In; eauto]. cbn [sep_pos].
      destruct (Z.eqb_spec s q) as [->|]; [exfalso; apply N; rewrite E; apply in_or_app; right; left; auto|]. rewrite Z.eqb_refl. cbn. f_equal. rewrite firstn_length. lia. }
    rewrite (cuts_Some _ _ _ _ _ _ k) by (auto; lia). cbn [rev app length]. f_equal.
    replace (Z.of_nat (S n) - 1) with (Z.of_nat n) by lia. replace (k + 1)%nat with (S k) by lia. apply IH.
    intros X. apply N. rewrite <- (firstn_skipn (S k) t). apply in_or_app. auto.
  - apply index1_None in E. rewrite cuts_None; auto. apply sep_pos_None; auto.
Qed.
Lemma split_using_cuts q s t n : s <> q -> split_using t q s n = cuts q s false n t [].
Proof.
  intros H. unfold split_using. rewrite py_in1. destruct (memZ q t) eqn:E; cbn [negb].
  - rewrite <- (Z2Nat.id 0) by lia. change (Z.to_nat 0) with O. rewrite loop_spec; auto; lia.
  - apply memZ_not_In in E. destruct (Z.ltb_spec n 0).
    + rewrite <- (cuts_split q) by auto. apply cuts_neg; lia.
    + rewrite <- (cuts_splitn q) by auto. rewrite Z2Nat.id by lia. reflexivity.
Qed.
Lemma join_cuts q s inq n t cur : py_join [s] (cuts q s inq n t cur) = rev cur ++ t.
Proof.
  assert (NE : forall inq n t cur, cuts q s inq n t cur <> []).
  { clear. intros inq n t. revert inq n. induction t as [|c t IH]; intros inq n cur; cbn [cuts]; [discriminate|].
    destruct (c =? q); [auto|]. destruct ((c =? s) && negb inq && negb (n =? 0)); [discriminate|auto]. }
  revert inq n cur. induction t as [|c t IH]; intros inq n cur; cbn [cuts]; [cbn; rewrite app_nil_r; auto|].
  assert (R : rev (c :: cur) ++ t = rev cur ++ c :: t) by (cbn; rewrite <- app_assoc; reflexivity).
  destruct (c =? q); [rewrite IH; auto|]. destruct (Z.eqb_spec c s) as [->|]; cbn [andb]; [|rewrite IH; auto].
  destruct (negb inq && negb (n =? 0)); [|rewrite IH; auto]. rewrite py_join_cons by auto. rewrite IH. reflexivity.
Qed.

(** ** qname *)
Lemma cuts_inside q s n v r cur : s <> q ->
  cuts q s true n (flat_map (fun x => if x =? q then [q; q] else [x]) v ++ r) cur = cuts q s true n r (rev (flat_map (fun x => if x =? q then [q; q] else [x]) v) ++ cur).
Proof.
  intros H. revert cur. induction v as [|c v IH]; intros cur; [reflexivity|]. cbn [flat_map].
  destruct (Z.eqb_spec c q) as [->|N].
  - cbn [app cuts]. rewrite !Z.eqb_refl. cbn [negb]. rewrite IH. cbn [rev]. rewrite <- !app_assoc. reflexivity.
  - cbn [app cuts]. destruct (Z.eqb_spec c q); [congruence|]. cbn [negb]. rewrite andb_false_r. cbn [andb]. rewrite IH. cbn [rev]. rewrite <- !app_assoc. reflexivity.
Qed.
Lemma cuts_quote_ident s n a r cur : s <> 34 ->
  cuts 34 s false n (quote_ident a ++ r) cur = cuts 34 s false n r (rev (quote_ident a) ++ cur).
Proof.
  intros H. unfold quote_ident. rewrite replace1. cbn [app cuts Z.eqb Pos.eqb negb]. rewrite <- app_assoc. rewrite cuts_inside by auto.
  cbn [app cuts Z.eqb Pos.eqb negb rev]. rewrite rev_app_distr. cbn [rev app]. rewrite <- !app_assoc. reflexivity.
Qed.
Lemma cuts_qname s n a l : s <> 34 -> n < 0 -> cuts 34 s false n (py_join [s] (map quote_ident (a :: l))) [] = map quote_ident (a :: l).
Proof.
  intros H. revert a n. induction l as [|b l IH]; intros a n Hn.
  - cbn [map py_join]. rewrite <- (app_nil_r (quote_ident a)) at 1. rewrite cuts_quote_ident by auto. cbn [cuts]. rewrite app_nil_r, rev_involutive. reflexivity.
  - change (map quote_ident (a :: b :: l)) with (quote_ident a :: map quote_ident (b :: l)).
    rewrite py_join_cons by discriminate. rewrite cuts_quote_ident by auto. cbn [app]. cbn [cuts].
    destruct (Z.eqb_spec s 34); [congruence|]. rewrite Z.eqb_refl. destruct (Z.eqb_spec n 0); [lia|]. cbn [andb negb].
    rewrite IH by lia. rewrite app_nil_r, rev_involutive. reflexivity.
Qed.
Lemma split_ident1_quoted U a : u_space U 34 = false -> split_ident1 U (quote_ident a) = Ok a.
Proof.
  intros H. unfold split_ident1, quote_ident, py_strip. cbn [app]. rewrite strip_ends by auto.
  change (py_startswith [34] (34 :: ?x)) with true. cbn [andb].
  replace (py_startswith [34] (34 :: py_replace [34] [34; 34] a ++ [34])) with true by reflexivity.
  change (34 :: py_replace [34] [34; 34] a ++ [34]) with ((34 :: py_replace [34] [34; 34] a) ++ [34]) at 1.
  rewrite endswith_app. cbn [negb]. rewrite pyslice_inner, replace1, replace2_flat. reflexivity.
Qed.
Lemma mapM_map_ok {A B} (f : A -> res B) g l : (forall x, f (g x) = Ok x) -> mapM f (map g l) = Ok l.
Proof. intros H. induction l as [|x l IH]; cbn [mapM map]; [reflexivity|]. rewrite H, IH. reflexivity. Qed.
Lemma split_qname_qname U parts : unicode_ok U -> parts <> [] -> split_qname U (qname parts) (-1) = Ok parts.
Proof.
  intros HU N. unfold split_qname, split_ident, qname. rewrite split_using_cuts by discriminate.
  destruct parts as [|a l]; [congruence|]. rewrite cuts_qname by (try discriminate; lia).
  apply (mapM_map_ok (split_ident1 U) quote_ident (a :: l)). intros x. apply split_ident1_quoted. rewrite (uo_space U HU) by lia. reflexivity.
Qed.

(** ** the variants which quote only if needed *)
Lemma not_needs U x : unicode_ok U -> Forall (fun c => 0 <= c < 128) x -> needs_quoting U x = false -> plain_ident x = true.
Proof.
  intros HU F. unfold needs_quoting. destruct x as [|c x]; [discriminate|]. rewrite negb_false_iff, andb_true_iff. intros (H1 & H2).
  rewrite replace1 in H2. inversion F as [|? ? Hc Fx]; subst.
  rewrite (uo_decimal U HU) in H1 by lia.
  assert (G : forall y, 0 <= y < 128 -> forallb (u_alnum U) (if y =? 95 then [97] else [y]) = true -> ident_char y = true).
  { intros y Hy. unfold ident_char, ident_start. destruct (Z.eqb_spec y 95) as [->|]; [reflexivity|]. cbn [forallb].
    rewrite (uo_alnum U HU) by lia. rewrite andb_true_r. intros E. rewrite orb_false_r. exact E. }
  cbn [flat_map] in H2. unfold py_isalnum in H2.
  assert (H3 : forallb (u_alnum U) ((if c =? 95 then [97] else [c]) ++ flat_map (fun x0 => if x0 =? 95 then [97] else [x0]) x) = true).
  { destruct ((if c =? 95 then [97] else [c]) ++ flat_map (fun x0 => if x0 =? 95 then [97] else [x0]) x); [discriminate|exact H2]. }
  rewrite forallb_app, andb_true_iff in H3. destruct H3 as (H3 & H4). apply G in H3; [|lia].
  cbn [plain_ident]. unfold ident_char in H3. apply negb_true_iff in H1. rewrite H1, orb_false_r in H3. rewrite H3. cbn [andb].
  clear - H4 Fx G. induction Fx as [|y x Hy Fx IH]; [reflexivity|]. cbn [flat_map forallb] in *. rewrite forallb_app, andb_true_iff in H4.
  destruct H4 as (H4 & H5). rewrite (G y) by auto. rewrite IH by auto. reflexivity.
Qed.
Lemma ident_char_props c : ident_char c = true -> c <> 34 /\ c <> 46 /\ ascii_space c = false /\ 0 <= c < 128.
Proof. unfold ident_char, ident_start, ascii_alpha, ascii_upper, ascii_lowerc, ascii_digit, ascii_space. lia. Qed.
Lemma plain_ident_chars x : plain_ident x = true -> forallb ident_char x = true /\ x <> [].
Proof.
  destruct x as [|c x]; [discriminate|]. cbn [plain_ident forallb]. rewrite andb_true_iff. unfold ident_char at 2. intros (-> & ->). split; [reflexivity|discriminate].
Qed.
Lemma cuts_plain s n x r cur : s = 46 -> forallb ident_char x = true -> cuts 34 s false n (x ++ r) cur = cuts 34 s false n r (rev x ++ cur).
Proof.
  intros ->. revert cur. induction x as [|c x IH]; intros cur; [reflexivity|]. cbn [forallb]. rewrite andb_true_iff. intros (Hc & Hx).
  apply ident_char_props in Hc as (H1 & H2 & _). cbn [app cuts]. destruct (Z.eqb_spec c 34); [congruence|]. destruct (Z.eqb_spec c 46); [congruence|].
  cbn [andb]. rewrite IH by auto. cbn [rev]. rewrite <- app_assoc. reflexivity.
Qed.
Lemma cuts_gen (f : text -> text) s n a l : s = 46 -> n < 0 ->
  (forall x m r cur, In x (a :: l) -> cuts 34 s false m (f x ++ r) cur = cuts 34 s false m r (rev (f x) ++ cur)) ->
  cuts 34 s false n (py_join [s] (map f (a :: l))) [] = map f (a :: l).
Proof.
  intros ->. revert a n. induction l as [|b l IH]; intros a n Hn Hf.
  - cbn [map py_join]. rewrite <- (app_nil_r (f a)) at 1. rewrite Hf by (left; auto). cbn [cuts]. rewrite app_nil_r, rev_involutive. reflexivity.
  - change (map f (a :: b :: l)) with (f a :: map f (b :: l)).
    rewrite py_join_cons by discriminate. rewrite Hf by (left; auto). cbn [app]. cbn [cuts].
    cbn [Z.eqb Pos.eqb]. destruct (Z.eqb_spec n 0); [lia|]. cbn [andb negb].
    rewrite IH by (try lia; intros; apply Hf; right; auto). rewrite app_nil_r, rev_involutive. reflexivity.
Qed.
Lemma lstrip_id p x : forallb (fun c => negb (p c)) x = true -> lstrip_by p x = x.
Proof. destruct x as [|c x]; [reflexivity|]. cbn. destruct (p c); [discriminate|reflexivity]. Qed.
Lemma forallb_rev {A} (f : A -> bool) l : forallb f (rev l) = forallb f l.
Proof. induction l as [|a l IH]; [reflexivity|]. cbn [rev forallb]. rewrite forallb_app, IH. cbn. rewrite andb_true_r. apply andb_comm. Qed.
Lemma strip_id p x : forallb (fun c => negb (p c)) x = true -> strip_by p x = x.
Proof. intros H. unfold strip_by, rstrip_by. rewrite (lstrip_id _ x) by auto. rewrite lstrip_id by (rewrite forallb_rev; auto). apply rev_involutive. Qed.
Lemma lower_id U x : unicode_ok U -> ascii_lc x -> py_lower U x = x.
Proof.
  intros HU. unfold py_lower. induction 1 as [|c x (Hc & Hu) Hx IH]; [reflexivity|]. cbn [map concat]. rewrite (uo_lower U HU), IH by lia.
  unfold ascii_lower. rewrite Hu. reflexivity.
Qed.
Lemma map_lower_id x : ascii_lc x -> map ascii_lower x = x.
Proof. induction 1 as [|c x (Hc & Hu) Hx IH]; [reflexivity|]. cbn [map]. rewrite IH. unfold ascii_lower. rewrite Hu. reflexivity. Qed.
Lemma ascii_lc_ascii x : ascii_lc x -> Forall (fun c => 0 <= c < 128) x.
Proof. intros H. eapply Forall_impl; [|exact H]. intros c (Hc & _). exact Hc. Qed.
Lemma if_needed_denotes U x : unicode_ok U -> ascii_lc x -> denotes_ident (quote_ident_if_needed U x) x.
Proof.
  intros HU Hx. unfold quote_ident_if_needed. destruct (needs_quoting U x) eqn:E.
  - apply di_quoted. rewrite <- (app_nil_r (quote_ident x)). apply quote_ident_lexed. discriminate.
  - rewrite <- (map_lower_id x Hx) at 2. apply di_plain. eapply not_needs; eauto. apply ascii_lc_ascii; auto.
Qed.
Lemma split_qname_if_needed U parts : unicode_ok U -> parts <> [] -> Forall ascii_lc parts ->
  split_qname U (qname_if_needed U parts) (-1) = Ok parts.
Proof.
  intros HU N F. unfold split_qname, split_ident, qname_if_needed. rewrite split_using_cuts by discriminate.
  destruct parts as [|a l]; [congruence|]. rewrite cuts_gen; [|reflexivity|lia|].
  - clear N. induction F as [|x p Hx F IH]; [reflexivity|]. cbn [map mapM]. rewrite IH.
    assert (E1 : split_ident1 U (quote_ident_if_needed U x) = Ok x).
    { unfold quote_ident_if_needed. destruct (needs_quoting U x) eqn:E.
      - apply split_ident1_quoted. rewrite (uo_space U HU) by lia. reflexivity.
      - pose proof (not_needs U x HU (ascii_lc_ascii _ Hx) E) as P. apply plain_ident_chars in P as (P & Pn).
        unfold split_ident1, py_strip. rewrite strip_id.
        + replace (py_startswith [34] x) with false. rewrite E, lower_id by auto. reflexivity.
          destruct x as [|c x]; [reflexivity|]. cbn [forallb] in P. apply andb_true_iff in P as (P & _). apply ident_char_props in P as (P & _).
          unfold py_startswith. cbn [prefixb]. destruct (Z.eqb_spec 34 c); [congruence|reflexivity].
        + rewrite forallb_forall in P |- *. intros c Hc. apply P, ident_char_props in Hc as (_ & _ & Hs & Hr). rewrite (uo_space U HU) by lia. rewrite Hs. reflexivity. }
    rewrite E1. reflexivity.
  - intros x m r cur Hin. unfold quote_ident_if_needed. destruct (needs_quoting U x) eqn:E.
    + apply cuts_quote_ident. discriminate.
    + rewrite Forall_forall in F. apply cuts_plain; auto. pose proof (not_needs U x HU (ascii_lc_ascii _ (F x Hin)) E) as P. apply plain_ident_chars in P as (P & _). exact P.
Qed.
