From Verif Require Import PyStr PyStrProof PyStrProof2 BaseProof PyInt PyIntProof VersionModel VersionSpec.

(** splitting on a word that occurs once *)
Lemma split_go_skip sep x b : split_go sep (x ++ b) (length x) [] = split_go sep b O [].
Proof. induction x as [|c x IH]; [reflexivity|]. exact IH. Qed.
Lemma prefixb_head h s c r : c <> h -> prefixb (h :: s) (c :: r) = false.
Proof. intros N. cbn. replace (h =? c) with false by lia. reflexivity. Qed.
Lemma split_go_before h s a r cur : ~ In h a ->
  split_go (h :: s) (a ++ r) O cur = split_go (h :: s) r O (rev a ++ cur).
Proof.
  revert cur. induction a as [|c a IH]; intros cur N; [reflexivity|].
  cbn [app split_go]. rewrite prefixb_head by (intros ->; apply N; left; reflexivity).
  rewrite IH by (intros K; apply N; right; exact K). cbn [rev]. rewrite <- app_assoc. reflexivity.
Qed.
Lemma split_word h s a b : ~ In h a -> ~ In h b -> py_split (h :: s) (a ++ (h :: s) ++ b) = [a; b].
Proof.
  intros NA NB. unfold py_split. rewrite split_go_before by assumption. rewrite app_nil_r.
  cbn [app split_go]. change (h :: s ++ b) with ((h :: s) ++ b). rewrite prefixb_app. rewrite rev_involutive. f_equal.
  cbn [length]. rewrite Nat.sub_0_r || replace (S (length s) - 1)%nat with (length s) by lia. rewrite split_go_skip.
  rewrite <- (app_nil_r b) at 1. rewrite split_go_before by assumption. cbn [split_go]. rewrite app_nil_r, rev_involutive. reflexivity.
Qed.

Lemma digit_nospace U c : unicode_ok U -> 48 <= c <= 57 -> u_space U c = false.
Proof. intros UO H. rewrite (uo_space U UO) by lia. unfold ascii_space. lia. Qed.
Lemma digit_true c : 48 <= c <= 57 -> ascii_digit c = true.
Proof. unfold ascii_digit. lia. Qed.
Lemma numeral_nodot n s : numeral n s -> ~ In 46 s.
Proof. intros [[_ F] _] H. rewrite Forall_forall in F. apply F in H. lia. Qed.
Lemma numeral_nonempty n s : numeral n s -> s <> [].
Proof. intros [[N _] _]. exact N. Qed.
Lemma numeral_str n : 0 <= n -> numeral n (str_nat n).
Proof. intros H. split; [apply str_nat_digits, H|apply str_nat_value, H]. Qed.
Lemma numeral_nonneg n s : numeral n s -> 0 <= n.
Proof.
  intros [[_ F] <-]. unfold digits_value. assert (G : forall l acc, 0 <= acc -> Forall (fun c => 48 <= c <= 57) l ->
    0 <= fold_left (fun a c => a * 10 + (c - 48)) l acc).
  { induction l as [|c l IH]; intros acc H Fl; [exact H|]. inversion Fl; subst. cbn [fold_left]. apply IH; auto. lia. }
  apply G; auto. lia.
Qed.

Section V.
Variable U : unicode.
Variable dv : decimals.
Hypothesis UO : unicode_ok U.

Lemma int_or0_numeral n s : numeral n s -> int_or0 U dv s = Ok (VI n).
Proof.
  intros [D V]. unfold int_or0. destruct s as [|c r] eqn:E; [destruct D; congruence|]. rewrite <- E in *.
  rewrite py_int_digits by assumption. rewrite V. reflexivity.
Qed.
Lemma py_int_numeral n s : numeral n s -> py_int U dv 10 s = Ok n.
Proof. intros [D V]. rewrite py_int_digits by assumption. now rewrite V. Qed.
Lemma mapM_int_or0 ns l : Forall2 numeral ns l -> mapM (int_or0 U dv) l = Ok (map VI ns).
Proof.
  induction 1 as [|n s ns l H _ IH]; [reflexivity|]. cbn [mapM map]. rewrite (int_or0_numeral n s H), IH. reflexivity.
Qed.

Lemma split_join_last l x st : Forall (fun y => ~ In 46 y) l -> ~ In 46 x -> ~ In 46 st ->
  py_split [46] (py_join [46] (l ++ [x]) ++ st) = l ++ [x ++ st].
Proof.
  intros F N1 N2. assert (E : py_join [46] (l ++ [x]) ++ st = py_join [46] (l ++ [x ++ st])).
  { clear F. induction l as [|a l IH]; [reflexivity|]. cbn [app].
    rewrite !py_join_cons by (destruct l; discriminate). rewrite <- !app_assoc. now rewrite IH. }
  rewrite E. apply split_join; [destruct l; discriminate|]. apply Forall_app. split; [exact F|].
  constructor; [|constructor]. rewrite in_app_iff. tauto.
Qed.
Lemma join_head l c r : py_join [46] ((c :: r) :: l) = c :: (match l with [] => r | _ => r ++ [46] ++ py_join [46] l end).
Proof. destruct l; reflexivity. Qed.

(** the words of the state *)
Lemma word_nodot w : Forall (word_char U) w -> ~ In 46 w.
Proof. intros F H. rewrite Forall_forall in F. apply F in H. destruct H as (_ & _ & H). congruence. Qed.

Lemma split_written v s a b : valid U v -> written v s ->
  Forall (fun c => u_space U c = true) a -> Forall (fun c => u_space U c = true) b ->
  version_split U dv (a ++ s ++ b) = Ok (version_tuple v).
Proof.
  intros (L & NN & ST) (ns & st & F & SS & ->) FA FB.
  assert (Ln : length ns = length (v_nums v)) by (symmetry; eapply Forall2_len; eauto).
  assert (NE : ns <> []) by (intros ->; cbn in Ln; lia).
  destruct (exists_last NE) as (l & x & E). subst ns.
  apply Forall2_app_inv_r in F as (nl & nx & Fl & Fx & En). inversion Fx as [|nx0 ? ? ? Hx Fnil]; subst. inversion Fnil; subst.
  assert (Dl : Forall (fun y => ~ In 46 y) l).
  { clear -Fl. induction Fl; constructor; auto. eapply numeral_nodot; eauto. }
  assert (Dx : ~ In 46 x) by (eapply numeral_nodot; eauto).
  (* the state suffix: digits and word characters *)
  assert (Sst : Forall (fun c => u_space U c = false /\ c <> 46) st).
  { destruct (v_state v) as [[w [k|]]|].
    - destruct ST as (_ & W & _). destruct SS as (lv & [[_ Dlv] _] & ->). apply Forall_app. split.
      + revert W. apply Forall_impl. unfold word_char. tauto.
      + revert Dlv. apply Forall_impl. intros c Hc. split; [apply digit_nospace; auto|lia].
    - subst st. destruct ST as (_ & W & _). revert W. apply Forall_impl. unfold word_char. tauto.
    - subst st. constructor. }
  assert (Dst : ~ In 46 st).
  { intros H. rewrite Forall_forall in Sst. apply Sst in H. tauto. }
  set (body := py_join [46] (l ++ [x]) ++ st).
  assert (Sx : Forall (fun c => u_space U c = false) x).
  { destruct Hx as [[_ D] _]. revert D. apply Forall_impl. intros c Hc. apply digit_nospace; auto. }
  assert (Hbody : body <> [] /\ solid (u_space U) body).
  { assert (Lst : forall d, u_space U (last (x ++ st) d) = false).
    { intros d. apply (forall_last (fun c => u_space U c = false)).
      - apply numeral_nonempty in Hx. destruct x; [congruence|discriminate].
      - apply Forall_app. split; [exact Sx|]. revert Sst. apply Forall_impl. tauto. }
    assert (Lb : exists pre, body = pre ++ (x ++ st)).
    { unfold body. clear. induction l as [|y l IH]; [exists []; reflexivity|]. cbn [app].
      rewrite py_join_cons by (destruct l; discriminate). destruct IH as (p & E). exists (y ++ [46] ++ p).
      rewrite <- !app_assoc. f_equal. f_equal. rewrite E. reflexivity. }
    assert (Hd : exists c r, body = c :: r /\ u_space U c = false).
    { unfold body. destruct l as [|y l].
      - cbn [app py_join]. destruct x as [|c r]; [apply numeral_nonempty in Hx; congruence|].
        exists c, (r ++ st). split; [reflexivity|]. now inversion Sx.
      - inversion Fl as [|ny ? ? ? Hy ?]; subst. destruct y as [|c r]; [apply numeral_nonempty in Hy; congruence|].
        cbn [app]. rewrite join_head. eexists c, _. split; [reflexivity|].
        destruct Hy as [[_ D] _]. inversion D; subst. apply digit_nospace; auto. }
    destruct Hd as (c & r & Eb & Hc). split; [rewrite Eb; discriminate|].
    destruct Lb as (pre & Ep). unfold solid. rewrite Eb. split; [exact Hc|]. rewrite <- Eb, Ep.
    assert (NX : x ++ st <> []) by (apply numeral_nonempty in Hx; destruct x; [congruence|discriminate]).
    destruct (exists_last NX) as (q & z & Eq). specialize (Lst z). rewrite Eq in *. rewrite last_last in Lst.
    rewrite app_assoc, last_last. exact Lst. }
  destruct Hbody as [NB SB]. unfold version_split. fold body.
  unfold py_strip. rewrite strip_around by auto.
  assert (Sp : py_split [46] body = l ++ [x ++ st]) by (apply split_join_last; auto).
  rewrite Sp. rewrite last_last.
  assert (Xd : Forall (fun c => ascii_digit c = true) x).
  { destruct Hx as [[_ D] _]. revert D. apply Forall_impl. intros c Hc. apply digit_true, Hc. }
  assert (Lnums : length (v_nums v) = S (length l)).
  { rewrite <- Ln, app_length. cbn. lia. }
  unfold version_tuple. rewrite En.
  destruct (v_state v) as [[w lv]|].
  - destruct ST as (Nw & W & _).
    assert (Wd : Forall (fun c => ascii_digit c = false) w) by (revert W; apply Forall_impl; unfold word_char; tauto).
    destruct w as [|h s0] eqn:Ew; [congruence|]. rewrite <- Ew in *.
    assert (Sw : solid ascii_digit w).
    { rewrite Ew. cbn [solid]. rewrite Ew in Wd. split; [now inversion Wd|].
      apply (forall_last (fun c => ascii_digit c = false)); [discriminate|exact Wd]. }
    assert (K : exists lvl item, st = w ++ lvl /\ Forall (fun c => ascii_digit c = true) lvl /\
       (match lvl with [] => Ok VN | _ :: _ => do n <- py_int U dv 10 lvl; Ok (VI n) end) = Ok item /\
       match lv with Some n => [VS w; VI n] | None => [VS w; VN] end = [VS w; item]).
    { destruct lv as [k|].
      - destruct SS as (ls & Hls & ->). exists ls, (VI k). split; [reflexivity|]. split.
        + destruct Hls as [[_ D] _]. revert D. apply Forall_impl. apply digit_true.
        + split; [|reflexivity]. rewrite (py_int_numeral k ls Hls). destruct ls; [apply numeral_nonempty in Hls; congruence|reflexivity].
      - exists [], VN. subst st. rewrite app_nil_r. split; [reflexivity|]. split; [constructor|]. split; reflexivity. }
    destruct K as (lvl & item & Est & Dlvl & Elv & Etup).
    assert (Sc : strip_by ascii_digit (x ++ st) = w).
    { rewrite Est. apply strip_around; auto. }
    rewrite Sc. rewrite Ew at 1.
    assert (Spw : py_split w (x ++ st) = [x; lvl]).
    { rewrite Est, Ew. apply split_word.
      - intros H. rewrite Forall_forall in Xd. apply Xd in H. rewrite Ew in Wd. inversion Wd; subst. congruence.
      - intros H. rewrite Forall_forall in Dlvl. apply Dlvl in H. rewrite Ew in Wd. inversion Wd; subst. congruence. }
    rewrite Spw, Elv. cbn [bind]. rewrite removelast_last, (mapM_int_or0 nl l Fl). cbn [bind].
    rewrite (py_int_numeral nx0 x Hx). cbn [bind].
    destruct x as [|xc xr] eqn:Ex; [apply numeral_nonempty in Hx; congruence|]. cbn [bind].
    assert (Lm : length nl = length l) by (eapply Forall2_len; eauto).
    rewrite Etup, map_app. cbn [map]. rewrite <- !app_assoc. unfold len. rewrite !app_length, map_length. cbn [length app].
    rewrite Lm. do 4 f_equal. f_equal. lia.
  - subst st. rewrite app_nil_r. rewrite strip_all by assumption.
    assert (Fa : Forall2 numeral (nl ++ [nx0]) (l ++ [x])) by (apply Forall2_app; auto).
    rewrite (mapM_int_or0 _ _ Fa). cbn [bind].
    assert (Lm : length nl = length l) by (eapply Forall2_len; eauto).
    unfold len. rewrite map_length, !app_length. cbn [length]. rewrite Lm. do 2 f_equal.
    rewrite Lnums in L.
    assert (C : length l = 0%nat \/ length l = 1%nat \/ length l = 2%nat) by lia.
    destruct C as [->|[->| ->]]; reflexivity.
Qed.
Lemma split_written0 v s : valid U v -> written v s -> version_split U dv s = Ok (version_tuple v).
Proof. intros V W. rewrite <- (app_nil_r s). apply (split_written v s [] []); auto. Qed.
End V.

Lemma filter_VI ns m r : filter not_none (map VI ns ++ repeat VN m ++ r) = map VI ns ++ filter not_none r.
Proof.
  induction ns as [|n ns IH]; [|cbn; now rewrite IH]. cbn [map app]. induction m as [|m IH]; [reflexivity|exact IH].
Qed.
Lemma pyslice_but2 {A} (l : list A) x y : pyslice (l ++ [x; y]) 0 (-2) = l.
Proof.
  unfold pyslice, py_bound, len. rewrite app_length. cbn [length]. change (0 <? 0) with false. change (-2 <? 0) with true. cbv iota.
  rewrite Z.min_l by lia. cbn [skipn]. change (Z.to_nat 0) with O. cbn [skipn].
  match goal with |- firstn ?n _ = _ => replace n with (length l) by lia end. apply firstn_app_exact. reflexivity.
Qed.
Lemma pyslice_last2 {A} (l : list A) x y : pyslice (l ++ [x; y]) (-2) (len (l ++ [x; y])) = [x; y].
Proof.
  unfold pyslice, py_bound, len. rewrite app_length. cbn [length]. change (-2 <? 0) with true. cbv iota.
  replace (Z.of_nat (length l + 2) <? 0) with false by lia. rewrite Z.min_id.
  rewrite skipn_app. replace (Z.to_nat (Z.max 0 (-2 + Z.of_nat (length l + 2)))) with (length l) by lia. rewrite skipn_all, Nat.sub_diag. cbn [skipn app].
  rewrite firstn_all2; [reflexivity|]. cbn [length]. lia.
Qed.
Definition state_items (v : version) : vitem * vitem :=
  match v_state v with
  | None => (VN, VN)
  | Some (w, None) => (VS w, VN)
  | Some (w, Some n) => (VS w, VI n)
  end.
Lemma version_tuple_eq v : version_tuple v =
  (map VI (v_nums v) ++ repeat VN (3 - length (v_nums v))) ++ [fst (state_items v); snd (state_items v)].
Proof. unfold version_tuple, state_items. rewrite <- app_assoc. destruct (v_state v) as [[w [n|]]|]; reflexivity. Qed.

(** the canonical text *)
Definition canonical (v : version) : text :=
  py_join [46] (map str_nat (v_nums v)) ++
  match v_state v with None => [] | Some (w, None) => w | Some (w, Some n) => w ++ str_nat n end.
Lemma str_int_nonneg n : 0 <= n -> str_int n = str_nat n.
Proof. intros H. unfold str_int. replace (n <? 0) with false by lia. reflexivity. Qed.
Lemma canonical_written U v : valid U v -> written v (canonical v).
Proof.
  intros (L & NN & ST). exists (map str_nat (v_nums v)). eexists. split; [|split; [|reflexivity]].
  - clear L. induction NN; cbn; constructor; auto. apply numeral_str. assumption.
  - destruct (v_state v) as [[w [n|]]|]; try reflexivity.
    exists (str_nat n). split; [apply numeral_str; tauto|reflexivity].
Qed.
Lemma unsplit_tuple U v : valid U v -> (forall w, v_state v <> Some (w, None)) ->
  version_unsplit (version_tuple v) = Ok (canonical v).
Proof.
  intros (L & NN & ST) NL. rewrite version_tuple_eq. unfold version_unsplit.
  rewrite pyslice_but2, pyslice_last2. assert (FV := filter_VI (v_nums v) (3 - length (v_nums v)) []). rewrite !app_nil_r in FV. cbn [filter] in FV.
  rewrite FV. rewrite ?(app_nil_r (map VI _)).
  assert (M : map vstr_of (map VI (v_nums v)) = map str_nat (v_nums v)).
  { rewrite map_map. clear -NN. induction NN; [reflexivity|]. cbn [map]. rewrite IHNN. cbn [vstr_of]. now rewrite str_int_nonneg. }
  rewrite M. unfold canonical, state_items. destruct (v_state v) as [[w [n|]]|]; cbn [fst snd]; try reflexivity.
  - cbn [vstr_of]. rewrite str_int_nonneg by tauto. reflexivity.
  - exfalso. eapply NL. reflexivity.
Qed.
Lemma normalize_tuple U v : valid U v -> version_normalize (version_tuple v) = Ok (full_tuple v).
Proof.
  intros (L & NN & ST). rewrite version_tuple_eq. unfold version_normalize. rewrite rev_app_distr. cbn [rev app].
  rewrite rev_involutive. unfold full_tuple, full_nums. rewrite !map_app.
  assert (M : map none_to_0 (map VI (v_nums v)) = map VI (v_nums v)) by (rewrite map_map; reflexivity).
  assert (R : forall m, map none_to_0 (repeat VN m) = map VI (repeat 0 m)) by (induction m; cbn; congruence).
  rewrite M, R. f_equal. f_equal. unfold state_items. destruct (v_state v) as [[w [n|]]|]; cbn [fst snd]; try reflexivity.
  - destruct ST as (Nw & _ & _). destruct w; [congruence|]. unfold v_or. cbn [truthy]. destruct (n =? 0) eqn:E; [|reflexivity].
    cbn [negb]. apply Z.eqb_eq in E. now subst.
  - destruct ST as (Nw & _). destruct w; [congruence|]. reflexivity.
Qed.

(** ordering *)
Fixpoint lex (a b : list Z) : comparison :=
  match a, b with
  | x :: a, y :: b => match x ?= y with Eq => lex a b | c => c end
  | _, _ => Eq
  end.
Lemma tuple_cmp_nums a b r s : length a = length b ->
  tuple_cmp (map VI a ++ r) (map VI b ++ s) = match lex a b with Eq => tuple_cmp r s | c => Ok c end.
Proof.
  revert b. induction a as [|x a IH]; destruct b as [|y b]; intros H; try discriminate; [reflexivity|].
  cbn [map app tuple_cmp item_cmp bind lex]. destruct (x ?= y); try reflexivity. apply IH. cbn in H. lia.
Qed.
Lemma nums_cmp_lex a b n : (length a <= n)%nat -> (length b <= n)%nat ->
  lex (a ++ repeat 0 (n - length a)) (b ++ repeat 0 (n - length b)) = nums_cmp a b.
Proof.
  assert (Z0 : forall m, lex (repeat 0 m) (repeat 0 m) = Eq) by (induction m; cbn; auto).
  revert b n. induction a as [|x a IH]; intros b n Ha Hb.
  - cbn [app length]. rewrite Nat.sub_0_r. revert n Ha Hb. induction b as [|y b IHb]; intros n Ha Hb; [cbn [app length]; rewrite Nat.sub_0_r; apply Z0|].
    destruct n as [|n]; [cbn in Hb; lia|]. cbn [repeat app length lex]. replace (S n - S (length b))%nat with (n - length b)%nat by lia.
    cbn [nums_cmp]. destruct (0 ?= y) eqn:C; try reflexivity.
    cbn in Hb. rewrite IHb by (cbn [length]; lia). destruct b; reflexivity.
  - destruct n as [|n]; [cbn in Ha; lia|]. cbn [length] in *. destruct b as [|y b].
    + cbn [length app] in *. cbn [repeat Nat.sub]. cbn [app lex nums_cmp]. destruct (x ?= 0); try reflexivity.
      rewrite <- (IH [] n) by (cbn; lia). cbn [length app]. rewrite Nat.sub_0_r. reflexivity.
    + cbn [length Nat.sub] in *. cbn [app lex nums_cmp]. destruct (x ?= y); try reflexivity. apply IH; lia.
Qed.
