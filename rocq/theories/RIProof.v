From Verif Require Import PyStr PyStrProof PyStrProof2 PyListProof BaseProof RIModel RISpec.

Lemma index_of_Some sub l k : index_of sub l = Some k -> l = firstn k l ++ sub ++ skipn (k + length sub) l.
Proof.
  revert k. induction l as [|x l IH]; intros k H.
  - cbn [index_of] in H. destruct (prefixb sub []) eqn:E; [|discriminate]. injection H as <-.
    apply prefixb_spec in E as (r & E). symmetry in E. apply app_eq_nil in E as [-> ->]. reflexivity.
  - cbn [index_of] in H. destruct (prefixb sub (x :: l)) eqn:E.
    + injection H as <-. apply prefixb_spec in E as (r & E). rewrite E. cbn [firstn app Nat.add]. now rewrite skipn_app_exact.
    + destruct (index_of sub l) as [j|] eqn:F; [|discriminate]. injection H as <-. cbn [firstn app Nat.add skipn].
      f_equal. apply IH. reflexivity.
Qed.
Lemma slice_full (s : text) : pyslice s 0 (len s) = s.
Proof.
  pose proof (len_nonneg s). rewrite pyslice_firstn_skipn by lia. unfold len. change (Z.to_nat 0) with O. cbn [skipn].
  rewrite firstn_all2; [reflexivity|]. lia.
Qed.
Lemma slice_cat0 (s : text) a b e : 0 <= a <= b -> b <= e -> pyslice s a b ++ pyslice s b e = pyslice s a e.
Proof.
  intros H1 H2. rewrite !pyslice_firstn_skipn by lia.
  replace (skipn (Z.to_nat b) s) with (skipn (Z.to_nat (b - a)) (skipn (Z.to_nat a) s))
    by (rewrite <- PBufferProof.skipn_plus; f_equal; lia).
  replace (Z.to_nat (e - a)) with (Z.to_nat (b - a) + Z.to_nat (e - b))%nat by lia.
  rewrite <- (firstn_skipn (Z.to_nat (b - a)) (firstn (Z.to_nat (b - a) + Z.to_nat (e - b)) _)).
  rewrite firstn_firstn, Nat.min_l by lia. f_equal. rewrite skipn_firstn_comm. f_equal. lia.
Qed.
Lemma slice1 (s : text) b c : 0 <= b -> nth_error s (Z.to_nat b) = Some c -> pyslice s b (b + 1) = [c].
Proof.
  intros H N. rewrite pyslice_firstn_skipn by lia. replace (Z.to_nat (b + 1 - b)) with 1%nat by lia.
  apply nth_error_split in N as (l1 & l2 & -> & L). rewrite skipn_app_exact by auto. reflexivity.
Qed.
Lemma slice_cat (s : text) a b e c : 0 <= a <= b -> b < e -> nth_error s (Z.to_nat b) = Some c ->
  pyslice s a b ++ c :: pyslice s (b + 1) e = pyslice s a e.
Proof.
  intros H1 H2 N. change (c :: pyslice s (b + 1) e) with ([c] ++ pyslice s (b + 1) e).
  rewrite <- (slice1 s b c) by (auto; lia). rewrite (slice_cat0 s b (b + 1) e) by lia. apply slice_cat0; lia.
Qed.
Lemma find1_spec c s pos : 0 <= pos <= len s -> find1 c s pos = -1 \/
  (pos <= find1 c s pos < len s /\ nth_error s (Z.to_nat (find1 c s pos)) = Some c).
Proof.
  intros H. unfold find1. rewrite pyfind_end by exact H.
  destruct (index_of [c] (skipn (Z.to_nat pos) s)) as [k|] eqn:E; [|left; reflexivity]. right.
  apply index1_Some in E as (E & _ & L). rewrite skipn_length in L. split; [unfold len in *; lia|].
  replace (Z.to_nat (pos + Z.of_nat k)) with (Z.to_nat pos + k)%nat by lia.
  rewrite <- (firstn_skipn (Z.to_nat pos) s). rewrite nth_error_app2 by (rewrite firstn_length; unfold len in *; lia).
  rewrite firstn_length. replace (Z.to_nat pos + k - _)%nat with k by (unfold len in *; lia). rewrite E.
  rewrite nth_error_app2 by (rewrite firstn_length, skipn_length; unfold len in *; lia).
  rewrite firstn_length, skipn_length. replace (k - _)%nat with O by (unfold len in *; lia). reflexivity.
Qed.

(** the part after the scheme *)
Lemma slice_end (s : text) pos : pos = len s -> pyslice s pos (len s) = [].
Proof. intros ->. pose proof (len_nonneg s). rewrite pyslice_firstn_skipn by lia. rewrite Z.sub_diag. reflexivity. Qed.
Lemma slice_same (s : text) a : 0 <= a -> pyslice s a a = [].
Proof. intros H. rewrite pyslice_firstn_skipn by lia. rewrite Z.sub_diag. reflexivity. Qed.
Lemma netloc_part (s : text) pos eon : 0 <= pos -> opt_with [] (if negb (eon =? pos) then Some (pyslice s pos eon) else None) = pyslice s pos eon.
Proof.
  intros H. destruct (Z.eqb_spec eon pos); cbn [negb opt_with app]; [|reflexivity]. subst. now rewrite slice_same.
Qed.
Lemma pos_or_pos k y : k <> 0 -> pos_or (Some k) y = k.
Proof. intros H. unfold pos_or. replace (k =? 0) with false by lia. reflexivity. Qed.

Lemma unsplit_split s : ri_unsplit (ri_split s) = s.
Proof.
  unfold ri_split. pose proof (len_nonneg s) as LN.
  assert (HS : exists sc pos, (if negb (pyfind [58; 47; 47] s 0 (len s) =? -1)
      then let sc := pyslice s 0 (pyfind [58; 47; 47] s 0 (len s)) in
           if forallb scheme_char sc then (Some sc, pyfind [58; 47; 47] s 0 (len s) + 3) else (None, 0)
      else (None, 0)) = (sc, pos) /\ 0 <= pos <= len s /\
      match sc with Some x => x ++ [58; 47; 47] | None => [] end = pyslice s 0 pos).
  { destruct (Z.eqb_spec (pyfind [58; 47; 47] s 0 (len s)) (-1)) as [E|E]; cbn [negb].
    - exists None, 0. split; [reflexivity|]. split; [lia|symmetry; apply slice_same; lia].
    - unfold pyfind in *. rewrite slice_full in *. destruct (index_of [58; 47; 47] s) as [k|] eqn:I; [|congruence].
      rewrite Z.add_0_l. cbv zeta. destruct (forallb scheme_char (pyslice s 0 (Z.of_nat k))).
      + eexists _, _. split; [reflexivity|]. apply index_of_Some in I.
        assert (L : len s = Z.of_nat (length (firstn k s)) + 3 + len (skipn (k + 3) s)).
        { rewrite I at 1. unfold len. rewrite !app_length. cbn [length]. lia. }
        assert (K : length (firstn k s) = k).
        { rewrite firstn_length. apply Nat.min_l. destruct (Nat.le_gt_cases k (length s)); auto.
          rewrite firstn_length, Nat.min_r in L by lia. unfold len in *. lia. }
        pose proof (len_nonneg (skipn (k + 3) s)). split; [lia|].
        rewrite !pyslice_firstn_skipn by lia. change (Z.to_nat 0) with O. cbn [skipn].
        replace (Z.to_nat (Z.of_nat k - 0)) with k by lia. replace (Z.to_nat (Z.of_nat k + 3 - 0)) with (k + 3)%nat by lia.
        rewrite I at 2. rewrite app_assoc. symmetry. apply firstn_app_exact. rewrite app_length, K. reflexivity.
      + exists None, 0. split; [reflexivity|]. split; [lia|symmetry; apply slice_same; lia]. }
  destruct HS as (sc & pos & HE & HP & HSC). cbv zeta in HE |- *. rewrite HE. clear HE. cbv beta iota.
  destruct (find1_spec 47 s pos HP) as [P|[P Pn]]; destruct (find1_spec 63 s pos HP) as [Q|[Q Qn]];
    destruct (find1_spec 35 s pos HP) as [F|[F Fn]];
    set (p := find1 47 s pos) in *; set (q := find1 63 s pos) in *; set (f := find1 35 s pos) in *; clearbody p q f;
    try (rewrite P; change (-1 =? -1) with true; cbv iota beta); try (rewrite Q; change (-1 =? -1) with true; cbv iota beta);
    try (rewrite F; change (-1 =? -1) with true; cbv iota beta);
    try replace (p =? -1) with false by lia; try replace (q =? -1) with false by lia; try replace (f =? -1) with false by lia;
    cbv iota beta;
    repeat (match goal with
     | |- context [?x <? ?y] => destruct (Z.ltb_spec x y); cbv iota beta
     end);
    unfold ri_unsplit; cbn [r_scheme r_netloc r_path r_query r_fragment]; rewrite HSC, netloc_part by lia; cbn [opt_with app];
    rewrite ?pos_or_pos by lia; cbn [pos_or]; rewrite ?app_nil_r; rewrite <- ?app_assoc;
    rewrite ?pos_or_pos by lia;
    try (assert (p <> q) by (intros ->; congruence)); try (assert (p <> f) by (intros ->; congruence)); try (assert (q <> f) by (intros ->; congruence));
    cbn [app];
    repeat (first [ rewrite (slice_cat s _ p) by (auto; lia) | rewrite (slice_cat s _ q) by (auto; lia) | rewrite (slice_cat s _ f) by (auto; lia) ]);
    try (rewrite slice_cat0 by lia; apply slice_full).
  all: try (exfalso; lia).
  all: try (replace (f =? 0) with false by lia); try (replace (q =? 0) with false by lia); cbv iota; cbn [app];
    repeat (first [ rewrite (slice_cat s _ p) by (auto; lia) | rewrite (slice_cat s _ q) by (auto; lia) | rewrite (slice_cat s _ f) by (auto; lia) ]);
    rewrite slice_cat0 by lia; apply slice_full.
Qed.

(** ** split after unsplit *)
Lemma index_head h sub a b : ~ In h a -> index_of (h :: sub) (a ++ (h :: sub) ++ b) = Some (length a).
Proof.
  induction a as [|x a IH]; intros N.
  - cbn [app]. change (h :: sub ++ b) with ((h :: sub) ++ b). unfold index_of. destruct ((h :: sub) ++ b) eqn:E; [discriminate|].
    rewrite <- E, prefixb_app. reflexivity.
  - cbn [app]. cbn [index_of]. replace (prefixb (h :: sub) (x :: a ++ h :: sub ++ b)) with false.
    + cbn [app] in IH. rewrite IH by (intros K; apply N; right; exact K). reflexivity.
    + cbn [prefixb]. replace (h =? x) with false; [reflexivity|]. symmetry. apply Z.eqb_neq. intros ->. apply N. left. reflexivity.
Qed.
Lemma find1_pre c (pre t : text) : find1 c (pre ++ t) (len pre) = match index_of [c] t with Some k => len pre + Z.of_nat k | None => -1 end.
Proof.
  unfold find1. pose proof (len_nonneg pre). pose proof (len_nonneg t). rewrite pyfind_end by (rewrite len_app; lia).
  unfold len. rewrite Nat2Z.id, skipn_app_exact by reflexivity. reflexivity.
Qed.
Lemma find_none c (pre a : text) : ~ In c a -> find1 c (pre ++ a) (len pre) = -1.
Proof. intros N. rewrite find1_pre. apply index1_None in N. now rewrite N. Qed.
Lemma find_at c (pre a b : text) : ~ In c a -> find1 c (pre ++ a ++ c :: b) (len pre) = len pre + len a.
Proof. intros N. rewrite find1_pre, index1_app by exact N. reflexivity. Qed.
Lemma find_skip c (pre a b : text) : ~ In c a ->
  find1 c (pre ++ a ++ b) (len pre) = -1 \/ len pre + len a <= find1 c (pre ++ a ++ b) (len pre).
Proof.
  intros N. rewrite find1_pre. destruct (index_of [c] (a ++ b)) as [k|] eqn:E; [|left; reflexivity]. right.
  apply index1_Some in E as (E & _ & L). destruct (Nat.le_gt_cases (length a) k); [unfold len; lia|]. exfalso. apply N.
  assert (X : nth_error (a ++ b) k = Some c).
  { rewrite E. rewrite nth_error_app2 by (rewrite firstn_length; lia). rewrite firstn_length, Nat.min_l by lia. now rewrite Nat.sub_diag. }
  rewrite nth_error_app1 in X by lia. eapply nth_error_In; eauto.
Qed.
Lemma free_In bad s c : free bad s -> In c bad -> ~ In c s.
Proof. unfold free. rewrite Forall_forall. intros F I J. exact (F c J I). Qed.
Lemma len0 : len (@nil Z) = 0. Proof. reflexivity. Qed.
Lemma len1 (c : Z) l : len (c :: l) = 1 + len l. Proof. apply len_cons. Qed.
Lemma slice_of (a b c : text) i j : i = len a -> j = len a + len b -> pyslice (a ++ b ++ c) i j = b.
Proof. apply pyslice_app. Qed.
Lemma slice_to_end (a b : text) i j : i = len a -> j = len a + len b -> pyslice (a ++ b) i j = b.
Proof. intros Hi Hj. rewrite <- (app_nil_r b) at 1. now apply pyslice_app. Qed.

Ltac notin := rewrite ?in_app_iff; cbn [In]; intuition (try congruence; try lia; eauto).
Lemma split_unsplit t : proper t -> ri_split (ri_unsplit t) = t.
Proof.
  destruct t as [sc nl pa qu fr]. intros ((s0 & E & SC) & HN & HP & HQ). cbn [r_scheme r_netloc r_path r_query] in *. subst sc.
  unfold ri_unsplit. cbn [r_scheme r_netloc r_path r_query r_fragment].
  set (N := opt_with [] nl).
  assert (FN : free [47; 63; 35] N) by (unfold N; destruct nl; cbn [opt_with on_opt app] in *; [tauto|constructor]).
  assert (EN : forall s pos eon, pos = len (s0 ++ [58; 47; 47]) -> eon = pos + len N -> pyslice s pos eon = N ->
     (if negb (eon =? pos) then Some (pyslice s pos eon) else None) = nl).
  { intros s pos eon -> -> PS. rewrite PS. unfold N. destruct nl as [n|]; cbn [opt_with on_opt app] in *.
    - replace (_ =? _) with false; [reflexivity|]. symmetry. apply Z.eqb_neq. destruct HN as [NE _]. destruct n; [congruence|]. rewrite len_cons. pose proof (len_nonneg n). lia.
    - rewrite len0, Z.add_0_r, Z.eqb_refl. reflexivity. }
  clearbody N. clear HN.
  assert (N47 : ~ In 47 N) by (apply (free_In _ _ _ FN); cbn; auto).
  assert (N63 : ~ In 63 N) by (apply (free_In _ _ _ FN); cbn; auto).
  assert (N35 : ~ In 35 N) by (apply (free_In _ _ _ FN); cbn; auto).
  set (pre := s0 ++ [58; 47; 47]) in *.
  set (s := pre ++ N ++ opt_with [47] pa ++ opt_with [63] qu ++ opt_with [35] fr).
  assert (HS : pyfind [58; 47; 47] s 0 (len s) = len s0).
  { unfold pyfind. rewrite slice_full. unfold s, pre. rewrite <- app_assoc. rewrite index_head; [reflexivity|].
    intros I. rewrite forallb_forall in SC. apply SC in I. discriminate. }
  assert (LP : len pre = len s0 + 3) by (unfold pre; rewrite len_app; reflexivity).
  pose proof (len_nonneg s0) as L0. pose proof (len_nonneg N) as LN.
  assert (HSC : pyslice s 0 (len s0) = s0).
  { unfold s, pre. rewrite <- app_assoc. apply (pyslice_app [] s0); [reflexivity|unfold len; cbn; lia]. }
  unfold ri_split. cbv zeta. rewrite HS. replace (len s0 =? -1) with false by lia. cbn [negb]. rewrite HSC, SC. rewrite <- LP.
  cbv iota beta.
  assert (LE : len s = len pre + len N + len (opt_with [47] pa) + len (opt_with [63] qu) + len (opt_with [35] fr)).
  { unfold s. rewrite !len_app. lia. }
  assert (F47 : match pa with Some _ => find1 47 s (len pre) = len pre + len N
     | None => match qu, fr with None, None => find1 47 s (len pre) = -1 | _, _ => find1 47 s (len pre) = -1 \/ len pre + len N + 1 <= find1 47 s (len pre) end end).
  { unfold s. destruct pa as [pa|]; cbn [opt_with].
    - apply find_at, N47.
    - destruct qu as [qu|]; cbn [opt_with app].
      + change (63 :: qu ++ opt_with [35] fr) with ([63] ++ (qu ++ opt_with [35] fr)). rewrite (app_assoc N).
        assert (K := find_skip 47 pre (N ++ [63]) (qu ++ opt_with [35] fr) ltac:(notin)). rewrite len_app in K. unfold len at 4 6 in K || idtac.
        change (len [63]) with 1 in K. destruct K; [auto|right; lia].
      + destruct fr as [fr|]; cbn [opt_with app].
        * change (35 :: fr) with ([35] ++ fr). rewrite (app_assoc N).
          assert (K := find_skip 47 pre (N ++ [35]) fr ltac:(notin)). rewrite len_app in K.
          change (len [35]) with 1 in K. destruct K; [auto|right; lia].
        * rewrite app_nil_r. apply find_none, N47. }
  set (P := opt_with [47] pa) in *.
  assert (P63 : ~ In 63 P).
  { unfold P. destruct pa as [x|]; cbn [opt_with on_opt app] in *; [|notin]. assert (A := free_In _ _ 63 HP ltac:(cbn; auto)). notin. }
  assert (P35 : ~ In 35 P).
  { unfold P. destruct pa as [x|]; cbn [opt_with on_opt app] in *; [|notin]. assert (A := free_In _ _ 35 HP ltac:(cbn; auto)). notin. }
  pose proof (len_nonneg P) as LPP.
  assert (F63 : match qu with Some _ => find1 63 s (len pre) = len pre + len N + len P
     | None => match fr with None => find1 63 s (len pre) = -1 | _ => find1 63 s (len pre) = -1 \/ len pre + len N + len P + 1 <= find1 63 s (len pre) end end).
  { unfold s. rewrite (app_assoc N). destruct qu as [qu|]; cbn [opt_with].
    - assert (K := find_at 63 pre (N ++ P) (qu ++ opt_with [35] fr) ltac:(notin)). rewrite len_app in K. cbn [app] in *. rewrite K. lia.
    - destruct fr as [fr|]; cbn [opt_with app].
      + change (35 :: fr) with ([35] ++ fr). rewrite (app_assoc (N ++ P)).
        assert (K := find_skip 63 pre ((N ++ P) ++ [35]) fr ltac:(notin)). rewrite !len_app in K.
        change (len [35]) with 1 in K. destruct K; [auto|right; lia].
      + rewrite app_nil_r. apply find_none. notin. }
  set (Q := opt_with [63] qu) in *.
  assert (Q35 : ~ In 35 Q).
  { unfold Q. destruct qu as [x|]; cbn [opt_with on_opt app] in *; [|notin]. assert (A := free_In _ _ 35 HQ ltac:(cbn; auto)). notin. }
  pose proof (len_nonneg Q) as LQ.
  assert (F35 : match fr with Some _ => find1 35 s (len pre) = len pre + len N + len P + len Q | None => find1 35 s (len pre) = -1 end).
  { unfold s. rewrite (app_assoc P), (app_assoc N). destruct fr as [fr|]; cbn [opt_with].
    - assert (K := find_at 35 pre (N ++ P ++ Q) fr ltac:(notin)). rewrite !len_app in K. cbn [app] in *. rewrite K. lia.
    - rewrite app_nil_r. apply find_none. notin. }
  (* the slices *)
  assert (SN : forall eon, eon = len pre + len N -> pyslice s (len pre) eon = N) by (intros; unfold s; apply pyslice_app; auto).
  assert (SP : forall x i j, pa = Some x -> i = len pre + len N + 1 -> j = len pre + len N + len P -> pyslice s i j = x).
  { intros x i j -> -> ->. unfold s, P. cbn [opt_with]. rewrite <- !app_assoc. rewrite (app_assoc N [47]), (app_assoc pre).
    rewrite !len_app. change (len [47]) with 1. apply pyslice_app; rewrite !len_app; change (len [47]) with 1; lia. }
  assert (SQ : forall x i j, qu = Some x -> i = len pre + len N + len P + 1 -> j = len pre + len N + len P + len Q -> pyslice s i j = x).
  { intros x i j -> -> ->. unfold s, Q. cbn [opt_with]. rewrite <- !app_assoc. rewrite (app_assoc P [63]), (app_assoc N), (app_assoc pre).
    rewrite !len_app. change (len [63]) with 1. apply pyslice_app; rewrite !len_app; change (len [63]) with 1; lia. }
  assert (SF : forall x i j, fr = Some x -> i = len pre + len N + len P + len Q + 1 -> j = len s -> pyslice s i j = x).
  { intros x i j -> -> ->. rewrite LE. unfold s. cbn [opt_with]. rewrite (app_assoc Q [35]), (app_assoc P), (app_assoc N), (app_assoc pre).
    rewrite !len_app. change (len [35]) with 1. apply slice_to_end; rewrite !len_app; change (len [35]) with 1; lia. }
  assert (LPa : len P = match pa with Some x => 1 + len x | None => 0 end) by (unfold P; destruct pa; cbn [opt_with app]; [apply len_cons|reflexivity]).
  assert (LQa : len Q = match qu with Some x => 1 + len x | None => 0 end) by (unfold Q; destruct qu; cbn [opt_with app]; [apply len_cons|reflexivity]).
  assert (LFa : len (opt_with [35] fr) = match fr with Some x => 1 + len x | None => 0 end) by (destruct fr; cbn [opt_with app]; [apply len_cons|reflexivity]).
  rewrite LFa in LE. clear LFa. clearbody s P Q.
  set (p := find1 47 s (len pre)) in *. set (q := find1 63 s (len pre)) in *. set (f := find1 35 s (len pre)) in *. clearbody p q f.
  set (E := len s) in *. clearbody E.
  assert (EN' : forall eon, eon = len pre + len N -> (if negb (eon =? len pre) then Some (pyslice s (len pre) eon) else None) = nl).
  { intros eon H. apply EN; auto. }
  assert (LPOS : 0 < len pre) by lia.
  destruct pa as [pa|]; destruct qu as [qu|]; destruct fr as [fr|];
    try (pose proof (len_nonneg pa)); try (pose proof (len_nonneg qu)); try (pose proof (len_nonneg fr));
    destruct (Z.eqb_spec p (-1)); destruct (Z.eqb_spec q (-1)); destruct (Z.eqb_spec f (-1)); try (exfalso; lia); cbv iota beta;
    repeat (match goal with
     | |- context [?x <? ?y] => destruct (Z.ltb_spec x y); try (exfalso; lia); cbv iota beta
     end); rewrite ?pos_or_pos by lia; cbn [pos_or]; rewrite EN' by lia;
    try (rewrite (SP pa) by (auto; lia)); try (rewrite (SQ qu) by (auto; lia)); try (rewrite (SF fr) by (auto; lia)); try reflexivity.
Qed.
