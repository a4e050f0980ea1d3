(** CursProof.v *)
From Verif Require Import Base BaseProof PyStr PyDictProof CursModel CursSpec.

Section curs.
Context {R : Type}.
Implicit Types rows : list R.

Lemma clamp_range n p : 0 <= n -> 0 <= clamp n p <= n + 1.
Proof. unfold clamp. lia. Qed.
Lemma target_range n p m : 0 <= n -> 0 <= p <= n + 1 -> 0 <= target n p m <= n + 1.
Proof. intros N Pp. destruct m as [[]|[]| | | |]; cbn [target]; try (destruct (_ <? 0)); try apply clamp_range; lia. Qed.
Lemma move_range n ms : forall p, 0 <= n -> 0 <= p <= n + 1 -> 0 <= move n ms p <= n + 1.
Proof. unfold move. induction ms as [|m ms IH]; intros p N Pp; cbn; auto. apply IH; auto. now apply target_range. Qed.
Lemma fetch_range rows p m : 0 <= p <= len rows + 1 -> 0 <= snd (fetch rows p m) <= len rows + 1.
Proof.
  intros Pp. pose proof (len_nonneg rows) as N. destruct m as [[k|]|[k|]| | | |]; cbn [fetch]; try (destruct (k =? 0)); cbn [snd]; try (apply target_range; lia); lia.
Qed.
Lemma cstep_valid rows o c : valid rows c -> valid rows (fst (cstep rows o c)).
Proof.
  unfold valid. intros Hv. pose proof (len_nonneg rows) as N.
  assert (F : forall dir q, 0 <= c_pos (snd (cfetch rows dir q c)) <= len rows + 1).
  { intros dir q. unfold cfetch. set (m := if dir then _ else _). pose proof (fetch_range rows (c_pos c) m Hv) as H. destruct (fetch rows (c_pos c) m). exact H. }
  destruct o as [q d| |a w|d]; cbn [cstep].
  - assert (G : 0 <= c_pos (fst (read rows q d c)) <= len rows + 1).
    { unfold read. destruct q as [[|k|k]|]; auto; (destruct (which_way c d) as [dir|e]; auto); match goal with |- context [cfetch rows dir ?q c] => specialize (F dir q); destruct (cfetch rows dir q c); exact F end. }
    destruct (read rows q d c). exact G.
  - unfold next. specialize (F (c_direction c) (Some 1)). destruct (cfetch rows (c_direction c) (Some 1) c). exact F.
  - unfold seek. destruct (whence_of w); auto. cbn. now apply move_range.
  - unfold set_direction. destruct (direction_to_bool d); auto.
Qed.
Lemma csteps_valid rows os : forall c, valid rows c -> valid rows (fst (csteps rows os c)).
Proof.
  induction os as [|o os IH]; intros c Hv; auto. cbn [csteps]. pose proof (cstep_valid rows o c Hv) as H. destruct (cstep rows o c) as [c1 a]. cbn in H. specialize (IH c1 H). destruct (csteps rows os c1). exact IH.
Qed.

(** ** the mirror *)
Lemma len_rev rows : len (rev rows) = len rows.
Proof. unfold len. now rewrite rev_length. Qed.
Lemma passed_mirror_up rows p q : 0 <= p -> p < q -> q <= len rows + 1 -> passed (rev rows) (len rows + 1 - p) (len rows + 1 - q) = passed rows p q.
Proof.
  intros P0 Pq Q1. unfold passed. destruct (Z.leb_spec p q); [|lia]. destruct (Z.leb_spec (len rows + 1 - p) (len rows + 1 - q)); [lia|].
  unfold len in *. set (n := length rows) in *.
  replace (Z.to_nat (Z.of_nat n + 1 - p - 1)) with (n - Z.to_nat p)%nat by lia.
  replace (Z.to_nat (Z.of_nat n + 1 - q - 1)) with (n - Z.to_nat q)%nat by lia.
  rewrite firstn_rev, skipn_rev, rev_involutive. replace (Datatypes.length rows - (n - Z.to_nat p))%nat with (Z.to_nat p) by (fold n; lia).
  rewrite skipn_length. fold n.
  destruct (Z.eq_dec q (Z.of_nat n + 1)) as [->|Nq].
  - rewrite !firstn_all2; auto; rewrite skipn_length; fold n; lia.
  - f_equal. lia.
Qed.
Lemma passed_mirror rows p q : 0 <= p <= len rows + 1 -> 0 <= q <= len rows + 1 -> passed (rev rows) (len rows + 1 - p) (len rows + 1 - q) = passed rows p q.
Proof.
  intros Hp Hq. destruct (Z.lt_trichotomy p q) as [L|[->|L]].
  - apply passed_mirror_up; lia.
  - unfold passed. rewrite !Z.leb_refl, !Z.sub_diag. reflexivity.
  - pose proof (passed_mirror_up (rev rows) (len rows + 1 - p) (len rows + 1 - q)) as H. rewrite len_rev, rev_involutive in H.
    rewrite <- H by lia. f_equal; lia.
Qed.
Lemma at_mirror rows p : 0 <= p <= len rows + 1 -> at_position (rev rows) (len rows + 1 - p) = at_position rows p.
Proof.
  intros Hp. unfold at_position. unfold len in *. set (n := length rows) in *.
  destruct (Z.ltb_spec p 1); destruct (Z.ltb_spec (Z.of_nat n + 1 - p) 1); auto.
  - replace (Z.to_nat (Z.of_nat n + 1 - p - 1)) with n by lia. rewrite skipn_all2; [reflexivity|]. rewrite rev_length. fold n. lia.
  - replace (Z.to_nat (p - 1)) with n by lia. rewrite skipn_all2; [reflexivity|]. fold n. lia.
  - replace (Z.to_nat (Z.of_nat n + 1 - p - 1)) with (n - Z.to_nat p)%nat by lia. rewrite skipn_rev. replace (Datatypes.length rows - (n - Z.to_nat p))%nat with (Z.to_nat p) by (fold n; lia).
    rewrite firstn_rev. rewrite firstn_length. replace (Nat.min (Z.to_nat p) (Datatypes.length rows) - 1)%nat with (Z.to_nat (p - 1)) by (fold n; lia).
    rewrite skipn_firstn_comm. replace (Z.to_nat p - Z.to_nat (p - 1))%nat with 1%nat by lia. destruct (skipn (Z.to_nat (p - 1)) rows); reflexivity.
Qed.
Definition back (m : motion) : motion := match m with Forward a => Backward a | Backward a => Forward a | m => m end.
Lemma fetch_mirror rows p a (dir : bool) : 0 <= p <= len rows + 1 ->
  let m := if dir then Forward a else Backward a in
  fetch (rev rows) (len rows + 1 - p) (back m) = (fst (fetch rows p m), len rows + 1 - snd (fetch rows p m)).
Proof.
  intros Hp m. pose proof (len_nonneg rows) as N.
  assert (T : target (len (rev rows)) (len rows + 1 - p) (back m) = len rows + 1 - target (len rows) p m).
  { rewrite len_rev. unfold m. destruct dir, a; cbn [target back]; unfold clamp; lia. }
  assert (Pm : passed (rev rows) (len rows + 1 - p) (len rows + 1 - target (len rows) p m) = passed rows p (target (len rows) p m)).
  { apply passed_mirror; auto. apply target_range; lia. }
  unfold m in *. destruct dir, a as [k|]; cbn [fetch back fst snd] in *; try (destruct (k =? 0)); cbn [fst snd]; rewrite ?T, ?Pm; auto; rewrite at_mirror; auto.
Qed.
Lemma cfetch_mirror rows dir q c : valid rows c ->
  cfetch (rev rows) (negb dir) q (mirrored rows c) = (fst (cfetch rows dir q c), mirrored rows (snd (cfetch rows dir q c))).
Proof.
  intros Hv. unfold cfetch. set (a := match q with None => All | Some k => Count k end).
  pose proof (fetch_mirror rows (c_pos c) a dir Hv) as H. cbn zeta in H. cbn [mirrored c_pos c_direction].
  replace (if negb dir then Forward a else Backward a) with (back (if dir then Forward a else Backward a)) by (destruct dir; reflexivity).
  rewrite H. destruct (fetch rows (c_pos c) (if dir then Forward a else Backward a)). reflexivity.
Qed.
Lemma seek_mirror n p dir a w : 0 <= n -> 0 <= p <= n + 1 ->
  match w, a with (ABSOLUTE | FROM_END), Count k => 0 <= k | (FORWARD | BACKWARD), _ => False | _, _ => True end ->
  move n (seek_commands (negb dir) a w) (n + 1 - p) = n + 1 - move n (seek_commands dir a w) p.
Proof.
  intros N Hp D. destruct a as [k|].
  - destruct w; try contradiction; destruct dir; cbn [seek_commands negb]; unfold move; repeat (match goal with |- context [?x <? ?y] => destruct (Z.ltb_spec x y) end; cbn [fold_left target]); cbn [fold_left target]; repeat match goal with |- context [?x <? ?y] => destruct (Z.ltb_spec x y) end; unfold clamp; lia.
  - destruct w; try contradiction; destruct dir; cbn [seek_commands negb]; unfold move; cbn [fold_left target]; lia.
Qed.
Lemma cstep_mirror rows o c : valid rows c -> documented o ->
  cstep (rev rows) (mirror_op o) (mirrored rows c) = (mirrored rows (fst (cstep rows o c)), snd (cstep rows o c)).
Proof.
  intros Hv D. destruct o as [q d| |a w|d]; cbn [cstep mirror_op].
  - assert (G : read (rev rows) q d (mirrored rows c) = (mirrored rows (fst (read rows q d c)), snd (read rows q d c))).
    { unfold read. assert (W : which_way (mirrored rows c) d = match which_way c d with Ok b => Ok (negb b) | Err e => Err e end).
      { unfold which_way. destruct d as [d|]; [|reflexivity]. destruct (direction_to_bool d) as [[]|]; cbn; destruct (c_direction c); reflexivity. }
      rewrite W. destruct q as [[|k|k]|]; auto; (destruct (which_way c d) as [dir|e]; [|reflexivity]); rewrite cfetch_mirror by auto; match goal with |- context [cfetch rows dir ?q c] => destruct (cfetch rows dir q c) end; reflexivity. }
    rewrite G. destruct (read rows q d c). reflexivity.
  - unfold next. change (c_direction (mirrored rows c)) with (negb (c_direction c)). rewrite cfetch_mirror by auto. destruct (cfetch rows (c_direction c) (Some 1) c). reflexivity.
  - unfold seek. cbn [documented] in D. destruct (whence_of w) as [r|e]; [|reflexivity]. cbn [fst snd mirrored c_pos c_direction]. rewrite len_rev, seek_mirror; auto using len_nonneg.
  - unfold set_direction, opposite. destruct (direction_to_bool d) as [[]|e] eqn:E; cbn [direction_to_bool]; try reflexivity. now rewrite E.
Qed.
End curs.
