(** CursProps.v: C51, scrollable cursors. *)
From Verif Require Import Base BaseProof PyStr PyDictProof CursModel CursSpec CursProof.

(** The direction property: with the opposite direction, over the rows in the opposite order, at
    the same place, every sequence of reads, iterations, documented seeks and changes of the direction gives the same results. *)
Theorem C51_direction : forall R (rows : list R) os c, valid rows c -> Forall documented os ->
  snd (csteps (rev rows) (map mirror_op os) (mirrored rows c)) = snd (csteps rows os c).
Proof.
  intros R rows os. induction os as [|o os IH]; intros c Hv D; [reflexivity|]. cbn [csteps map].
  rewrite (cstep_mirror rows o c Hv (Forall_inv D)). pose proof (cstep_valid rows o c Hv) as Hv1. destruct (cstep rows o c) as [c1 a]. cbn [fst snd] in *.
  specialize (IH c1 Hv1 (Forall_inv_tail D)). destruct (csteps (rev rows) (map mirror_op os) (mirrored rows c1)), (csteps rows os c1). cbn in *. congruence.
Qed.
Print Assumptions C51_direction.
(** As documented: a new cursor over the reverse, made BACKWARD and sought to 0, is from then on the same as a new
    cursor. *)
Theorem C51_reversed : forall R (rows : list R) os, Forall documented os -> Forall (fun o => match o with CDirection _ => False | _ => True end) os ->
  snd (csteps (rev rows) (CDirection (DStr (str "BACKWARD")) :: CSeek (Count 0) (WInt 0) :: os) new_cursor) = AUnit (Ok tt) :: AUnit (Ok tt) :: snd (csteps rows os new_cursor).
Proof.
  intros R rows os D ND. pose proof (C51_direction R rows os new_cursor) as H. pose proof (len_nonneg rows) as N.
  assert (E : map mirror_op os = os) by (clear - ND; induction ND as [|o os X ND IH]; [reflexivity|]; cbn; rewrite IH; destruct o; [reflexivity|reflexivity|reflexivity|contradiction]).
  rewrite E in H. cbn [csteps cstep]. unfold set_direction, seek. cbn [direction_to_bool whence_of c_direction c_pos].
  change (seqb (upper (str "BACKWARD")) (str "FORWARD")) with false. change (seqb (upper (str "BACKWARD")) (str "BACKWARD")) with true. cbn [Z.eqb seek_commands c_direction c_pos new_cursor].
  replace {| c_direction := false; c_pos := move (len (rev rows)) [Last; Next; Backward (Count 0)] 0 |} with (mirrored rows new_cursor).
  - specialize (H ltac:(unfold valid, new_cursor; cbn; lia) D). destruct (csteps (rev rows) os (mirrored rows new_cursor)). cbn in *. now rewrite H.
  - unfold mirrored, new_cursor. cbn [c_direction c_pos negb]. f_equal. rewrite len_rev. unfold move. cbn [fold_left target]. unfold clamp. lia.
Qed.
Print Assumptions C51_reversed.

(** The position is always one of those between the ends. *)
Theorem C51_valid : forall R (rows : list R) os, valid rows (fst (csteps rows os new_cursor)).
Proof. intros R rows os. apply csteps_valid. unfold valid, new_cursor. pose proof (len_nonneg rows). cbn. lia. Qed.
Print Assumptions C51_valid.

Lemma passed_up {R} (rows : list R) p k : 0 <= p <= len rows + 1 -> 0 <= k -> passed rows p (clamp (len rows) (p + k)) = firstn (Z.to_nat k) (skipn (Z.to_nat p) rows).
Proof.
  intros Hp Hk. unfold passed. pose proof (len_nonneg rows) as N. destruct (Z.leb_spec p (clamp (len rows) (p + k))) as [L|L]; [|unfold clamp in L; lia].
  unfold clamp. destruct (Z.le_gt_cases (p + k) (len rows + 1)) as [L2|L2].
  - f_equal. lia.
  - unfold len in *. rewrite !firstn_all2; auto; rewrite skipn_length; lia.
Qed.
(** Reading forward, in pieces of any sizes: each piece is the next rows, so that together they are the rows
    in order, each once; a piece is shorter than asked only at the end. *)
Theorem C51_read : forall R (rows : list R) c k, valid rows c -> c_direction c = true -> 0 < k ->
  let '(c', r) := read rows (Some k) None c in
  r = Ok (firstn (Z.to_nat k) (skipn (Z.to_nat (c_pos c)) rows)) /\ c_pos c' = Z.min (c_pos c + k) (len rows + 1) /\ c_direction c' = true.
Proof.
  intros R rows c k Hv D Hk. unfold read, which_way, cfetch. rewrite D. destruct k as [|k|k]; try lia. cbn [fetch Z.eqb target].
  split; [|split; [cbn; unfold clamp, valid in *; lia|reflexivity]]. f_equal. apply passed_up; [exact Hv|lia].
Qed.
Print Assumptions C51_read.
Theorem C51_pieces : forall R (rows : list R) ks, Forall (Z.lt 0) ks ->
  concat (map rows_of (snd (csteps rows (reads ks) new_cursor))) = firstn (Z.to_nat (fold_right Z.add 0 ks)) rows.
Proof.
  intros R rows ks F.
  assert (G : forall c, valid rows c -> c_direction c = true -> concat (map rows_of (snd (csteps rows (reads ks) c))) = firstn (Z.to_nat (fold_right Z.add 0 ks)) (skipn (Z.to_nat (c_pos c)) rows)).
  { induction F as [|k ks Hk F IH]; intros c Hv D; [reflexivity|]. cbn [reads csteps cstep].
    pose proof (C51_read R rows c k Hv D Hk) as H. pose proof (cstep_valid rows (CRead (Some k) None) c Hv) as Hv1. cbn [cstep] in Hv1. destruct (read rows (Some k) None c) as [c1 r]. destruct H as (-> & Pc & D1). cbn [fst] in Hv1.
    specialize (IH c1 Hv1 D1). destruct (csteps rows (reads ks) c1) as [c2 l]. cbn [snd map concat rows_of fold_right] in *. rewrite IH, Pc.
    assert (Hs : 0 <= fold_right Z.add 0 ks). { clear - F. induction F; cbn; lia. }
    unfold valid in Hv. rewrite Z2Nat.inj_add by lia.
    set (s := skipn (Z.to_nat (c_pos c)) rows).
    assert (Es : skipn (Z.to_nat (Z.min (c_pos c + k) (len rows + 1))) rows = skipn (Z.to_nat k) s).
    { unfold s. assert (Sk : forall a b (l : list R), skipn a (skipn b l) = skipn (b + a) l). { clear. induction b; intros l; [reflexivity|]. destruct l; [now rewrite !skipn_nil|]. cbn. apply IHb. }
      rewrite Sk. destruct (Z.le_gt_cases (c_pos c + k) (len rows + 1)); [f_equal; lia|]. unfold len in *. rewrite !skipn_all2 by lia. reflexivity. }
    rewrite Es. clearbody s. clear. revert s. induction (Z.to_nat k) as [|n IH]; intros s; [reflexivity|]. destruct s as [|x s]; cbn; [now rewrite firstn_nil|]. now rewrite IH. }
  rewrite (G new_cursor); [reflexivity| |reflexivity]. unfold valid, new_cursor. pose proof (len_nonneg rows). cbn. lia.
Qed.
Print Assumptions C51_pieces.
(** next(): the next row, or StopIteration at the end *)
Theorem C51_next : forall R (rows : list R) c, valid rows c -> c_direction c = true ->
  snd (next rows c) = match nth_error rows (Z.to_nat (c_pos c)) with Some r => Ok r | None => Err StopIteration end.
Proof.
  intros R rows c Hv D. unfold next, cfetch. rewrite D. cbn [fetch Z.eqb target]. cbn [snd fst]. rewrite passed_up by (exact Hv || lia). change (Z.to_nat 1) with 1%nat.
  clear. generalize (Z.to_nat (c_pos c)) as n. intros n. revert n. induction rows as [|x rows IH]; intros [|n]; cbn [skipn nth_error firstn]; auto. exact (IH n).
Qed.
Print Assumptions C51_next.
(** Paging: seek(m), then read(k), gives rows[m:m+k], wherever the cursor was. *)
Theorem C51_page : forall R (rows : list R) c m k, valid rows c -> c_direction c = true -> 0 <= m -> 0 < k ->
  snd (csteps rows [CSeek (Count m) (WInt 0); CRead (Some k) None] c) = [AUnit (Ok tt); ARows (Ok (firstn (Z.to_nat k) (skipn (Z.to_nat m) rows)))].
Proof.
  intros R rows c m k Hv D Hm Hk. cbn [csteps cstep]. unfold seek. change (whence_of (WInt 0)) with (@Ok rwhence ABSOLUTE). change (whence_of (WInt 1)) with (@Ok rwhence RELATIVE). change (whence_of (WInt 2)) with (@Ok rwhence FROM_END). change (whence_of (WInt 3)) with (@Ok rwhence FORWARD). change (whence_of (WInt 4)) with (@Ok rwhence BACKWARD). cbv beta iota. rewrite D. cbn [seek_commands]. unfold move. cbn [fold_left target]. destruct (Z.ltb_spec m 0); [lia|].
  pose proof (len_nonneg rows) as N.
  pose proof (C51_read R rows {| c_direction := true; c_pos := clamp (len rows) m |} k) as Hx. unfold valid in Hx. cbn [c_pos c_direction] in Hx. specialize (Hx ltac:(apply clamp_range; lia) eq_refl Hk).
  destruct (read rows (Some k) None _) as [c1 r]. destruct Hx as (-> & _). cbn [snd]. do 3 f_equal.
  unfold clamp. destruct (Z.le_gt_cases m (len rows + 1)); [do 3 f_equal; lia|]. unfold len in *. rewrite !skipn_all2 by lia. reflexivity.
Qed.
Print Assumptions C51_page.
(** From the end: seek(m, 2), then reading backward, gives all rows but the last m, the last first; and reading forward
    the last m - 1. *)
Theorem C51_from_end : forall R (rows : list R) c m, valid rows c -> c_direction c = true -> 0 <= m ->
  snd (csteps rows [CSeek (Count m) (WInt 2); CRead None (Some (DStr (str "BACKWARD")))] c) = [AUnit (Ok tt); ARows (Ok (rev (firstn (Z.to_nat (len rows - m)) rows)))] /\
  snd (csteps rows [CSeek (Count m) (WInt 2); CRead None None] c) = [AUnit (Ok tt); ARows (Ok (skipn (Z.to_nat (len rows + 1 - m)) rows))].
Proof.
  intros R rows c m Hv D Hm. pose proof (len_nonneg rows) as N. cbn [csteps cstep]. unfold seek. change (whence_of (WInt 0)) with (@Ok rwhence ABSOLUTE). change (whence_of (WInt 1)) with (@Ok rwhence RELATIVE). change (whence_of (WInt 2)) with (@Ok rwhence FROM_END). change (whence_of (WInt 3)) with (@Ok rwhence FORWARD). change (whence_of (WInt 4)) with (@Ok rwhence BACKWARD). cbv beta iota. rewrite D. cbn [seek_commands]. unfold move. cbn [fold_left target].
  assert (E : clamp (len rows) (clamp (len rows) (clamp (len rows) (len rows) + 1) - m) = Z.max 0 (len rows + 1 - m)) by (unfold clamp; lia). rewrite E.
  unfold read, which_way. cbn [direction_to_bool c_direction]. change (seqb (upper (str "BACKWARD")) (str "FORWARD")) with false. change (seqb (upper (str "BACKWARD")) (str "BACKWARD")) with true. cbn [bind Base.bind negb xorb].
  unfold cfetch. cbn [fetch c_pos target snd]. split.
  - do 3 f_equal. unfold passed. destruct (Z.leb_spec (Z.max 0 (len rows + 1 - m)) 0).
    + replace (Z.to_nat (len rows - m)) with O by lia. cbn [firstn rev]. replace (Z.to_nat (0 - Z.max 0 (len rows + 1 - m))) with O by lia. reflexivity.
    + cbn [Z.sub]. change (Z.to_nat (0 - 1)) with O. cbn [skipn]. replace (Z.to_nat (Z.max 0 (len rows + 1 - m) - 1)) with (Z.to_nat (len rows - m)) by lia; reflexivity.
  - do 3 f_equal. unfold passed. destruct (Z.leb_spec (Z.max 0 (len rows + 1 - m)) (len rows + 1)); [|lia]. f_equal. unfold len in *.
    rewrite firstn_all2; [f_equal; lia|]. rewrite skipn_length. lia.
Qed.
Print Assumptions C51_from_end.
(** Relative seeks move by the offset, within the ends; with either sign. *)
Theorem C51_relative : forall R (rows : list R) c k, valid rows c ->
  c_pos (fst (seek rows (Count k) (WInt 1) c)) = Z.max 0 (Z.min (len rows + 1) (if c_direction c then c_pos c + k else c_pos c - k)).
Proof.
  intros R rows c k Hv. unfold seek. change (whence_of (WInt 0)) with (@Ok rwhence ABSOLUTE). change (whence_of (WInt 1)) with (@Ok rwhence RELATIVE). change (whence_of (WInt 2)) with (@Ok rwhence FROM_END). change (whence_of (WInt 3)) with (@Ok rwhence FORWARD). change (whence_of (WInt 4)) with (@Ok rwhence BACKWARD). cbn [fst c_pos c_direction]. destruct (c_direction c); cbn [seek_commands]; unfold move.
  - destruct (Z.ltb_spec k 0); cbn [fold_left target]; unfold clamp; lia.
  - destruct (Z.ltb_spec (- k) 0); cbn [fold_left target]; unfold clamp; lia.
Qed.
Print Assumptions C51_relative.
(** Forward and backward by a number of rows, and to the end: with the direction FORWARD as documented. *)
Theorem C51_forward_backward : forall R (rows : list R) c k, valid rows c -> c_direction c = true ->
  c_pos (fst (seek rows (Count k) (WInt 3) c)) = Z.max 0 (Z.min (len rows + 1) (c_pos c + k)) /\
  c_pos (fst (seek rows (Count k) (WInt 4) c)) = Z.max 0 (Z.min (len rows + 1) (c_pos c - k)) /\
  c_pos (fst (seek rows All (WInt 3) c)) = len rows + 1 /\ c_pos (fst (seek rows All (WInt 4) c)) = 0.
Proof.
  intros R rows c k Hv D. unfold seek. change (whence_of (WInt 0)) with (@Ok rwhence ABSOLUTE). change (whence_of (WInt 1)) with (@Ok rwhence RELATIVE). change (whence_of (WInt 2)) with (@Ok rwhence FROM_END). change (whence_of (WInt 3)) with (@Ok rwhence FORWARD). change (whence_of (WInt 4)) with (@Ok rwhence BACKWARD). cbn [fst c_pos c_direction]. rewrite D. cbn [seek_commands]. unfold move.
  destruct (Z.ltb_spec k 0); [destruct (Z.ltb_spec (- k) 0); [lia|]|]; cbn [fold_left target]; unfold clamp; (split; [|split; [|split; reflexivity]]); try lia; destruct (Z.ltb_spec k 0); [lia|]; cbn [fold_left target]; unfold clamp; lia.
Qed.
Print Assumptions C51_forward_backward.

(** seek(k): the k-th position, and from the end if it is negative *)
Theorem C51_absolute : forall R (rows : list R) c k, valid rows c -> c_direction c = true ->
  snd (seek rows (Count k) (WInt 0) c) = Ok tt /\
  c_pos (fst (seek rows (Count k) (WInt 0) c)) = if k <? 0 then Z.max 0 (len rows + 1 + k) else Z.min k (len rows + 1).
Proof.
  intros R rows c k Hv D. pose proof (len_nonneg rows) as N. unfold seek. change (whence_of (WInt 0)) with (@Ok rwhence ABSOLUTE). rewrite D. cbn [fst snd c_pos c_direction seek_commands]. split; [reflexivity|].
  unfold move. cbn [fold_left target]. destruct (Z.ltb_spec k 0) as [Q|Q]; unfold clamp; lia.
Qed.
Print Assumptions C51_absolute.
(** read(0) gives no row and leaves the cursor where it is *)
Theorem C51_read_zero : forall R (rows : list R) c d, read rows (Some 0) d c = (c, Ok []).
Proof. reflexivity. Qed.
Print Assumptions C51_read_zero.
(** But with the direction BACKWARD, moving FORWARD or BACKWARD by k rows goes to the absolute position k; *)
Theorem C51_backward_forward_refuted : forall R (rows : list R) p k, 0 <= p <= len rows + 1 -> 0 <= k <= len rows ->
  c_pos (fst (seek rows (Count k) (WStr (str "FORWARD")) {| c_direction := false; c_pos := p |})) = k /\
  c_pos (fst (seek rows (Count k) (WStr (str "BACKWARD")) {| c_direction := false; c_pos := p |})) = k.
Proof.
  intros R rows p k Hp Hk. unfold seek.
  change (whence_of (WStr (str "FORWARD"))) with (@Ok rwhence FORWARD). change (whence_of (WStr (str "BACKWARD"))) with (@Ok rwhence BACKWARD).
  cbn [fst c_pos c_direction seek_commands]. unfold move. assert (E : (k <? 0) = false) by (apply Z.ltb_ge; lia). rewrite ?E. cbn [fold_left target]. rewrite ?E. unfold clamp. lia.
Qed.
Print Assumptions C51_backward_forward_refuted.
(** and seek('ALL', 'FORWARD') is not inverted, nor is a negative absolute position. *)
Theorem C51_backward_all_refuted : exists (rows : list Z), let ops o := [o; CRead None None; CRead None (Some (DStr (str "BACKWARD")))] in
  let c := {| c_direction := true; c_pos := 2 |} in
  snd (csteps (rev rows) (ops (CSeek All (WInt 3))) (mirrored rows c)) <> snd (csteps rows (ops (CSeek All (WInt 3))) c) /\
  snd (csteps (rev rows) (ops (CSeek (Count (-1)) (WInt 0))) (mirrored rows c)) <> snd (csteps rows (ops (CSeek (Count (-1)) (WInt 0))) c).
Proof. exists [1; 2; 3]. vm_compute. split; discriminate. Qed.
Print Assumptions C51_backward_all_refuted.

Example ex_cursor : snd (csteps [10; 11; 12; 13; 14] [CRead (Some 2) None; CNext; CSeek (Count (-2)) (WStr (str "relative")); CRead None None; CRead (Some 2) (Some DFalse); CSeek (Count 0) (WInt 2); CRead (Some 1) (Some (DStr (str "Backward"))); CRead (Some 0) None; CSeek (Count 1) (WInt 7)] new_cursor) =
  [ARows (Ok [10; 11]); ARow (Ok 12); AUnit (Ok tt); ARows (Ok [11; 12; 13; 14]); ARows (Ok [14; 13]); AUnit (Ok tt); ARows (Ok [14]); ARows (Ok []); AUnit (Err AttributeError)].
Proof. vm_compute. reflexivity. Qed.
Example ex_documented : Forall documented [CSeek (Count 50) (WInt 0); CRead (Some 10) None; CRead (Some 10) (Some (DStr (str "BACKWARD"))); CSeek (Count (-10)) (WInt 1); CSeek All (WInt 0)].
Proof. repeat constructor; cbn; lia. Qed.
