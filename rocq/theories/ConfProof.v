From Verif Require Import PyStr PyStrProof PyStrProof2 PyListProof BaseProof PyDict PyDictProof RIProof2 ConfModel.

Section conf.
Context (U : unicode) (UO : unicode_ok U).
Local Notation sp := (u_space U).
Local Notation word := (is_word U).
Definition sp35 (c : Z) : bool := sp c || (c =? 35).
Definition sp2 (c : Z) : bool := sp c && negb ((c =? 10) || (c =? 13)).
Definition hd_not (p : Z -> bool) (l : text) : Prop := match l with c :: _ => p c = false | [] => True end.

Lemma sp_ascii c : 0 <= c < 128 -> sp c = ascii_space c. Proof. apply UO. Qed.
Lemma word_61 : word 61 = false.
Proof. unfold is_word. rewrite (uo_alpha U UO), (uo_digit U UO) by lia. reflexivity. Qed.
Lemma word_32 : word 32 = false.
Proof. unfold is_word. rewrite (uo_alpha U UO), (uo_digit U UO) by lia. reflexivity. Qed.
Lemma sp35_61 : sp35 61 = false. Proof. unfold sp35. rewrite sp_ascii by lia. reflexivity. Qed.

Lemma span_app p a b : Forall (fun c => p c = true) a -> hd_not p b -> span p (a ++ b) = length a.
Proof.
  intros F H. induction F as [|c a P F IH]; cbn [app length].
  - destruct b as [|c b]; [reflexivity|]. cbn in H. cbn [span]. now rewrite H.
  - cbn [span]. now rewrite P, IH.
Qed.
Lemma span_spec p l : Forall (fun c => p c = true) (firstn (span p l) l) /\ hd_not p (skipn (span p l) l).
Proof.
  induction l as [|c l [A B]]; cbn [span firstn skipn]; [split; [constructor|exact I]|]. destruct (p c) eqn:E; cbn [firstn skipn].
  - split; [constructor; auto|exact B].
  - split; [constructor|exact E].
Qed.
Lemma span_le p l : (span p l <= length l)%nat.
Proof. induction l as [|c l IH]; cbn [span length]; [lia|]. destruct (p c); lia. Qed.

(** where the scan of a value stops *)
Definition stop (post : text) : Prop := match post with c :: _ => sp35 c = true | [] => True end.
Lemma scan_stop l : forall q e, stop (skipn (scan U q e l) l).
Proof.
  induction l as [|c l IH]; intros q e; cbn [scan]; [exact I|].
  repeat match goal with |- context [if ?b then _ else _] => destruct b eqn:? end; cbn [skipn]; auto.
  cbn. unfold sp35. apply andb_true_iff in Heqb0 as [_ H]. exact H.
Qed.
Lemma scan_le l : forall q e, (scan U q e l <= length l)%nat.
Proof.
  induction l as [|c l IH]; intros q e; cbn [scan length]; [lia|].
  assert (K : forall a b, (S (scan U a b l) <= S (length l))%nat) by (intros a b; specialize (IH a b); lia).
  repeat match goal with |- context [if ?b then _ else _] => destruct b end; auto; lia.
Qed.
Lemma scan_nl l : forall q e, scan U q e (l ++ [10]) = scan U q e l \/ (scan U q e l = length l /\ scan U q e (l ++ [10]) = S (length l)).
Proof.
  assert (S10 : sp 10 = true) by (rewrite sp_ascii by lia; reflexivity).
  induction l as [|c l IH]; intros q e.
  - cbn [app scan length]. change (10 =? 39) with false. cbv iota. rewrite S10. destruct q; cbn [negb andb orb]; auto.
  - cbn [app scan length].
    assert (P : match l ++ [10] with d :: _ => d =? 39 | [] => false end = match l with d :: _ => d =? 39 | [] => false end) by (destruct l; reflexivity).
    rewrite P.
    assert (K : forall a b, S (scan U a b (l ++ [10])) = S (scan U a b l) \/ (S (scan U a b l) = S (length l) /\ S (scan U a b (l ++ [10])) = S (S (length l)))).
    { intros a b. destruct (IH a b) as [->|[A B]]; [auto|right; lia]. }
    destruct (c =? 39); [destruct (negb q); [apply K|destruct (negb e); apply K]|].
    destruct (negb q && (sp c || (c =? 35))); [auto|apply K].
Qed.

(** ** the shape of the lines that hold a setting *)
Record parts := { pre : text; key : text; ws : text; ws2 : text; val : text; post : text }.
Definition line_of (x : parts) : text := pre x ++ key x ++ ws x ++ [61] ++ ws2 x ++ val x ++ post x.
Record shape (x : parts) : Prop := {
  s_pre : Forall (fun c => sp35 c = true) (pre x);
  s_key : Forall (fun c => word c = true) (key x);
  s_ws : Forall (fun c => sp c = true) (ws x);
  s_hd : hd_not sp35 (key x ++ ws x);
  s_hdw : hd_not word (ws x);
  s_ws2 : Forall (fun c => sp2 c = true) (ws2 x);
  s_hd2 : hd_not sp2 (val x ++ post x);
  s_stop : stop (post x)
}.
Definition key_ext (x : parts) : extent := {| x_start := length (pre x); x_stop := length (key x) + length (pre x) |}.
Definition val_start (x : parts) : nat := (length (pre x ++ key x ++ ws x) + 1 + length (ws2 x))%nat.
Definition val_ext (x : parts) : extent := {| x_start := val_start x; x_stop := val_start x + length (val x) |}.

Lemma not_in_by (p : Z -> bool) c l : p c = false -> Forall (fun x => p x = true) l -> ~ In c l.
Proof. intros H F I. eapply Forall_forall in F; [|exact I]. cbn in F. congruence. Qed.
Lemma no_eq x : shape x -> ~ In 61 (pre x ++ key x ++ ws x).
Proof.
  intros S. rewrite !in_app_iff. intros [H|[H|H]]; revert H.
  - eapply not_in_by; [apply sp35_61|apply S].
  - eapply not_in_by; [apply word_61|apply S].
  - eapply not_in_by; [|apply S]. rewrite sp_ascii by lia. reflexivity.
Qed.
Lemma skipn_app0 {A} (a b : list A) n : n = length a -> skipn n (a ++ b) = b.
Proof. intros ->. rewrite skipn_app, skipn_all, Nat.sub_diag. reflexivity. Qed.
Lemma parse_shape x : shape x -> parse_line U (line_of x) =
  Some (key_ext x, {| x_start := val_start x; x_stop := val_start x + scan U false false (val x ++ post x) |}).
Proof.
  intros S. unfold parse_line, line_of.
  replace (pre x ++ key x ++ ws x ++ [61] ++ ws2 x ++ val x ++ post x) with ((pre x ++ key x ++ ws x) ++ 61 :: (ws2 x ++ val x ++ post x)) by (rewrite <- !app_assoc; reflexivity).
  rewrite splitn1_at by now apply no_eq.
  assert (A : span (fun c => sp c || (c =? 35)) (pre x ++ key x ++ ws x) = length (pre x)) by (apply (span_app sp35); apply S).
  rewrite A. rewrite (skipn_app0 (pre x) (key x ++ ws x) (length (pre x)) eq_refl).
  assert (B : span (is_word U) (key x ++ ws x) = length (key x)) by (apply (span_app word); apply S).
  rewrite B.
  assert (C : skipn (length (pre x) + length (key x)) (pre x ++ key x ++ ws x) = ws x).
  { rewrite app_assoc. apply skipn_app0. now rewrite app_length. }
  rewrite C. unfold py_strip. rewrite strip_all by apply S.
  assert (D : span (fun c => sp c && negb ((c =? 10) || (c =? 13))) (ws2 x ++ val x ++ post x) = length (ws2 x)) by (apply (span_app sp2); apply S).
  rewrite D. rewrite skipn_app0 by reflexivity. reflexivity.
Qed.
Lemma strip_nil p l : strip_by p l = [] -> Forall (fun c => p c = true) l.
Proof.
  intros H. unfold strip_by, rstrip_by in H. apply (f_equal (@rev Z)) in H. rewrite rev_involutive in H. cbn in H.
  assert (N : forall l, lstrip_by p l = [] -> Forall (fun c => p c = true) l).
  { clear. induction l as [|c l IH]; cbn [lstrip_by]; [constructor|]. destruct (p c) eqn:E; [|discriminate]. intros H. constructor; auto. }
  apply N in H. apply Forall_rev in H. rewrite rev_involutive in H.
  clear N. induction l as [|c l IH]; [constructor|]. cbn [lstrip_by] in H. destruct (p c) eqn:E; [constructor; auto|exact H].
Qed.
Lemma parse_inv l sk sv : parse_line U l = Some (sk, sv) ->
  exists x, shape x /\ l = line_of x /\ sk = key_ext x /\ sv = val_ext x /\ scan U false false (val x ++ post x) = length (val x).
Proof.
  unfold parse_line. intros H. destruct (in_dec Z.eq_dec 61 l) as [I|N].
  2:{ rewrite splitn1_none in H by exact N. discriminate. }
  apply in_split in I as E. destruct (index_of [61] l) as [k|] eqn:IX; [|apply index1_None in IX; contradiction].
  apply index1_Some in IX as (EL & NI & LK). set (kp := firstn k l) in *. set (vp := skipn (S k) l) in *.
  rewrite EL in H. rewrite splitn1_at in H by exact NI.
  set (a := span (fun c => sp c || (c =? 35)) kp) in *. set (b := span (is_word U) (skipn a kp)) in *.
  destruct (py_strip U (skipn (a + b) kp)) eqn:ST; [|discriminate]. apply strip_nil in ST.
  set (d := span (fun c => sp c && negb ((c =? 10) || (c =? 13))) vp) in *. set (e := scan U false false (skipn d vp)) in *.
  injection H as <- <-.
  destruct (span_spec (fun c => sp c || (c =? 35)) kp) as [A1 A2]. fold a in A1, A2.
  destruct (span_spec (is_word U) (skipn a kp)) as [B1 B2]. fold b in B1, B2.
  destruct (span_spec (fun c => sp c && negb ((c =? 10) || (c =? 13))) vp) as [D1 D2]. fold d in D1, D2.
  assert (EK : skipn b (skipn a kp) = skipn (a + b) kp) by (rewrite PBufferProof.skipn_plus; reflexivity).
  assert (LA : (a <= length kp)%nat) by apply span_le. assert (LB : (b <= length (skipn a kp))%nat) by apply span_le.
  assert (LD : (d <= length vp)%nat) by apply span_le. assert (LE : (e <= length (skipn d vp))%nat) by apply scan_le.
  rewrite skipn_length in LB, LE.
  set (x := {| pre := firstn a kp; key := firstn b (skipn a kp); ws := skipn (a + b) kp; ws2 := firstn d vp; val := firstn e (skipn d vp); post := skipn e (skipn d vp) |}).
  assert (P0 : pre x ++ key x ++ ws x = kp) by (unfold x; cbn [pre key ws]; rewrite <- EK, firstn_skipn, firstn_skipn; reflexivity).
  assert (P1 : val x ++ post x = skipn d vp) by (unfold x; cbn [val post]; apply firstn_skipn).
  exists x. split; [|split; [|split; [|split]]].
  - constructor.
    + exact A1. + exact B1. + exact ST.
    + unfold x; cbn [key ws]. rewrite <- EK, firstn_skipn. exact A2.
    + unfold x; cbn [ws]. rewrite <- EK. exact B2.
    + exact D1. + rewrite P1. exact D2.
    + unfold x; cbn [post]. apply scan_stop.
  - unfold line_of. rewrite P1. unfold x at 4. cbn [ws2]. rewrite firstn_skipn. rewrite EL. rewrite <- P0 at 1. rewrite <- !app_assoc. reflexivity.
  - unfold key_ext, x. cbn [pre key]. rewrite !firstn_length, skipn_length. f_equal; lia.
  - unfold val_ext, val_start. rewrite P0. unfold x. cbn [ws2 val]. rewrite !firstn_length, skipn_length. f_equal; lia.
  - rewrite P1. unfold x. cbn [val]. rewrite firstn_length, skipn_length. fold e. lia.
Qed.

(** ** cutting *)
Lemma cut_key x : cut (key_ext x) (line_of x) = key x.
Proof.
  unfold cut, key_ext, line_of. cbn [x_start x_stop]. rewrite skipn_app0 by reflexivity.
  replace (length (key x) + length (pre x) - length (pre x))%nat with (length (key x)) by lia. rewrite firstn_app, firstn_all, Nat.sub_diag. cbn. now rewrite app_nil_r.
Qed.
Lemma skip_val x : skipn (val_start x) (line_of x) = val x ++ post x.
Proof.
  unfold line_of, val_start. replace (pre x ++ key x ++ ws x ++ [61] ++ ws2 x ++ val x ++ post x) with ((pre x ++ key x ++ ws x) ++ ([61] ++ ws2 x) ++ val x ++ post x) by (rewrite <- !app_assoc; reflexivity).
  rewrite (app_assoc (pre x ++ key x ++ ws x)). apply skipn_app0. rewrite app_length. cbn. rewrite !app_length. cbn. lia.
Qed.
Lemma cut_val x : cut (val_ext x) (line_of x) = val x.
Proof.
  unfold cut, val_ext. cbn [x_start x_stop]. rewrite skip_val. replace (val_start x + length (val x) - val_start x)%nat with (length (val x)) by lia.
  rewrite firstn_app, firstn_all, Nat.sub_diag. cbn. now rewrite app_nil_r.
Qed.
Lemma skip_post x : skipn (x_stop (val_ext x)) (line_of x) = post x.
Proof.
  unfold val_ext. cbn [x_stop]. rewrite PBufferProof.skipn_plus, skip_val. now apply skipn_app0.
Qed.
Lemma cut_middle x : cut {| x_start := x_start (key_ext x); x_stop := x_start (val_ext x) |} (line_of x) = key x ++ ws x ++ [61] ++ ws2 x.
Proof.
  unfold cut, key_ext, val_ext, val_start, line_of. cbn [x_start x_stop]. rewrite skipn_app0 by reflexivity.
  replace (key x ++ ws x ++ [61] ++ ws2 x ++ val x ++ post x) with ((key x ++ ws x ++ [61] ++ ws2 x) ++ val x ++ post x) by (rewrite <- !app_assoc; reflexivity).
  match goal with |- firstn ?n _ = _ => replace n with (length (key x ++ ws x ++ [61] ++ ws2 x)) by (rewrite !app_length; cbn; lia) end.
  rewrite firstn_app, firstn_all, Nat.sub_diag. cbn [firstn]. apply app_nil_r.
Qed.
Lemma cut_pre x : firstn (x_start (key_ext x)) (line_of x) = pre x.
Proof. unfold key_ext, line_of. cbn [x_start]. rewrite firstn_app, firstn_all, Nat.sub_diag. cbn [firstn]. apply app_nil_r. Qed.

(** ** reading a line of this shape *)
Lemma read_shape x : shape x -> scan U false false (val x ++ post x) = length (val x) ->
  read_line U (line_of x) = if memZ 35 (pre x) then None else Some (key x, unquote U (val x)).
Proof.
  intros S E. unfold read_line. rewrite parse_shape by exact S. rewrite E. fold (val_ext x). unfold comment_in. rewrite cut_pre, cut_key, cut_val. reflexivity.
Qed.
(** a comment sign in front hides it *)
Lemma read_comment x : shape x -> read_line U ([35] ++ line_of x) = None.
Proof.
  intros S. set (y := {| pre := 35 :: pre x; key := key x; ws := ws x; ws2 := ws2 x; val := val x; post := post x |}).
  change ([35] ++ line_of x) with (line_of y). assert (SY : shape y).
  { destruct S. constructor; auto. constructor; auto. unfold sp35. cbn. apply orb_true_r. }
  unfold read_line. rewrite parse_shape by exact SY. unfold comment_in. rewrite cut_pre. reflexivity.
Qed.
(** what is written is read *)
Lemma scan_quoted v rest : stop rest -> scan U false false (quoted v ++ rest) = length (quoted v).
Proof.
  intros ST. unfold quoted. rewrite <- !app_assoc. cbn [app]. cbn [scan]. change (39 =? 39) with true. cbv iota. cbn [negb length]. f_equal.
  rewrite replace1, app_length. cbn [length].
  assert (N39 : match rest with d :: _ => d =? 39 | [] => false end = false).
  { destruct rest as [|c r]; [reflexivity|]. cbn in ST. destruct (Z.eqb_spec c 39) as [->|]; [|reflexivity]. unfold sp35 in ST. rewrite sp_ascii in ST by lia. discriminate ST. }
  assert (S0 : scan U false false rest = O).
  { destruct rest as [|c r]; [reflexivity|]. cbn [scan]. rewrite N39. cbn in ST. unfold sp35 in ST. rewrite ST. reflexivity. }
  induction v as [|c v IH]; cbn [flat_map app length].
  - cbn [scan]. change (39 =? 39) with true. cbv iota zeta. cbn [negb]. rewrite N39, S0. reflexivity.
  - destruct (Z.eqb_spec c 39) as [->|N]; cbn [app length].
    + cbn [scan]. change (39 =? 39) with true. cbv iota zeta. cbn [negb]. rewrite IH. reflexivity.
    + cbn [scan]. destruct (Z.eqb_spec c 39); [contradiction|]. cbn [negb andb]. rewrite IH. reflexivity.
Qed.
Lemma unquote_quoted v : unquote U (quoted v) = v.
Proof.
  unfold unquote, quoted, py_strip. assert (S39 : sp 39 = false) by (rewrite sp_ascii by lia; reflexivity).
  cbn [app]. rewrite strip_ends by auto. change (negb (py_startswith [39] (39 :: py_replace [39] [39; 39] v ++ [39]))) with false. cbv iota.
  rewrite pyslice_inner, replace1. apply replace2_flat.
Qed.
End conf.
