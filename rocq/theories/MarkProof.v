(** MarkProof.v: the position marker *)
From Verif Require Import Base BaseProof PyStr PyStrProof PyList PyListProof PyDict PyInt PyIntProof Element3Model MesgModel MarkModel MarkSpec.
Open Scope Z_scope.
Lemma is_break_spec c : is_break c = true <-> In c break_chars.
Proof.
  unfold is_break, break_chars. rewrite existsb_exists. split.
  - intros (x & I & E). apply Z.eqb_eq in E as ->. exact I.
  - intros I. exists c. split; [exact I|apply Z.eqb_refl].
Qed.
Lemma is_break_false c : ~ In c break_chars -> is_break c = false.
Proof. intros N. destruct (is_break c) eqn:E; [|reflexivity]. now apply is_break_spec in E. Qed.
Lemma go_line l : no_break l -> forall t cur, splitlines_go (l ++ t) cur = splitlines_go t (rev l ++ cur).
Proof.
  induction 1 as [|c l H _ IH]; intros t cur; [reflexivity|]. cbn [app splitlines_go]. rewrite is_break_false by exact H. rewrite IH. cbn [rev]. now rewrite <- app_assoc.
Qed.
Lemma go_break b t cur : line_break b -> (b = [13] -> forall r, t <> 10 :: r) -> splitlines_go (b ++ t) cur = rev cur :: splitlines_go t [].
Proof.
  intros [-> | (c & -> & I)] H; [reflexivity|]. cbn [app splitlines_go]. rewrite (proj2 (is_break_spec c) I). destruct (Z.eqb_spec c 13) as [->|]; [|reflexivity].
  destruct t as [|d r]; [reflexivity|]. destruct (Z.eqb_spec d 10) as [->|]; [|reflexivity]. exfalso. exact (H eq_refl r eq_refl).
Qed.
Lemma go_lines t ps : lines_before t ps -> splitlines_go (written ps ++ t) [] = map fst ps ++ splitlines_go t [].
Proof.
  induction 1 as [|l b ps N B C _ IH]; [reflexivity|]. unfold written in *. cbn [map concat fst snd app]. rewrite <- !app_assoc. rewrite go_line by exact N. rewrite go_break by assumption.
  rewrite IH. now rewrite app_nil_r, rev_involutive.
Qed.
Lemma before_head c t t' ps : lines_before (c :: t) ps -> lines_before (c :: t') ps.
Proof.
  induction 1 as [|l b ps N B C _ IH]; constructor; auto. intros E r. specialize (C E). destruct (written ps) as [|d w] eqn:W; cbn [app] in *.
  - intros H. injection H as -> _. exact (C t eq_refl).
  - intros H. injection H as -> _. exact (C _ eq_refl).
Qed.
Lemma split_line l post : no_break l -> l <> [] -> after_line post -> exists rest, splitlines_go (l ++ post) [] = l :: rest.
Proof.
  intros N NE A. rewrite go_line, app_nil_r by exact N. destruct A as [-> | (c & r & -> & I)].
  - exists []. cbn [splitlines_go]. destruct (rev l) as [|x y] eqn:E; [apply (f_equal (@rev Z)) in E; rewrite rev_involutive in E; contradiction|]. now rewrite <- E, rev_involutive.
  - cbn [splitlines_go]. rewrite (proj2 (is_break_spec c) I), rev_involutive. eexists. reflexivity.
Qed.
Definition lead (ls : list text) : text := concat (map (fun l => l ++ [10]) ls).
Lemma join_lead ls l rest : py_join [10] (ls ++ l :: rest) = lead ls ++ l ++ (match rest with [] => [] | _ => 10 :: py_join [10] rest end).
Proof.
  induction ls as [|x ls IH]; cbn [app lead map concat].
  - destruct rest; [cbn [py_join]; now rewrite app_nil_r|reflexivity].
  - rewrite py_join_cons by (destruct ls; discriminate). rewrite IH. fold (lead ls). now rewrite <- !app_assoc.
Qed.
Lemma no_break_10 l : no_break l -> ~ In 10 l.
Proof. intros N I. unfold no_break in N. rewrite Forall_forall in N. apply (N _ I). cbn. auto. Qed.
Lemma count_none c l : ~ In c l -> filter (Z.eqb c) l = [].
Proof. induction l as [|x l IH]; intros N; [reflexivity|]. cbn [filter]. destruct (Z.eqb_spec c x) as [->|]; [exfalso; apply N; now left|]. apply IH. intros I. apply N. now right. Qed.
Lemma count_lead ls : Forall (fun l => ~ In 10 l) ls -> len (filter (Z.eqb 10) (lead ls)) = len ls.
Proof.
  induction 1 as [|l ls N _ IH]; [reflexivity|]. unfold lead in *. cbn [map concat]. rewrite !filter_app, !len_app, count_none by exact N. rewrite IH. cbn [filter]. rewrite len_cons. reflexivity.
Qed.
Lemma lead_end ls : lead ls = [] \/ exists w, lead ls = w ++ [10].
Proof.
  destruct ls as [|x l] using rev_ind; [left; reflexivity|]. right. exists (lead l ++ x). unfold lead. rewrite map_app, concat_app. cbn [map concat]. now rewrite app_nil_r, <- app_assoc.
Qed.
Lemma slice_front {A} (a b : list A) n : n = len a -> pyslice (a ++ b) 0 n = a.
Proof. intros ->. apply (pyslice_app [] a b); reflexivity. Qed.
Lemma slice_back {A} (a b : list A) n e : n = len a -> e = len (a ++ b) -> pyslice (a ++ b) n e = b.
Proof. intros -> ->. rewrite <- (app_nil_r b) at 1. apply pyslice_app; [reflexivity|apply len_app]. Qed.
Lemma rfind_lead J x tail n : (J = [] \/ exists w, J = w ++ [10]) -> ~ In 10 x -> n = len (J ++ x) -> py_rfind 10 (J ++ x ++ tail) n + 1 = len J.
Proof.
  intros HJ N ->. unfold py_rfind. rewrite app_assoc, slice_front by reflexivity. rewrite rev_app_distr. destruct HJ as [-> | (w & ->)].
  - cbn [rev app]. rewrite app_nil_r. rewrite (proj2 (index1_None 10 (rev x))); [reflexivity|]. now rewrite <- in_rev.
  - rewrite rev_app_distr. change (rev [10]) with [10]. cbn [app]. rewrite index1_app by (now rewrite <- in_rev). rewrite rev_length, !len_app. unfold len. cbn [length]. lia.
Qed.
Definition cut (rest : list text) : text := match rest with [] => [] | _ => 10 :: py_join [10] rest end.
Lemma blanks_replace l : py_replace [9] [32] l = blanks l.
Proof.
  rewrite replace1. unfold blanks. induction l as [|c l IH]; [reflexivity|]. cbn [flat_map map]. rewrite IH. destruct (c =? 9); reflexivity.
Qed.
Lemma blanks_app a b : blanks (a ++ b) = blanks a ++ blanks b. Proof. apply map_app. Qed.
Lemma blanks_len a : len (blanks a) = len a. Proof. unfold len, blanks. now rewrite map_length. Qed.
Lemma blanks_break l : no_break l -> no_break (blanks l).
Proof.
  unfold no_break, blanks. intros F. rewrite Forall_map. eapply Forall_impl; [|exact F]. cbv beta. intros c N. destruct (c =? 9); [|exact N]. unfold break_chars. cbn. intuition discriminate.
Qed.
Lemma blanks_lead ls : blanks (lead ls) = lead (map blanks ls).
Proof. unfold lead, blanks. induction ls as [|l ls IH]; [reflexivity|]. cbn [map concat]. rewrite !map_app, IH. reflexivity. Qed.
Section mark.
Context (linesep : text).
Theorem line_entry_ok ps line post j : lines_before (line ++ post) ps -> no_break line -> after_line post -> 0 <= j < len line ->
  line_entry linesep (written ps ++ line ++ post) (len (written ps) + j + 1) =
    blanks line ++ linesep ++ spaces j ++ str "^ [line " ++ str_int (len ps + 1) ++ str ", character " ++ str_int (j + 1) ++ str "] ".
Proof.
  intros LB NB AL J.
  set (n := Z.to_nat (j + 1)). assert (SP : line = firstn n line ++ skipn n line) by (symmetry; apply firstn_skipn).
  set (a := firstn n line) in *. set (b := skipn n line) in *.
  assert (LA : len a = j + 1) by (unfold a, len; rewrite firstn_length; unfold len in J; subst n; lia).
  assert (LE0 : exists c0 line0, line = c0 :: line0) by (destruct line as [|c0 line0]; [unfold len in J; cbn in J; lia|eauto]).
  destruct LE0 as (c0 & line0 & LE).
  assert (NA : no_break a /\ no_break b) by (unfold no_break in *; rewrite SP in NB; now apply Forall_app in NB).
  destruct NA as [NA NBb].
  assert (Ane : exists a0, a = c0 :: a0).
  { assert (Hn : exists k, n = S k) by (exists (Nat.pred n); subst n; lia). destruct Hn as (k & Hk). exists (firstn k line0). unfold a. rewrite LE, Hk. reflexivity. }
  destruct Ane as (a0 & Ea).
  (* the prefix *)
  assert (P1 : pyslice (written ps ++ line ++ post) 0 (len (written ps) + j + 1) = written ps ++ a).
  { rewrite SP, <- !app_assoc, app_assoc. apply slice_front. rewrite len_app, LA. lia. }
  assert (S1 : splitlines (written ps ++ a) = map fst ps ++ [a]).
  { unfold splitlines. rewrite go_lines.
    - f_equal. rewrite <- (app_nil_r a) at 1. rewrite go_line, app_nil_r by exact NA. cbn [splitlines_go]. destruct (rev a) as [|u v] eqn:E.
      + apply (f_equal (@rev Z)) in E. rewrite rev_involutive in E. rewrite Ea in E. discriminate.
      + now rewrite <- E, rev_involutive.
    - rewrite Ea. rewrite LE in LB. cbn [app] in LB. eapply before_head. exact LB. }
  destruct (split_line line post NB ltac:(rewrite LE; discriminate) AL) as (rest & S2).
  assert (S3 : splitlines (written ps ++ line ++ post) = map fst ps ++ line :: rest).
  { unfold splitlines. rewrite go_lines by exact LB. now rewrite S2. }
  assert (F10 : Forall (fun l => ~ In 10 l) (map fst ps)).
  { clear - LB. induction LB as [|l x ps N _ _ _ IH]; cbn [map fst]; constructor; [now apply no_break_10|exact IH]. }
  set (Q := lead (map fst ps)) in *.
  unfold line_entry. rewrite P1, S1, S3. rewrite (join_lead (map fst ps) a []), (join_lead (map fst ps) line rest), app_nil_r. cbv beta zeta. fold Q. fold (cut rest).
  assert (PN : len (Q ++ a) = len Q + (j + 1)) by (rewrite len_app, LA; reflexivity).
  (* the line number *)
  assert (CN : py_count 10 (Q ++ line ++ cut rest) (len (Q ++ a)) = len ps).
  { unfold py_count. rewrite SP, <- !app_assoc, app_assoc, slice_front by reflexivity. rewrite filter_app, len_app, (count_none 10 a) by now apply no_break_10.
    unfold Q. rewrite count_lead by exact F10. unfold len. rewrite map_length. cbn [length]. lia. }
  rewrite CN. rewrite blanks_replace, !blanks_app.
  assert (RF : py_rfind 10 (blanks Q ++ blanks line ++ blanks (cut rest)) (len (Q ++ a)) + 1 = len Q).
  { rewrite SP, blanks_app, <- app_assoc. rewrite <- (blanks_len Q). apply rfind_lead.
    - unfold Q. rewrite blanks_lead. apply lead_end.
    - apply no_break_10. now apply blanks_break.
    - rewrite !len_app, !blanks_len. reflexivity. }
  rewrite RF.
  assert (EV : (if pyfind [10] (blanks Q ++ blanks line ++ blanks (cut rest)) (len (Q ++ a)) (len (blanks Q ++ blanks line ++ blanks (cut rest))) =? -1
                then len (blanks Q ++ blanks line ++ blanks (cut rest))
                else pyfind [10] (blanks Q ++ blanks line ++ blanks (cut rest)) (len (Q ++ a)) (len (blanks Q ++ blanks line ++ blanks (cut rest)))) = len Q + len line).
  { unfold pyfind. assert (SL : pyslice (blanks Q ++ blanks line ++ blanks (cut rest)) (len (Q ++ a)) (len (blanks Q ++ blanks line ++ blanks (cut rest))) = blanks b ++ blanks (cut rest)).
    { rewrite SP. rewrite blanks_app, <- app_assoc, app_assoc. apply slice_back; [rewrite !len_app, !blanks_len; reflexivity|]. reflexivity. }
    rewrite SL. assert (LL : len line = len a + len b) by (rewrite SP at 1; apply len_app).
    pose proof (len_nonneg (Q ++ a)). destruct rest as [|r0 rest]; cbn [cut].
    - cbn [blanks map]. rewrite app_nil_r. rewrite (proj2 (index1_None 10 (blanks b))) by (apply no_break_10; now apply blanks_break).
      change (-1 =? -1) with true. cbv iota. rewrite !len_app, !blanks_len. change (len (@nil Z)) with 0. lia.
    - change (blanks (10 :: py_join [10] (r0 :: rest))) with (10 :: blanks (py_join [10] (r0 :: rest))). rewrite index1_app by (apply no_break_10; now apply blanks_break).
      rewrite len_app. fold (len (blanks b)). rewrite blanks_len. pose proof (len_nonneg b). rewrite len_app in H. destruct (len Q + len a + len b =? -1) eqn:E; lia. }
  rewrite EV.
  assert (VW : pyslice (blanks Q ++ blanks line ++ blanks (cut rest)) (len Q) (len Q + len line) = blanks line).
  { apply pyslice_app; rewrite !blanks_len; reflexivity. }
  rewrite VW.
  assert (SV : splitlines (blanks line) = [blanks line]).
  { unfold splitlines. rewrite <- (app_nil_r (blanks line)) at 1. destruct (split_line (blanks line) [] (blanks_break _ NB)) as (rr & E).
    - rewrite LE. discriminate.
    - left. reflexivity.
    - pose proof E as E'. rewrite go_line in E' by now apply blanks_break. cbn [splitlines_go] in E'. rewrite E.
      destruct (rev (blanks line) ++ []); [discriminate|]. injection E' as _ E'. now rewrite E'. }
  rewrite SV, PN. cbn [app py_join]. replace (len Q + (j + 1) - len Q) with (j + 1) by lia. replace (j + 1 - 1) with j by lia.
  reflexivity.
Qed.
End mark.
