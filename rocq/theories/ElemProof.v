(** ElemProof.v: lines of indented texts *)
From Verif Require Import Base BaseProof PyStr PyStrProof LibProof MarkModel MarkSpec MarkProof ElemModel ElemSpec.

Section lines.
Context (U : unicode) (HU : unicode_ok U).
Local Notation rstrip := (rstrip U). Local Notation indent := (indent U). Local Notation shifted := (shifted U).
Lemma space_10 : u_space U 10 = true. Proof. rewrite (uo_space U HU) by lia. reflexivity. Qed.
Lemma space_32 : u_space U 32 = true. Proof. rewrite (uo_space U HU) by lia. reflexivity. Qed.
Lemma colon : u_space U 58 = false. Proof. rewrite (uo_space U HU) by lia. reflexivity. Qed.
(** *** breaks *)
Lemma no_break_app a b : no_break (a ++ b) <-> no_break a /\ no_break b.
Proof. apply Forall_app. Qed.
Lemma rstrip_prefix l : exists b, l = rstrip l ++ b /\ Forall (fun c => u_space U c = true) b.
Proof.
  unfold rstrip, rstrip_by. destruct (lstrip_split (u_space U) (rev l)) as (b & E & F). exists (rev b). split; [|apply Forall_rev'; exact F].
  rewrite <- rev_app_distr, <- E, rev_involutive. reflexivity.
Qed.
Lemma no_break_rstrip l : no_break l -> no_break (rstrip l).
Proof. intros N. destruct (rstrip_prefix l) as (b & E & _). rewrite E in N. apply no_break_app in N. tauto. Qed.
Lemma rstrip_idem l : rstrip (rstrip l) = rstrip l.
Proof. destruct (rstrip_prefix l) as (b & E & F). rewrite E at 2. symmetry. apply rstrip_blank. exact F. Qed.
Lemma rstrip_inner a b : rstrip (a ++ rstrip b) = rstrip (a ++ b).
Proof. destruct (rstrip_prefix b) as (c & E & F). rewrite E at 2. rewrite app_assoc. symmetry. apply rstrip_blank. exact F. Qed.
Lemma rstrip_end l : rstrip l = [] \/ exists a c, rstrip l = a ++ [c] /\ u_space U c = false.
Proof.
  unfold rstrip, rstrip_by. destruct (lstrip_by (u_space U) (rev l)) as [|c r] eqn:E; [left; reflexivity|]. right. exists (rev r), c. split; [reflexivity|].
  clear - E. revert E. generalize (rev l). induction l0 as [|d l0 IH]; cbn [lstrip_by]; [discriminate|]. destruct (u_space U d) eqn:D; [exact IH|]. intros H. injection H as -> ->. exact D.
Qed.
Lemma no_break_spaces : no_break (spaces 2). Proof. repeat constructor; cbn; intuition discriminate. Qed.
Lemma shifted_eq l : rstrip (spaces 2 ++ l) = shifted l. Proof. reflexivity. Qed.
Lemma no_break_shifted l : no_break l -> no_break (shifted l).
Proof. intros N. apply no_break_rstrip, no_break_app. split; [exact no_break_spaces|exact N]. Qed.
Lemma splitlines_no_break l : Forall no_break (splitlines l).
Proof.
  unfold splitlines. assert (G : forall n l cur, (length l < n)%nat -> no_break cur -> Forall no_break (splitlines_go l cur)).
  { assert (R : forall a, no_break a -> no_break (rev a)) by (intros a N; apply Forall_rev'; exact N).
    induction n as [|n IH]; intros l0 cur L N; [lia|]. destruct l0 as [|c r]; cbn [splitlines_go]; [destruct cur; repeat constructor; apply R; exact N|]. cbn [length] in L.
    destruct (is_break c) eqn:B.
    - constructor; [apply R; exact N|]. destruct (c =? 13); [|apply IH; [lia|constructor]]. destruct r as [|d r']; [apply IH; [lia|constructor]|]. cbn [length] in L.
      destruct (d =? 10); apply IH; cbn [length]; try lia; constructor.
    - apply IH; [lia|]. constructor; [|exact N]. intros I. apply is_break_spec in I. congruence. }
  apply (G (S (length l))); [lia|constructor].
Qed.
(** *** texts of lines *)
Definition lines_text (ls : list text) : text := concat (map (fun l => l ++ [10]) ls).
Lemma indent_lines s : indent s = lines_text (map shifted (splitlines s)).
Proof. unfold indent, lines_text. rewrite map_map. reflexivity. Qed.
Lemma nl_break : line_break [10]. Proof. right. exists 10. split; [reflexivity|cbn; auto]. Qed.
Lemma split_lines_text ls : Forall no_break ls -> forall t, splitlines_go (lines_text ls ++ t) [] = ls ++ splitlines_go t [].
Proof.
  induction 1 as [|l ls N _ IH]; intros t; [reflexivity|]. unfold lines_text in *. cbn [map concat]. rewrite <- !app_assoc. rewrite go_line by exact N. rewrite app_nil_r.
  rewrite (go_break [10]); [|exact nl_break|discriminate]. rewrite rev_involutive, IH. reflexivity.
Qed.
Lemma split_last l : no_break l -> l <> [] -> splitlines_go l [] = [l].
Proof. intros N E. rewrite <- (app_nil_r l) at 1. rewrite go_line by exact N. rewrite app_nil_r. cbn [splitlines_go]. destruct (rev l) eqn:R; [apply (f_equal (@rev Z)) in R; rewrite rev_involutive in R; contradiction|]. rewrite <- R, rev_involutive. reflexivity. Qed.
Lemma join_lines_text ls l : py_join [10] (ls ++ [l]) = lines_text ls ++ l.
Proof. rewrite (join_lead ls l []). rewrite app_nil_r. reflexivity. Qed.
(** the lines of a joined text: an empty last line is not seen *)
Lemma split_join_lines ls l : Forall no_break ls -> no_break l -> splitlines (py_join [10] (ls ++ [l])) = ls ++ (match l with [] => [] | _ => [l] end).
Proof. intros F N. rewrite join_lines_text. unfold splitlines. rewrite split_lines_text by exact F. destruct l; [reflexivity|]. rewrite split_last; [reflexivity|exact N|discriminate]. Qed.
Lemma join_app (a b : list text) : a <> [] -> b <> [] -> py_join [10] (a ++ b) = py_join [10] a ++ [10] ++ py_join [10] b.
Proof.
  intros A B. induction a as [|x a IH]; [contradiction|]. destruct a as [|y a].
  - cbn [app]. rewrite py_join_cons by exact B. reflexivity.
  - change ((x :: y :: a) ++ b) with (x :: (y :: a) ++ b). rewrite !py_join_cons by (destruct a; discriminate). rewrite IH by discriminate. rewrite <- !app_assoc. reflexivity.
Qed.
Lemma join_concat (lss : list (list text)) : Forall (fun ls => ls <> []) lss -> py_join [10] (map (py_join [10]) lss) = py_join [10] (concat lss).
Proof.
  induction 1 as [|ls lss N F IH]; [reflexivity|]. cbn [map concat]. destruct lss as [|m lss].
  - cbn [map concat py_join]. rewrite app_nil_r. reflexivity.
  - rewrite py_join_cons by discriminate. rewrite IH. symmetry. apply join_app; [exact N|]. inversion F; subst. cbn [concat]. destruct m; [contradiction|discriminate].
Qed.
Lemma lines_text_app a b : lines_text (a ++ b) = lines_text a ++ lines_text b.
Proof. unfold lines_text. rewrite map_app, concat_app. reflexivity. Qed.
(** *** the end of a text of lines *)
Lemma chop_snoc ls : chop (ls ++ [[]]) = chop ls.
Proof. induction ls as [|l ls IH]; [reflexivity|]. cbn [app chop]. rewrite IH. reflexivity. Qed.
Lemma chop_last ls c r : chop (ls ++ [c :: r]) = ls ++ [c :: r].
Proof. induction ls as [|l ls IH]; [reflexivity|]. cbn [app chop]. rewrite IH. destruct l, ls; reflexivity. Qed.
Lemma chop_end ls : chop ls = [] \/ exists a c r, chop ls = a ++ [c :: r].
Proof.
  induction ls as [|x l IH] using rev_ind; [left; reflexivity|]. destruct x as [|c r]; [rewrite chop_snoc; exact IH|]. right. rewrite chop_last. eauto.
Qed.
Lemma chop_prefix ls : exists n, ls = chop ls ++ repeat [] n.
Proof.
  induction ls as [|x l (n & IH)] using rev_ind; [exists O; reflexivity|]. destruct x as [|c r].
  - rewrite chop_snoc. exists (S n). rewrite IH at 1. rewrite <- app_assoc. f_equal. clear. induction n; [reflexivity|]. cbn [repeat app]. rewrite IHn. reflexivity.
  - rewrite chop_last. exists O. rewrite app_nil_r. reflexivity.
Qed.
Lemma Forall_chop (P : text -> Prop) ls : Forall P ls -> Forall P (chop ls).
Proof. intros F. destruct (chop_prefix ls) as (n & E). rewrite E in F. apply Forall_app in F. tauto. Qed.
Lemma shifted_stripped l : rstrip (shifted l) = shifted l. Proof. apply rstrip_idem. Qed.
Lemma rstrip_snoc_blank a c : u_space U c = true -> rstrip (a ++ [c]) = rstrip a.
Proof. intros S. apply rstrip_blank. auto. Qed.
Lemma rstrip_keep a c : u_space U c = false -> rstrip (a ++ [c]) = a ++ [c].
Proof. intros S. apply rstrip_last. exact S. Qed.
Lemma rstrip_keep_app a b : rstrip b = b -> b <> [] -> rstrip (a ++ b) = a ++ b.
Proof.
  intros E N. destruct (rstrip_end b) as [C|(w & c & C & S)]; [congruence|]. rewrite E in C. rewrite C, app_assoc. apply rstrip_keep. exact S.
Qed.
(** what str.rstrip() makes of it: blank lines at the end go *)
Lemma rstrip_lines a ls : Forall (fun l => rstrip l = l) ls -> chop ls <> [] -> rstrip (a ++ lines_text ls) = a ++ py_join [10] (chop ls).
Proof.
  induction ls as [|x l IH] using rev_ind; intros F N; [contradiction N; reflexivity|]. apply Forall_app in F as [F X]. inversion X as [|? ? E _]; subst. rewrite lines_text_app. destruct x as [|c r].
  - rewrite chop_snoc in *. change (lines_text [[]]) with [10]. rewrite app_assoc, rstrip_snoc_blank by exact space_10. apply IH; assumption.
  - rewrite chop_last in *. rewrite join_lines_text. unfold lines_text at 2. cbn [map concat]. rewrite app_nil_r. rewrite !app_assoc, rstrip_snoc_blank by exact space_10. apply rstrip_keep_app; [exact E|discriminate].
Qed.
Lemma rstrip_lines_none a ls : chop ls = [] -> rstrip (a ++ lines_text ls) = rstrip a.
Proof.
  intros C. destruct (chop_prefix ls) as (n & E). rewrite C in E. subst ls. apply rstrip_blank. pose proof space_10 as S10. clear C. induction n; cbn; [constructor|]. constructor; [exact S10|exact IHn].
Qed.
Lemma two_text ls ms : chop (map shifted ls) = ms -> Forall no_break ls -> Forall no_break ms.
Proof. intros <- F. apply Forall_chop. clear - F HU. induction F; constructor; [apply no_break_shifted; assumption|assumption]. Qed.
Lemma Forall_shifted ls : Forall no_break ls -> Forall no_break (map shifted ls).
Proof. induction 1; constructor; [apply no_break_shifted; assumption|assumption]. Qed.
Lemma Forall_stripped ls : Forall (fun l => rstrip l = l) (map shifted ls).
Proof. induction ls; constructor; [apply shifted_stripped|assumption]. Qed.
End lines.
Section own.
Context (U : unicode) (HU : unicode_ok U).
Local Notation rstrip := (rstrip U). Local Notation indent := (indent U). Local Notation shifted := (shifted U).
Lemma long_spec s : is_long s = true <-> long s.
Proof. unfold is_long, long. rewrite Bool.orb_true_iff, Z.ltb_lt, memZ_In. reflexivity. Qed.
Lemma short_ok v : value_ok v -> is_long v = false -> no_break v.
Proof. intros [L|N] E; [apply long_spec in L; congruence|exact N]. Qed.
Lemma indent_some_eq t : indent_some U t = indent t. Proof. destruct t; reflexivity. Qed.
Lemma split_join ls : ls <> [] -> Forall no_break ls -> exists ls', splitlines (py_join [10] ls) = ls' /\ (ls = ls' \/ ls = ls' ++ [[]]).
Proof.
  intros N F. destruct ls as [|x l] using rev_ind; [contradiction|]. apply Forall_app in F as [F X]. inversion X; subst. rewrite split_join_lines by assumption.
  destruct x; [exists l; rewrite app_nil_r; auto|eauto].
Qed.
Lemma split_join_full ls x c r : Forall no_break (ls ++ [x]) -> x = c :: r -> splitlines (py_join [10] (ls ++ [x])) = ls ++ [x].
Proof. intros F ->. apply Forall_app in F as [F X]. inversion X; subst. rewrite split_join_lines by assumption. reflexivity. Qed.
Lemma no_break_colon : no_break [58]. Proof. repeat constructor. cbn. intuition discriminate. Qed.
Lemma no_break_colon2 : no_break [58; 32]. Proof. repeat constructor; cbn; intuition discriminate. Qed.
(** a keyed meta *)
Lemma meta_keyed kv : keyed U kv -> exists k, fst kv = Some k /\
  meta_text U kv = py_join [10] (meta_lines U k (shown_value (snd kv))) /\ Forall no_break (meta_lines U k (shown_value (snd kv))) /\
  exists a c r, meta_lines U k (shown_value (snd kv)) = a ++ [c :: r].
Proof.
  destruct kv as [k v]. intros (k' & E & NK & OK & NB). cbn [fst snd] in *. subst k. exists k'. split; [reflexivity|]. unfold meta_text, meta_lines. change sval_of with shown_value. cbn [fst snd].
  set (s := shown_value v) in *. clearbody s. destruct (is_long s) eqn:L.
  - assert (C : chop (map shifted (splitlines s)) <> []).
    { intros C. apply long_spec in L. destruct (NB L) as (l & I & N). destruct (chop_prefix (map shifted (splitlines s))) as (n & E). rewrite C in E. cbn [app] in E.
      apply (in_map shifted) in I. rewrite E in I. apply repeat_spec in I. contradiction. }
    assert (FB : Forall no_break (map shifted (splitlines s))) by (apply Forall_shifted, splitlines_no_break; assumption).
    split; [|split].
    + rewrite indent_lines. replace (lines_text _) with ([] ++ lines_text (map shifted (splitlines s))) by reflexivity. rewrite (rstrip_lines U HU); [|apply Forall_stripped|exact C].
      rewrite py_join_cons by exact C. cbn [app]. rewrite <- app_assoc. reflexivity.
    + constructor; [apply no_break_app; split; [exact NK|exact no_break_colon]|]. apply Forall_chop. exact FB.
    + destruct (chop_end (map shifted (splitlines s))) as [E|(a & c & r & E)]; [contradiction|]. rewrite E. exists ((k' ++ str ":") :: a), c, r. reflexivity.
  - pose proof (short_ok s OK L) as NS. split; [|split].
    + cbn [py_join]. reflexivity.
    + constructor; [|constructor]. apply no_break_app. split; [exact NK|]. apply no_break_app. split; [exact no_break_colon2|]. apply no_break_rstrip; assumption.
    + exists []. destruct k' as [|c r]; cbn [app]; eexists _, _; reflexivity.
Qed.
Definition key_lines (metas : list (option text * option text)) : list text :=
  concat (map (fun kv => match fst kv with Some k => meta_lines U k (shown_value (snd kv)) | None => [] end) metas).
Lemma last_of_concat {A} (lss : list (list A)) (P : A -> Prop) : lss <> [] -> Forall (fun ls => exists a x, ls = a ++ [x] /\ P x) lss -> exists a x, concat lss = a ++ [x] /\ P x.
Proof.
  intros N F. destruct lss as [|ls l] using rev_ind; [contradiction|]. apply Forall_app in F as [_ F]. inversion F as [|? ? (a & x & E & PX) _]; subst.
  rewrite concat_app. cbn [concat]. rewrite app_nil_r, app_assoc. eauto.
Qed.
Lemma metas_text w metas : Forall (keyed U) metas -> (forall l, w = Some l -> no_break l /\ l <> []) ->
  splitlines (py_join [10] (match w with Some l => [l] | None => [] end ++ map (meta_text U) metas)) = match w with Some l => [l] | None => [] end ++ key_lines metas.
Proof.
  intros F HW. set (lss := match w with Some l => [[l]] | None => [] end ++ map (fun kv => match fst kv with Some k => meta_lines U k (shown_value (snd kv)) | None => [] end) metas).
  assert (E1 : match w with Some l => [l] | None => [] end ++ map (meta_text U) metas = map (py_join [10]) lss).
  { unfold lss. rewrite map_app. f_equal; [destruct w; reflexivity|]. rewrite map_map. clear - F HU. induction F as [|kv l K _ IH]; [reflexivity|]. cbn [map]. rewrite IH. f_equal.
    destruct (meta_keyed kv K) as (k & EK & T & _). rewrite EK. exact T. }
  assert (E2 : match w with Some l => [l] | None => [] end ++ key_lines metas = concat lss) by (unfold lss, key_lines; rewrite concat_app; destruct w; reflexivity).
  assert (G : Forall (fun ls => Forall no_break ls /\ exists a x, ls = a ++ [x] /\ (exists c r, x = c :: r)) lss).
  { unfold lss. apply Forall_app. split.
    - destruct w as [l|]; constructor; [|constructor]. destruct (HW l eq_refl) as [N1 N2]. split; [auto|]. exists [], l. split; [reflexivity|]. destruct l; [contradiction|eauto].
    - clear - F HU. induction F as [|kv l K _ IH]; constructor; [|exact IH]. destruct (meta_keyed kv K) as (k & EK & _ & NB & a & c & r & E). rewrite EK. split; [exact NB|]. exists a, (c :: r). split; [exact E|eauto]. }
  rewrite E1, E2. clearbody lss. clear E1 E2 HW F. rewrite join_concat.
  2:{ clear - G. induction G as [|ls l (_ & a & x & -> & _) _ IH]; constructor; [destruct a; discriminate|exact IH]. }
  destruct lss as [|ls0 l0]; [reflexivity|]. destruct (last_of_concat (ls0 :: l0) (fun x => exists c r, x = c :: r)) as (a & x & E & c & r & X); [discriminate| |].
  { clear - G. induction G as [|ls l (_ & H) _ IH]; constructor; [exact H|exact IH]. }
  rewrite E. apply (split_join_full a x c r); [|exact X]. rewrite <- E. clear - G. induction G as [|ls l (H & _) _ IH]; [constructor|]. cbn [concat]. apply Forall_app. auto.
Qed.
(** the factors *)
Lemma factor_ok att v : no_break att -> value_ok v -> factor_text U att v = py_join [10] (factor_lines U att v) /\ Forall no_break (factor_lines U att v) /\ factor_lines U att v <> [].
Proof.
  intros NA OK. unfold factor_text, factor_lines. destruct (is_long v) eqn:L.
  - split; [|split; [|discriminate]].
    + rewrite indent_lines. rewrite py_join_cons by (destruct (map shifted (splitlines v)); discriminate). rewrite join_lines_text, app_nil_r. reflexivity.
    + constructor; [apply no_break_app; split; [exact NA|exact no_break_colon]|]. apply Forall_app. split; [apply Forall_shifted, splitlines_no_break; assumption|repeat constructor].
  - pose proof (short_ok v OK L) as NV. split; [|split; [|discriminate]].
    + cbn [py_join]. rewrite <- app_assoc. reflexivity.
    + constructor; [|constructor]. apply no_break_app. split; [exact NA|]. apply no_break_app. split; [exact no_break_colon2|exact NV].
Qed.
Definition all_factor_lines (fs : list (text * text)) : list text := concat (map (fun f => factor_lines U (fst f) (snd f)) fs).
Lemma shifted_nil : shifted [] = [].
Proof.
  pose proof (space_32 U HU) as S. unfold ElemSpec.shifted, ElemModel.rstrip, rstrip_by. change (rev (str "  " ++ [])) with [32; 32]. cbn [lstrip_by]. rewrite S. reflexivity.
Qed.
Lemma factors_text fs : Forall (fun f => no_break (fst f) /\ value_ok (snd f)) fs -> exists ls,
  indent (py_join [10] (map (fun f => factor_text U (fst f) (snd f)) fs)) = lines_text ls /\ Forall (fun l => rstrip l = l) ls /\
  (map shifted (all_factor_lines fs) = ls \/ map shifted (all_factor_lines fs) = ls ++ [[]]).
Proof.
  intros F. destruct fs as [|f0 fs0]; [exists []; repeat split; [constructor|left; reflexivity]|]. set (fs := f0 :: fs0) in *. assert (NE : fs <> []) by discriminate. clearbody fs. clear f0 fs0.
  assert (E : map (fun f => factor_text U (fst f) (snd f)) fs = map (py_join [10]) (map (fun f => factor_lines U (fst f) (snd f)) fs)).
  { rewrite map_map. clear - F HU. induction F as [|f l (A & B) _ IH]; [reflexivity|]. cbn [map]. rewrite IH. f_equal. apply factor_ok; assumption. }
  rewrite E. assert (G : Forall (fun ls => ls <> [] /\ Forall no_break ls) (map (fun f => factor_lines U (fst f) (snd f)) fs)).
  { clear - F HU. induction F as [|f l (A & B) _ IH]; constructor; [|exact IH]. destruct (factor_ok (fst f) (snd f) A B) as (_ & H1 & H2). auto. }
  rewrite join_concat by (clear - G; induction G; constructor; tauto). fold (all_factor_lines fs).
  assert (N : all_factor_lines fs <> []).
  { unfold all_factor_lines. destruct fs as [|f l]; [contradiction|]. cbn [map concat] in *. inversion G as [|? ? [H _] _]; subst. destruct (factor_lines U (fst f) (snd f)); [contradiction|discriminate]. }
  assert (NB : Forall no_break (all_factor_lines fs)) by (unfold all_factor_lines; clear - G; induction G as [|ls l [_ H] _ IH]; [constructor|cbn [concat]; apply Forall_app; auto]).
  destruct (split_join _ N NB) as (ls & S & H). rewrite indent_lines, S. exists (map shifted ls). split; [reflexivity|]. split; [apply Forall_stripped|].
  destruct H as [H|H]; rewrite H; [left; reflexivity|right]. rewrite map_app. cbn [map]. rewrite shifted_nil. reflexivity.
Qed.
Lemma join_front (a x : text) l : a ++ py_join [10] (x :: l) = py_join [10] ((a ++ x) :: l).
Proof. destruct l as [|y l]; [reflexivity|]. rewrite (py_join_cons [10] x) by discriminate. rewrite (py_join_cons [10] (a ++ x)) by discriminate. apply app_assoc. Qed.
Lemma chop_cons l ls : l <> [] -> chop (l :: ls) = l :: chop ls.
Proof. intros N. cbn [chop]. destruct l; [contradiction|reflexivity]. Qed.
Theorem own_ok label metas fs : metas_ok U metas -> Forall (fun f => no_break (fst f) /\ value_ok (snd f)) fs ->
  own_text U label metas (map (fun f => factor_text U (fst f) (snd f)) fs) = text_of (own_lines U label metas fs).
Proof.
  intros M F. unfold own_text. cbv zeta. rewrite !indent_some_eq. destruct (factors_text fs F) as (FL & EF & SF & HF). rewrite EF. clear EF.
  assert (CH : forall ML, chop (map shifted ML ++ FL) = chop (map shifted (ML ++ all_factor_lines fs))).
  { intros ML. rewrite map_app. destruct HF as [-> | ->]; [reflexivity|]. rewrite app_assoc, chop_snoc. reflexivity. }
  destruct M as [K|(v & c & r & rest & -> & EV & SC & NB & K)].
  - pose proof (metas_text None metas K ltac:(discriminate)) as T. cbn [app] in T. rewrite indent_lines, T. rewrite <- lines_text_app.
    assert (existsb (fun kv : option text * option text => match fst kv with None => true | _ => false end) metas = false) as ->.
    { clear - K. induction K as [|kv l (k & E & _) _ IH]; [reflexivity|]. cbn [existsb]. rewrite E, IH. reflexivity. }
    assert (own_lines U label metas fs = (label ++ str ":") :: chop (map shifted (key_lines metas ++ all_factor_lines fs))) as ->.
    { unfold own_lines. destruct metas as [|[[k|] v] l]; [reflexivity|reflexivity|]. inversion K as [|? ? (k & E & _) _]; subst. discriminate. }
    rewrite <- CH. set (L := map shifted (key_lines metas) ++ FL). assert (SL : Forall (fun l => rstrip l = l) L) by (unfold L; apply Forall_app; split; [apply Forall_stripped|exact SF]). clearbody L.
    unfold text_of. destruct (chop L) as [|l0 ls0] eqn:C.
    + rewrite (rstrip_lines_none U HU) by exact C. change [10] with ([] ++ [10]). rewrite rstrip_snoc_blank by (apply space_10; exact HU). cbn [py_join]. rewrite <- app_nil_r. rewrite <- app_assoc. reflexivity.
    + rewrite (rstrip_lines U HU); [|exact SL|rewrite C; discriminate]. rewrite C. rewrite (py_join_cons [10] (label ++ str ":")) by discriminate. rewrite <- app_assoc. reflexivity.
  - set (w := rstrip (shown_value v)).
    assert (WE : exists w', w = c :: w').
    { unfold w. rewrite EV. destruct (rstrip_prefix U (c :: r)) as (b & E & FB). destruct (rstrip (c :: r)) as [|d w'] eqn:R; [|injection E as -> _; eauto].
      exfalso. cbn [app] in E. subst b. inversion FB; congruence. }
    destruct WE as (w' & WE). assert (WN : no_break w) by (apply no_break_rstrip; exact NB).
    pose proof (metas_text (Some w) rest K) as T. cbn [app] in T.
    assert (ET : map (meta_text U) ((None, v) :: rest) = w :: map (meta_text U) rest) by reflexivity. rewrite ET. rewrite indent_lines, T by (intros l E; injection E as <-; split; [exact WN|rewrite WE; discriminate]).
    assert (SW : shifted w = str "  " ++ w) by (apply rstrip_keep_app; [apply rstrip_idem|rewrite WE; discriminate]). cbn [existsb fst orb map].
    assert (own_lines U label ((None, v) :: rest) fs = (label ++ str ": " ++ w) :: chop (map shifted (key_lines rest ++ all_factor_lines fs))) as -> by reflexivity.
    rewrite <- CH. rewrite SW. rewrite <- lines_text_app. cbn [app].
    assert (LS : ElemModel.lstrip U (lines_text ((str "  " ++ w) :: map shifted (key_lines rest) ++ FL)) = lines_text (w :: map shifted (key_lines rest) ++ FL)).
    { unfold lines_text. cbn [map concat]. rewrite <- !app_assoc. unfold ElemModel.lstrip. rewrite lstrip_blank by (repeat constructor; apply space_32; exact HU). rewrite WE. cbn [app]. apply lstrip_head. exact SC. }
    change ([32; 32] ++ w) with (str "  " ++ w). change (32 :: 32 :: w) with (str "  " ++ w). rewrite LS. set (L := map shifted (key_lines rest) ++ FL).
    assert (SL : Forall (fun l => rstrip l = l) L) by (unfold L; apply Forall_app; split; [apply Forall_stripped|exact SF]). clearbody L.
    assert (CW : chop (w :: L) = w :: chop L) by (apply chop_cons; rewrite WE; discriminate).
    change (32 :: lines_text (w :: L)) with ([32] ++ lines_text (w :: L)). rewrite (rstrip_lines U HU); [|constructor; [apply rstrip_idem|exact SL]|rewrite CW; discriminate]. rewrite CW. unfold text_of. rewrite join_front. change (label ++ 58 :: py_join [10] (([32] ++ w) :: chop L)) with (label ++ [58] ++ py_join [10] (([32] ++ w) :: chop L)). rewrite !join_front. reflexivity.
Qed.
End own.
