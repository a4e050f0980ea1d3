From Verif Require Import PyStr PyStrProof PyStrProof2 BaseProof PgPassModel PgPassSpec.

Definition dblc (c : Z) : text := if c =? 92 then [92; 92] else [c].
Definition dbl (p : text) : text := flat_map dblc p.
Lemma esc_dbl p : ~ In 58 p -> esc p = dbl p.
Proof.
  induction p as [|c p IH]; intros N; [reflexivity|]. unfold esc, dbl in *. cbn [flat_map]. rewrite IH by (intros H; apply N; right; exact H).
  unfold esc_char, dblc. replace (c =? 58) with false; [reflexivity|]. symmetry. apply Z.eqb_neq. intros ->. apply N. left. reflexivity.
Qed.
Lemma dbl_nocolon p : ~ In 58 p -> ~ In 58 (dbl p).
Proof.
  intros N H. unfold dbl in H. apply in_flat_map in H as (c & I & H). unfold dblc in H.
  destruct (c =? 92); cbn in H; [lia|]. destruct H as [->|[]]. contradiction.
Qed.
Lemma unescape_dbl_app p rest : unescape (dbl p ++ rest) = p ++ unescape rest.
Proof.
  unfold unescape, py_replace. induction p as [|c p IH]; [reflexivity|].
  cbn [dbl flat_map]. fold (dbl p). unfold dblc. destruct (c =? 92) eqn:E.
  - apply Z.eqb_eq in E. subst c. cbn [app]. cbn -[dbl]. now rewrite IH.
  - cbn [app replace_go prefixb]. replace (92 =? c) with false by lia. cbn [andb]. now rewrite IH.
Qed.
Lemma unescape_dbl p : unescape (dbl p) = p.
Proof. rewrite <- (app_nil_r (dbl p)), unescape_dbl_app. cbn. apply app_nil_r. Qed.
Lemma tb_snoc x : trailing_backslashes (x ++ [92]) = trailing_backslashes x + 1.
Proof.
  unfold trailing_backslashes. rewrite rstrip_app by (repeat constructor). rewrite len_app. unfold len at 2. cbn. lia.
Qed.
Lemma tb_other x c : c <> 92 -> trailing_backslashes (x ++ [c]) = 0.
Proof. intros N. unfold trailing_backslashes. rewrite rstrip_last by lia. lia. Qed.
Lemma tb_dbl p : trailing_backslashes (dbl p) mod 2 = 0.
Proof.
  induction p as [|c p IH] using rev_ind; [reflexivity|]. unfold dbl in *. rewrite flat_map_app. cbn [flat_map].
  rewrite app_nil_r. unfold dblc at 2. destruct (c =? 92) eqn:E.
  - change [92; 92] with ([92] ++ [92]). rewrite app_assoc, !tb_snoc. rewrite <- Z.add_assoc. change (1 + 1) with (1 * 2).
    rewrite Z_mod_plus_full. exact IH.
  - rewrite tb_other by lia. reflexivity.
Qed.
Lemma tb_dbl1 p : trailing_backslashes (dbl p ++ [92]) mod 2 = 1.
Proof.
  rewrite tb_snoc. assert (H := tb_dbl p). rewrite Z.add_mod by lia. rewrite H. reflexivity.
Qed.

(** the pieces of an escaped field between colons *)
Fixpoint pieces (ps : list text) : list text :=
  match ps with
  | [] => []
  | [p] => [dbl p]
  | p :: ps => (dbl p ++ [92]) :: pieces ps
  end.
Lemma pieces_cons p q ps : pieces (p :: q :: ps) = (dbl p ++ [92]) :: pieces (q :: ps).
Proof. reflexivity. Qed.
Lemma pieces_nonempty ps : ps <> [] -> pieces ps <> [].
Proof. destruct ps as [|p [|q ps]]; [congruence|discriminate|discriminate]. Qed.
Lemma pieces_nocolon ps : Forall (fun p => ~ In 58 p) ps -> Forall (fun p => ~ In 58 p) (pieces ps).
Proof.
  induction 1 as [|p ps N F IH]; [constructor|]. destruct ps as [|q ps].
  - constructor; [apply dbl_nocolon, N|constructor].
  - rewrite pieces_cons. constructor; [|exact IH]. rewrite in_app_iff. intros [H|[H|[]]]; [eapply dbl_nocolon; eauto|discriminate].
Qed.
Lemma esc_app a b : esc (a ++ b) = esc a ++ esc b.
Proof. unfold esc. apply flat_map_app. Qed.
Lemma esc_join ps : ps <> [] -> Forall (fun p => ~ In 58 p) ps -> esc (py_join [58] ps) = py_join [58] (pieces ps).
Proof.
  intros NE F. induction F as [|p ps N F IH]; [congruence|]. destruct ps as [|q ps].
  - cbn [py_join pieces]. apply esc_dbl, N.
  - rewrite pieces_cons, !py_join_cons by (try discriminate; apply pieces_nonempty; discriminate).
    rewrite !esc_app, IH by discriminate. rewrite (esc_dbl p N). rewrite (py_join_cons [58] _ (pieces (q :: ps))) by (apply pieces_nonempty; discriminate). rewrite <- app_assoc. reflexivity.
Qed.

Lemma on_last_app f r y : on_last f (r ++ [y]) = r ++ [f y].
Proof. unfold on_last. now rewrite removelast_last, last_last. Qed.
Lemma pyslice_drop_last (y : text) c : pyslice (y ++ [c]) 0 (-1) = y.
Proof.
  unfold pyslice, py_bound, len. rewrite app_length. cbn [length]. change (0 <? 0) with false. change (-1 <? 0) with true. cbv iota.
  rewrite Z.min_l by lia. change (Z.to_nat 0) with O. cbn [skipn].
  match goal with |- firstn ?n _ = _ => replace n with (length y) by lia end. apply firstn_app_exact. reflexivity.
Qed.
Lemma pass_loop_cont ps rest : ps <> [] -> forall r y,
  pass_loop true (r ++ [y ++ [92]]) (pieces ps ++ rest) = pass_loop false (r ++ [y ++ [58] ++ py_join [58] ps]) rest.
Proof.
  induction ps as [|p ps IH]; intros NE r y; [congruence|]. destruct ps as [|q ps].
  - cbn [pieces app pass_loop]. rewrite on_last_app, pyslice_drop_last, unescape_dbl, tb_dbl. reflexivity.
  - rewrite pieces_cons. cbn [app pass_loop]. rewrite on_last_app, pyslice_drop_last, unescape_dbl_app, tb_dbl1.
    change (1 =? 1) with true. change (unescape [92]) with [92].
    replace (y ++ 58 :: p ++ [92]) with ((y ++ [58] ++ p) ++ [92]) by (rewrite <- !app_assoc; reflexivity).
    rewrite IH by discriminate. rewrite (py_join_cons [58] p (q :: ps)) by discriminate. rewrite <- !app_assoc. reflexivity.
Qed.
Lemma pass_loop_field ps rest r : ps <> [] ->
  pass_loop false r (pieces ps ++ rest) = pass_loop false (r ++ [py_join [58] ps]) rest.
Proof.
  intros NE. destruct ps as [|p [|q ps]]; [congruence| |].
  - cbn [pieces app pass_loop]. rewrite unescape_dbl, tb_dbl. reflexivity.
  - rewrite pieces_cons. cbn [app pass_loop]. rewrite unescape_dbl_app, tb_dbl1. change (1 =? 1) with true.
    change (unescape [92]) with [92]. rewrite pass_loop_cont by discriminate. rewrite (py_join_cons [58] p (q :: ps)) by discriminate. reflexivity.
Qed.
Definition fpieces (f : text) : list text := pieces (py_split [58] f).
Lemma fpieces_ne f : fpieces f <> [].
Proof. apply pieces_nonempty, py_split_nonempty. Qed.
Lemma fpieces_field f rest r : pass_loop false r (fpieces f ++ rest) = pass_loop false (r ++ [f]) rest.
Proof. unfold fpieces. rewrite pass_loop_field by apply py_split_nonempty. now rewrite join_split. Qed.
Lemma esc_fpieces f : esc f = py_join [58] (fpieces f).
Proof.
  rewrite <- (join_split 58 f) at 1. apply esc_join; [apply py_split_nonempty|apply split1_no_sep].
Qed.
Lemma join_app a b : a <> [] -> b <> [] -> py_join [58] (a ++ b) = py_join [58] a ++ [58] ++ py_join [58] b.
Proof.
  induction a as [|x a IH]; intros NA NB; [congruence|]. destruct a as [|y a].
  - cbn [app]. rewrite py_join_cons by exact NB. reflexivity.
  - change ((x :: y :: a) ++ b) with (x :: (y :: a) ++ b).
    rewrite (py_join_cons [58] x ((y :: a) ++ b)) by discriminate. rewrite IH by (try discriminate; auto).
    rewrite (py_join_cons [58] x (y :: a)) by discriminate. rewrite <- !app_assoc. reflexivity.
Qed.
Definition epieces (e : entry) : list text :=
  fpieces (e_host e) ++ fpieces (e_port e) ++ fpieces (e_db e) ++ fpieces (e_user e) ++ fpieces (e_pass e).
Lemma app_ne {A} (a b : list A) : a <> [] -> a ++ b <> [].
Proof. destruct a; [congruence|discriminate]. Qed.
Lemma split_line e : py_split [58] (line_of e) = epieces e.
Proof.
  assert (E : line_of e = py_join [58] (epieces e)).
  { unfold line_of, epieces. rewrite !join_app by (repeat apply app_ne; apply fpieces_ne). now rewrite <- !esc_fpieces. }
  rewrite E. apply split_join; [apply app_ne, fpieces_ne|].
  unfold epieces. repeat (apply Forall_app; split); apply pieces_nocolon, split1_no_sep.
Qed.
Lemma esc_nil f : esc f = [] -> f = [].
Proof. destruct f as [|c f]; [reflexivity|]. cbn. unfold esc_char. destruct (c =? 58), (c =? 92); discriminate. Qed.
Lemma line_solid U e : unicode_ok U -> no_outer_blank U e -> line_of e <> [] /\ solid (u_space U) (line_of e).
Proof.
  intros UO [H1 H2].
  assert (SP : forall c, 0 <= c < 128 -> ascii_space c = false -> u_space U c = false) by (intros c R E; rewrite (uo_space U UO) by lia; exact E).
  assert (Hd : exists c r, line_of e = c :: r /\ u_space U c = false).
  { unfold line_of. destruct (e_host e) as [|c h] eqn:E.
    - eexists 58, _. split; [reflexivity|]. apply SP; [lia|reflexivity].
    - assert (X := H1 c h eq_refl). cbn [esc flat_map]. unfold esc_char.
      destruct (c =? 58) eqn:E1; [|destruct (c =? 92) eqn:E2].
      + eexists 92, _. split; [reflexivity|]. apply SP; [lia|reflexivity].
      + eexists 92, _. split; [reflexivity|]. apply SP; [lia|reflexivity].
      + eexists c, _. split; [reflexivity|exact X]. }
  assert (Tl : exists p c, line_of e = p ++ [c] /\ u_space U c = false).
  { unfold line_of. remember (e_pass e) as w eqn:Ew. destruct w as [|c w] using rev_ind.
    - rewrite !app_assoc. eexists _, 58. split; [rewrite app_nil_r; reflexivity|]. apply SP; [lia|reflexivity].
    - clear IHw. rewrite esc_app. cbn [esc flat_map]. rewrite app_nil_r. unfold esc_char.
      destruct (c =? 58) eqn:E1; [|destruct (c =? 92) eqn:E2].
      + change [92; 58] with ([92] ++ [58]). rewrite !app_assoc. eexists _, 58. split; [reflexivity|]. apply SP; [lia|reflexivity].
      + change [92; 92] with ([92] ++ [92]). rewrite !app_assoc. eexists _, 92. split; [reflexivity|]. apply SP; [lia|reflexivity].
      + rewrite !app_assoc. eexists _, c. split; [reflexivity|]. eapply H2. reflexivity. }
  destruct Hd as (c & r & E & Hc). split; [rewrite E; discriminate|]. unfold solid. rewrite E. split; [exact Hc|].
  rewrite <- E. destruct Tl as (p & d & -> & Hd). rewrite last_last. exact Hd.
Qed.
Lemma line_split U e a b : unicode_ok U -> no_outer_blank U e ->
  Forall (fun c => u_space U c = true) a -> Forall (fun c => u_space U c = true) b ->
  pass_split U (a ++ line_of e ++ b) = Some [e_host e; e_port e; e_db e; e_user e; e_pass e].
Proof.
  intros UO NB FA FB. destruct (line_solid U e UO NB) as [NE SO]. unfold pass_split, py_strip.
  rewrite strip_around by auto. destruct (line_of e) as [|c r] eqn:E; [congruence|]. rewrite <- E, split_line.
  unfold epieces. rewrite !fpieces_field. rewrite <- (app_nil_r (fpieces (e_pass e))), fpieces_field. reflexivity.
Qed.
Lemma parse_lines U es ls : unicode_ok U -> Forall2 (fun e l => exists a b, l = a ++ line_of e ++ b /\
     Forall (fun c => u_space U c = true) a /\ Forall (fun c => u_space U c = true) b) es ls ->
  Forall (no_outer_blank U) es ->
  pass_parse U ls = map (fun e => (e_pass e, [e_host e; e_port e; e_db e; e_user e])) es.
Proof.
  intros UO F. induction F as [|e l es ls (a & b & -> & FA & FB) F IH]; intros NB; [reflexivity|].
  inversion NB; subst. cbn [pass_parse map]. rewrite line_split by auto. rewrite IH by auto. reflexivity.
Qed.
Lemma star_or w x : seqb w star || seqb w x = true <-> w = [42] \/ w = x.
Proof. rewrite orb_true_iff, !seqb_eq. reflexivity. Qed.
Lemma lookup_entries es user host port db :
  exists r, lookup_password (map (fun e => (e_pass e, [e_host e; e_port e; e_db e; e_user e])) es) user host port db = Ok r /\
    first_match user host port db es r.
Proof.
  induction es as [|e es (r & E & F)]; [exists None; split; [reflexivity|constructor]|].
  cbn [map lookup_password].
  destruct ((seqb (e_user e) star || seqb (e_user e) user) && (seqb (e_host e) star || seqb (e_host e) host)
             && (seqb (e_port e) star || seqb (e_port e) port) && (seqb (e_db e) star || seqb (e_db e) db)) eqn:M.
  - exists (Some (e_pass e)). split; [reflexivity|]. exists [], e, es. rewrite !andb_true_iff, !star_or in M.
    split; [reflexivity|]. split; [unfold matches; tauto|]. split; [reflexivity|constructor].
  - exists r. split; [exact E|].
    assert (N : ~ matches user host port db e).
    { intros (A & B & C & D). rewrite <- star_or in A, B, C, D. rewrite A, B, C, D in M. discriminate. }
    destruct r as [w|]; cbn [first_match] in *.
    + destruct F as (bf & e' & af & -> & Me & P & Fb). exists (e :: bf), e', af. split; [reflexivity|]. split; [exact Me|].
      split; [exact P|]. constructor; assumption.
    + constructor; assumption.
Qed.
(** a line that is not an entry: fewer separators than four *)
Lemma pass_loop_length xs : forall c r, (length (pass_loop c r xs) <= length r + length xs)%nat \/ r = [].
Proof.
  induction xs as [|x xs IH]; intros c r; [left; cbn; lia|]. cbn [pass_loop]. destruct r as [|y r]; [right; reflexivity|left].
  destruct c.
  - destruct (IH (trailing_backslashes x mod 2 =? 1) (on_last (fun y => pyslice y 0 (-1) ++ [58] ++ unescape x) (y :: r))) as [H|H].
    + unfold on_last in H at 2. rewrite app_length in H. cbn [length] in *.
      assert (length (removelast (y :: r)) = length r) by (rewrite removelast_firstn_len, firstn_length; cbn [length]; lia). lia.
    + unfold on_last in H. destruct (removelast (y :: r)); discriminate.
  - destruct (IH (trailing_backslashes x mod 2 =? 1) ((y :: r) ++ [unescape x])) as [H|H]; [|discriminate].
    rewrite app_length in H. cbn [length] in *. lia.
Qed.
