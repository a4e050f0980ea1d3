From Verif Require Import Base BaseProof PyList PyListProof DbapiModel DbapiSpec.
Section rows.
Context {A : Type}.
Implicit Types (buf : list A) (src : list (res (list A))).
(** the rows a portal will still give *)
Definition left_of (p : portal A) : list A := skipn (p_pos p) (p_buf p) ++ rows_of (p_src p).
Lemma rows_ok c src : rows_of (Ok c :: src) = c ++ rows_of src. Proof. reflexivity. Qed.
Lemma rows_err e src : rows_of (Err e :: src : list (res (list A))) = rows_of src. Proof. reflexivity. Qed.
Lemma skip_none (buf : list A) pos : nth_error buf pos = None -> skipn pos buf = [].
Proof. intros H. apply nth_error_None in H. now apply skipn_all2. Qed.
Lemma skip_some (buf : list A) pos a : nth_error buf pos = Some a -> skipn pos buf = a :: skipn (S pos) buf.
Proof. revert pos. induction buf as [|b l IH]; intros [|pos] H; try discriminate; cbn in *; [now injection H as ->|now apply IH]. Qed.
Lemma next_spec src : forall buf pos, let '(p, r) := portal_next_go buf pos src in
  match r with
  | Ok a => skipn pos buf ++ rows_of src = a :: left_of p
  | Err e => skipn pos buf ++ rows_of src = left_of p /\ (error_free src -> e = StopIteration /\ left_of p = [])
  end /\ (error_free src -> error_free (p_src p)).
Proof.
  induction src as [|[c|e] src IH]; intros buf pos; cbn [portal_next_go]; destruct (nth_error buf pos) as [a|] eqn:N.
  1, 3, 5: split; [unfold left_of; cbn [p_pos p_buf p_src]; rewrite (skip_some _ _ _ N); reflexivity|auto].
  - split; [|auto]. unfold left_of. cbn [p_pos p_buf p_src]. rewrite (skip_none _ _ N). auto.
  - specialize (IH c O). destruct (portal_next_go c 0 src) as [p r]. cbn [skipn] in IH. rewrite (skip_none _ _ N), rows_ok. cbn [app]. destruct IH as [I1 I2]. split.
    + destruct r; [exact I1|]. destruct I1 as [I1 I3]. split; [exact I1|]. intros F. inversion F; subst. auto.
    + intros F. inversion F; subst. auto.
  - split.
    + unfold left_of. cbn [p_pos p_buf p_src]. rewrite rows_err. split; [reflexivity|]. intros F. inversion F; subst. discriminate.
    + intros F. inversion F; subst. discriminate.
Qed.
Lemma readall_spec src : forall buf, let '(p, r) := readall_go buf src in
  match r with
  | Ok l => l = buf ++ rows_of src /\ left_of p = []
  | Err e => left_of p = buf ++ rows_of src /\ ~ error_free src
  end /\ (error_free src -> error_free (p_src p)).
Proof.
  induction src as [|[c|e] src IH]; intros buf; cbn [readall_go].
  - unfold left_of. cbn. rewrite app_nil_r. auto.
  - specialize (IH (buf ++ c)). destruct (readall_go (buf ++ c) src) as [p r]. rewrite rows_ok, app_assoc. destruct IH as [I1 I2]. split.
    + destruct r; [exact I1|]. destruct I1 as [I1 I3]. split; [exact I1|]. intros F. inversion F; subst. auto.
    + intros F. inversion F; subst. auto.
  - split; [|intros F; inversion F; subst; discriminate]. unfold left_of. cbn [p_pos p_buf p_src skipn]. rewrite rows_err. split; [reflexivity|]. intros F. inversion F; subst. discriminate.
Qed.
Lemma del_to_nonneg buf e : 0 <= e -> del_to buf e = skipn (Z.to_nat e) buf.
Proof.
  intros H. unfold del_to, py_bound. destruct (Z.ltb_spec e 0); [lia|]. destruct (Z.le_ge_cases e (len buf)).
  - now rewrite Z.min_l by lia.
  - rewrite Z.min_r by lia. rewrite !skipn_all2; [reflexivity| |]; unfold len in *; lia.
Qed.
Lemma skip_plus a b (l : list A) : skipn a (skipn b l) = skipn (b + a) l.
Proof. revert l. induction b as [|b IH]; intros l; [reflexivity|]. destruct l; cbn; [now rewrite skipn_nil|apply IH]. Qed.
Lemma read_spec n src : forall buf pos, (pos <= length buf)%nat -> let '(p, r) := read_go (Z.of_nat n) buf pos src in
  match r with
  | Ok l => l = firstn n (skipn pos buf ++ rows_of src) /\ left_of p = skipn n (skipn pos buf ++ rows_of src)
  | Err e => left_of p = skipn pos buf ++ rows_of src /\ ~ error_free src
  end /\ (error_free src -> error_free (p_src p)) /\ (p_pos p <= length (p_buf p))%nat.
Proof.
  induction src as [|c src IH]; intros buf pos P; cbn [read_go].
  - destruct (Z.ltb_spec (len buf - Z.of_nat pos) (Z.of_nat n)) as [L|L].
    + split; [|split; [auto|cbn; lia]]. cbn [rows_of flat_map]. rewrite app_nil_r. unfold left_of. cbn [p_pos p_buf p_src skipn rows_of flat_map]. rewrite app_nil_r, del_to_nonneg by apply len_nonneg.
      assert (SL : (length (skipn pos buf) <= n)%nat) by (rewrite skipn_length; unfold len in L; lia).
      rewrite (firstn_all2 (n := n)) by exact SL. rewrite (skipn_all2 (n := n)) by exact SL. split.
      * rewrite pyslice_firstn_skipn by (unfold len; lia). rewrite Nat2Z.id. apply firstn_all2. rewrite skipn_length. unfold len. lia.
      * apply skipn_all2. unfold len. lia.
    + split; [|split; [auto|cbn; lia]]. cbn [rows_of flat_map]. rewrite app_nil_r. unfold left_of. cbn [p_pos p_buf p_src skipn rows_of flat_map]. rewrite app_nil_r, del_to_nonneg by lia.
      rewrite pyslice_firstn_skipn by lia. rewrite Nat2Z.id. split; [f_equal; lia|]. rewrite skip_plus. f_equal. lia.
  - destruct (Z.ltb_spec (len buf - Z.of_nat pos) (Z.of_nat n)) as [L|L].
    + destruct c as [c|e].
      * specialize (IH (buf ++ c) pos). rewrite app_length in IH. specialize (IH ltac:(lia)). destruct (read_go (Z.of_nat n) (buf ++ c) pos src) as [p r]. rewrite rows_ok.
        replace (skipn pos (buf ++ c) ++ rows_of src) with (skipn pos buf ++ c ++ rows_of src) in IH by (rewrite skipn_app; replace (pos - length buf)%nat with O by lia; cbn [skipn]; now rewrite app_assoc).
        destruct IH as (I1 & I2 & I3). split; [|split; [|exact I3]].
        -- destruct r; [exact I1|]. destruct I1 as [I1 I4]. split; [exact I1|]. intros F. inversion F; subst. auto.
        -- intros F. inversion F; subst. auto.
      * split; [|split; [intros F; inversion F; subst; discriminate|exact P]]. unfold left_of. cbn [p_pos p_buf p_src]. rewrite rows_err. split; [reflexivity|]. intros F. inversion F; subst. discriminate.
    + split; [|split; [auto|cbn; lia]]. unfold left_of. cbn [p_pos p_buf p_src skipn]. rewrite del_to_nonneg by lia. rewrite pyslice_firstn_skipn by lia. rewrite Nat2Z.id.
      assert (SL : (n <= length (skipn pos buf))%nat) by (rewrite skipn_length; unfold len in L; lia).
      rewrite firstn_app. replace (n - length (skipn pos buf))%nat with O by lia. cbn [firstn]. rewrite app_nil_r. split; [f_equal; lia|].
      rewrite skipn_app. replace (n - length (skipn pos buf))%nat with O by lia. cbn [skipn]. f_equal. rewrite skip_plus. f_equal. lia.
Qed.
Lemma next_pos src : forall buf pos, (pos <= length buf)%nat -> let p := fst (portal_next_go buf pos src) in (p_pos p <= length (p_buf p))%nat.
Proof.
  induction src as [|[c|e] src IH]; intros buf pos P; cbn [portal_next_go]; destruct (nth_error buf pos) as [a|] eqn:N; cbn [fst p_pos p_buf]; try exact P.
  1, 2, 4: enough (pos < length buf)%nat by lia; apply nth_error_Some; congruence.
  apply IH. lia.
Qed.
Lemma readall_pos src : forall buf, let p := fst (readall_go buf src) in (p_pos p <= length (p_buf p))%nat.
Proof. induction src as [|[c|e] src IH]; intros buf; cbn [readall_go]; [cbn; lia|apply IH|cbn; lia]. Qed.
(** ** cursors *)
Definition pwf (p : portal A) : Prop := (p_pos p <= length (p_buf p))%nat /\ error_free (p_src p).
Definition rel (c : cursor A) (s : scursor A) : Prop :=
  c_arraysize c = s_arraysize s /\ 0 <= c_arraysize c /\
  match c_portals c, s_sets s with
  | None, None => True
  | Some ps, Some ls => Forall pwf ps /\ map left_of ps = ls
  | _, _ => False
  end.
Lemma or_size_wanted n a : 0 <= a -> (match n with Some k => 0 <= k | None => True end) -> or_size n a = Z.of_nat (wanted n a).
Proof. intros H N. unfold or_size, wanted. destruct n as [[|q|q]|]; cbn; try (destruct (Z.eqb_spec a 0); lia); lia. Qed.
Lemma step_rel c s o : rel c s -> good_op o -> good_exec o -> rel (fst (cstep c o)) (fst (sstep s o)) /\ snd (cstep c o) = snd (sstep s o).
Proof.
  destruct c as [cp ca], s as [ss sa]. intros (R1 & R2 & R3) G E. cbn [c_arraysize s_arraysize c_portals s_sets] in *. subst sa.
  destruct cp as [ps|], ss as [ls|]; try contradiction.
  2:{ destruct o; cbn; (split; [split; [reflexivity|split; [try assumption; exact G|exact I]]|reflexivity]). }
  destruct R3 as [W M]. destruct o as [src| | | |n| | |n|]; cbn [cstep sstep c_portals s_sets].
  - cbn [fst snd]. split; [|reflexivity]. split; [reflexivity|]. split; [exact R2|]. cbn [c_portals s_sets]. split; [constructor; [split; [cbn; lia|exact E]|exact W]|]. cbn [map]. now rewrite M.
  - destruct ps as [|p ps]; cbn [fst snd]; (split; [|reflexivity]); (split; [reflexivity|]); (split; [exact R2|]); cbn [c_portals s_sets]; cbn [map] in M; subst ls; cbn [tl]; [auto|]. inversion W; auto.
  - unfold with_portal, on_set. cbn [c_portals s_sets c_arraysize s_arraysize]. destruct ps as [|p ps]; cbn [map] in M; subst ls; [cbn; split; [split; [reflexivity|split; [exact R2|cbn; auto]]|reflexivity]|].
    inversion W as [|? ? [P1 P2] W']; subst. unfold portal_next. pose proof (next_spec (p_src p) (p_buf p) (p_pos p)) as N. pose proof (next_pos (p_src p) (p_buf p) (p_pos p) P1) as NP. fold (left_of p) in N.
    destruct (portal_next_go (p_buf p) (p_pos p) (p_src p)) as [p' [a|e]]; cbn [fst] in NP; destruct N as [N1 N2]; cbn [fst snd].
    + rewrite N1. split; [|reflexivity]. split; [reflexivity|]. split; [exact R2|]. cbn [c_portals s_sets]. split; [constructor; [split; auto|exact W']|reflexivity].
    + destruct N1 as [N1 N3]. destruct (N3 P2) as [-> N4]. rewrite N1, N4. split; [|reflexivity]. split; [reflexivity|]. split; [exact R2|]. cbn [c_portals s_sets]. split; [constructor; [split; auto|exact W']|]. cbn [map]. now rewrite N4.
  - unfold with_portal, on_set. cbn [c_portals s_sets c_arraysize s_arraysize]. destruct ps as [|p ps]; cbn [map] in M; subst ls; [cbn; split; [split; [reflexivity|split; [exact R2|cbn; auto]]|reflexivity]|].
    inversion W as [|? ? [P1 P2] W']; subst. unfold portal_next. pose proof (next_spec (p_src p) (p_buf p) (p_pos p)) as N. pose proof (next_pos (p_src p) (p_buf p) (p_pos p) P1) as NP. fold (left_of p) in N.
    destruct (portal_next_go (p_buf p) (p_pos p) (p_src p)) as [p' [a|e]]; cbn [fst] in NP; destruct N as [N1 N2]; cbn [fst snd].
    + rewrite N1. split; [|reflexivity]. split; [reflexivity|]. split; [exact R2|]. cbn [c_portals s_sets]. split; [constructor; [split; auto|exact W']|reflexivity].
    + destruct N1 as [N1 N3]. destruct (N3 P2) as [-> N4]. rewrite N1, N4. split; [|reflexivity]. split; [reflexivity|]. split; [exact R2|]. cbn [c_portals s_sets]. split; [constructor; [split; auto|exact W']|]. cbn [map]. now rewrite N4.
  - unfold with_portal, on_set. cbn [c_portals s_sets c_arraysize s_arraysize]. destruct ps as [|p ps]; cbn [map] in M; subst ls; [cbn; split; [split; [reflexivity|split; [exact R2|cbn; auto]]|reflexivity]|].
    inversion W as [|? ? [P1 P2] W']; subst. unfold portal_read. rewrite (or_size_wanted n ca R2) by (destruct n; [exact G|exact I]).
    pose proof (read_spec (wanted n ca) (p_src p) (p_buf p) (p_pos p) P1) as N. fold (left_of p) in N.
    destruct (read_go _ _ _ _) as [p' [l|e]]; destruct N as (N1 & N2 & N3); [|exfalso; destruct N1; contradiction]. destruct N1 as [-> N1]. cbn [fst snd].
    split; [|reflexivity]. split; [reflexivity|]. split; [exact R2|]. cbn [c_portals s_sets]. split; [constructor; [split; auto|exact W']|]. cbn [map]. now rewrite N1.
  - unfold with_portal, on_set. cbn [c_portals s_sets c_arraysize s_arraysize]. destruct ps as [|p ps]; cbn [map] in M; subst ls; [cbn; split; [split; [reflexivity|split; [exact R2|cbn; auto]]|reflexivity]|].
    inversion W as [|? ? [P1 P2] W']; subst. unfold portal_readall. pose proof (readall_spec (p_src p) (skipn (p_pos p) (p_buf p))) as N. pose proof (readall_pos (p_src p) (skipn (p_pos p) (p_buf p))) as NP. fold (left_of p) in N.
    destruct (readall_go _ _) as [p' [l|e]]; cbn [fst] in NP; destruct N as [N1 N2]; [|exfalso; destruct N1; contradiction]. destruct N1 as [-> N1]. cbn [fst snd].
    split; [|reflexivity]. split; [reflexivity|]. split; [exact R2|]. cbn [c_portals s_sets]. split; [constructor; [split; auto|exact W']|]. cbn [map]. now rewrite N1.
  - destruct ps as [|p ps]; cbn [map] in M; subst ls; cbn [fst snd]; [split; [split; [reflexivity|split; [exact R2|cbn; auto]]|reflexivity]|].
    inversion W; subst. split; [split; [reflexivity|split; [exact R2|cbn; auto]]|]. destruct ps; [reflexivity|]. cbn [map]. unfold len. cbn [length]. now rewrite map_length.
  - cbn [fst snd]. split; [|reflexivity]. split; [reflexivity|]. split; [exact G|cbn; auto].
  - cbn [fst snd]. split; [|reflexivity]. split; [reflexivity|]. split; [exact R2|exact I].
Qed.
Lemma run_rel ops : forall c s, rel c s -> Forall good_op ops -> Forall good_exec ops -> rel (fst (crun c ops)) (fst (srun s ops)) /\ snd (crun c ops) = snd (srun s ops).
Proof.
  induction ops as [|o ops IH]; intros c s R G E; [auto|]. inversion G; subst. inversion E; subst. cbn [crun srun].
  destruct (step_rel c s o R) as [R1 R2]; auto. destruct (cstep c o) as [c1 x], (sstep s o) as [s1 y]. cbn [fst snd] in *. subst y. destruct (IH c1 s1 R1) as [I1 I2]; auto.
  destruct (crun c1 ops), (srun s1 ops). cbn [fst snd] in *. now subst.
Qed.
(** ** with errors: nothing is lost and nothing is repeated *)
Lemma fetch_keeps o c p ps : c_portals c = Some (p :: ps) -> (p_pos p <= length (p_buf p))%nat -> 0 <= c_arraysize c -> is_fetch o -> good_op o ->
  exists p', c_portals (fst (cstep c o)) = Some (p' :: ps) /\ (p_pos p' <= length (p_buf p'))%nat /\ 0 <= c_arraysize (fst (cstep c o)) /\
    left_of p = delivered [snd (cstep c o)] ++ left_of p'.
Proof.
  intros C P AS F G. destruct o as [src| | | |n| | |n|]; try destruct F; cbn [cstep]; unfold with_portal; rewrite ?C.
  - unfold portal_next. pose proof (next_spec (p_src p) (p_buf p) (p_pos p)) as N. pose proof (next_pos (p_src p) (p_buf p) (p_pos p) P) as NP. fold (left_of p) in N.
    destruct (portal_next_go _ _ _) as [p' [a|e]]; cbn [fst] in NP; exists p'; destruct N as [N1 N2]; cbn [fst snd c_portals c_arraysize]; (split; [reflexivity|]); (split; [exact NP|]); (split; [exact AS|]).
    + cbn. exact N1.
    + destruct N1 as [N1 _]. destruct e; exact N1.
  - unfold portal_next. pose proof (next_spec (p_src p) (p_buf p) (p_pos p)) as N. pose proof (next_pos (p_src p) (p_buf p) (p_pos p) P) as NP. fold (left_of p) in N.
    destruct (portal_next_go _ _ _) as [p' [a|e]]; cbn [fst] in NP; exists p'; destruct N as [N1 N2]; cbn [fst snd c_portals c_arraysize]; (split; [reflexivity|]); (split; [exact NP|]); (split; [exact AS|]).
    + cbn. exact N1.
    + destruct N1 as [N1 _]. exact N1.
  - unfold portal_read. rewrite (or_size_wanted n _ AS) by (destruct n; [exact G|exact I]). pose proof (read_spec (wanted n (c_arraysize c)) (p_src p) (p_buf p) (p_pos p) P) as N. fold (left_of p) in N.
    destruct (read_go _ _ _ _) as [p' [l|e]]; destruct N as (N1 & N2 & N3); exists p'; cbn [fst snd c_portals c_arraysize]; (split; [reflexivity|]); (split; [exact N3|]); (split; [exact AS|]).
    + destruct N1 as [-> ->]. cbn. rewrite app_nil_r. symmetry. apply firstn_skipn.
    + destruct N1 as [-> _]. reflexivity.
  - unfold portal_readall. pose proof (readall_spec (p_src p) (skipn (p_pos p) (p_buf p))) as N. pose proof (readall_pos (p_src p) (skipn (p_pos p) (p_buf p))) as NP. fold (left_of p) in N.
    destruct (readall_go _ _) as [p' [l|e]]; cbn [fst] in NP; destruct N as [N1 N2]; exists p'; cbn [fst snd c_portals c_arraysize]; (split; [reflexivity|]); (split; [exact NP|]); (split; [exact AS|]).
    + destruct N1 as [-> ->]. cbn. rewrite !app_nil_r. reflexivity.
    + destruct N1 as [-> _]. reflexivity.
  - exists p. cbn [fst snd c_portals c_arraysize]. split; [first [exact C|reflexivity]|]. split; [exact P|]. split; [exact G|reflexivity].
Qed.
Lemma fetches_keep ops : forall c p ps, c_portals c = Some (p :: ps) -> (p_pos p <= length (p_buf p))%nat -> 0 <= c_arraysize c -> Forall is_fetch ops -> Forall good_op ops ->
  exists p', c_portals (fst (crun c ops)) = Some (p' :: ps) /\ left_of p = delivered (snd (crun c ops)) ++ left_of p'.
Proof.
  induction ops as [|o ops IH]; intros c p ps C P AS F G; [exists p; auto|]. inversion F; subst. inversion G; subst. cbn [crun].
  destruct (fetch_keeps o c p ps C P AS) as (p1 & C1 & P1 & AS1 & E1); auto. destruct (cstep c o) as [c1 x]. cbn [fst snd] in *.
  destruct (IH c1 p1 ps C1 P1 AS1) as (p' & C' & E'); auto. destruct (crun c1 ops) as [c2 xs]. cbn [fst snd] in *. exists p'. split; [exact C'|].
  rewrite E1, E'. unfold delivered. cbn [flat_map]. rewrite app_nil_r, app_assoc. reflexivity.
Qed.
End rows.
