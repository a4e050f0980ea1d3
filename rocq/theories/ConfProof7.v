From Verif Require Import PyStr PyStrProof PyStrProof2 PyListProof BaseProof PyDict PyDictProof RIProof2 ConfModel ConfProof ConfSpec ConfProof2 ConfProof3 ConfProof4 ConfProof5 ConfProof6.
Section conf.
Context (U : unicode) (UO : unicode_ok U).

Lemma found_mentions K fo cl : In cl (found U K fo) -> mentions U K (line_at (idx cl) fo).
Proof.
  intros F. apply in_cands in F as (j & EJ & LJ & PL & CK). cbn in EJ. subst j. apply (parse_inv U) in PL as (x0 & S0 & LX0 & KX0 & _ & _). rewrite LX0. destruct S0.
  exists (pre x0), (key x0), (ws x0), (ws2 x0 ++ val x0 ++ post x0). split; [unfold line_of; rewrite <- ?app_assoc; reflexivity|].
  split; [eapply Forall_impl; [|exact s_pre]; intros c Hc; cbn beta in Hc; unfold sp35 in Hc; apply orb_true_iff in Hc as [Hc|Hc]; [auto|right; lia]|].
  split; [eapply Forall_impl; [|exact s_key]; intros c Hc; cbn beta in Hc; unfold is_word in Hc; apply orb_true_iff in Hc as [Hc|Hc]; [apply orb_true_iff in Hc; tauto|right; right; lia]|].
  split; [exact s_ws|]. unfold same_name. rewrite CK. f_equal. rewrite KX0, LX0. symmetry. apply cut_key.
Qed.
Lemma same_as_refl K k v : same_name U k K -> same_as U K (k, v) = true.
Proof. intros E. unfold same_as. cbn [fst]. rewrite E. destruct (seqb_spec (py_lower U K) (py_lower U K)); congruence. Qed.
Lemma get_set m fo lines' K v : proper_map U m -> alter_config U m fo = Ok lines' -> In (K, Some v) m ->
  exists k', same_name U k' K /\ (k' = K \/ exists l, In l fo /\ mentions U K l /\ spells U k' l) /\
    forall k, same_name U k K -> dget k (read_config U everything lines') = if seqb k k' then Some v else None.
Proof.
  intros P H I. destruct (altered_readings U UO m fo lines' P H) as (A & _ & _). destruct (A K v I) as (k' & S & F & SP).
  exists k'. split; [exact S|]. split; [exact SP|]. intros k E. rewrite read_config_get. unfold everything.
  rewrite (final_filter k (same_as U K)) by (intros [a b] <-; now apply same_as_refl). rewrite F. unfold final. cbn [fold_left fst snd]. reflexivity.
Qed.
Lemma get_unset m fo lines' K k : proper_map U m -> alter_config U m fo = Ok lines' -> In (K, None) m -> same_name U k K ->
  dget k (read_config U everything lines') = None.
Proof.
  intros P H I E. destruct (altered_readings U UO m fo lines' P H) as (_ & A & _). rewrite read_config_get. unfold everything.
  rewrite (final_filter k (same_as U K)) by (intros [a b] <-; now apply same_as_refl). rewrite (A K I). reflexivity.
Qed.
Lemma get_other m fo lines' k : proper_map U m -> alter_config U m fo = Ok lines' -> (forall K, In K (dkeys m) -> ~ same_name U k K) ->
  dget k (read_config U everything lines') = dget k (read_config U everything fo).
Proof.
  intros P H N. destruct (altered_readings U UO m fo lines' P H) as (_ & _ & A). rewrite !read_config_get. unfold everything.
  set (p := fun e : text * text => seqb (fst e) k).
  rewrite (final_filter k p (readings U lines')), (final_filter k p (readings U fo)).
  - rewrite A; [reflexivity|]. intros [a b] K I. unfold p. cbn [fst]. destruct (seqb_spec a k) as [->|]; [|discriminate]. intros _.
    unfold same_as. cbn [fst]. destruct (seqb_spec (py_lower U k) (py_lower U K)); [|reflexivity]. exfalso. now apply (N K I).
  - intros e <-. unfold p. destruct (seqb_spec (fst e) (fst e)); congruence.
  - intros e <-. unfold p. destruct (seqb_spec (fst e) (fst e)); congruence.
Qed.
Lemma select_get k lines : dget k (read_config U (seqb k) lines) = dget k (read_config U everything lines).
Proof. rewrite !read_config_get. unfold everything. destruct (seqb_spec k k); congruence. Qed.
Lemma nth_error_line {l : list text} {j x} : nth_error l j = Some x -> (j < length l)%nat /\ line_at j l = x.
Proof. intros H. split; [apply nth_error_Some; congruence|]. unfold line_at. erewrite nth_error_nth; eauto. Qed.
Lemma line_nth_error (l : list text) j : (j < length l)%nat -> nth_error l j = Some (line_at j l).
Proof. intros H. unfold line_at. now apply nth_error_nth'. Qed.
(** the lines that mention no altered setting *)
Lemma lines_unrelated m fo lines' j l : proper_map U m -> alter_config U m fo = Ok lines' -> nth_error fo j = Some l ->
  (forall K, In K (dkeys m) -> ~ mentions U K l) ->
  exists l', nth_error lines' j = Some l' /\ (l' = l \/ (S j = length fo /\ py_endswith [10] l = false /\ l' = l ++ [10])).
Proof.
  intros P H E N. destruct (alter_config_spec U UO m fo lines' P H) as (l1 & l0 & ex & xs & EL & L0 & K1 & KE & UN & GD & GR).
  apply nth_error_line in E as [HJ E]. exists (line_at j l0). split.
  - rewrite EL, nth_error_app1 by lia. apply line_nth_error. lia.
  - rewrite UN; [|exact HJ|].
    + destruct (Nat.eq_dec (S j) (length fo)) as [LA|LA].
      * destruct (kept_nth _ _ (proj1 K1) j HJ) as [X|[X1 X2]]; [left; congruence|right]. subst l. auto.
      * left. destruct K1 as [_ K1]. rewrite K1 by lia. exact E.
    + intros K ov cl I F EJ. apply (N K); [apply in_map_iff; exists (K, ov); auto|]. apply found_mentions in F. rewrite EJ, E in F. exact F.
Qed.
(** the lines that mention settings to be removed: unchanged, or commented out *)
Lemma lines_removed m fo lines' j l : proper_map U m -> alter_config U m fo = Ok lines' -> nth_error fo j = Some l ->
  (forall K v, In (K, Some v) m -> ~ mentions U K l) ->
  exists l' l'', nth_error lines' j = Some l'' /\ (l' = l \/ l' = [35] ++ l) /\ line_kept l' l''.
Proof.
  intros P H E N. destruct (alter_config_spec U UO m fo lines' P H) as (l1 & l0 & ex & xs & EL & L0 & K1 & KE & UN & GD & GR).
  apply nth_error_line in E as [HJ E].
  assert (NE : nth_error lines' j = Some (line_at j l0)) by (rewrite EL, nth_error_app1 by lia; apply line_nth_error; lia).
  pose proof (kept_nth _ _ (proj1 K1) j HJ) as KL.
  assert (E35 : forall x y, line_kept x y -> line_kept ([35] ++ x) ([35] ++ y)).
  { intros x y [->|[X ->]]; [left; reflexivity|]. right. split; [|reflexivity]. destruct (py_endswith [10] ([35] ++ x)) eqn:EE; [|reflexivity].
    apply ends_closed_iff in EE as (b & EB). destruct b as [|c b]; [discriminate|]. cbn in EB. injection EB as _ ->. rewrite endswith_app in X. discriminate. }
  destruct (found_dec U m fo j) as [(K & ov & cl & I & F & EJ)|NF].
  - destruct ov as [v|]; [exfalso; apply (N K v I); apply found_mentions in F; rewrite EJ, E in F; exact F|].
    assert (NEF : found U K fo <> []) by (intros C; rewrite C in F; contradiction). specialize (GR K None I NEF cl F). destruct (GD K None cl I F) as [(S & _ & EQ & _ & _) EK]. rewrite EJ in *.
    unfold hide in GR. rewrite <- EQ in GR. destruct (memZ 35 (pre (xs j))).
    + exists l, (line_at j l0). split; [exact NE|]. split; [auto|]. rewrite GR, <- E. exact KL.
    + exists ([35] ++ l), (line_at j l0). split; [exact NE|]. split; [auto|]. rewrite GR, <- E. apply E35, KL.
  - exists l, (line_at j l0). split; [exact NE|]. split; [auto|]. rewrite (UN j HJ NF), <- E. exact KL.
Qed.
(** the number of lines *)
Lemma lines_count m fo lines' : proper_map U m -> alter_config U m fo = Ok lines' ->
  (length fo <= length lines' <= length fo + length m)%nat.
Proof.
  intros P H. destruct (alter_config_spec U UO m fo lines' P H) as (l1 & l0 & ex & xs & EL & L0 & K1 & KE & _).
  apply kept_length in KE. rewrite map_length in KE. rewrite EL, app_length. assert (length (news U m fo) <= length m)%nat; [|lia].
  unfold news. clear. induction m as [|[K ov] m IH]; cbn; [lia|]. rewrite app_length. destruct (found U K fo), ov; cbn; lia.
Qed.
(** files *)
Lemma file_update m content content' : proper_map U m -> (forall K v, In (K, Some v) m -> ~ In 10 v) ->
  (forall K l, In K (dkeys m) -> In l (file_lines content) -> mentions U K l -> quotes_closed l) ->
  config_update U m content = Ok content' -> exists lines', alter_config U m (file_lines content) = Ok lines' /\ file_lines content' = lines'.
Proof.
  intros P NV QC H. unfold config_update in H. apply bind_Ok in H as (lines' & E & H). apply Ok_inj in H. subst content'. exists lines'. split; [exact E|].
  apply file_concat. eapply altered_ok; eauto. apply file_lines_ok.
Qed.
End conf.
