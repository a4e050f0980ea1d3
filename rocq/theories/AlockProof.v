From Verif Require Import Base BaseProof AlockModel AlockSpec.

Lemma sql_key_split ids i : (i < length ids)%nat -> sql_key (map pair_of ids) (map int_of ids) i = nth_error ids i.
Proof.
  intros H. destruct (nth_error ids i) as [x|] eqn:E; [|apply nth_error_None in E; lia].
  unfold sql_key. rewrite (nth_error_nth (map int_of ids) i (x := int_of x)) by now apply map_nth_error.
  destruct x as [n|a b]; cbn [int_of]; [reflexivity|]. rewrite (nth_error_nth (map pair_of ids) i (x := pair_of (Int4s a b))) by now apply map_nth_error. reflexivity.
Qed.
Lemma map_nth_all {A} (l : list A) : map (nth_error l) (seq 0 (length l)) = map Some l.
Proof.
  induction l as [|x l IH]; [reflexivity|]. cbn [length seq map nth_error]. f_equal. rewrite <- seq_shift, map_map. cbn [nth_error]. exact IH.
Qed.
Lemma sql_keys_split ids : sql_keys (map pair_of ids) (map int_of ids) = map Some ids.
Proof.
  unfold sql_keys. rewrite <- map_nth_all. replace (match map int_of ids with [] => length (map pair_of ids) | _ => length (map int_of ids) end) with (length ids) by (destruct (map int_of ids) eqn:E; rewrite ?map_length; [reflexivity|]; rewrite <- E; now rewrite map_length).
  apply map_ext_in. intros i H. apply in_seq in H. apply sql_key_split. lia.
Qed.
Lemma sql_keys_rev ids : sql_keys (rev (map pair_of ids)) (rev (map int_of ids)) = map Some (rev ids).
Proof. rewrite <- !map_rev. apply sql_keys_split. Qed.
(** the server's counts *)
Lemma set_held_at h k n j : set_held h k n j = if lockid_dec j k then n else h j. Proof. reflexivity. Qed.
Lemma occ_cons k x l : occ k (x :: l) = (if lockid_dec k x then 1 else 0) + occ k l.
Proof. unfold occ. cbn [count_occ]. destruct (lockid_dec x k), (lockid_dec k x); subst; try contradiction; lia. Qed.
Lemma occ_nonneg k l : 0 <= occ k l. Proof. unfold occ. lia. Qed.
Lemma occ_app k a b : occ k (a ++ b) = occ k a + occ k b. Proof. unfold occ. rewrite count_occ_app. lia. Qed.
Lemma occ_rev k l : occ k (rev l) = occ k l.
Proof. induction l as [|x l IH]; [reflexivity|]. cbn [rev]. rewrite occ_app, IH, !occ_cons. unfold occ at 2. cbn. lia. Qed.
Lemma lock_all ids : forall h k, fold_left srv_lock (map Some ids) h k = h k + occ k ids.
Proof.
  induction ids as [|x ids IH]; intros h k; [unfold occ; cbn; lia|]. cbn [map fold_left srv_lock]. rewrite IH, set_held_at, occ_cons. destruct (lockid_dec k x); subst; lia.
Qed.
Lemma unlock_all ids : forall h k, (forall j, occ j ids <= h j) -> fold_left srv_unlock (map Some ids) h k = h k - occ k ids.
Proof.
  induction ids as [|x ids IH]; intros h k H; [unfold occ; cbn; lia|]. cbn [map fold_left srv_unlock].
  assert (P : 0 <? h x = true). { specialize (H x). rewrite occ_cons in H. destruct (lockid_dec x x); [|contradiction]. pose proof (occ_nonneg x ids). lia. }
  rewrite P. rewrite IH.
  - rewrite set_held_at, occ_cons. destruct (lockid_dec k x); subst; lia.
  - intros j. specialize (H j). rewrite occ_cons in H. rewrite set_held_at. destruct (lockid_dec j x); subst; lia.
Qed.
Definition got (r : list (option bool)) (ids : list lockid) : list lockid := map snd (filter (fun q => truthy (fst q)) (combine r ids)).
Lemma try_all free ids : forall h h' r, try_keys free h (map Some ids) = (h', r) ->
  (forall k, h' k = h k + occ k (got r ids)) /\ got r ids = filter free ids.
Proof.
  induction ids as [|x ids IH]; intros h h' r H; cbn [map try_keys] in H; [injection H as <- <-; split; [intros k; unfold occ; cbn; lia|reflexivity]|].
  unfold srv_try in H. destruct (free x) eqn:F.
  - destruct (try_keys free (set_held h x (h x + 1)) (map Some ids)) as [h2 r2] eqn:E. injection H as <- <-. apply IH in E as [E1 E2].
    unfold got. cbn [combine filter fst truthy map snd]. fold (got r2 ids). rewrite E2. cbn [filter]. rewrite F. split; [|reflexivity].
    intros k. rewrite E1, E2, set_held_at, occ_cons. destruct (lockid_dec k x); subst; lia.
  - destruct (try_keys free h (map Some ids)) as [h2 r2] eqn:E. injection H as <- <-. apply IH in E as [E1 E2].
    unfold got. cbn [combine filter fst truthy map snd]. fold (got r2 ids). rewrite E2. cbn [filter]. rewrite F. split; [|reflexivity]. intros k. rewrite E1, E2. reflexivity.
Qed.
Lemma filter_full {A} (f : A -> bool) l : length (filter f l) = length l <-> forall x, In x l -> f x = true.
Proof.
  induction l as [|y l IH]; [split; [intros _ x []|reflexivity]|]. cbn [filter]. assert (L : (length (filter f l) <= length l)%nat) by (clear; induction l; cbn; [lia|destruct (f a); cbn; lia]).
  destruct (f y) eqn:F; cbn [length].
  - split; [intros H x [<-|Hx]; [exact F|apply IH; [lia|exact Hx]]|]. intros H. f_equal. apply IH. intros x Hx. apply H. now right.
  - split; [intros H; exfalso; lia|]. intros H. rewrite (H y) in F by now left. discriminate.
Qed.
Lemma filter_all {A} (f : A -> bool) l : (forall x, In x l -> f x = true) -> filter f l = l.
Proof. induction l as [|y l IH]; intros H; [reflexivity|]. cbn [filter]. rewrite (H y) by now left. f_equal. apply IH. intros x Hx. apply H. now right. Qed.
Lemma occ_filter f k l : occ k (filter f l) <= occ k l.
Proof. induction l as [|x l IH]; [reflexivity|]. cbn [filter]. rewrite occ_cons. destruct (f x); [rewrite occ_cons; lia|]. destruct (lockid_dec k x); lia. Qed.
(** a well-made lock object *)
Definition wf (a : alock) : Prop := al_pairs a = map pair_of (al_ids a) /\ al_ints a = map int_of (al_ids a) /\ 0 <= al_count a.
Lemma wf_init ids : wf (alock_init ids). Proof. split; [reflexivity|split; [reflexivity|cbn; lia]]. Qed.
Lemma wf_set a n : wf a -> 0 <= n -> wf (set_count a n). Proof. intros (W1 & W2 & _) H. split; [exact W1|split; [exact W2|exact H]]. Qed.
Lemma acquire_block a h : wf a -> al_count a = 0 -> forall free, acquire false free None true h a = (fst (fst (acquire false free None true h a)), set_count a 1, Ok true) /\
  forall k, fst (fst (acquire false free None true h a)) k = h k + occ k (al_ids a).
Proof.
  intros (W1 & W2 & _) C free. unfold acquire. rewrite C. cbn [Z.eqb fst]. split; [reflexivity|]. intros k. unfold sql_acquire. rewrite W1, W2, sql_keys_split. apply lock_all.
Qed.
Lemma acquire_try a h free int : wf a -> al_count a = 0 -> (forall k, 0 <= h k) ->
  exists h', acquire false free int false h a = (h', (if forallb free (al_ids a) then set_count a 1 else a), Ok (forallb free (al_ids a))) /\
  forall k, h' k = h k + if forallb free (al_ids a) then occ k (al_ids a) else 0.
Proof.
  intros (W1 & W2 & _) C N. unfold acquire. rewrite C. cbn [Z.eqb]. unfold sql_try. rewrite W1, W2, sql_keys_split.
  destruct (try_keys free h (map Some (al_ids a))) as [h1 r] eqn:T. apply try_all in T as [T1 T2]. fold (got r (al_ids a)). rewrite T2 in *.
  destruct (Nat.eqb_spec (length (filter free (al_ids a))) (length (al_ids a))) as [E|E]; cbn [negb].
  - pose proof (proj1 (filter_full _ _) E) as E'. clear E. rename E' into E. replace (forallb free (al_ids a)) with true by (symmetry; now apply forallb_forall). exists h1. rewrite (filter_all _ _ E) in T1. split; [reflexivity|exact T1].
  - replace (forallb free (al_ids a)) with false.
    2:{ symmetry. destruct (forallb free (al_ids a)) eqn:FA; [|reflexivity]. exfalso. apply E. apply filter_full. now apply forallb_forall. }
    cbv zeta. eexists. split; [reflexivity|]. intros k. unfold sql_release. rewrite sql_keys_split, unlock_all.
    + rewrite T1, occ_rev. lia.
    + intros j. rewrite T1, occ_rev. specialize (N j). lia.
Qed.
Lemma release_ok a h : wf a -> al_count a = 1 -> (forall k, occ k (al_ids a) <= h k) ->
  exists h', release false h a = (h', set_count a 0, Ok tt) /\ forall k, h' k = h k - occ k (al_ids a).
Proof.
  intros (W1 & W2 & _) C H. unfold release. rewrite C. cbn. eexists. split; [reflexivity|]. intros k. unfold sql_release. rewrite W1, W2, sql_keys_rev, unlock_all; [now rewrite occ_rev|].
  intros j. rewrite occ_rev. apply H.
Qed.
(** the locks of a connection *)
Lemma owned_app k a b : owned k (a ++ b) = owned k a + owned k b. Proof. induction a as [|x a IH]; [reflexivity|]. cbn [app owned]. rewrite IH. lia. Qed.
Lemma owned_nonneg k l : 0 <= owned k l. Proof. induction l as [|x l IH]; cbn [owned]; [lia|]. pose proof (occ_nonneg k (al_ids x)). destruct (0 <? al_count x); lia. Qed.
Lemma split_at {A} (l : list A) i a : nth_error l i = Some a -> l = firstn i l ++ a :: skipn (S i) l.
Proof. revert i. induction l as [|x l IH]; intros [|i] H; try discriminate; cbn in *; [now injection H as ->|]. f_equal. now apply IH. Qed.
Lemma owned_upd k l i a b : nth_error l i = Some a -> owned k (upd i b l) = owned k l - (if 0 <? al_count a then occ k (al_ids a) else 0) + (if 0 <? al_count b then occ k (al_ids b) else 0).
Proof. intros H. unfold upd. rewrite (split_at l i a H) at 3. rewrite !owned_app. cbn [owned]. lia. Qed.
Lemma forall_upd {A} (P : A -> Prop) l i b : Forall P l -> P b -> Forall P (upd i b l).
Proof. intros F B. unfold upd. apply Forall_app. split; [apply Forall_forall; intros x Hx; rewrite Forall_forall in F; apply F; rewrite <- (firstn_skipn i l); apply in_or_app; now left|]. constructor; [exact B|].
  apply Forall_forall; intros x Hx; rewrite Forall_forall in F; apply F; rewrite <- (firstn_skipn (S i) l); apply in_or_app; now right. Qed.
Definition inv (w : world) : Prop := Forall wf (w_locks w) /\ forall k, w_held w k = if w_closed w then 0 else owned k (w_locks w).
Lemma inv_init locks : inv (world_init locks).
Proof.
  split; cbn.
  - apply Forall_map, Forall_forall. intros x _. apply wf_init.
  - intros k. induction locks as [|x l IH]; [reflexivity|]. cbn. exact IH.
Qed.
Lemma occ_le_owned k l i a : nth_error l i = Some a -> 0 < al_count a -> occ k (al_ids a) <= owned k l.
Proof. intros H C. rewrite (split_at l i a H), owned_app. cbn [owned]. pose proof (owned_nonneg k (firstn i l)). pose proof (owned_nonneg k (skipn (S i) l)). destruct (0 <? al_count a) eqn:E; lia. Qed.
Lemma inv_step w o : inv w -> (match o with Acquire _ _ _ (Some _) => False | Release i => forall a, nth_error (w_locks w) i = Some a -> al_count a <= 1 | _ => True end) -> inv (fst (astep w o)).
Proof.
  intros [W1 W2] H. destruct o as [i b free int|i|]; cbn [astep].
  - destruct int; [destruct H|]. destruct (nth_error (w_locks w) i) as [a|] eqn:N; [|split; assumption].
    assert (WA : wf a) by (rewrite Forall_forall in W1; apply W1; eapply nth_error_In; eauto).
    destruct (Z.eq_dec (al_count a) 0) as [C|C].
    + destruct (w_closed w) eqn:CL.
      * unfold acquire. rewrite C. cbn [Z.eqb fst]. split; cbn [w_locks w_held w_closed]; [now apply forall_upd|exact W2].
      * destruct b.
        -- destruct (acquire_block a (w_held w) WA C free) as [E1 E2]. destruct (acquire false free None true (w_held w) a) as [[h a'] r] eqn:E. cbn [fst] in *. injection E1 as -> ->.
           split; cbn [w_locks w_held w_closed]; [apply forall_upd; [exact W1|apply wf_set; [exact WA|lia]]|]. intros k. rewrite E2, W2. rewrite (owned_upd k _ i a) by exact N. cbn [set_count al_count al_ids]. rewrite C. cbn. lia.
        -- destruct (acquire_try a (w_held w) free None WA C) as (h' & E1 & E2); [intros k; rewrite W2; apply owned_nonneg|]. rewrite E1. cbn [fst].
           split; cbn [w_locks w_held w_closed].
           ++ apply forall_upd; [exact W1|]. destruct (forallb free (al_ids a)); [apply wf_set; [exact WA|lia]|exact WA].
           ++ intros k. rewrite E2, W2. rewrite (owned_upd k _ i a) by exact N. rewrite C. destruct (forallb free (al_ids a)); cbn [set_count al_count al_ids]; cbn; rewrite ?C; cbn; lia.
    + unfold acquire. destruct (al_count a =? 0) eqn:Z0; [lia|]. cbn [fst]. destruct WA as (WA1 & WA2 & WA3).
      split; cbn [w_locks w_held w_closed]; [apply forall_upd; [exact W1|apply wf_set; [split; auto|lia]]|].
      intros k. rewrite W2. destruct (w_closed w); [reflexivity|]. rewrite (owned_upd k _ i a) by exact N. cbn [set_count al_count al_ids].
      destruct (0 <? al_count a) eqn:L1, (0 <? al_count a + 1) eqn:L2; lia.
  - destruct (nth_error (w_locks w) i) as [a|] eqn:N; [|split; assumption]. specialize (H a eq_refl).
    assert (WA : wf a) by (rewrite Forall_forall in W1; apply W1; eapply nth_error_In; eauto).
    destruct (Z_lt_ge_dec (al_count a) 1) as [L|L].
    + unfold release. destruct (al_count a <? 1) eqn:E; [|lia]. cbn [fst]. replace (upd i a (w_locks w)) with (w_locks w) by exact (split_at _ _ _ N). split; assumption.
    + assert (C : al_count a = 1) by lia. destruct (w_closed w) eqn:CL.
      * unfold release. rewrite C. cbn. split; cbn [w_locks w_held w_closed]; [apply forall_upd; [exact W1|apply wf_set; [exact WA|lia]]|exact W2].
      * destruct (release_ok a (w_held w) WA C) as (h' & E1 & E2); [intros k; rewrite W2; apply (occ_le_owned k _ i); [exact N|lia]|]. rewrite E1. cbn [fst].
        split; cbn [w_locks w_held w_closed]; [apply forall_upd; [exact W1|apply wf_set; [exact WA|lia]]|]. intros k. rewrite E2, W2. rewrite (owned_upd k _ i a) by exact N. rewrite C. cbn. lia.
  - cbn [fst]. split; [exact W1|reflexivity].
Qed.
Lemma run_inv ops : forall w, inv w -> uninterrupted ops -> flat w ops -> inv (fst (arun w ops)).
Proof.
  induction ops as [|o ops IH]; intros w I U F; [exact I|]. cbn [arun flat] in *. destruct F as [F1 F2].
  assert (I' : inv (fst (astep w o))).
  { apply inv_step; [exact I|]. destruct o as [i b f [n|]|i|]; try exact Logic.I; [exact (U i b f n (or_introl eq_refl))|exact F1]. }
  destruct (astep w o) as [w1 x]. cbn [fst] in *. specialize (IH w1 I' (fun i b f n H => U i b f n (or_intror H)) F2). destruct (arun w1 ops). exact IH.
Qed.
