(** LoadProps.v: C63, the loading of rows with a prepared statement. *)
From Verif Require Import Base BaseProof Element3Model IterModel IterProof LoadModel LoadSpec LoadProof LoadProof2 LoadProof3.

Lemma perfect_lawful {D} (exec : D -> bytes -> list (option bytes) -> Z -> option D) : lawful exec (perfect exec) (fun s => s).
Proof.
  intros s req _ L N. unfold perfect. rewrite (app_removelast_last (MEmpty ESynchronize) N), L. rewrite removelast_last.
  destruct (sv_state s) eqn:T; try (destruct (serve_request exec s (removelast req)) as [s' []] eqn:E; cbn [fst snd];
    [apply served_error|apply served_ok]; congruence). cbn. apply served_lost_before.
Qed.

Section C63.
  Context {D Net V : Type}.
  Context (exec : D -> bytes -> list (option bytes) -> Z -> option D).
  Context (serve : Net -> list message -> Net * answer) (view : Net -> server D).
  Context (LAW : lawful exec serve view).
  Context (p : stmt V).

  (** When load_rows returns, the iterable was read to its end and the statement was executed
      exactly once for each row, in their order, with the packed row as its parameters; outside
      of a block that is committed.  Whatever the chunk size. *)
  Theorem C63_all c rows n c' : ready view c -> load_rows serve p c rows n = (c', LDone) ->
    ending rows = None /\ nothing_pending c' /\
    exists pss, Forall2 (packs p) (items rows) pss /\
      executed exec (st_id p) (sv_now (view (c_srv c))) pss (sv_now (view (c_srv c'))) /\
      now_has (view (c_srv c)) (view (c_srv c')) (sv_now (view (c_srv c'))).
  Proof.
    intros R E.
    assert (N : 0 < n).
    { unfold load_rows, load_tuple_chunks in E. destruct (Z.ltb_spec n 0); [discriminate|]. destruct (Z.eqb_spec n 0); [discriminate|lia]. }
    destruct (ready_stat exec view p c R) as (_ & _ & T0).
    destruct (rows_inv exec serve view LAW p c rows n c' _ R N E) as (cl & k & qs & CU & K & F & G & Fi & X & -> & En & Xn & A). cbv zeta in *.
    split; [exact En|]. split; [exact Xn|]. exists (concat qs).
    rewrite <- (cut_first _ _ _ CU) in G by exact K. rewrite firstn_all, (cut_all _ _ _ CU En) in G. split; [exact G|].
    split; [apply A|]. eapply now_has_after; eauto.
  Qed.

  (** and it returns when the rows can be packed, the statement can be executed for all of them
      and the connection is not lost *)
  Theorem C63_success c rows n pss d c' r : ready view c -> 0 < n -> load_rows serve p c rows n = (c', r) ->
    ending rows = None -> Forall2 (packs p) (items rows) pss -> executed exec (st_id p) (sv_now (view (c_srv c))) pss d ->
    alive (view (c_srv c')) -> r = LDone /\ now_has (view (c_srv c)) (view (c_srv c')) d.
  Proof.
    intros R N E En P X AL. destruct (ready_stat exec view p c R) as (_ & _ & T0).
    destruct (rows_inv exec serve view LAW p c rows n c' _ R N E) as (cl & k & qs & CU & K & F & G & Fi & Xa & H). cbv zeta in *.
    assert (NF : forall q qs1 v1, qs = qs1 ++ [q] -> after exec p (view (c_srv c)) qs1 v1 -> (forall d, ~ executed exec (st_id p) (sv_now v1) q d) -> False).
    { intros q qs1 v1 -> A NE.
      assert (P1 := P). rewrite <- (firstn_skipn (k * Z.to_nat n) (items rows)) in P. apply Forall2_app_l in P as (x & y & -> & P2 & P3).
      pose proof (packs_fun_list p _ _ _ P2 G) as ->. rewrite concat_app in X. cbn in X. rewrite app_nil_r, <- app_assoc in X.
      apply executed_app in X as (d1 & X1 & X2). apply executed_app in X2 as (d2 & X2 & _). destruct A as (A & _).
      pose proof (executed_det exec p _ _ _ _ A X1) as Q. rewrite Q in NE. exact (NE _ X2). }
    destruct r as [|e|a|].
    - split; [reflexivity|]. destruct H as (-> & _ & _ & A). rewrite <- (cut_first _ _ _ CU) in G by exact K. rewrite firstn_all, (cut_all _ _ _ CU En) in G.
      pose proof (packs_fun_list p _ _ _ P G) as ->. rewrite (executed_det exec p _ _ _ _ X (proj1 A)). eapply now_has_after; eauto.
    - destruct H as ([(_ & H)|(ch & H1 & H2)] & _); [congruence|].
      destruct (bindings_err p _ _ H2) as (a & r & b & -> & _ & Er). exfalso.
      assert (I0 : List.In r (items rows)).
      { rewrite <- (cut_all _ _ _ CU En). apply nth_error_In in H1. apply in_concat. eexists. split; [exact H1|]. apply in_or_app. right. left. reflexivity. }
      clear - P I0 Er. induction P; [exact I0|]. destruct I0 as [->|I0]; [eapply packs_not_err; eauto|auto].
    - destruct H as (_ & [H|(q & qs1 & v1 & H1 & H2 & H3 & _)]); [exfalso; apply AL; exact H|]. exfalso. eapply NF; eauto.
    - contradiction.
  Qed.

  Lemma final_rows c rows n c' r : ready view c -> load_rows serve p c rows n = (c', r) ->
    exists k pss, ((k * Z.to_nat n <= length (items rows))%nat \/ ending rows = None) /\
      Forall2 (packs p) (first_chunks n k (items rows)) pss /\
      (sv_state (view (c_srv c)) = TIdle -> executed exec (st_id p) (sv_now (view (c_srv c))) pss (sv_committed (view (c_srv c'))) /\
        (sv_state (view (c_srv c')) = TIdle /\ sv_now (view (c_srv c')) = sv_committed (view (c_srv c')) \/ sv_state (view (c_srv c')) = TDead)) /\
      (sv_state (view (c_srv c)) = TBlock -> sv_committed (view (c_srv c')) = sv_committed (view (c_srv c)) /\
         (sv_state (view (c_srv c')) = TBlock /\ executed exec (st_id p) (sv_now (view (c_srv c))) pss (sv_now (view (c_srv c'))) \/
          sv_state (view (c_srv c')) = TFailed \/ sv_state (view (c_srv c')) = TDead)).
  Proof.
    intros R E. destruct (ready_stat exec view p c R) as (_ & So & T0).
    destruct (Z_lt_le_dec 0 n) as [N|N].
    - destruct (rows_inv exec serve view LAW p c rows n c' _ R N E) as (cl & k & qs & CU & K & F & G & (qs' & b & -> & Lb & I0 & B0) & _). cbv zeta in *.
      assert (exists k', (k' <= length cl)%nat /\ Forall2 (packs p) (first_chunks n k' (items rows)) (concat qs')) as (k' & K' & Q).
      { destruct b as [|q [|]]; [exists k; split; [exact K|]; rewrite app_nil_r in G; exact G| |cbn in Lb; lia].
        destruct (last_chunk p (Z.to_nat n) rows cl k qs' q ltac:(lia) CU K F (cut_whole _ _ _ CU k K)) as (j & -> & Q & _). exists j. split; [lia|exact Q]. }
      exists k', (concat qs'). split; [exact (cut_whole _ _ _ CU k' K')|]. split; [exact Q|]. auto.
    - exists O, []. split; [left; cbn; lia|]. split; [constructor|].
      assert (Fi : final exec p (view (c_srv c)) (view (c_srv c')) []).
      { unfold load_rows in E. destruct (Z.ltb_spec n 0).
        - destruct (chunks_inv exec serve view LAW p c _ c' r R E) as (k & qs & K & F & Fi & _). cbn in K, F. replace k with O in F by lia. inversion F; subst. exact Fi.
        - rewrite (proj2 (Z.eqb_eq n 0)) in E by lia. injection E as <- <-. apply final_after. now apply after_nil. }
      destruct Fi as (qs' & b & Q & _ & I0 & B0). destruct qs'; [|discriminate]. auto.
  Qed.

  (** Outside of a transaction block, however it ends: what is committed is the work of the first
      [k] chunks of the rows and nothing else, and a chunk is of n rows unless it is the last of
      an iterable that was read to its end.  The session is outside of a block, or lost. *)
  Theorem C63_whole_chunks c rows n c' r : ready view c -> sv_state (view (c_srv c)) = TIdle -> load_rows serve p c rows n = (c', r) ->
    exists k pss, ((k * Z.to_nat n <= length (items rows))%nat \/ ending rows = None) /\
      Forall2 (packs p) (first_chunks n k (items rows)) pss /\
      executed exec (st_id p) (sv_now (view (c_srv c))) pss (sv_committed (view (c_srv c'))) /\
      (sv_state (view (c_srv c')) = TIdle /\ sv_now (view (c_srv c')) = sv_committed (view (c_srv c')) \/ ~ alive (view (c_srv c'))).
  Proof.
    intros R T E. destruct (final_rows c rows n c' r R E) as (k & pss & A & B & C & _). destruct (C T) as (C1 & C2).
    exists k, pss. split; [exact A|]. split; [exact B|]. split; [exact C1|]. destruct C2 as [C2|C2]; [auto|right; intros AL; auto].
  Qed.
  (** In a transaction block nothing is committed.  Unless the block has failed or the
      connection is lost, the session sees the work of the first k chunks and nothing else. *)
  Theorem C63_block c rows n c' r : ready view c -> sv_state (view (c_srv c)) = TBlock -> load_rows serve p c rows n = (c', r) ->
    sv_committed (view (c_srv c')) = sv_committed (view (c_srv c)) /\
    (sv_state (view (c_srv c')) = TBlock /\ (exists k pss, ((k * Z.to_nat n <= length (items rows))%nat \/ ending rows = None) /\
       Forall2 (packs p) (first_chunks n k (items rows)) pss /\
       executed exec (st_id p) (sv_now (view (c_srv c))) pss (sv_now (view (c_srv c'))))
     \/ sv_state (view (c_srv c')) = TFailed \/ ~ alive (view (c_srv c'))).
  Proof.
    intros R T E. destruct (final_rows c rows n c' r R E) as (k & pss & A & B & _ & C). destruct (C T) as (C1 & C2). split; [exact C1|].
    destruct C2 as [(C2 & C3)|[C2|C2]]; [left|auto|right; right; intros AL; auto]. split; [exact C2|]. eauto 6.
  Qed.

  (** A row that cannot be packed, the first one: that is the exception; nothing of its chunk was
      executed, and all of the chunks before it.  (Its chunk was read without an exception.) *)
  Theorem C63_unpackable c rows n before row tail e pss d c' r : ready view c -> 0 < n -> load_rows serve p c rows n = (c', r) ->
    items rows = before ++ row :: tail -> Forall2 (packs p) before pss -> process_tuple (st_io p) row (st_err p) = Err e ->
    let k := (length before / Z.to_nat n)%nat in
    ending rows = None \/ (S k * Z.to_nat n <= length (items rows))%nat ->
    executed exec (st_id p) (sv_now (view (c_srv c))) (first_chunks n k pss) d ->
    alive (view (c_srv c')) -> r = LRaise e /\ now_has (view (c_srv c)) (view (c_srv c')) d.
  Proof.
    intros R N E I0 P B k EN X AL. destruct (ready_stat exec view p c R) as (_ & _ & T0).
    assert (N' : (0 < Z.to_nat n)%nat) by lia. pose proof (Nat.div_mod (length before) (Z.to_nat n) ltac:(lia)) as DM. fold k in DM.
    pose proof (Nat.mod_upper_bound (length before) (Z.to_nat n) ltac:(lia)) as MB.
    destruct (rows_inv exec serve view LAW p c rows n c' _ R N E) as (cl & j & qs & CU & K & F & G & Fi & Xa & H). cbv zeta in *.
    (* the rows of the chunks pushed are before the bad one *)
    assert (J : (j * Z.to_nat n <= length before)%nat).
    { destruct (Nat.le_gt_cases (j * Z.to_nat n) (length before)) as [L|L]; [exact L|exfalso].
      rewrite I0, firstn_app in G. destruct (j * Z.to_nat n - length before)%nat as [|m] eqn:Q; [lia|]. cbn [firstn] in G.
      apply Forall2_app_l in G as (x & y & _ & _ & G). inversion G as [|? ps ? ? PS]; subst. exact (packs_not_err p _ _ B _ PS). }
    assert (JK : (j <= k)%nat) by nia.
    assert (NF : forall q qs1 v1, qs = qs1 ++ [q] -> after exec p (view (c_srv c)) qs1 v1 -> (forall d, ~ executed exec (st_id p) (sv_now v1) q d) -> False).
    { intros q qs1 v1 -> A NE. eapply (failed_chunk exec p _ _ _ _ _ _ _ _ _ _ _ k d N' CU K F I0 P A NE X JK J). }
    destruct r as [|e'|a|].
    - exfalso. destruct H as (-> & En & _ & A). rewrite <- (cut_first _ _ _ CU) in G by exact K. rewrite firstn_all, (cut_all _ _ _ CU En), I0 in G.
      apply Forall2_app_l in G as (x & y & _ & _ & G). inversion G as [|? ps ? ? PS]; subst. exact (packs_not_err p _ _ B _ PS).
    - destruct H as (HE & HS).
      assert (A : after exec p (view (c_srv c)) qs (view (c_srv c'))).
      { destruct HS as [HS|[HS|(q & qs1 & v1 & Q1 & Q2 & Q3)]]; [exfalso; exact (AL HS)|exact HS|exfalso; eapply NF; eauto]. }
      assert (Z : e' = e /\ j = k).
      { destruct HE as [(-> & En)|(ch & C1 & C2)].
        - exfalso. destruct EN as [EN|EN]; [congruence|]. rewrite (cut_count _ _ _ CU), En, Nat.add_0_r in JK.
          pose proof (Nat.div_le_lower_bound (length (items rows)) (Z.to_nat n) (S k) ltac:(lia)). nia.
        - destruct (bindings_err p _ _ C2) as (a & r' & b & -> & Pa & Er).
          assert (SP : items rows = (firstn (j * Z.to_nat n) (items rows) ++ a) ++ r' :: firstn (length b) b ++ skipn (S j * Z.to_nat n) (items rows)).
          { assert (J1 : (S j <= length cl)%nat) by (apply nth_error_Some; congruence).
            pose proof (cut_first _ _ _ CU (S j) J1) as Q. rewrite (firstn_S_nth _ _ _ C1) in Q. rewrite concat_app, (cut_first _ _ _ CU j K) in Q. cbn [concat] in Q. rewrite app_nil_r in Q.
            rewrite firstn_all. rewrite <- (firstn_skipn (S j * Z.to_nat n) (items rows)) at 1. rewrite <- Q, <- !app_assoc. reflexivity. }
          rewrite I0 in SP at 1.
          assert (Pa' : exists q, Forall2 (packs p) (firstn (j * Z.to_nat n) (items rows) ++ a) q).
          { destruct Pa as (qa & Pa). eexists. apply Forall2_app; [exact G|exact Pa]. }
          destruct (first_bad p _ _ _ _ _ _ _ _ SP (ex_intro _ _ P) Pa' B Er) as (W1 & W2 & W3).
          subst r'. split; [congruence|].
          assert (Lc : (length (a ++ row :: b) <= Z.to_nat n)%nat) by (eapply (cut_size _ _ _ CU); eauto).
          rewrite app_length in Lc. cbn [length] in Lc.
          assert (L0 : length before = (j * Z.to_nat n + length a)%nat).
          { rewrite W1, app_length, firstn_length_le; [reflexivity|]. rewrite I0, app_length. eapply Nat.le_trans; [exact J|apply Nat.le_add_r]. }
          unfold k. clearbody k. rewrite L0 in *. clear - L0 Lc N'. revert Lc N'. generalize (Z.to_nat n). intros m Lc N'.
          rewrite Nat.div_add_l by lia. rewrite Nat.div_small by lia. lia. }
      destruct Z as (-> & ->). split; [reflexivity|].
      pose proof (known_chunks p _ _ _ _ _ _ _ I0 P J G) as Q. destruct A as (A1 & A2). rewrite Q in A1.
      rewrite (executed_det exec p _ _ _ _ X A1). eapply now_has_after; [exact T0|]. split; [rewrite Q; exact A1|exact A2].
    - destruct H as (_ & [H|(q & qs1 & v1 & H1 & H2 & H3 & _)]); [exfalso; apply AL; exact H|]. exfalso. eapply NF; eauto.
    - contradiction.
  Qed.

  Lemma lost_dead c rows n c' : ready view c -> load_rows serve p c rows n = (c', LServer ALost) -> ~ alive (view (c_srv c')).
  Proof.
    intros R E AL. destruct (ready_stat exec view p c R) as (St & So & T0).
    assert (exists chunks, load_tuple_chunks serve p c chunks = (c', LServer ALost)) as (chunks & L).
    { unfold load_rows in E. destruct (n <? 0); [eauto|]. destruct (n =? 0); [discriminate|eauto]. }
    unfold load_tuple_chunks in L. destruct (load_loop serve p c chunks) as [c1 r1] eqn:L1.
    destruct (loop_inv exec serve view LAW p _ chunks c c1 r1 [] St L1) as (k & qs & _ & _ & H).
    destruct r1 as [|e|a|]; try discriminate L; try contradiction. injection L as <- ->. destruct H as (H & _).
    inversion H as [? ? ? ? [Q|Q]| |? ? ? De]; try discriminate. subst.
    destruct (sync_spec exec serve view LAW c1) as (v' & E' & Z & _). cbv zeta in Z. apply AL. rewrite E'.
    destruct Z as [Z|[(T' & Z)|[Z|(Z & T')]]]; rewrite Z; auto; congruence.
  Qed.

  (** The iterable raises an exception: that is the exception; the chunks completed before it
      were executed, and nothing of the rows after them (which may be unfit for packing). *)
  Theorem C63_iterable c rows n e pss d c' r : ready view c -> 0 < n -> load_rows serve p c rows n = (c', r) ->
    ending rows = Some e ->
    let k := (length (items rows) / Z.to_nat n)%nat in
    Forall2 (packs p) (first_chunks n k (items rows)) pss ->
    executed exec (st_id p) (sv_now (view (c_srv c))) pss d ->
    alive (view (c_srv c')) -> r = LRaise e /\ now_has (view (c_srv c)) (view (c_srv c')) d.
  Proof.
    intros R N E En k P X AL. destruct (ready_stat exec view p c R) as (_ & _ & T0).
    assert (N' : (0 < Z.to_nat n)%nat) by lia.
    destruct (rows_inv exec serve view LAW p c rows n c' _ R N E) as (cl & j & qs & CU & K & F & G & Fi & Xa & H). cbv zeta in *.
    assert (JK : (j <= k)%nat) by (rewrite (cut_count _ _ _ CU), En, Nat.add_0_r in K; exact K).
    assert (KL : (k * Z.to_nat n <= length (items rows))%nat).
    { unfold k. rewrite Nat.mul_comm. apply Nat.mul_div_le. lia. }
    assert (LF : length (first_chunks n k (items rows)) = (k * Z.to_nat n)%nat) by (unfold first_chunks; now apply firstn_length_le).
    assert (I0 : items rows = first_chunks n k (items rows) ++ skipn (k * Z.to_nat n) (items rows)) by (symmetry; apply firstn_skipn).
    assert (X' : executed exec (st_id p) (sv_now (view (c_srv c))) (firstn (k * Z.to_nat n) pss) d).
    { rewrite firstn_all2; [exact X|]. rewrite <- (Forall2_len _ _ _ P), LF. reflexivity. }
    assert (J : (j * Z.to_nat n <= length (first_chunks n k (items rows)))%nat) by (rewrite LF; apply Nat.mul_le_mono_r; exact JK).
    assert (NF : forall q qs1 v1, qs = qs1 ++ [q] -> after exec p (view (c_srv c)) qs1 v1 -> (forall d, ~ executed exec (st_id p) (sv_now v1) q d) -> False).
    { intros q qs1 v1 -> A NE. exact (failed_chunk exec p _ _ _ _ _ _ _ _ _ _ _ k d N' CU K F I0 P A NE X' JK J). }
    destruct r as [|e'|a|].
    - exfalso. destruct H as (_ & H & _). congruence.
    - destruct H as (HE & HS).
      assert (A : after exec p (view (c_srv c)) qs (view (c_srv c'))).
      { destruct HS as [HS|[HS|(q & qs1 & v1 & Q1 & Q2 & Q3)]]; [exfalso; exact (AL HS)|exact HS|exfalso; eapply NF; eauto]. }
      destruct HE as [(-> & En')|(ch & C1 & C2)].
      + split; [congruence|]. assert (Kk : length cl = k) by (rewrite (cut_count _ _ _ CU), En, Nat.add_0_r; reflexivity). rewrite Kk in *.
        pose proof (packs_fun_list p _ _ _ P G) as Q. subst pss. rewrite (executed_det exec p _ _ _ _ X (proj1 A)). eapply now_has_after; eauto.
      + exfalso. destruct (bindings_err p _ _ C2) as (a & r' & b & -> & Pa & Er).
        assert (List.In r' (first_chunks n k (items rows))).
        { unfold first_chunks. assert (Kk : length cl = k) by (rewrite (cut_count _ _ _ CU), En, Nat.add_0_r; reflexivity).
          rewrite <- (cut_first _ _ _ CU) by lia. rewrite <- Kk, firstn_all. apply nth_error_In in C1. apply in_concat. eexists. split; [exact C1|]. apply in_or_app. right. left. reflexivity. }
        clear - P H Er. induction P; [exact H|]. destruct H as [->|H]; [eapply packs_not_err; eauto|auto].
    - destruct H as (_ & [H|(q & qs1 & v1 & H1 & H2 & H3 & _)]); [exfalso; apply AL; exact H|]. exfalso. eapply NF; eauto.
    - contradiction.
  Qed.

  (** The rows can be packed, but the server cannot execute the statement for one of chunk [k]: its
      error is raised; outside of a block exactly the chunks before are committed, in a block it
      has failed. *)
  Theorem C63_server_error c rows n pss k d c' r : ready view c -> 0 < n -> load_rows serve p c rows n = (c', r) ->
    ending rows = None -> Forall2 (packs p) (items rows) pss ->
    executed exec (st_id p) (sv_now (view (c_srv c))) (first_chunks n k pss) d ->
    (forall d', ~ executed exec (st_id p) (sv_now (view (c_srv c))) (first_chunks n (S k) pss) d') ->
    alive (view (c_srv c')) ->
    r = LServer AError /\ nothing_pending c' /\
    match sv_state (view (c_srv c)) with
    | TIdle => now_has (view (c_srv c)) (view (c_srv c')) d
    | _ => sv_state (view (c_srv c')) = TFailed
    end.
  Proof.
    intros R N E En P X NX AL. destruct (ready_stat exec view p c R) as (_ & _ & T0).
    assert (N' : (0 < Z.to_nat n)%nat) by lia.
    destruct (rows_inv exec serve view LAW p c rows n c' _ R N E) as (cl & j & qs & CU & K & F & G & Fi & Xa & H). cbv zeta in *.
    assert (Q : concat qs = firstn (j * Z.to_nat n) pss).
    { apply (packs_fun_list p (firstn (j * Z.to_nat n) (items rows))); [exact G|]. now apply Forall2_firstn. }
    assert (ND : forall v1, executed exec (st_id p) (sv_now (view (c_srv c))) (firstn (j * Z.to_nat n) pss) v1 -> (j <= k)%nat).
    { intros v1 Z. destruct (Nat.le_gt_cases j k) as [L|L]; [exact L|exfalso].
      destruct (run_some exec p _ _ _ _ (S k * Z.to_nat n) Z) as (d2 & W); [apply Nat.mul_le_mono_r; lia|]. exact (NX _ W). }
    assert (FA : forall q qs1 v1, qs = qs1 ++ [q] -> after exec p (view (c_srv c)) qs1 v1 -> (forall d, ~ executed exec (st_id p) (sv_now v1) q d) -> j = S k /\ sv_now v1 = d).
    { intros q qs1 v1 -> A NE. destruct (last_chunk p _ rows cl j qs1 q N' CU K F (cut_whole _ _ _ CU j K)) as (j1 & -> & Q1 & Q2).
      pose proof (packs_fun_list p _ _ _ Q1 (Forall2_firstn _ _ _ _ P)) as E1.
      assert (E2 : q = firstn (Z.to_nat n) (skipn (j1 * Z.to_nat n) pss)).
      { rewrite concat_app in Q. cbn [concat] in Q. rewrite app_nil_r, E1 in Q. replace (S j1 * Z.to_nat n)%nat with (j1 * Z.to_nat n + Z.to_nat n)%nat in Q by lia.
        rewrite firstn_sum in Q. now apply app_inv_head in Q. }
      destruct A as (A & _). rewrite E1 in A.
      assert (L1 : (j1 <= k)%nat).
      { destruct (Nat.le_gt_cases j1 k) as [L|L]; [exact L|exfalso].
        destruct (run_some exec p _ _ _ _ (S k * Z.to_nat n) A) as (d2 & W); [apply Nat.mul_le_mono_r; lia|]. exact (NX _ W). }
      destruct (Nat.eq_dec j1 k) as [->|Ne].
      - split; [reflexivity|]. exact (executed_det exec p _ _ _ _ A X).
      - exfalso. destruct (run_some exec p _ _ _ _ (S j1 * Z.to_nat n) X) as (d2 & W); [apply Nat.mul_le_mono_r; lia|].
        replace (S j1 * Z.to_nat n)%nat with (j1 * Z.to_nat n + Z.to_nat n)%nat in W by lia. apply run_cut in W as (d3 & W1 & W2).
        pose proof (executed_det exec p _ _ _ _ A W1) as W3. rewrite E2, W3 in NE. exact (NE _ W2). }
    destruct r as [|e'|a|].
    - exfalso. destruct H as (-> & _ & _ & A). destruct A as (A & _). 
      rewrite <- (cut_first _ _ _ CU) in G by exact K. rewrite firstn_all, (cut_all _ _ _ CU En) in G.
      pose proof (packs_fun_list p _ _ _ P G) as Z. rewrite <- Z in A. rewrite <- (firstn_skipn (S k * Z.to_nat n) pss) in A.
      apply executed_app in A as (d1 & A & _). exact (NX _ A).
    - exfalso. destruct H as ([(_ & H)|(ch & H1 & H2)] & _); [congruence|].
      destruct (bindings_err p _ _ H2) as (a & r & b & -> & _ & Er).
      assert (I0 : List.In r (items rows)).
      { rewrite <- (cut_all _ _ _ CU En). apply nth_error_In in H1. apply in_concat. eexists. split; [exact H1|]. apply in_or_app. right. left. reflexivity. }
      clear - P I0 Er. induction P; [exact I0|]. destruct I0 as [->|I0]; [eapply packs_not_err; eauto|auto].
    - destruct H as (Ha & [H|(q & qs1 & v1 & H1 & H2 & H3 & H4 & H5)]); [exfalso; apply AL; exact H|].
      destruct (FA _ _ _ H1 H2 H3) as (-> & <-).
      assert (Xn : c_xact c' = None) by (destruct Xa as [Xa|(_ & Xa)]; [exact Xa|exfalso; exact (AL Xa)]).
      destruct (sv_state (view (c_srv c))) eqn:T; try (destruct T0; congruence).
      + split; [|split; [exact Xn|]].
        * destruct Ha as [->| ->]; [reflexivity|]. exfalso. apply (lost_dead c rows n c' R E). exact AL.
        * destruct (H4 eq_refl) as (W1 & W2 & W3). unfold now_has. rewrite T. auto.
      + split; [|split; [exact Xn|auto]].
        destruct Ha as [->| ->]; [reflexivity|]. exfalso. apply (lost_dead c rows n c' R E). exact AL.
    - contradiction.
  Qed.

  (** However load_rows ends, no error is left that would be raised by the next, unrelated
      operation (unless the connection is lost). *)
  Theorem C63_clean c rows n c' r : ready view c -> n <> 0 -> load_rows serve p c rows n = (c', r) ->
    nothing_pending c' \/ ~ alive (view (c_srv c')).
  Proof.
    intros R N E.
    assert (exists chunks, load_tuple_chunks serve p c chunks = (c', r)) as (chunks & L).
    { unfold load_rows in E. destruct (n <? 0); [eauto|]. rewrite (proj2 (Z.eqb_neq n 0) N) in E. eauto. }
    destruct (chunks_inv exec serve view LAW p c _ c' r R L) as (k & qs & _ & _ & _ & [X|(_ & X)] & _); [left; exact X|right; intros AL; auto].
  Qed.
End C63.
Print Assumptions C63_all. Print Assumptions C63_success. Print Assumptions C63_whole_chunks. Print Assumptions C63_block.
Print Assumptions C63_unpackable. Print Assumptions C63_iterable. Print Assumptions C63_server_error. Print Assumptions C63_clean.

(** ** an example: the table is the list of the values inserted; 0 is refused by the server,
    negative values cannot be packed *)
Definition ex_exec (d : list Z) (_ : bytes) (ps : list (option bytes)) (_ : Z) : option (list Z) :=
  match ps with [Some [0]] => None | [Some [x]] => Some (d ++ [x]) | _ => None end.
Definition ex_stmt : stmt Z :=
  {| st_id := [115]; st_formats := []; st_io := [fun x => if x <? 0 then Err ValueError else Ok [x]]; st_err := fun e _ => Some e |}.
Definition ex_rows (l : list Z) : list (list (option Z)) := map (fun x => [Some x]) l.
Fixpoint raising {A} (l : list A) (e : exn) : src A := match l with [] => SRaise e | x :: l => SCons x (raising l e) end.
Definition ex_conn (t : tstate) : conn (server (list Z)) :=
  {| c_srv := {| sv_committed := [9]; sv_now := [9]; sv_state := t |}; c_xact := None |}.
Definition ex_load t rows n := load_rows (perfect ex_exec) ex_stmt (ex_conn t) rows n.
Example C63_ex_ready : ready (fun s => s) (ex_conn TIdle) /\ ready (fun s => s) (ex_conn TBlock).
Proof. cbn. split; (split; [auto|cbn; auto]). Qed.
Example C63_ex_all : ex_load TIdle (of_list (ex_rows [1; 2; 3; 4; 5])) 2 =
  ({| c_srv := {| sv_committed := [9; 1; 2; 3; 4; 5]; sv_now := [9; 1; 2; 3; 4; 5]; sv_state := TIdle |}; c_xact := None |}, LDone).
Proof. reflexivity. Qed.
Example C63_ex_unpackable : ex_load TIdle (of_list (ex_rows [1; 2; 3; -4; 5])) 2 =
  ({| c_srv := {| sv_committed := [9; 1; 2]; sv_now := [9; 1; 2]; sv_state := TIdle |}; c_xact := None |}, LRaise ValueError).
Proof. reflexivity. Qed.
Example C63_ex_iterable : ex_load TBlock (raising (ex_rows [1; 2; 3; 4; 5]) KeyError) 2 =
  ({| c_srv := {| sv_committed := [9]; sv_now := [9; 1; 2; 3; 4]; sv_state := TBlock |}; c_xact := None |}, LRaise KeyError).
Proof. reflexivity. Qed.
Example C63_ex_server : ex_load TIdle (of_list (ex_rows [1; 2; 3; 0; 5; 6; 7])) 2 =
  ({| c_srv := {| sv_committed := [9; 1; 2]; sv_now := [9; 1; 2]; sv_state := TIdle |}; c_xact := None |}, LServer AError).
Proof. reflexivity. Qed.
Example C63_ex_server_block : snd (ex_load TBlock (of_list (ex_rows [1; 2; 3; 0; 5; 6; 7])) 2) = LServer AError /\
  sv_state (c_srv (fst (ex_load TBlock (of_list (ex_rows [1; 2; 3; 0; 5; 6; 7])) 2))) = TFailed.
Proof. split; reflexivity. Qed.

(** ** What does not hold *)
(** The comment in the code (1822-1826) promises that there is no loss of exception information.
    When the iterable raises while the answer to a chunk is not yet read, an error of the server
    for that chunk is lost: only the exception of the iterable is raised, nothing is left to be
    raised later, and the rows (all of them could be packed) were not loaded. *)
Theorem C63_error_lost_refuted : exists (rows : src (list (option Z))) n c',
  ready (fun s => s) (ex_conn TIdle) /\ (exists pss, Forall2 (packs ex_stmt) (items rows) pss) /\
  ex_load TIdle rows n = (c', LRaise KeyError) /\ nothing_pending c' /\
  length (items rows) = 2%nat /\ n = 2 /\
  serve_request ex_exec (c_srv (ex_conn TIdle)) (removelast (match bindings ex_stmt (of_list (items rows)) with Ok m => m | _ => [] end))
    = (c_srv (ex_conn TIdle), true) /\
  sv_committed (c_srv c') = [9].
Proof.
  exists (raising (ex_rows [1; 0]) KeyError), 2, (ex_conn TIdle). split; [apply C63_ex_ready|]. split.
  - exists [[Some [1]]; [Some [0]]]. constructor; [apply packs_pt; reflexivity|]. constructor; [apply packs_pt; reflexivity|constructor].
  - repeat split; reflexivity.
Qed.
(** Every execution is asked for one row only: a statement that does its work row by row (a SELECT
    with functions) is not executed to its end, without any error.  Here it would insert the value
    as often as it gives rows (two). *)
Definition ex_rowwise (d : list Z) (_ : bytes) (ps : list (option bytes)) (limit : Z) : option (list Z) :=
  match ps with [Some [x]] => Some (d ++ firstn (Z.to_nat (Z.min limit 2)) [x; x]) | _ => None end.
Theorem C63_row_limit_refuted : exists c' full,
  load_rows (perfect ex_rowwise) ex_stmt (ex_conn TIdle) (of_list (ex_rows [1])) 256 = (c', LDone) /\
  ex_rowwise [9] [115] [Some [1]] 4294967295 = Some full /\ sv_now (c_srv c') <> full.
Proof. eexists. exists [9; 1; 1]. split; [reflexivity|]. split; [reflexivity|discriminate]. Qed.
Print Assumptions C63_error_lost_refuted. Print Assumptions C63_row_limit_refuted.

(** rows are bound and executed one by one exactly when the statement has parameters and none are given to load_rows itself; in all
    other cases the rows are lines for a COPY (C64) *)
Theorem C63_path n m : (copy_path n m = false <-> (0 < n)%nat /\ m = 0%nat) /\ (copy_path n m = true <-> n = 0%nat \/ (0 < m)%nat).
Proof. unfold copy_path. destruct n, m; cbn; split; split; intros; try discriminate; try lia; auto. Qed.
Print Assumptions C63_path.
