(** FetchProof4.v: a result whose messages all arrive is got whole *)
From Verif Require Import Base BaseProof PBufferModel Element3Model NegModel NegSpec InstModel InstSpec InstProof InstProof2 InstProof3.
From Verif Require Import InstProps FetchModel FetchSpec FetchProof FetchProof2 FetchProof3.

Definition weight (x : inst) : nat :=
  match i_state x with
  | ISend => 2 | ISendStdin => match i_messages x with PList _ => 3 | _ => 2 end
  | IComplete => 0 | _ => 1
  end%nat.
Definition mu (x : inst) (e : list wire) : nat := (4 * length e + weight x)%nat.
Lemma weight_le x : (weight x <= 3)%nat.
Proof. unfold weight. destruct (i_state x); try destruct (i_messages x); lia. Qed.

Lemma conn_step_mu x e x' e' b : complete x = false -> conn_step x e = Some (x', e', b) -> (mu x' e' < mu x e)%nat.
Proof.
  unfold conn_step, complete, mu. intros C E. pose proof (weight_le x') as W'.
  assert (Wx : weight x = match i_state x with ISend => 2 | ISendStdin => match i_messages x with PList _ => 3 | _ => 2 end
    | IComplete => 0 | _ => 1 end%nat) by reflexivity.
  destruct (i_state x) eqn:Es; try discriminate.
  1:{ injection E as <- <- _. rewrite Wx. assert (Q : weight (inst_sent x) = 1%nat) by (unfold inst_sent; rewrite Es; reflexivity). lia. }
  1:{ injection E as <- <- _. rewrite Wx. assert (Q : weight (inst_sent x) = match i_messages x with PList _ => 2 | _ => 1 end%nat)
        by (unfold inst_sent; rewrite Es; destruct (i_messages x); unfold weight; cbn; rewrite ?Es; reflexivity).
      destruct (i_messages x); lia. }
  all: destruct e as [|[id l|] e]; try discriminate; [destruct (inst_put x id l) as [s [c|er]]; injection E as <- <- _; cbn [length]; lia|
    injection E as <- <- _; cbn [length]; lia].
Qed.
Definition nu (x : inst) (e : list wire) : nat := (length (i_completed x) + length e)%nat.

Section Live.
  Context (stmt : bytes) (afmts : list bytes) (args : list (option bytes)) (rfmts : list bytes) (e0 : list wire).
  Notation cmds := (fetchall_cmds stmt afmts args rfmts).
  Notation inv := (inv cmds e0).
  Context (NL : never_lost e0) (HV : conv cmds (sync_part (wire_msgs e0)) None).

  Lemma nl_in : ~ List.In WLost e0.
  Proof. intros H. unfold never_lost in NL. rewrite Forall_forall in NL. exact (NL _ H eq_refl). Qed.

  Lemma live_fault k x e out : inv k x e out -> faulted x = false.
  Proof.
    intros (g & tr & left & H & K & O & P & W & X & Su & L). destruct X as [-> | (_ & C)]; [|destruct (nl_in C)].
    apply faulted_false. change (i_fatal (cut k g)) with (i_fatal g).
    pose proof (irun_inv _ _ _ H) as (_ & _ & _ & M). unfold good, main in M.
    destruct (cmds_start stmt afmts args rfmts) as (c & cs & Ec & Nc).
    destruct (conv_fin _ _ _ _ _ Ec Nc HV) as (r & R & Hr).
    rewrite W, sync_app, rrun_app in R. destruct (rrun cmds (RAt 0 0) None (sync_part (recvd tr))) as [r1 f1] eqn:E1. cbn [fst snd] in *.
    assert (N1 : r1 <> RViol) by (intros ->; rewrite rrun_viol in R; injection R as <- _; destruct Hr; discriminate).
    assert (N2 : f1 = None).
    { destruct f1; auto. exfalso. apply (rrun_fatal cmds (sync_part (left ++ wire_msgs e)) r1 (Some b)); [discriminate|]. now rewrite R. }
    destruct (M (or_intror N1)) as (M1 & _). congruence.
  Qed.
  Lemma live_step k x e out : inv k x e out -> complete x = false -> exists x' e', conn_step x e = Some (x', e', false) /\ inv k x' e' out /\
    (mu x' e' < mu x e)%nat /\ (nu x' e' <= nu x e)%nat.
  Proof.
    intros I C. assert (I0 := I). destruct I as (g & tr & left & H & K & O & P & W & X & Su & L). destruct X as [-> | (_ & C')]; [|destruct (nl_in C')].
    assert (NC : i_state (cut k g) <> IComplete) by (intros Q; apply complete_true in Q; congruence).
    destruct (L NC) as (-> & R).
    destruct (conn_step (cut k g) e) as [[[x' e'] b]|] eqn:E.
    - destruct (conn_step_inv _ (cmds_start _ _ _ _) _ _ _ _ _ _ _ _ I0 E) as (-> & I'). exists x', e'. split; auto. split; auto.
      split; [eapply conn_step_mu; eauto|].
      unfold conn_step in E. unfold nu. destruct (i_state (cut k g)) eqn:Es; try contradiction.
      1,2: injection E as <- <-; assert (Q : i_completed (inst_sent (cut k g)) = i_completed (cut k g)) by (unfold inst_sent; rewrite Es; destruct (i_messages (cut k g)); reflexivity); rewrite Q; lia.
      all: destruct e as [|[id l|] e]; [discriminate| |exfalso; apply nl_in, Su; now left].
      all: cbn in R; destruct R as (R1 & _); destruct (inst_put (cut k g) id l) as [s [c|er]] eqn:EP; [|discriminate]; injection E as <- <-.
      all: assert (Q : (length (i_completed s) <= S (length (i_completed (cut k g))))%nat); [|cbn [length]; lia].
      all: assert (AQ : forall ms, (length (add_completed (cut k g) id ms) <= S (length (i_completed (cut k g))))%nat)
        by (intros ms; unfold add_completed; destruct (rev (i_completed (cut k g))) as [|[i ?] ?]; [rewrite app_length; cbn; lia|destruct (i =? id); [lia|rewrite app_length; cbn [length]; lia]]).
      all: destruct (inst_put_ok (cut k g) id l s c EP R1) as [Q|(_ & _ & ms & _ & -> & _)]; [|apply AQ].
      all: unfold put_ok in Q; cbn [i_cur set_state] in Q; destruct (i_cur (cut k g)) as [o st]; destruct Q as (kk & _ & _ & _ & _ & _ & [(_ & -> & _)|(o' & st' & ms & _ & _ & -> & _)]); [cbn [i_completed set_state]; lia|apply AQ].
    - exfalso. assert (E' : e = [] /\ receiving g).
      { unfold conn_step in E. change (i_state (cut k g)) with (i_state g) in E, NC. unfold receiving. destruct (i_state g) eqn:Es; try discriminate; try contradiction;
          (destruct e as [|[id l|] e]; [auto|destruct (inst_put (cut k g) id l) as [? [?|?]]; discriminate|discriminate]). }
      destruct E' as (-> & _). cbn [wire_msgs app] in W. rewrite app_nil_r in W.
      assert (V : conv cmds (sync_part (recvd tr)) None) by (rewrite <- W; exact HV).
      destruct (C25_answered _ _ _ _ H (cmds_start _ _ _ _) V) as (Q & _). apply NC. exact Q.
  Qed.
  Lemma live_pq_step k x e out : inv k x e out -> complete x = false -> exists x' e', pq_step x e = (x', e', FDone tt) /\ inv k x' e' out /\
    (mu x' e' < mu x e)%nat /\ (nu x' e' <= nu x e)%nat.
  Proof.
    intros I C. destruct (live_step _ _ _ _ I C) as (x' & e' & E & I' & M & N). exists x', e'. unfold pq_step. rewrite E, (live_fault _ _ _ _ I'), andb_false_r. auto.
  Qed.
  Lemma live_complete k out fuel : forall x e, inv k x e out -> (mu x e <= fuel)%nat -> exists x' e', pq_complete fuel x e = (x', e', FDone tt) /\ inv k x' e' out.
  Proof.
    unfold pq_complete.
    induction fuel as [|fuel IH]; intros x e I M; cbn [run_complete].
    - destruct (complete x) eqn:C; [rewrite (live_fault _ _ _ _ I); eauto|].
      exfalso. destruct (live_step _ _ _ _ I C) as (? & ? & _ & _ & Q & _). lia.
    - destruct (complete x) eqn:C; [rewrite (live_fault _ _ _ _ I); eauto|].
      destruct (live_step _ _ _ _ I C) as (x' & e' & E & I' & Q & _). rewrite E. apply IH; auto. lia.
  Qed.
  Lemma live_next k out fuel : forall x e, inv k x e out -> (mu x e <= fuel)%nat -> exists x' e', next_loop fuel x e = (x', e', FDone tt) /\ inv k x' e' out /\
    (mu x' e' <= mu x e)%nat /\ (nu x' e' <= nu x e)%nat.
  Proof.
    induction fuel as [|fuel IH]; intros x e I M; cbn [next_loop].
    - destruct (complete x) eqn:C; [exists x, e; cbn; auto|].
      exfalso. destruct (live_step _ _ _ _ I C) as (? & ? & _ & _ & Q & _). lia.
    - destruct (complete x) eqn:C; [exists x, e; cbn; auto|]. cbn [orb].
      destruct (negb _); [exists x, e; auto|].
      destruct (live_pq_step _ _ _ _ I C) as (x' & e' & E & I' & Q & Q'). rewrite E.
      destruct (IH x' e' I' ltac:(lia)) as (x2 & e2 & E2 & I2 & Q2 & Q2'). exists x2, e2. repeat split; auto; lia.
  Qed.

  (** what is received fits what is expected *)
  Context (ex : Z) (EX : ex = 68 \/ ex = 72) (Fit : forall x, List.In x (wire_msgs e0) -> fst x <> 71 /\ (ex = 68 -> fst x <> 72)).

  Lemma live_scan x e : inv 0 x e [] -> scan_init ex (messages_received x) <> ScRaise.
  Proof.
    intros I. destruct (inv_sound _ (cmds_start _ _ _ _) _ _ _ _ _ I (live_fault _ _ _ _ I)) as (g & tr & left & -> & H & _ & _ & W & _ & M & _ & _).
    rewrite cut_0. destruct (conv_shape _ _ _ _ _ HV) as (b & seg & z & E & Eb & Ez & A).
    assert (Pre : exists rest, b :: seg ++ [z] = sync_part (recvd tr) ++ rest) by (exists (sync_part (left ++ wire_msgs e)); rewrite <- sync_app, <- W; auto).
    destruct Pre as (rest & Pre).
    assert (In' : forall y, List.In y seg -> fst y <> 71 /\ (ex = 68 -> fst y <> 72)).
    { intros y Hy. apply Fit. assert (Hs : List.In y (sync_part (wire_msgs e0))) by (rewrite E; right; apply in_or_app; now left).
      unfold sync_part in Hs. apply filter_In in Hs. apply Hs. }
    revert M Pre. generalize (sync_part (recvd tr)). intros L M Pre. clear - M Pre Eb EX In' A. destruct M as [|y m L ml Hm M]; [discriminate|].
    cbn in Pre. injection Pre as <- Pre. pose proof (msg_type _ _ Hm) as T. rewrite Eb in T.
    assert (S1 : scan_init ex (m :: ml) = scan_init ex ml).
    { assert (Q : (if ex =? 50 then ScReturn else if 50 =? 73 then ScEmpty else if 50 =? 67 then ScEmpty
                 else if (50 =? 50) || (50 =? 49) then scan_init ex ml else ScRaise) = scan_init ex ml) by (destruct EX; subst ex; reflexivity).
      destruct m; cbn [scan_init]; rewrite ?T; auto; discriminate T. }
    rewrite S1. destruct M as [|y2 m2 L ml Hm2 M]; [discriminate|].
    pose proof (msg_type _ _ Hm2) as T2. pose proof (msg_data _ _ Hm2) as D2.
    apply answer_head in A. destruct seg as [|s seg]; [destruct A as [A|[A|(t & r & A & Ht)]]; discriminate|].
    cbn in Pre. injection Pre as <- _. destruct (In' s (or_introl eq_refl)) as (N1 & N2).
    assert (Ht : fst s = 73 \/ fst s = 67 \/ fst s = 68 \/ (fst s = 72 /\ ex = 72)).
    { destruct A as [A|[A|(t & r & A & Ht)]]; cbn in A; injection A as A _; [auto|auto|].
      rewrite <- A in Ht. destruct Ht as [Ht|[Ht|Ht]]; auto; [|contradiction]. destruct EX as [->|]; [now apply N2 in Ht|auto]. }
    destruct Ht as [Ht|[Ht|[Ht|(Ht & Hx)]]]; rewrite Ht in T2, D2; cbn in D2.
    1,2: destruct m2; cbn [scan_init]; rewrite ?T2; try discriminate; destruct EX; subst ex; discriminate.
    - destruct m2; try discriminate; cbn [scan_init]; try rewrite T2; try discriminate.
    - rewrite Hx. destruct m2; cbn [scan_init]; rewrite ?T2; try discriminate; discriminate T2.
  Qed.

  Lemma live_init_loop fuel : forall x e, inv 0 x e [] -> (mu x e <= fuel)%nat -> exists x' e' r, init_loop fuel ex x e = (x', e', FDone r) /\
    match r with Some y => y = x' /\ inv 0 x' e' [] /\ (mu x' e' <= mu x e)%nat /\ (nu x' e' <= nu x e)%nat | None => over cmds e0 [] end.
  Proof.
    induction fuel as [|fuel IH]; intros x e I M; cbn [init_loop];
      (destruct (complete x) eqn:C; [exists x, e, (Some x); auto|]).
    - exfalso. destruct (live_step _ _ _ _ I C) as (? & ? & _ & _ & Q & _). lia.
    - destruct (live_pq_step _ _ _ _ I C) as (x1 & e1 & E & I1 & M1 & N1). rewrite E.
      destruct (scan_init ex (messages_received x1)) eqn:S.
      + exists x1, e1, (Some x1). split; auto. split; auto. split; auto. lia.
      + destruct (live_complete _ _ fuel _ _ I1 ltac:(lia)) as (x2 & e2 & E2 & I2). rewrite E2. exists x2, e2, None. split; auto.
        destruct (pq_complete_inv _ (cmds_start _ _ _ _) _ _ _ _ _ _ _ _ _ I1 E2) as (_ & D & _). destruct (D eq_refl) as (C2 & F2).
        exact (empty_over _ _ _ _ _ _ _ _ _ _ I1 (live_fault _ _ _ _ I1) S I2 F2 C2).
      + destruct (live_scan _ _ I1 S).
      + destruct (IH x1 e1 I1 ltac:(lia)) as (x2 & e2 & r & E2 & Q). exists x2, e2, r. split; auto.
        destruct r as [y|]; [|exact Q]. destruct Q as (-> & I2 & Q1 & Q2). repeat split; auto; lia.
  Qed.

  (** the data of the whole *)
  Lemma over_whole out : over cmds e0 out -> Forall2 msg_is (data (wire_msgs e0)) out.
  Proof.
    intros (n & V & F). replace (data (wire_msgs e0)) with (data (firstn n (wire_msgs e0))); auto.
    rewrite <- (firstn_skipn n (wire_msgs e0)) at 2. rewrite data_app.
    replace (data (skipn n (wire_msgs e0))) with (@nil wmsg); [now rewrite app_nil_r|].
    rewrite <- data_sync.
    destruct (cmds_start stmt afmts args rfmts) as (c & cs & Ec & Nc).
    destruct (conv_fin _ _ _ _ _ Ec Nc HV) as (r & R & Hr). destruct (conv_fin _ _ _ _ _ Ec Nc V) as (r1 & R1 & Hr1).
    rewrite <- (firstn_skipn n (wire_msgs e0)), sync_app, rrun_app, R1 in R. cbn [fst snd] in R.
    rewrite (rrun_end cmds r1 None (sync_part (skipn n (wire_msgs e0)))); auto. rewrite R. destruct Hr as [->| ->]; discriminate.
  Qed.

  Lemma live_drain fuel n : forall k x e out, inv k x e out -> (mu x e <= fuel)%nat -> (nu x e < n)%nat ->
    exists rows, drain fuel n {| f_x := Some x; f_in := e |} out = FDone rows /\ Forall2 msg_is (data (wire_msgs e0)) rows.
  Proof.
    induction n as [|n IH]; intros k x e out I M N; [lia|]. cbn [drain]. unfold fetch_next. cbn [f_x f_in].
    destruct (live_next _ _ fuel _ _ I M) as (x1 & e1 & E & I1 & M1 & N1). rewrite E.
    rewrite (live_fault _ _ _ _ I1). destruct (i_completed x1) as [|[id ms] r] eqn:Ec.
    - exists out. split; auto. apply over_whole.
      destruct (next_loop_inv _ (cmds_start _ _ _ _) _ _ _ _ _ _ _ _ _ I E) as (_ & D). destruct (D eq_refl) as [C|C]; [|congruence].
      exact (inv_over _ (cmds_start _ _ _ _) _ _ _ _ _ I1 (live_fault _ _ _ _ I1) C Ec).
    - apply (IH (S k)).
      + exact (inv_take _ (cmds_start _ _ _ _) _ _ _ _ _ _ _ _ I1 (live_fault _ _ _ _ I1) Ec).
      + unfold mu, weight in *. cbn. cbn in M1. lia.
      + unfold nu in *. rewrite Ec in N1. cbn [length] in N1. cbn. rewrite Ec. cbn [tl]. lia.
  Qed.

  Theorem live fuel n : readable 0 e0 -> all_ok cmds = true -> (4 * length e0 + 4 <= fuel)%nat -> (length e0 < n)%nat ->
    exists f, fetch_init fuel ex cmds e0 = FDone f /\
      exists rows, drain fuel n f [] = FDone rows /\ Forall2 msg_is (data (wire_msgs e0)) rows.
  Proof.
    intros R OK Hf Hn. unfold fetch_init. destruct (inst_init cmds) as [s|] eqn:Es; [|unfold inst_init in Es; rewrite OK in Es; discriminate].
    pose proof (inv_init _ _ R _ Es) as I.
    assert (Ms : (mu s e0 <= fuel)%nat) by (unfold mu; pose proof (weight_le s); lia).
    assert (Ns : nu s e0 = length e0) by (unfold inst_init in Es; rewrite OK in Es; injection Es as <-; reflexivity).
    destruct (live_init_loop fuel _ _ I Ms) as (x1 & e1 & r & E & Q). rewrite E. exists {| f_x := r; f_in := e1 |}. split; auto.
    destruct r as [y|].
    - destruct Q as (-> & I1 & M1 & N1). apply (live_drain fuel n 0); auto; lia.
    - exists []. split; [destruct n; [lia|reflexivity]|]. now apply over_whole.
  Qed.
End Live.
