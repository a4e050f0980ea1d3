(** ClsProof2.v: invariants of the driver's connection. *)
From Verif Require Import Base BaseProof PBufferModel PBufferSpec PBufferProof Element3Model NegModel NegSpec InstModel InstSpec InstProof InstProof3 ConnModel ConnSpec ConnProof ConnProof2 ConnProof3 ConnProps ClsModel ClsSpec ClsProof.

(** ** without a socket *)
Definition quiet (c c' : conn) : Prop := c_wire c' = c_wire c /\ c_in c' = c_in c.
Lemma quiet_refl c : quiet c c. Proof. split; reflexivity. Qed.
Lemma quiet_trans a b c : quiet a b -> quiet b c -> quiet a c. Proof. intros [A B] [C D]. split; congruence. Qed.
Definition LS (c : conn) : Prop := exists x, c_xact c = Some x /\ x_fatal c x = true.
Lemma over_LS c : over c -> LS c. Proof. intros (x & A & _ & B). exists x; auto. Qed.
Lemma LS_cases c : FC c -> LS c -> over c \/ (c_down c = true /\ c_xact c <> None).
Proof.
  intros [F Ov] (x & Ex & Ef). destruct (c_down c) eqn:D; [right; split; congruence|left]. exists x. split; [exact Ex|]. split; [|exact Ef].
  unfold x_fatal in Ef. rewrite D in Ef. cbn in Ef. destruct (i_fatal x) as [[|]|] eqn:G; try discriminate. unfold x_state. destruct (c_over c); [reflexivity|]. apply (F x Ex G).
Qed.
Lemma down_LS c : c_down c = true -> c_xact c <> None -> LS c.
Proof. intros D N. destruct (c_xact c) as [x|] eqn:Ex; [|congruence]. exists x. split; [exact Ex|]. unfold x_fatal. rewrite D. reflexivity. Qed.
Lemma finish_quiet c : quiet c (finish_step c).
Proof. unfold finish_step. destruct (c_xact c); [|apply quiet_refl]. destruct (_ && _); split; reflexivity. Qed.
Lemma take_quiet c x : quiet c (fst (take_messages c x)).
Proof. unfold take_messages. destruct (inst_put _ _ _) as [x' [n|e]]; split; reflexivity. Qed.
Lemma finish_down c : c_down c = true -> finish_step c = c.
Proof. intros D. unfold finish_step. destruct (c_xact c) as [x|]; [|reflexivity]. unfold x_fatal. rewrite D. cbn. rewrite andb_false_r. reflexivity. Qed.
Lemma step_off c : FC c -> LS c -> LS (fst (step_s false c)) /\ quiet c (fst (step_s false c)).
Proof.
  intros F L. destruct (LS_cases c F L) as [(x & Ex & Es & Ef)|[D N]].
  - unfold step_s. rewrite Ex, Es. split; [exact L|apply quiet_refl].
  - unfold step_s. destruct (c_xact c) as [x|] eqn:Ex; [|congruence].
    destruct (x_state c x); cbn [wr rd]; try (split; [exact L|apply quiet_refl]).
    1,2: destruct (no_write_spec c (c_mid c, outgoing x)) as (c' & e & W & Fr & Q1 & Q2); rewrite W; cbn [fst]; destruct Fr as (A & B & _);
      split; [apply down_LS; congruence|split; assumption].
    all: unfold no_read; destruct (snd (c_read c)) as [|m l]; [split; [exact L|apply quiet_refl]|];
      pose proof (take_quiet c x) as Q; unfold take_messages in *; destruct (inst_put _ _ _) as [x' [n|e]]; cbn [fst] in *.
    all: try (split; [apply down_LS; [exact D|discriminate]|exact Q]).
    all: rewrite finish_down by exact D; split; [apply down_LS; [exact D|discriminate]|exact Q].
Qed.
Lemma complete_off n : forall c, FC c -> LS c -> LS (fst (complete_s false n c)) /\ quiet c (fst (complete_s false n c)).
Proof.
  induction n as [|n IH]; intros c F L; destruct (LS_cases c F L) as [(x & Ex & Es & Ef)|[D N]];
    try (cbn [complete_s]; rewrite Ex, Es; unfold finish_step; rewrite Ex, Es, Ef; cbn; split; [exact L|apply quiet_refl]; fail).
  - cbn [complete_s]. destruct (c_xact c) as [x|] eqn:Ex; [|congruence]. destruct (x_state c x); try (split; [exact L|apply quiet_refl]).
    cbn [fst]. rewrite finish_down by exact D. split; [exact L|apply quiet_refl].
  - cbn [complete_s]. destruct (c_xact c) as [x|] eqn:Ex; [|congruence].
    destruct (x_state c x) eqn:Es; try (cbn [fst]; rewrite finish_down by exact D; split; [exact L|apply quiet_refl]).
    all: unfold complete1_s; rewrite Es; cbn [wr rd].
    1,2: destruct (no_write_spec c (c_mid c, outgoing x)) as (c' & e & W & Fr & Q1 & Q2); rewrite W; cbn [fst]; destruct Fr as (A & B & _);
      split; [apply down_LS; [reflexivity|cbn; congruence]|split; assumption].
    all: unfold no_read; destruct (snd (c_read c)) as [|m l]; [split; [apply down_LS; [reflexivity|cbn; congruence]|split; reflexivity]|].
    all: pose proof (FC_take c x (proj1 F x Ex) (x_state_not _ _ _ Es ltac:(discriminate)) F) as F1; pose proof (take_quiet c x) as Q;
      unfold take_messages in *; destruct (inst_put _ _ _) as [x' [k|e]]; cbn [fst] in *.
    all: try (split; [apply down_LS; [reflexivity|discriminate]|exact Q]).
    all: match goal with |- LS (fst (complete_s false _ ?d)) /\ _ => destruct (IH d F1) as [G1 G2]; [apply down_LS; [exact D|discriminate]|] end;
      split; [exact G1|exact (quiet_trans _ _ _ Q G2)].
Qed.
Lemma closing_step_off c k : let '(c', k', r) := closing_step false c k in quiet c c' /\ fr c c' /\ (k_over k = true -> k' = k).
Proof.
  unfold closing_step. destruct (k_over k); [split; [apply quiet_refl|split; [apply fr_refl|auto]]|]. cbn [wr].
  destruct (no_write_spec c (k_id k, disconnect)) as (c' & e & -> & F & Q1 & Q2). split; [split; assumption|]. split; [exact F|auto].
Qed.
Lemma closing_complete_over s n c k : k_over k = true -> closing_complete s n c k = (c, k, CRet tt).
Proof. intros E. destruct n; cbn [closing_complete]; rewrite E; reflexivity. Qed.
Lemma closing_step_fr s c k : let '(c', k', r) := closing_step s c k in fr c c' /\ (k_over k = true -> k' = k /\ c' = c).
Proof.
  unfold closing_step. destruct (k_over k); [split; [apply fr_refl|auto]|]. pose proof (wr_fr s c (k_id k, disconnect)) as F.
  destruct (wr s c (k_id k, disconnect)) as [c' [b|[| | |e]]]; cbn [fst] in F; (split; [exact F|discriminate]).
Qed.
Lemma closing_complete_fr s n : forall c k, let '(c', k', r) := closing_complete s n c k in fr c c' /\ (k_over k = true -> k' = k /\ c' = c) /\ (forall u, r = CRet u -> k_over k' = true).
Proof.
  induction n as [|n IH]; intros c k; cbn [closing_complete]; destruct (k_over k) eqn:Ek; try (split; [apply fr_refl|]; split; [auto|intros; congruence]; fail).
  pose proof (wr_fr s c (k_id k, disconnect)) as F. destruct (wr s c (k_id k, disconnect)) as [c' [b|[| | |e]]]; cbn [fst] in F.
  - rewrite closing_complete_over by reflexivity. split; [exact F|]. split; [discriminate|reflexivity].
  - specialize (IH c' k). destruct (closing_complete s n c' k) as [[c2 k2] r]. destruct IH as (A & B & C). split; [exact (fr_trans _ _ _ F A)|]. split; [discriminate|exact C].
  - split; [exact F|]. split; discriminate.
  - split; [exact F|]. split; discriminate.
  - rewrite closing_complete_over by reflexivity. split; [exact F|]. split; [discriminate|reflexivity].
Qed.

(** ** the protocol connection *)
Definition qinv (p : pq) : Prop :=
  FC (p_conn p) /\ (p_closing p <> None -> c_xact (p_conn p) = None) /\ (p_sock p = false -> lost p = true).
Definition overp (p : pq) : Prop := match p_closing p with Some k => k_over k = true | None => over (p_conn p) end.
Lemma overp_lost p : overp p -> lost p = true.
Proof. unfold overp, lost. destruct (p_closing p) as [k|]; [auto|]. intros (x & -> & _ & E). exact E. Qed.
Lemma lost_LS p : p_closing p = None -> lost p = true -> LS (p_conn p).
Proof. unfold lost. intros ->. destruct (c_xact (p_conn p)) as [x|] eqn:E; [|discriminate]. intros Ef. exists x; auto. Qed.
Lemma LS_lost p : p_closing p = None -> LS (p_conn p) -> lost p = true.
Proof. unfold lost. intros ->. intros (x & -> & E). exact E. Qed.
Lemma lost_busy p : lost p = true -> idle p = false.
Proof. unfold lost, idle. destruct (p_closing p); [reflexivity|]. destruct (c_xact (p_conn p)); [reflexivity|discriminate]. Qed.

Definition keep (c c' : conn) : Prop :=
  c_xact c' = c_xact c /\ c_down c' = c_down c /\ c_over c' = c_over c /\ c_wire c' = c_wire c /\ c_in c' = c_in c.
Lemma keep_refl c : keep c c. Proof. unfold keep; auto 6. Qed.
Lemma keep_trans a b c : keep a b -> keep b c -> keep a c.
Proof. unfold keep. intros (A1 & A2 & A3 & A4 & A5) (B1 & B2 & B3 & B4 & B5). repeat split; congruence. Qed.
Lemma keep_over c c' : keep c c' -> over c -> over c'.
Proof. intros (A & B & C & _) (x & Ex & Es & Ef). exists x. split; [congruence|]. unfold x_state, x_fatal in *. rewrite B, C. auto. Qed.
Lemma keep_LS c c' : keep c c' -> LS c -> LS c'.
Proof. intros (A & B & C & _) (x & Ex & Ef). exists x. split; [congruence|]. unfold x_fatal in *. rewrite B. auto. Qed.
Lemma keep_FC c c' : keep c c' -> FC c -> FC c'.
Proof. intros (A & B & C & _) [F Ov]. split; [rewrite A; exact F|rewrite B, C; exact Ov]. Qed.
(** the frame of an operation on the protocol connection *)
Definition good (p p' : pq) : Prop :=
  qinv p' /\ p_sock p' = p_sock p /\ (p_sock p = false -> quiet (p_conn p) (p_conn p')) /\ (overp p -> keep (p_conn p) (p_conn p') /\ p_closing p' = p_closing p).
Lemma complete_good n p p' r : qinv p -> pq_complete n p = (p', r) -> good p p' /\ (forall u, r = CRet u -> idle p' = true \/ overp p').
Proof.
  intros (F & Cn & So) E. unfold pq_complete in E. destruct (p_closing p) as [k|] eqn:Ek.
  - pose proof (closing_complete_fr (p_sock p) n (p_conn p) k) as G. destruct (closing_complete (p_sock p) n (p_conn p) k) as [[c' k'] r0] eqn:Ec.
    cbn [with_k] in E. injection E as <- <-. destruct G as (Fr & Fx & Rt). split; [|intros u Q; right; unfold overp; cbn; apply (Rt u Q)].
    unfold good, qinv. cbn [p_conn p_closing p_sock]. split; [|split; [reflexivity|split]].
    + split; [exact (FC_fr _ _ Fr F)|]. split; [intros _; rewrite (proj1 Fr); apply Cn; discriminate|]. intros S0. specialize (So S0). unfold lost in So. rewrite Ek in So.
      destruct (Fx So) as [-> _]. exact So.
    + intros S0. specialize (So S0). unfold lost in So. rewrite Ek in So. destruct (Fx So) as [_ ->]. apply quiet_refl.
    + unfold overp. rewrite Ek. intros Q. destruct (Fx Q) as [-> ->]. auto using keep_refl.
  - unfold with_c in E. destruct (complete_s (p_sock p) n (p_conn p)) as [c' r0] eqn:Ec. cbn [fst snd] in E. injection E as <- <-.
    destruct (complete_end _ _ _ _ _ F Ec) as (F1 & R1 & _). unfold good, qinv, overp, idle. cbn [with_conn p_conn p_closing p_sock]. rewrite Ek.
    split; [split; [|split; [reflexivity|split]]|].
    + split; [exact F1|]. split; [congruence|]. intros S0. specialize (So S0). pose proof (lost_LS p Ek So) as L. destruct (complete_off n (p_conn p) F L) as [L' _].
      rewrite S0 in Ec. rewrite Ec in L'. apply LS_lost; [exact Ek|exact L'].
    + intros S0. specialize (So S0). pose proof (lost_LS p Ek So) as L. destruct (complete_off n (p_conn p) F L) as [_ L']. rewrite S0 in Ec. rewrite Ec in L'. exact L'.
    + intros (x & Ex & Es & Ef). destruct n; cbn [complete_s] in Ec; rewrite Ex, Es in Ec; unfold finish_step in Ec; rewrite Ex, Es, Ef in Ec; cbn in Ec; injection Ec as <- <-; auto using keep_refl.
    + intros u Q. destruct (R1 u Q) as [->|Ov]; [left; reflexivity|right; exact Ov].
Qed.
Lemma step_good p p' r : qinv p -> pq_step p = (p', r) -> good p p'.
Proof.
  intros (F & Cn & So) E. unfold pq_step in E. destruct (p_closing p) as [k|] eqn:Ek.
  - pose proof (closing_step_fr (p_sock p) (p_conn p) k) as G. destruct (closing_step (p_sock p) (p_conn p) k) as [[c' k'] r0] eqn:Ec.
    cbn [with_k] in E. injection E as <- <-. destruct G as (Fr & Fx).
    unfold good, qinv. cbn [p_conn p_closing p_sock]. split; [|split; [reflexivity|split]].
    + split; [exact (FC_fr _ _ Fr F)|]. split; [intros _; rewrite (proj1 Fr); apply Cn; discriminate|]. intros S0. specialize (So S0). unfold lost in So. rewrite Ek in So.
      destruct (Fx So) as [-> _]. exact So.
    + intros S0. specialize (So S0). unfold lost in So. rewrite Ek in So. destruct (Fx So) as [_ ->]. apply quiet_refl.
    + unfold overp. rewrite Ek. intros Q. destruct (Fx Q) as [-> ->]. auto using keep_refl.
  - unfold with_c in E. pose proof (step_FC (p_sock p) (p_conn p) F) as F1. destruct (step_s (p_sock p) (p_conn p)) as [c' r0] eqn:Ec. cbn [fst snd] in *. injection E as <- <-.
    unfold good, qinv, overp. cbn [with_conn p_conn p_closing p_sock]. rewrite Ek. split; [|split; [reflexivity|split]].
    + split; [exact F1|]. split; [congruence|]. intros S0. specialize (So S0). pose proof (lost_LS p Ek So) as L. destruct (step_off (p_conn p) F L) as [L' _].
      rewrite S0 in Ec. rewrite Ec in L'. apply LS_lost; [exact Ek|exact L'].
    + intros S0. specialize (So S0). pose proof (lost_LS p Ek So) as L. destruct (step_off (p_conn p) F L) as [_ L']. rewrite S0 in Ec. rewrite Ec in L'. exact L'.
    + intros (x & Ex & Es & Ef). unfold step_s in Ec. rewrite Ex, Es in Ec. injection Ec as <- <-. auto using keep_refl.
Qed.
Lemma good_trans a b c : good a b -> good b c -> good a c.
Proof.
  intros (A1 & A2 & A3 & A4) (B1 & B2 & B3 & B4). split; [exact B1|]. split; [congruence|]. split.
  - intros S0. apply (quiet_trans _ _ _ (A3 S0)). apply B3. congruence.
  - intros Ov. destruct (A4 Ov) as [E1 E2]. assert (Ov' : overp b) by (unfold overp in *; rewrite E2; destruct (p_closing a); [exact Ov|exact (keep_over _ _ E1 Ov)]).
    destruct (B4 Ov') as [G ->]. split; [exact (keep_trans _ _ _ E1 G)|exact E2].
Qed.
Lemma good_refl p : qinv p -> good p p.
Proof. intros Q. split; [exact Q|]. split; [reflexivity|]. split; [intros; apply quiet_refl|auto using keep_refl]. Qed.
Lemma arrive_keep c a1 a2 a3 : keep c (arrive c a1 a2 a3). Proof. unfold keep; cbn; auto 6. Qed.
Lemma keep_good p c : qinv p -> keep (p_conn p) c -> good p (with_conn p c).
Proof.
  intros (F & Cn & So) K. unfold good, qinv. cbn [with_conn p_conn p_closing p_sock]. split; [|split; [reflexivity|split]].
  - split; [exact (keep_FC _ _ K F)|]. split; [intros N; rewrite (proj1 K); apply Cn; exact N|]. intros S0. specialize (So S0). unfold lost in *. cbn [with_conn p_conn p_closing].
    destruct (p_closing p); [exact So|]. rewrite (proj1 K). destruct (c_xact (p_conn p)) as [x|]; [|discriminate]. unfold x_fatal in *. destruct K as (_ & -> & _). exact So.
  - intros _. destruct K as (_ & _ & _ & A & B). split; assumption.
  - intros _. split; [exact K|reflexivity].
Qed.
Lemma idle_spec p : idle p = true -> p_closing p = None /\ c_xact (p_conn p) = None.
Proof. unfold idle. destruct (p_closing p); [discriminate|]. destruct (c_xact (p_conn p)); [discriminate|auto]. Qed.
Lemma overp_busy p : overp p -> idle p = false.
Proof. intros Ov. apply lost_busy, overp_lost. exact Ov. Qed.
Lemma trash_good p n a1 a2 a3 c r : qinv p -> idle p = true -> trash_s (p_sock p) n (p_conn p) a1 a2 a3 = (c, r) ->
  qinv (with_conn p c) /\ (forall u, r = CRet u -> idle (with_conn p c) = true \/ overp (with_conn p c)).
Proof.
  intros (F & Cn & So) I E. destruct (idle_spec p I) as [Ik Ix]. unfold trash_s in E. cbv zeta in E.
  assert (S1 : p_sock p = true) by (destruct (p_sock p) eqn:Q; [reflexivity|]; pose proof (lost_busy p (So eq_refl)); congruence).
  destruct (inst_init _) as [x|e] eqn:Ei.
  - pose proof (init_fatal _ _ Ei) as Fx. eapply complete_end in E; [|split; [intros y Q; cbn in Q; injection Q as <-; exact Fx|discriminate]].
    destruct E as (F1 & R1 & _). split; [split; [exact F1|]; cbn [with_conn p_closing p_sock]; split; congruence|].
    intros u Q. unfold idle, overp. cbn [with_conn p_closing p_conn]. rewrite Ik. destruct (R1 u Q) as [->|Ov]; [left; reflexivity|right; exact Ov].
  - injection E as <- <-. split; [|discriminate]. split; [exact F|]. cbn [with_conn p_closing p_sock]. split; congruence.
Qed.
Lemma push_good n p a1 a2 a3 start p' r : qinv p ->
  (forall q, qinv q -> idle q = true -> p_sock q = true -> qinv (fst (start q)) /\ p_sock (fst (start q)) = true) ->
  pq_push n p a1 a2 a3 start = (p', r) -> good p p'.
Proof.
  intros Q St E. unfold pq_push in E.
  assert (B : forall p1, good p p1 -> (forall u : unit, True) ->
     (if idle p1 then
        let c := p_conn p1 in
        match (if nonempty (c_stms c) || nonempty (c_curs c) then trash_s (p_sock p1) n c a1 a2 a3 else (arrive c a1 a2 a3, CRet tt)) with
        | (c, CExn e) => (with_conn p1 c, CExn e)
        | (c, CRet _) => if idle (with_conn p1 c) then start (with_conn p1 c) else (with_conn p1 c, CRet tt)
        end
      else (with_conn p1 (arrive (p_conn p1) a1 a2 a3), CRet tt)) = (p', r) -> good p p').
  { intros p1 G _ E1. destruct G as (Q1 & S1 & Qt & Ov). destruct (idle p1) eqn:I1.
    - (* idle: it has a socket *)
      assert (So : p_sock p1 = true) by (destruct (p_sock p1) eqn:Z; [reflexivity|]; pose proof (lost_busy p1 (proj2 (proj2 Q1) Z)); congruence).
      assert (No : ~ overp p).
      { intros O1. destruct (Ov O1) as [K C1]. assert (O2 : overp p1) by (unfold overp in *; rewrite C1; destruct (p_closing p); [exact O1|exact (keep_over _ _ K O1)]).
        rewrite (overp_busy _ O2) in I1. discriminate. }
      assert (Fin : forall q, qinv q -> p_sock q = true -> good p q).
      { intros q Qq Sq. split; [exact Qq|]. split; [congruence|]. split; [intros; congruence|intros; contradiction]. }
      cbv zeta in E1. destruct (nonempty _ || nonempty _) eqn:En.
      + destruct (trash_s _ _ _ _ _ _) as [c r1] eqn:Et. destruct (trash_good _ _ _ _ _ _ _ Q1 I1 Et) as [Q2 R2].
        destruct r1 as [u|e]; [|injection E1 as <- <-; apply Fin; [exact Q2|exact So]].
        destruct (idle (with_conn p1 c)) eqn:I2; [|injection E1 as <- <-; apply Fin; [exact Q2|exact So]].
        destruct (St _ Q2 I2 So) as [Q3 S3]. rewrite E1 in Q3, S3. apply Fin; assumption.
      + destruct (keep_good p1 _ Q1 (arrive_keep (p_conn p1) a1 a2 a3)) as (Q2 & _).
        destruct (idle (with_conn p1 (arrive (p_conn p1) a1 a2 a3))) eqn:I2; [|injection E1 as <- <-; apply Fin; [exact Q2|exact So]].
        destruct (St _ Q2 I2 So) as [Q3 S3]. rewrite E1 in Q3, S3. apply Fin; assumption.
    - injection E1 as <- <-. eapply good_trans; [split; [exact Q1|]; split; [exact S1|]; split; [exact Qt|exact Ov]|]. apply keep_good; [exact Q1|apply arrive_keep]. }
  destruct (idle p) eqn:I0.
  - rewrite I0 in E. apply (B p (good_refl p Q) (fun _ => Logic.I)). rewrite I0. exact E.
  - destruct (pq_complete n p) as [p1 [u|e]] eqn:Ec; destruct (complete_good _ _ _ _ Q Ec) as [G _].
    + apply (B p1 G (fun _ => Logic.I) E).
    + injection E as <- <-. eapply good_trans; [exact G|]. apply keep_good; [exact (proj1 G)|apply arrive_keep].
Qed.
Lemma start_inst_ok x cmds : inst_init cmds = Ok x -> forall q, qinv q -> idle q = true -> p_sock q = true -> qinv (fst (start_inst x q)) /\ p_sock (fst (start_inst x q)) = true.
Proof.
  intros Ei q Q I S0. destruct (idle_spec q I) as [Ik Ix]. unfold start_inst. set (q1 := with_conn q (set_xact (p_conn q) (Some x) WUser)).
  assert (Q1 : qinv q1). { split; [apply FC_set; intros y E; injection E as <-; apply (init_fatal _ _ Ei)|]. cbn. split; congruence. }
  destruct (pq_step q1) as [q2 r] eqn:E. destruct (step_good _ _ _ Q1 E) as (A & B & _). split; [exact A|]. cbn [fst]. rewrite B. exact S0.
Qed.
Lemma start_closing_ok q : qinv q -> idle q = true -> p_sock q = true -> qinv (fst (start_closing q)) /\ p_sock (fst (start_closing q)) = true.
Proof.
  intros Q I S0. unfold start_closing. match goal with |- context [pq_step ?a] => set (q1 := a) end.
  assert (Q1 : qinv q1). { split; [apply FC_set; discriminate|]. cbn. split; [reflexivity|congruence]. }
  destruct (pq_step q1) as [q2 r] eqn:E. destruct (step_good _ _ _ Q1 E) as (A & B & _). split; [exact A|]. cbn [fst]. rewrite B. exact S0.
Qed.
(** after the push of a Closing there is a transaction *)
Lemma push_closing_busy n p a1 a2 a3 p' u : qinv p -> pq_push n p a1 a2 a3 start_closing = (p', CRet u) -> p_closing p' <> None \/ overp p'.
Proof.
  intros Q E. unfold pq_push in E.
  assert (St : forall q, p_closing (fst (start_closing q)) <> None).
  { intros q. unfold start_closing, pq_step. cbn [p_closing]. unfold with_k. destruct (closing_step _ _ _) as [[c k] r]. discriminate. }
  assert (B : forall p1, qinv p1 -> idle p1 = true \/ overp p1 ->
     (if idle p1 then
        let c := p_conn p1 in
        match (if nonempty (c_stms c) || nonempty (c_curs c) then trash_s (p_sock p1) n c a1 a2 a3 else (arrive c a1 a2 a3, CRet tt)) with
        | (c, CExn e) => (with_conn p1 c, CExn e)
        | (c, CRet _) => if idle (with_conn p1 c) then start_closing (with_conn p1 c) else (with_conn p1 c, CRet tt)
        end
      else (with_conn p1 (arrive (p_conn p1) a1 a2 a3), CRet tt)) = (p', CRet u) -> p_closing p' <> None \/ overp p').
  { intros p1 Q1 IO E1. destruct (idle p1) eqn:I1.
    - cbv zeta in E1. destruct (nonempty _ || nonempty _) eqn:En.
      + destruct (trash_s _ _ _ _ _ _) as [c [v|e]] eqn:Et; [|discriminate]. destruct (trash_good _ _ _ _ _ _ _ Q1 I1 Et) as [Q2 R2].
        destruct (idle (with_conn p1 c)) eqn:I2; [left; rewrite <- (f_equal fst E1 : _ = p'); apply St|].
        injection E1 as <- _. right. destruct (R2 v eq_refl) as [Z|Z]; [congruence|exact Z].
      + destruct (idle (with_conn p1 (arrive (p_conn p1) a1 a2 a3))) eqn:I2; [left; rewrite <- (f_equal fst E1 : _ = p'); apply St|].
        exfalso. destruct (idle_spec _ I1) as [Ik Ix]. unfold idle in I2. cbn in I2. rewrite Ik, Ix in I2. discriminate.
    - injection E1 as <- _. right. destruct IO as [Z|Z]; [congruence|]. destruct (keep_good p1 _ Q1 (arrive_keep (p_conn p1) a1 a2 a3)) as (_ & _ & _ & K).
      unfold overp in *. cbn. destruct (p_closing p1); [exact Z|]. exact (keep_over _ _ (arrive_keep _ _ _ _) Z). }
  destruct (idle p) eqn:I0.
  - apply (B p Q (or_introl I0)). exact E.
  - destruct (pq_complete n p) as [p1 [v|e]] eqn:Ec; [|discriminate]. destruct (complete_good _ _ _ _ Q Ec) as [G R]. apply (B p1 (proj1 G) (R v eq_refl) E).
Qed.
Lemma complete_over n p p' u : qinv p -> p_closing p <> None \/ overp p -> pq_complete n p = (p', CRet u) -> overp p'.
Proof.
  intros Q H E. destruct (complete_good _ _ _ _ Q E) as [(Q1 & _ & _ & K) R]. destruct (R u eq_refl) as [I|Ov]; [|exact Ov]. exfalso.
  destruct H as [N|Ov].
  - unfold pq_complete in E. destruct (p_closing p) as [k|]; [|congruence]. unfold with_k in E. destruct (closing_complete _ _ _ _) as [[c k'] r]. injection E as <- _.
    unfold idle in I. cbn in I. discriminate.
  - destruct (K Ov) as [K1 K2]. assert (O2 : overp p') by (unfold overp in *; rewrite K2; destruct (p_closing p); [exact Ov|exact (keep_over _ _ K1 Ov)]).
    rewrite (overp_busy _ O2) in I. discriminate.
Qed.
