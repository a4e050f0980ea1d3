(** ClsProof3.v: the histories of a connection of the driver. *)
From Verif Require Import Base BaseProof PBufferModel PBufferSpec PBufferProof Element3Model NegModel NegSpec InstModel InstSpec InstProof InstProof3 ConnModel ConnSpec ConnProof ConnProof2 ConnProof3 ConnProps ClsModel ClsSpec ClsProof ClsProof2.

Definition vinv (v : drv) : Prop :=
  match v_pq v with PqIs p => qinv p /\ v_closes v = (if p_sock p then O else 1%nat) | _ => v_closes v = O end.
(** what happens to a connection whose socket is closed *)
Definition still (v v' : drv) : Prop :=
  match v_pq v with
  | PqIs p => if p_sock p then True else exists p', v_pq v' = PqIs p' /\ p_sock p' = false /\ quiet (p_conn p) (p_conn p')
  | _ => True
  end.
Lemma good_v v p p' : v_pq v = PqIs p -> vinv v -> good p p' -> vinv (set_pq v p') /\ still v (set_pq v p').
Proof.
  unfold vinv, still. cbn [set_pq v_pq v_closes]. intros -> (Q & C) (Q1 & S1 & Qt & _). split; [split; [exact Q1|rewrite S1; exact C]|].
  destruct (p_sock p) eqn:S0; [exact Logic.I|]. exists p'. split; [reflexivity|]. split; [exact S1|exact (Qt eq_refl)].
Qed.
Lemma sync_off n c : (exists x cmds, c_xact c = Some x /\ inst_init cmds = Ok x) -> c_over c = false -> 
  over (fst (complete_s false (S n) c)) /\ quiet c (fst (complete_s false (S n) c)).
Proof.
  intros (x & cmds & Ex & Ei) Eo. cbn [complete_s]. rewrite Ex.
  assert (Es : i_state x = ISend) by (unfold inst_init in Ei; destruct (all_ok cmds); [injection Ei as <-; reflexivity|discriminate]).
  unfold complete1_s, x_state. rewrite Eo, Es. cbn [wr]. destruct (no_write_spec c (c_mid c, outgoing x)) as (c' & e & -> & Fr & Q1 & Q2). cbn [fst].
  split; [|split; assumption]. exists x. split; [cbn; rewrite (proj1 Fr); exact Ex|]. split; reflexivity.
Qed.
Lemma sync_v v p n p' r : v_pq v = PqIs p -> vinv v -> n <> O -> pq_sync n p = (p', r) -> vinv (set_pq v p') /\ still v (set_pq v p').
Proof.
  intros Ep V Nz E. pose proof V as V0. unfold vinv in V. rewrite Ep in V. destruct V as [Q C]. unfold pq_sync in E.
  assert (B : forall p1, good p p1 ->
     match inst_init sync_cmds with
     | Ok x => pq_complete n {| p_conn := set_xact (p_conn p1) (Some x) WSync; p_closing := None; p_sock := p_sock p1 |}
     | Err e => (p1, CExn (XProto e))
     end = (p', r) -> vinv (set_pq v p') /\ still v (set_pq v p')).
  { intros p1 G E1. destruct (inst_init sync_cmds) as [x|e] eqn:Ei; [|injection E1 as <- <-; apply (good_v v p p1 Ep V0 G)].
    destruct G as (Q1 & S1 & Qt & Ov). match type of E1 with pq_complete n ?a = _ => set (q := a) in * end.
    destruct (p_sock p1) eqn:S0.
    - assert (Qq : qinv q). { split; [apply FC_set; intros y Z; injection Z as <-; apply (init_fatal _ _ Ei)|]. cbn. split; congruence. }
      destruct (complete_good _ _ _ _ Qq E1) as [(A & B & _) _]. cbn in B. unfold vinv, still. rewrite Ep. cbn [set_pq v_pq v_closes]. rewrite B.
      split; [split; [exact A|rewrite C, <- S1; reflexivity]|rewrite <- S1; exact Logic.I].
    - destruct n as [|n]; [congruence|]. unfold pq_complete, q in E1. cbn [p_closing p_sock p_conn] in E1. unfold with_c in E1.
      destruct (sync_off n (set_xact (p_conn p1) (Some x) WSync)) as [O1 Q2]; [exists x, sync_cmds; auto|reflexivity|].
      assert (F1 : FC (fst (complete_s false (S n) (set_xact (p_conn p1) (Some x) WSync)))).
      { destruct (complete_s false (S n) _) as [c' r'] eqn:Ec. apply complete_end in Ec; [exact (proj1 Ec)|]. apply FC_set. intros y Z. injection Z as <-. apply (init_fatal _ _ Ei). }
      destruct (complete_s false (S n) _) as [c' r'] eqn:Ec. cbn [fst snd] in *. injection E1 as <- <-.
      unfold vinv, still. rewrite Ep. cbn [set_pq v_pq v_closes with_conn p_sock]. split.
      + split; [|rewrite C, <- S1; reflexivity]. split; [exact F1|]. split; [intros Z; contradiction Z; reflexivity|]. intros _. apply LS_lost; [reflexivity|]. exact (over_LS _ O1).
      + rewrite <- S1. eexists. split; [reflexivity|]. split; [reflexivity|]. cbn [with_conn p_conn]. apply (quiet_trans _ _ _ (Qt (eq_sym S1))). exact Q2. }
  destruct (idle p) eqn:I0; [apply (B p (good_refl p Q) E)|].
  destruct (pq_complete n p) as [p1 [u|e]] eqn:Ec; destruct (complete_good _ _ _ _ Q Ec) as [G _]; [apply (B p1 G E)|].
  injection E as <- <-. apply (good_v v p p1 Ep V0 G).
Qed.
Lemma copy_keep c m : FC c -> keep c (copy_messages c m) \/ exists x, c_xact c = Some x /\ x_state c x = ISendStdin /\ copy_messages c m = with_xact c (set_messages x m) true [].
Proof.
  intros F. unfold copy_messages. destruct (c_xact c) as [x|] eqn:Ex; [|left; apply keep_refl]. destruct (x_state c x) eqn:Es; try (left; apply keep_refl).
  destruct (i_messages x); try (left; apply keep_refl). destruct (_ || _); [left; apply keep_refl|]. right. exists x. auto.
Qed.
Lemma copy_good p m : qinv p -> good p (with_conn p (copy_messages (p_conn p) m)).
Proof.
  intros Q. pose proof Q as (F & Cn & So). destruct (copy_keep (p_conn p) m F) as [K|(x & Ex & Es & ->)]; [apply keep_good; assumption|].
  assert (Ni : i_state x <> IComplete) by (apply (x_state_not _ _ _ Es); discriminate). pose proof (proj1 F x Ex) as Fx.
  assert (Nf : i_fatal x <> Some true) by (intros Z; apply Ni, Fx, Z).
  assert (Ck : p_closing p = None) by (destruct (p_closing p) eqn:Z; [|reflexivity]; rewrite Cn in Ex by discriminate; discriminate).
  unfold good, qinv. cbn [with_conn p_conn p_closing p_sock with_xact c_xact]. split; [split; [|split; [congruence|]]|split; [reflexivity|split]].
  - split; [|exact (proj2 F)]. cbn. intros y E. injection E as <-. intros Z. exfalso. exact (Nf Z).
  - intros S0. specialize (So S0). unfold lost in *. cbn [with_conn p_closing p_conn with_xact c_xact]. rewrite Ck in *. rewrite Ex in So. exact So.
  - intros _. split; reflexivity.
  - unfold overp. rewrite Ck. intros (y & Ey & Sy & _). rewrite Ex in Ey. injection Ey as <-. congruence.
Qed.
Lemma close_v n a1 a2 a3 v v' r : vinv v -> close n a1 a2 a3 v = (v', r) ->
  vinv v' /\ still v v' /\ (r = VRet -> is_closed v' = true /\ socket_open v' = false).
Proof.
  intros V E. pose proof V as V0. unfold vinv in V. unfold close in E. destruct (v_pq v) as [| |p] eqn:Ep.
  1,2: injection E as <- <-; unfold vinv, still, is_closed, socket_open; rewrite Ep; repeat split; auto.
  destruct V as [Q C]. destruct (p_sock p) eqn:S0.
  2: injection E as <- <-; split; [exact V0|]; unfold still, is_closed, socket_open; rewrite Ep, S0; split;
     [exists p; split; [reflexivity|]; split; [exact S0|apply quiet_refl]|]; intros _; split; [apply (proj2 (proj2 Q)); exact S0|reflexivity].
  assert (St : forall w, still v w) by (intros w; unfold still; rewrite Ep, S0; exact Logic.I).
  assert (Ex : forall q, good p q -> vinv (set_pq v q) /\ still v (set_pq v q)) by (intros q G; apply (good_v v p q Ep V0 G)).
  assert (Sh : forall q, qinv q -> lost q = true -> vinv (shut v q) /\ is_closed (shut v q) = true /\ socket_open (shut v q) = false).
  { intros q (Fq & Cq & _) L. unfold vinv, shut, is_closed, socket_open. cbn [v_pq v_closes p_sock]. split; [|split; [exact L|reflexivity]].
    split; [|rewrite C; reflexivity]. split; [exact Fq|]. split; [exact Cq|]. intros _. exact L. }
  assert (B : forall p1, good p p1 -> idle p1 = true \/ lost p1 = true ->
     match (if idle p1 then
                     match pq_push n p1 a1 a2 a3 start_closing with
                     | (p, CExn e) => (p, CExn e)
                     | (p, CRet _) =>
                         match pq_complete n p with
                         | (p, CExn e) => (p, CExn e)
                         | (p, CRet _) => pq_complete n p
                         end
                     end
                   else (p1, CRet tt)) with
            | (p, CExn e) => (set_pq v p, VExn e)
            | (p, CRet _) => (shut v p, VRet)
            end = (v', r) -> vinv v' /\ still v v' /\ (r = VRet -> is_closed v' = true /\ socket_open v' = false)).
  { intros p1 G IL E1. destruct (idle p1) eqn:I1.
    - destruct (pq_push n p1 a1 a2 a3 start_closing) as [p2 [u|e]] eqn:Epu; pose proof (push_good _ _ _ _ _ _ _ _ (proj1 G) start_closing_ok Epu) as G2.
      2: injection E1 as <- <-; destruct (Ex p2 (good_trans _ _ _ G G2)); split; [assumption|]; split; [assumption|discriminate].
      pose proof (push_closing_busy _ _ _ _ _ _ _ (proj1 G) Epu) as Bz.
      destruct (pq_complete n p2) as [p3 [u3|e]] eqn:Ec; destruct (complete_good _ _ _ _ (proj1 G2) Ec) as [G3 _].
      2: injection E1 as <- <-; destruct (Ex p3 (good_trans _ _ _ (good_trans _ _ _ G G2) G3)); split; [assumption|]; split; [assumption|discriminate].
      pose proof (complete_over _ _ _ _ (proj1 G2) Bz Ec) as O3.
      destruct (pq_complete n p3) as [p4 [u4|e]] eqn:Ec4; destruct (complete_good _ _ _ _ (proj1 G3) Ec4) as [G4 _].
      2: injection E1 as <- <-; destruct (Ex p4 (good_trans _ _ _ (good_trans _ _ _ (good_trans _ _ _ G G2) G3) G4)); split; [assumption|]; split; [assumption|discriminate].
      pose proof (complete_over _ _ _ _ (proj1 G3) (or_intror O3) Ec4) as O4. injection E1 as <- <-.
      destruct (Sh p4 (proj1 G4) (overp_lost _ O4)) as (A & B1 & B2). split; [exact A|]. split; [apply St|auto].
    - injection E1 as <- <-. destruct IL as [Z|L]; [discriminate|]. destruct (Sh p1 (proj1 G) L) as (A & B1 & B2). split; [exact A|]. split; [apply St|auto]. }
  destruct (negb (idle p) && negb (lost p)) eqn:Eb.
  - destruct (pq_complete n p) as [p1 [u|e]] eqn:Ec; destruct (complete_good _ _ _ _ Q Ec) as [G R].
    + apply (B p1 G); [|exact E]. destruct (R u eq_refl) as [I|O1]; [left; exact I|right; apply overp_lost; exact O1].
    + injection E as <- <-. destruct (Ex p1 G). split; [assumption|]. split; [assumption|discriminate].
  - apply (B p (good_refl p Q)); [|exact E]. destruct (idle p); [left; reflexivity|]. destruct (lost p); [right; reflexivity|discriminate].
Qed.
Lemma vstep_inv v o : vinv v -> begun o -> vinv (fst (vstep v o)) /\ still v (fst (vstep v o)).
Proof.
  intros V B. pose proof V as V0. unfold vinv in V.
  assert (Id : vinv v /\ still v v).
  { split; [exact V0|]. unfold still. destruct (v_pq v) as [| |p] eqn:Ep; auto. destruct (p_sock p) eqn:S0; auto. exists p. split; [reflexivity|]. split; [exact S0|apply quiet_refl]. }
  destruct o as [o f|n cmds a1 a2 a3|n| |a|lines| |n|n a1 a2 a3].
  1: { cbn [vstep]. unfold connect, is_closed. destruct (v_pq v) as [| |p] eqn:Ep; try exact Id.
       - destruct o as [[ss rr]|]; cbn [fst]; unfold vinv, still; rewrite Ep; cbn; (split; [|exact Logic.I]); auto.
         split; [|exact V]. split; [split; discriminate|]. cbn. split; congruence.
       - destruct (lost p); exact Id. }
  8: { cbn [vstep]. destruct (close n a1 a2 a3 v) as [v' r] eqn:E. destruct (close_v _ _ _ _ _ _ _ V0 E) as (A & C & _). auto. }
  all: cbn [vstep]; destruct (v_pq v) as [| |p] eqn:Ep; try exact Id; destruct V as [Q C].
  all: assert (Ex : forall q, good p q -> vinv (set_pq v q) /\ still v (set_pq v q)) by (intros q G; apply (good_v v p q Ep V0 G)).
  - destruct (inst_init cmds) as [x|e] eqn:Ei; [|apply Ex, keep_good; [exact Q|apply arrive_keep]].
    destruct (idle p) eqn:I0.
    + destruct (pq_push _ _ _ _ _ _) as [p1 r1] eqn:E1. cbn [finish fst]. apply Ex. apply (push_good _ _ _ _ _ _ _ _ Q (start_inst_ok x cmds Ei) E1).
    + destruct (pq_complete n p) as [p1 [u|e]] eqn:Ec; destruct (complete_good _ _ _ _ Q Ec) as [G R].
      * destruct (faulted p1); [cbn [fst]; apply Ex; eapply good_trans; [exact G|]; apply keep_good; [exact (proj1 G)|apply arrive_keep]|].
        destruct (pq_push _ _ _ _ _ _) as [p2 r1] eqn:E1. cbn [finish fst]. apply Ex. eapply good_trans; [exact G|]. apply (push_good _ _ _ _ _ _ _ _ (proj1 G) (start_inst_ok x cmds Ei) E1).
      * cbn [fst]. apply Ex. eapply good_trans; [exact G|]. apply keep_good; [exact (proj1 G)|apply arrive_keep].
  - destruct (idle p); [exact Id|]. destruct (pq_complete n p) as [p1 [u|e]] eqn:Ec; destruct (complete_good _ _ _ _ Q Ec) as [G R]; apply Ex, G.
  - destruct (idle p); [exact Id|]. destruct (pq_step p) as [p1 [u|e]] eqn:Ec; apply Ex; apply (step_good _ _ _ Q Ec).
  - apply Ex. apply keep_good; [exact Q|]. unfold keep; cbn; auto 6.
  - apply Ex, copy_good. exact Q.
  - apply Ex, copy_good. exact Q.
  - destruct (pq_sync n p) as [p1 r1] eqn:E1. cbn [finish fst]. apply (sync_v v p n p1 r1 Ep V0 B E1).
Qed.
Lemma vrun_inv ops : forall v, vinv v -> Forall begun ops -> vinv (vrun v ops) /\ still v (vrun v ops).
Proof.
  induction ops as [|o ops IH]; intros v V B.
  - cbn. split; [exact V|]. unfold still. unfold vinv in V. destruct (v_pq v) as [| |p] eqn:Ep; auto. destruct (p_sock p) eqn:S0; auto. exists p. split; [reflexivity|]. split; [exact S0|apply quiet_refl].
  - cbn [vrun]. destruct (vstep_inv v o V (Forall_inv B)) as [V1 S1]. destruct (IH _ V1 (Forall_inv_tail B)) as [V2 S2]. split; [exact V2|].
    unfold still in *. destruct (v_pq v) as [| |p]; auto. destruct (p_sock p); auto. destruct S1 as (p1 & E1 & E2 & E3). rewrite E1, E2 in S2.
    destruct S2 as (p2 & G1 & G2 & G3). exists p2. split; [exact G1|]. split; [exact G2|exact (quiet_trans _ _ _ E3 G3)].
Qed.
Lemma vinv_init : vinv drv_init. Proof. reflexivity. Qed.
(** nothing brings back a connection whose last transaction is over and fatal, except pq.synchronize() *)
Definition dead (v : drv) : Prop := match v_pq v with PqIs p => overp p | _ => False end.
Lemma vstep_dead v o : vinv v -> plain o -> dead v -> dead (fst (vstep v o)) /\ wire_of (fst (vstep v o)) = wire_of v /\ input_of (fst (vstep v o)) = input_of v.
Proof.
  intros V Pl D. pose proof V as V0. unfold vinv in V. unfold dead in D. destruct (v_pq v) as [| |p] eqn:Ep; try contradiction. destruct V as [Q C].
  assert (Id : dead v /\ wire_of v = wire_of v /\ input_of v = input_of v) by (unfold dead; rewrite Ep; auto).
  assert (Ex : forall q, good p q -> dead (set_pq v q) /\ wire_of (set_pq v q) = wire_of v /\ input_of (set_pq v q) = input_of v).
  { intros q (_ & _ & _ & K). destruct (K D) as [K1 K2]. unfold dead, wire_of, input_of. rewrite Ep. cbn [set_pq v_pq]. destruct K1 as (A1 & A2 & A3 & A4 & A5). split; [|auto].
    unfold overp in *. rewrite K2. destruct (p_closing p); [exact D|]. apply (keep_over (p_conn p)); [unfold keep; auto 6|exact D]. }
  pose proof (overp_busy p D) as I0. pose proof (overp_lost p D) as L0.
  destruct o as [o f|n cmds a1 a2 a3|n| |a|lines| |n|n a1 a2 a3]; cbn [vstep]; rewrite ?Ep; try contradiction Pl.
  - unfold connect, is_closed. rewrite Ep, L0. exact Id.
  - destruct (inst_init cmds) as [x|e] eqn:Ei; [|apply Ex, keep_good; [exact Q|apply arrive_keep]]. rewrite I0.
    destruct (pq_complete n p) as [p1 [u|e]] eqn:Ec; destruct (complete_good _ _ _ _ Q Ec) as [G R].
    + destruct (faulted p1); [cbn [fst]; apply Ex; eapply good_trans; [exact G|]; apply keep_good; [exact (proj1 G)|apply arrive_keep]|].
      destruct (pq_push _ _ _ _ _ _) as [p2 r1] eqn:E1. cbn [finish fst]. apply Ex. eapply good_trans; [exact G|]. apply (push_good _ _ _ _ _ _ _ _ (proj1 G) (start_inst_ok x cmds Ei) E1).
    + cbn [fst]. apply Ex. eapply good_trans; [exact G|]. apply keep_good; [exact (proj1 G)|apply arrive_keep].
  - rewrite I0. destruct (pq_complete n p) as [p1 [u|e]] eqn:Ec; destruct (complete_good _ _ _ _ Q Ec) as [G R]; apply Ex, G.
  - rewrite I0. destruct (pq_step p) as [p1 [u|e]] eqn:Ec; apply Ex; apply (step_good _ _ _ Q Ec).
  - apply Ex. apply keep_good; [exact Q|]. unfold keep; cbn; auto 6.
  - apply Ex, copy_good. exact Q.
  - apply Ex, copy_good. exact Q.
  - unfold close. rewrite Ep. destruct (p_sock p); [|exact Id]. rewrite I0, L0. cbn [negb andb]. rewrite I0. cbn [fst]. unfold dead, wire_of, input_of, shut. rewrite Ep. cbn. split; [exact D|auto].
Qed.
