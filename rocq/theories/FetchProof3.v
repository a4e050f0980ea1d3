(** FetchProof3.v: the constructor and the runs of a FetchAll *)
From Verif Require Import Base BaseProof PBufferModel Element3Model NegModel NegSpec InstModel InstSpec InstProof InstProof2 InstProof3.
From Verif Require Import InstProps FetchModel FetchSpec FetchProof FetchProof2.

Section Run.
  Context (stmt : bytes) (afmts : list bytes) (args : list (option bytes)) (rfmts : list bytes).
  Notation cmds := (fetchall_cmds stmt afmts args rfmts).

  Lemma cmds_start : starts cmds.
  Proof. exists (MBind [] stmt afmts args rfmts), [MExecute [] 4294967295; MEmpty ESynchronize]. split; [reflexivity|discriminate]. Qed.

  Lemma answer_bind w : answer 66 w -> w = [50]. Proof. inversion 1; auto. Qed.
  Lemma answer_sync w : answer 83 w -> w = [90]. Proof. inversion 1; auto. Qed.
  (** the errorless conversations *)
  Lemma conv_shape l : conv cmds l None -> exists b seg z, l = b :: seg ++ [z] /\ fst b = 50 /\ fst z = 90 /\ answer 69 (map fst seg).
  Proof.
    assert (AE : forall f, after_error f <> None) by (destruct f; discriminate).
    intros V. unfold fetchall_cmds in V.
    inversion V as [|? ? ? ? C|c t cs seg l1 f C A V1|c t cs cs' seg body l1 f C N1 N2 B S R V1|c t cs seg body C N1 N2 B S R|c t cs seg body l1 f C N B S V1|];
      subst; try discriminate; try (exfalso; eapply AE; eauto; fail).
    cbn in C. injection C as <-. apply answer_bind in A. destruct seg as [|b [|? ?]]; try discriminate. cbn in A. injection A as E. clear V.
    inversion V1 as [|? ? ? ? C|c t cs seg l2 f C A V2|c t cs cs' seg body l2 f C N1 N2 B S R V2|c t cs seg body C N1 N2 B S R|c t cs seg body l2 f C N B S V2|];
      subst; try discriminate; try (exfalso; eapply AE; eauto; fail).
    cbn in C. injection C as <-. clear V1.
    inversion V2 as [|? ? ? ? C|c t cs seg2 l3 f C A2 V3|c t cs cs' seg2 body l3 f C N1 N2 B S R V3|c t cs seg2 body C N1 N2 B S R|c t cs seg2 body l3 f C N B S V3|];
      subst; try discriminate; try (exfalso; eapply AE; eauto; fail).
    cbn in C. injection C as <-. apply answer_sync in A2. destruct seg2 as [|z [|? ?]]; try discriminate. cbn in A2. injection A2 as E2. clear V2.
    inversion V3; subst; try discriminate. exists b, seg, z. cbn. auto.
  Qed.

  Lemma answer_head w : answer 69 w -> w = [73] \/ w = [67] \/ exists t r, w = t :: r /\ (t = 68 \/ t = 72 \/ t = 71).
  Proof. inversion 1; cbn; eauto 9. Qed.
  Lemma msg_type x m : msg_is x m -> ctype m = Some (fst x).
  Proof.
    intros (k & S & P). apply parse_kind in P. subst k. unfold srv_kind in S. unfold ctype.
    repeat match type of S with (if ?a =? ?b then _ else _) = _ => destruct (Z.eqb_spec a b) as [->|] end;
      try discriminate S; injection S as <-; reflexivity.
  Qed.
  Lemma scan_empty ex L M : Forall2 msg_is L M -> scan_init ex M = ScEmpty ->
    exists pre x post, L = pre ++ x :: post /\ Forall (fun y => fst y = 50 \/ fst y = 49) pre /\ (fst x = 73 \/ fst x = 67).
  Proof.
    induction 1 as [|y m L M Hm F IH]; [discriminate|]. pose proof (msg_type _ _ Hm) as T.
    assert (Q : (if ex =? fst y then ScReturn else if fst y =? 73 then ScEmpty else if fst y =? 67 then ScEmpty
                 else if (fst y =? 50) || (fst y =? 49) then scan_init ex M else ScRaise) = ScEmpty ->
       exists pre x post, y :: L = pre ++ x :: post /\ Forall (fun y => fst y = 50 \/ fst y = 49) pre /\ (fst x = 73 \/ fst x = 67)).
    { destruct (ex =? fst y); [discriminate|]. destruct (Z.eqb_spec (fst y) 73); [intros _; exists [], y, L; auto|].
      destruct (Z.eqb_spec (fst y) 67); [intros _; exists [], y, L; auto|].
      destruct ((fst y =? 50) || (fst y =? 49)) eqn:E; [|discriminate]. intros S. destruct (IH S) as (pre & x & post & -> & Fp & Hx).
      exists (y :: pre), x, post. split; [reflexivity|]. split; auto. constructor; auto.
      apply orb_true_iff in E as [E|E]; apply Z.eqb_eq in E; auto. }
    destruct m; cbn [scan_init]; rewrite ?T; auto; discriminate.
  Qed.

  Context (e0 : list wire).
  Notation inv := (inv cmds e0).
  Notation over := (over cmds e0).

  Lemma empty_over ex x e x' e' : inv 0 x e [] -> faulted x = false -> scan_init ex (messages_received x) = ScEmpty ->
    inv 0 x' e' [] -> faulted x' = false -> complete x' = true -> over [].
  Proof.
    intros I F S I' F' C'.
    destruct (inv_sound _ cmds_start _ _ _ _ _ I F) as (g & tr & left & -> & H & _ & _ & W & _ & M & _ & _).
    destruct (inv_sound _ cmds_start _ _ _ _ _ I' F') as (g' & tr' & left' & -> & H' & _ & _ & W' & Fg & M' & _ & _).
    rewrite cut_0 in S. apply (scan_empty _ _ _ M) in S as (pre & y & post & EL & Fp & Hy).
    apply complete_true in C'. change (i_state (cut 0 g')) with (i_state g') in C'.
    destruct (C25_complete _ _ _ H' C' Fg) as (V & _).
    exists (length (recvd tr')). rewrite W', firstn_firstn_app, firstn_all by lia. split; auto.
    replace (data (recvd tr')) with (@nil wmsg); [constructor|].
    rewrite <- data_sync. destruct (conv_shape _ V) as (b & seg & z & E & Eb & Ez & A). rewrite E.
    assert (Es : sync_part (recvd tr) ++ sync_part (left ++ wire_msgs e) = sync_part (recvd tr') ++ sync_part (left' ++ wire_msgs e'))
      by (rewrite <- !sync_app, <- W, <- W'; reflexivity).
    rewrite EL, E in Es. clear - Es Fp Hy Eb Ez A.
    apply answer_head in A.
    assert (Q : map fst seg = [73] \/ map fst seg = [67]).
    { destruct pre as [|p [|q pre]].
      - cbn in Es. injection Es as -> _. lia.
      - cbn in Es. injection Es as -> Es. destruct A as [A|[A|(t & r & A & Ht)]]; auto.
        destruct seg as [|s seg]; [discriminate|]. cbn in A, Es. injection Es as Es1 _. injection A as A1 _. rewrite <- Es1 in A1. lia.
      - cbn in Es. injection Es as -> Es. inversion Fp as [|? ? _ Fp']; subst. inversion Fp' as [|? ? Hq _]; subst.
        destruct seg as [|s seg]; [cbn in A; destruct A as [A|[A|(t & r & A & Ht)]]; discriminate|].
        cbn in A, Es. injection Es as Es1 _. rewrite <- Es1 in A. destruct A as [A|[A|(t & r & A & Ht)]]; injection A as A1 _; lia. }
    change (b :: seg ++ [z]) with ([b] ++ seg ++ [z]). rewrite !data_app.
    destruct seg as [|s [|? ?]]; try (destruct Q; discriminate). unfold data. cbn [filter].
    rewrite Eb, Ez. destruct Q as [Q|Q]; injection Q as ->; reflexivity.
  Qed.

  Lemma init_loop_inv ex fuel : forall x e x' e' r, inv 0 x e [] -> init_loop fuel ex x e = (x', e', FDone r) ->
    match r with Some y => y = x' /\ inv 0 x' e' [] | None => over [] end.
  Proof.
    induction fuel as [|fuel IH]; intros x e x' e' r I; cbn [init_loop];
      (destruct (complete x) eqn:C; [intros [= <- <- <-]; auto|]); [discriminate|].
    destruct (pq_step x e) as [[x1 e1] r1] eqn:E. destruct (pq_step_inv _ cmds_start _ _ _ _ _ _ _ _ I E) as (I1 & _).
    destruct r1 as [[]| | |]; try discriminate.
    destruct (scan_init ex (messages_received x1)) eqn:S.
    - intros [= <- <- <-]. auto.
    - destruct (pq_complete fuel x1 e1) as [[x2 e2] r2] eqn:EC.
      destruct (pq_complete_inv _ cmds_start _ _ _ _ _ _ _ _ _ I1 EC) as (I2 & D & _).
      destruct r2 as [[]| | |]; try discriminate. intros [= <- <- <-]. destruct (D eq_refl) as (C2 & F2).
      destruct (faulted x1) eqn:F1; [|exact (empty_over _ _ _ _ _ I1 F1 S I2 F2 C2)].
      (* an error met before is not forgotten *)
      exfalso. revert F1 F2 EC. clear. revert x1 e1. unfold pq_complete.
      assert (St : forall x e x' e' b, conn_step x e = Some (x', e', b) -> faulted x = true -> faulted x' = true).
      { intros x e x' e' b. unfold conn_step.
        assert (Fp : forall id l, faulted x = true -> faulted (fst (inst_put x id l)) = true).
        { intros id l F. assert (PL : forall l s o st p c, faulted s = true -> faulted (fst (put_loop s o st p c l)) = true).
          { clear. induction l as [|y l IHl]; intros s o st p c F; cbn [put_loop]; [exact F|].
            destruct (nth_error _ _) as [cmd|]; [|exact F]. destruct (cmd_paths cmd) as [[ps|]|]; try exact F.
            destruct (nth_error ps st) as [tb|]; [|exact F]. destruct (lookup _ _) as [[k [n|]]|].
            - destruct (parse _ _); [|exact F]. apply IHl. exact F.
            - destruct (parse _ _) as [m|]; [|exact F]. set (s1 := match m with MReady st0 => set_ready s st0 | _ => s end).
              assert (F1 : faulted s1 = true) by (subst s1; destruct m; exact F). clearbody s1. destruct (_ =? _)%nat; [exact F1|apply IHl; exact F1].
            - destruct (_ =? _).
              + destruct (parse _ _) as [em|]; [|exact F]. destruct (err_fatal em) as [[|]|]; try exact F; try reflexivity.
                match goal with |- context [if ?b then _ else _] => destruct b end; [apply IHl; reflexivity|]. destruct (find_sync _); [apply IHl; reflexivity|reflexivity].
              + destruct (async_kind _); [|reflexivity]. destruct (mem_async _ _); [apply IHl; exact F|]. destruct (parse _ _); [apply IHl; exact F|exact F]. }
          assert (SP : forall s, faulted s = true -> faulted (fst (standard_put s id l)) = true).
          { intros s Fs. unfold standard_put. destruct (if id =? i_last s then i_prev s else i_cur s) as [o st].
            set (s0 := if id =? i_last s then s else set_async s [] (i_delivered s)).
            assert (F0 : faulted s0 = true) by (unfold s0; destruct (id =? i_last s); exact Fs). clearbody s0.
            destruct (nth_error _ _) as [cmd|]; [|exact F0]. destruct (cmd_paths cmd); [|exact F0].
            specialize (PL l s0 o st [] 0 F0). destruct (put_loop s0 o st [] 0 l) as [s1 [e1|c1|o1 st1 p1 c1]]; cbn [fst] in *; auto.
            set (s2 := set_done s1 _ _ _ _). assert (F2 : faulted s2 = true) by exact PL. clearbody s2.
            destruct (_ =? _)%nat; [exact F2|]. cbn [fst]. unfold switch. destruct (nth_error _ _) as [c2|]; [|exact F2].
            destruct (ctype c2); [|exact F2]. destruct (_ || _); [|exact F2]. destruct (rev p1) as [|mm ?]; [exact F2|]. destruct mm; try exact F2. destruct to; exact F2. }
          unfold inst_put. destruct (i_state x); try exact F.
          - apply SP. exact F.
          - unfold put_copydata. destruct (rev l) as [|lm rl]; [exact F|]. destruct (negb (fst lm =? 100)); [apply SP; exact F|]. destruct (negb _); [apply SP; exact F|exact F].
          - unfold put_tupledata. destruct (rev l) as [|lm rl]; [exact F|]. destruct (negb (fst lm =? 68)); [apply SP; exact F|].
            destruct (mapM _ _); [|exact F]. destruct (negb _); [apply SP; exact F|exact F]. }
        intros E F. assert (Sn : faulted (inst_sent x) = true) by (unfold inst_sent; destruct (i_state x); try exact F; destruct (i_messages x); exact F).
        destruct (i_state x); try (injection E as <- <- <-; assumption);
          (destruct e as [|[id l|] e]; [discriminate| |injection E as <- <- <-; reflexivity]);
          specialize (Fp id l F); destruct (inst_put x id l) as [s1 [c|er]]; injection E as <- <- <-; exact Fp. }
      induction fuel as [|fuel IHf]; intros x1 e1 F1 F2; cbn [run_complete].
      + destruct (complete x1); [|discriminate]. destruct (faulted x1) eqn:Q; [discriminate|congruence].
      + destruct (complete x1); [destruct (faulted x1) eqn:Q; [discriminate|congruence]|].
        destruct (conn_step x1 e1) as [[[x3 e3] []]|] eqn:E; try discriminate.
        apply (IHf x3 e3); auto. eapply St; eauto.
    - discriminate.
    - apply IH. exact I1.
  Qed.

  (** ** every run *)
  Theorem fetch_run_inv ex f out : readable 0 e0 -> fetch_run ex cmds e0 f out ->
    prefix_ok e0 (concat out) /\
    match f_x f with Some x => exists k, inv k x (f_in f) (concat out) | None => over (concat out) end.
  Proof.
    intros R. induction 1 as [fuel f E|fuel f out f' c H (IP & IH) E|fuel f out f' r H (IP & IH) E N|fuel f out f' r H (IP & IH) E].
    - unfold fetch_init in E. destruct (inst_init cmds) as [s|] eqn:Es; [|discriminate].
      destruct (init_loop fuel ex s e0) as [[x1 e1] r] eqn:EI. destruct r as [r| | |]; try discriminate. injection E as <-.
      split; [constructor|]. cbn. pose proof (init_loop_inv _ _ _ _ _ _ _ (inv_init _ _ R _ Es) EI) as I.
      destruct r as [y|]; [destruct I as (-> & I); eauto|exact I].
    - unfold fetch_next in E. destruct (f_x f) as [x|] eqn:Ex; [|discriminate]. destruct IH as (k & I).
      destruct (next_loop fuel x (f_in f)) as [[x1 e1] r] eqn:EN. destruct (next_loop_inv _ cmds_start _ _ _ _ _ _ _ _ _ I EN) as (I1 & D).
      destruct r as [[]| | |]; try discriminate. destruct (faulted x1) eqn:F; [discriminate|].
      destruct (i_completed x1) as [|[id ms] rest] eqn:Ec; [discriminate|]. injection E as <- <-.
      rewrite concat_app. cbn [concat]. rewrite app_nil_r. cbn [f_x f_in].
      pose proof (inv_take _ cmds_start _ _ _ _ _ _ _ _ I1 F Ec) as I2. split; [|eauto].
      destruct I2 as (? & ? & ? & _ & _ & _ & P & _). exact P.
    - unfold fetch_next in E. destruct (f_x f) as [x|] eqn:Ex; [|injection E as <- <-; rewrite Ex; auto]. destruct IH as (k & I).
      split; [exact IP|].
      destruct (next_loop fuel x (f_in f)) as [[x1 e1] r1] eqn:EN. destruct (next_loop_inv _ cmds_start _ _ _ _ _ _ _ _ _ I EN) as (I1 & D).
      destruct r1 as [[]| | |]; try (injection E as <- <-; cbn; eauto; fail).
      destruct (faulted x1) eqn:F; [injection E as <- <-; cbn; eauto|].
      destruct (i_completed x1) as [|[id ms] rest] eqn:Ec; injection E as <- <-; [|exfalso; eapply N; reflexivity].
      cbn. destruct (D eq_refl) as [C|C]; [|congruence]. eapply inv_over; eauto using cmds_start.
    - unfold other_use in E. destruct (f_x f) as [x|] eqn:Ex; [|injection E as <- <-; rewrite Ex; auto]. destruct IH as (k & I).
      split; [exact IP|]. destruct (pq_complete fuel x (f_in f)) as [[x1 e1] r1] eqn:EC.
      destruct (pq_complete_inv _ cmds_start _ _ _ _ _ _ _ _ _ I EC) as (I1 & _). injection E as <- <-. cbn. eauto.
  Qed.
End Run.
