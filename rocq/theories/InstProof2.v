(** InstProof2.v: the automaton of InstProof and the grammar of InstSpec *)
From Verif Require Import Base BaseProof PBufferModel Element3Model NegModel NegSpec NegProof PBufferProof InstModel InstSpec InstProof.

(** what the tables accept from a step *)
Inductive acc (t : Z) : nat -> list Z -> Prop :=
| acc_end st ty k : delta t st ty = Some (k, None) -> acc t st [ty]
| acc_step st ty k st' w : delta t st ty = Some (k, Some st') -> acc t st' w -> acc t st (ty :: w).
Inductive path (t : Z) : nat -> list Z -> nat -> Prop :=
| pa_nil st : path t st [] st
| pa_step st ty k st' w st'' : delta t st ty = Some (k, Some st') -> path t st' w st'' -> path t st (ty :: w) st''.

Lemma path_acc t st w st' w' : path t st w st' -> acc t st' w' -> acc t st (w ++ w').
Proof. induction 1; cbn; intros; [auto|econstructor; eauto]. Qed.
Lemma path_app t st w st' w' st'' : path t st w st' -> path t st' w' st'' -> path t st (w ++ w') st''.
Proof. induction 1; cbn; intros; [auto|econstructor; eauto]. Qed.
Lemma acc_split t w : forall st w', w' <> [] -> acc t st (w ++ w') -> exists st', path t st w st' /\ acc t st' w'.
Proof.
  induction w as [|x w IH]; intros st w' N H; cbn in H.
  - exists st. split; [constructor|exact H].
  - inversion H as [? ? k D E1 E2|? ? k st1 ? D A E1]; subst.
    + destruct w; [cbn in *; subst; contradiction|discriminate].
    + destruct (IH _ _ N A) as (st2 & P & A2). exists st2. split; [econstructor; eauto|exact A2].
Qed.
Lemma acc_nonempty t st w : acc t st w -> w <> [].
Proof. destruct 1; discriminate. Qed.

Lemma rep_path t ty k st n : delta t st ty = Some (k, Some st) -> path t st (repeat ty n) st.
Proof. intros D. induction n; cbn; [constructor|econstructor; eauto]. Qed.

Lemma part_path w : query_part w -> path 81 0 w 0.
Proof.
  destruct 1.
  - econstructor; [reflexivity|constructor].
  - econstructor; [reflexivity|constructor].
  - econstructor; [reflexivity|]. econstructor; [reflexivity|constructor].
  - econstructor; [reflexivity|]. eapply path_app; [eapply rep_path; reflexivity|].
    econstructor; [reflexivity|]. econstructor; [reflexivity|constructor].
  - econstructor; [reflexivity|]. eapply path_app; [eapply rep_path; reflexivity|]. econstructor; [reflexivity|constructor].
Qed.
Lemma parts_path parts : Forall query_part parts -> path 81 0 (concat parts) 0.
Proof. induction 1; cbn; [constructor|]. eapply path_app; [apply part_path; auto|auto]. Qed.
Lemma answer_acc t w : answer t w -> acc t 0 w.
Proof.
  destruct 1; try (eapply acc_end; reflexivity).
  - eapply acc_step; [reflexivity|]. eapply acc_end; reflexivity.
  - eapply acc_step; [reflexivity|]. eapply acc_end; reflexivity.
  - eapply acc_step; [reflexivity|]. eapply acc_end; reflexivity.
  - cbn [repeat app]. eapply acc_step; [reflexivity|]. eapply path_acc; [eapply rep_path; reflexivity|]. eapply acc_end; reflexivity.
  - cbn [repeat app]. eapply acc_step; [reflexivity|]. eapply path_acc; [eapply rep_path; reflexivity|]. eapply acc_end; reflexivity.
  - eapply acc_step; [reflexivity|]. eapply path_acc; [eapply rep_path; reflexivity|].
    eapply acc_step; [reflexivity|]. eapply acc_end; reflexivity.
  - eapply acc_step; [reflexivity|]. eapply acc_end; reflexivity.
  - eapply path_acc; [eapply parts_path; eauto|]. eapply acc_end; reflexivity.
  - eapply path_acc; [eapply parts_path; eauto|]. eapply acc_step; [reflexivity|].
    eapply path_acc; [eapply rep_path; reflexivity|]. eapply acc_end; reflexivity.
Qed.

(** what remains of an answer at a step *)
Definition query_rest (w : list Z) : Prop := exists parts, Forall query_part parts /\
  (w = concat parts ++ [90] \/ exists n, w = concat parts ++ 84 :: repeat 68 n ++ [90]).
Definition resid (t : Z) (st : nat) (w : list Z) : Prop :=
  if t =? 81 then
    match st with
    | 0%nat => query_rest w
    | 1%nat => exists w', w = 67 :: w' /\ query_rest w'
    | 2%nat => exists n w', w = repeat 100 n ++ 99 :: 67 :: w' /\ query_rest w'
    | 3%nat => exists n, w = repeat 68 n ++ [90] \/ exists w', w = repeat 68 n ++ 67 :: w' /\ query_rest w'
    | _ => False
    end
  else if t =? 69 then
    match st with
    | 0%nat => answer 69 w
    | 1%nat => exists n, w = repeat 68 n ++ [67] \/ w = repeat 68 n ++ [115]
    | 2%nat => exists n, w = repeat 100 n ++ [99; 67]
    | 3%nat => w = [67]
    | _ => False
    end
  else match st with
    | 0%nat => answer t w
    | 1%nat => (t = 70 /\ w = [90]) \/ (t = 68 /\ (w = [84] \/ w = [110]))
    | _ => False
    end.
Lemma query_rest_cons p w : query_part p -> query_rest w -> query_rest (p ++ w).
Proof.
  intros P (parts & F & H). exists (p :: parts). split; [constructor; auto|]. cbn [concat].
  destruct H as [->|[n ->]]; [left|right; exists n]; rewrite <- app_assoc; reflexivity.
Qed.
Lemma acc_resid t st w : acc t st w -> resid t st w.
Proof.
  induction 1 as [st ty k D|st ty k st' w D A IH].
  - remember None as n eqn:En. unfold resid. entcase D; try discriminate; cbn [Z.eqb Pos.eqb]; try (solve [constructor|auto]).
    + exists []. split; [constructor|]. left. reflexivity.
    + exists 0%nat. left. reflexivity.
    + exists 0%nat. right. reflexivity.
    + exists 0%nat. left. reflexivity.
  - remember (Some st') as n eqn:En. unfold resid in *. 
    entcase D; try discriminate; injection En as <-; cbn [Z.eqb Pos.eqb] in *.
    all: try (apply (query_rest_cons [73]); [constructor|exact IH]).
    all: try (apply (query_rest_cons [67]); [constructor|exact IH]).
    + (* T *) destruct IH as [n [->|(w' & -> & Q)]].
      * exists []. split; [constructor|]. right. exists n. reflexivity.
      * change (84 :: repeat 68 n ++ 67 :: w') with ((84 :: repeat 68 n) ++ [67] ++ w'). rewrite app_assoc.
        apply query_rest_cons; [cbn; constructor|exact Q].
    + (* H *) destruct IH as (n & w' & -> & Q). 
      change (72 :: repeat 100 n ++ 99 :: 67 :: w') with ((72 :: repeat 100 n) ++ [99; 67] ++ w'). rewrite app_assoc.
      apply query_rest_cons; [cbn; constructor|exact Q].
    + destruct IH as (w' & -> & Q). apply (query_rest_cons [71; 67]); [constructor|exact Q].
    + exists w. auto.
    + destruct IH as (n & w' & -> & Q). exists (S n), w'. auto.
    + destruct IH as (w' & -> & Q). exists 0%nat, w'. auto.
    + destruct IH as [n [->|(w' & -> & Q)]]; exists (S n); [left|right]; cbn; eauto.
    + exists 0%nat. right. exists w. auto.
    + destruct IH as [(_ & ->)|(H & _)]; [constructor|discriminate].
    + destruct IH as [(H & _)|(_ & [->| ->])]; [discriminate|constructor|constructor].
    + destruct IH as [n [->| ->]]; [apply (an_execute_rows n)|apply (an_execute_suspended n)].
    + destruct IH as [n ->]. constructor.
    + subst w. constructor.
    + destruct IH as [n [->| ->]]; exists (S n); [left|right]; reflexivity.
    + destruct IH as [n ->]. exists (S n). reflexivity.
    + subst w. exists 0%nat. reflexivity.
Qed.
Lemma acc_answer t w : acc t 0 w -> answer t w.
Proof.
  intros H. apply acc_resid in H. unfold resid in H. destruct (Z.eqb_spec t 81) as [->|].
  - destruct H as (parts & F & [->|[n ->]]); constructor; auto.
  - destruct (Z.eqb_spec t 69) as [->|]; exact H.
Qed.

(** every step can be completed *)
Lemma can_end t pre : forall st0 st, path t st0 pre st -> (exists w, acc t st0 w) -> exists w, acc t st w.
Proof.
  induction pre as [|x pre IH]; intros st0 st P H; inversion P as [|? ? k st' ? ? D P']; subst; [exact H|].
  apply (IH st' st); [assumption|]. clear IH P P' H pre. remember (Some st') as n eqn:En.
  entcase D; try discriminate; injection En as <-.
  all: try (exists [67]; eapply acc_end; reflexivity).
  all: try (exists [90]; eapply acc_end; reflexivity).
  all: try (exists [84]; eapply acc_end; reflexivity).
  all: try (exists [67; 90]; eapply acc_step; [reflexivity|eapply acc_end; reflexivity]).
  all: try (exists [99; 67]; eapply acc_step; [reflexivity|eapply acc_end; reflexivity]).
  all: exists [99; 67; 90]; eapply acc_step; [reflexivity|]; eapply acc_step; [reflexivity|eapply acc_end; reflexivity].
Qed.
Lemma start_end t : istable t = true -> exists w, acc t 0 w.
Proof.
  unfold istable. destruct (hook t) as [[ps|]|] eqn:E; try discriminate. intros _. apply hook_types in E.
  cbn in E. repeat (destruct E as [<-|E]; [eexists; apply answer_acc|]); [..|destruct E].
  - apply (an_query []). constructor.
  - constructor.
  - constructor.
  - constructor.
  - apply an_describe_portal.
  - constructor.
  - apply an_execute_done.
  - constructor.
Qed.
Lemma path_begins t pre st : istable t = true -> path t 0 pre st -> begins t pre.
Proof.
  intros S P. destruct (can_end _ _ _ _ P (start_end _ S)) as [w A]. exists w. split; [eapply acc_nonempty; eauto|].
  apply acc_answer. eapply path_acc; eauto.
Qed.
Lemma begins_path t pre : begins t pre -> exists st, path t 0 pre st /\ istable t = true.
Proof.
  intros (w & N & A). apply answer_acc in A. destruct (acc_split _ _ _ _ N A) as (st & P & A'). exists st. split; [exact P|].
  inversion A'; subst; eapply istable_delta; eauto.
Qed.

Lemma severity_err body em b : parse (KNotice true) body = Ok em -> err_fatal em = Ok b -> severity body b.
Proof.
  intros P E. pose proof (parse_kind _ _ _ P) as K. destruct em; try discriminate. injection K as ->. cbn [err_fatal] in E.
  destruct (assoc [83] d) as [sv|] eqn:Ea; [|discriminate]. okinv E. exists d, sv. split; [exact P|]. split; [exact Ea|].
  rewrite negb_false_iff, seqb_eq. reflexivity.
Qed.
Lemma err_severity body b : severity body b -> exists em, parse (KNotice true) body = Ok em /\ err_fatal em = Ok b.
Proof.
  intros (d & sv & P & A & E). exists (MNotice true d). split; [exact P|]. cbn [err_fatal]. rewrite A. f_equal.
  change [69; 82; 82; 79; 82] with error_word in E. rewrite <- seqb_eq in E. destruct b, (seqb (upper sv) error_word); cbn; try reflexivity; exfalso.
  - destruct E as [_ E]. specialize (E eq_refl). discriminate.
  - destruct E as [E _]. specialize (E eq_refl). discriminate.
Qed.

Lemma hook_flush t : hook t = Some None -> t = 72.
Proof.
  unfold hook. do 8 (destruct (Z.eqb _ _); [discriminate|]). destruct (Z.eqb_spec t 72) as [H|H]; [auto|discriminate].
Qed.
Lemma conv_flushes cs l g : conv (skipn (skip_flush cs) cs) l g -> conv cs l g.
Proof.
  induction cs as [|c cs IH]; cbn; [auto|]. destruct (cmd_paths c) as [[|]|] eqn:E; cbn; [auto| |auto].
  intros H. apply cv_flush; [|auto]. unfold cmd_paths in E. destruct (ctype c) as [t|]; [|discriminate]. f_equal.
  apply hook_flush. exact E.
Qed.
Lemma nth_skipn (cmds : list message) o c cs : skipn o cmds = c :: cs -> nth_error cmds o = Some c /\ skipn (S o) cmds = cs /\ (o < length cmds)%nat.
Proof.
  revert cmds. induction o as [|o IH]; intros [|x cmds] H; try discriminate; cbn in *.
  - injection H as -> ->. repeat split; lia.
  - destruct (IH _ H) as (A & B & C). repeat split; [exact A|exact B|lia].
Qed.
Lemma skipn_nth (cmds : list message) o : (o < length cmds)%nat -> exists c, skipn o cmds = c :: skipn (S o) cmds.
Proof.
  revert cmds. induction o as [|o IH]; intros [|x cmds] H; cbn in *; try lia.
  - eauto.
  - destruct (IH cmds) as [c E]; [lia|]. exists c. exact E.
Qed.
Definition join_flag (f g : option bool) : option bool := match g with None => f | Some b => Some b end.
Lemma rrun_end cmds r f l : r = RFin \/ r = RStop -> fst (rrun cmds r f l) <> RViol -> l = [].
Proof. intros H N. destruct l as [|x l]; [reflexivity|]. exfalso. apply N. cbn [rrun]. destruct H as [->| ->]; cbn [rstep fst snd]; rewrite rrun_viol; reflexivity. Qed.

Lemma sound cmds l : forall o st c cs t pre f r f', all_ok cmds = true -> skipn o cmds = c :: cs -> ctype c = Some t -> path t 0 (map fst pre) st ->
  istable t = true -> rrun cmds (RAt o st) f l = (r, f') -> r = RFin \/ r = RStop ->
  exists g, conv (c :: cs) (pre ++ l) g /\ f' = join_flag f g.
Proof.
  induction l as [|x l IH]; intros o st c cs t pre f r f' AO Hs Hc P S H Hr.
  - cbn in H. injection H as <- _. destruct Hr; discriminate.
  - destruct (nth_skipn _ _ _ _ Hs) as (Hn & Hsk & Ho). cbn [rrun rstep] in H. rewrite Hn, Hc, S in H. cbn [negb] in H.
    destruct (delta t st (fst x)) as [[k [st'|]]|] eqn:D.
    + cbn [fst snd] in H. replace (pre ++ x :: l) with ((pre ++ [x]) ++ l) by (rewrite <- app_assoc; reflexivity).
      eapply IH; eauto. rewrite map_app. eapply path_app; [exact P|]. cbn. econstructor; [exact D|constructor].
    + assert (AN : answer t (map fst (pre ++ [x]))).
      { apply acc_answer. rewrite map_app. eapply path_acc; [exact P|]. eapply acc_end; eauto. }
      set (o' := (Datatypes.S o + skip_flush (skipn (Datatypes.S o) cmds))%nat) in *.
      assert (SK : skipn o' cmds = skipn (skip_flush cs) cs) by (subst o'; rewrite skipn_plus, Hsk; reflexivity).
      replace (pre ++ x :: l) with ((pre ++ [x]) ++ l) by (rewrite <- app_assoc; reflexivity).
      destruct (Nat.eqb_spec o' (length cmds)) as [Eo|No]; cbn [fst snd] in H.
      * assert (l = []) as ->. { eapply (rrun_end cmds RFin); [auto|]. rewrite H. destruct Hr as [->| ->]; discriminate. }
        cbn in H. injection H as <- <-. exists None. split; [|reflexivity]. eapply cv_answer; eauto. apply conv_flushes.
        rewrite <- SK, Eo, skipn_all. constructor.
      * assert (Ho' : (o' < length cmds)%nat).
        { pose proof (skip_flush_le cs). subst cs. rewrite skipn_length in H0. subst o'. lia. }
        destruct (skipn_nth _ _ Ho') as [c' Hs']. 
        assert (ST : exists t', ctype c' = Some t' /\ istable t' = true).
        { assert (In_ : List.In c' cmds). { rewrite <- (firstn_skipn o' cmds), Hs'. apply in_app_iff. right. left. reflexivity. }
          unfold all_ok in AO. rewrite forallb_forall in AO. specialize (AO _ In_).
          destruct (cmd_paths c') as [ps|] eqn:Ep; [|discriminate]. destruct (cmd_paths_ctype _ _ Ep) as (t' & E1 & E2).
          exists t'. split; [exact E1|]. unfold istable. rewrite E2. destruct ps as [ps|]; [reflexivity|exfalso].
          rewrite SK in Hs'. clear -Ep Hs'. revert Hs'. generalize (skipn (Datatypes.S o') cmds). induction cs as [|y cs IH]; intros r Hs'; cbn in Hs'; [discriminate|].
          destruct (cmd_paths y) as [[|]|] eqn:Ey; cbn in Hs'; [injection Hs' as -> _; congruence|eapply IH; eauto|injection Hs' as -> _; congruence]. }
        destruct ST as (t' & T1 & T2).
        destruct (IH o' 0%nat c' _ t' [] f r f' AO Hs' T1 ltac:(constructor) T2 H Hr) as (g & Cg & Eg). cbn [app] in Cg.
        exists g. split; [|exact Eg]. eapply cv_answer; eauto. apply conv_flushes. rewrite <- SK, Hs'. exact Cg.
    + destruct (Z.eqb_spec (fst x) 69) as [E69|]; [|cbn in H; rewrite rrun_viol in H; injection H as <- _; destruct Hr; discriminate].
      destruct (parse (KNotice true) (snd x)) as [em|] eqn:Em; [|cbn [fst snd] in H; rewrite rrun_viol in H; injection H as <- _; destruct Hr; discriminate].
      destruct (err_fatal em) as [b|] eqn:Eb; [|cbn [fst snd] in H; rewrite rrun_viol in H; injection H as <- _; destruct Hr; discriminate].
      pose proof (severity_err _ _ _ Em Eb) as SV. pose proof (path_begins _ _ _ S P) as B.
      destruct x as [ty body]. cbn [fst snd] in *. subst ty. destruct b.
      * cbn [fst snd] in H. assert (l = []) as ->. { eapply (rrun_end cmds RStop); [auto|]. rewrite H. destruct Hr as [->| ->]; discriminate. }
        cbn in H. injection H as <- <-. exists (Some true). split; [|reflexivity]. eapply cv_fatal; eauto.
      * destruct (isqf t) eqn:Q.
        -- cbn [fst snd] in H. destruct (IH o 0%nat c cs t [] (Some false) r f' AO Hs Hc ltac:(constructor) S H Hr) as (g & Cg & Eg). cbn [app] in Cg.
           exists (after_error g). split; [|subst f'; destruct g; reflexivity]. eapply cv_error_query; eauto. unfold isqf in Q. lia.
        -- assert (NQ : t <> 81 /\ t <> 70) by (unfold isqf in Q; lia). rewrite Hs in H. pose proof (find_sync_spec (c :: cs)) as FS.
           destruct (find_sync (c :: cs)) as [n|].
           ++ cbn [fst snd] in H. destruct FS as (rr & E1 & E2 & E3).
              assert (SK : skipn (o + n) cmds = MEmpty ESynchronize :: rr) by (rewrite skipn_plus, Hs; exact E2).
              destruct (IH _ 0%nat _ _ 83 [] (Some false) r f' AO SK eq_refl ltac:(constructor) eq_refl H Hr) as (g & Cg & Eg). cbn [app] in Cg.
              exists (after_error g). split; [|subst f'; destruct g; reflexivity].
              eapply cv_error; [exact Hc|tauto|tauto|exact B|exact SV| |exact Cg]. exists (firstn n (c :: cs)), rr. auto.
           ++ cbn [fst snd] in H. assert (l = []) as ->. { eapply (rrun_end cmds RStop); [auto|]. rewrite H. destruct Hr as [->| ->]; discriminate. }
              cbn in H. injection H as <- <-. exists (Some false). split; [|reflexivity]. eapply cv_error_end; eauto; tauto.
Qed.

(** * from the grammar to the automaton *)
Lemma acc_rrun cmds o c t f : nth_error cmds o = Some c -> ctype c = Some t -> forall seg st, acc t st (map fst seg) ->
  rrun cmds (RAt o st) f seg =
   (let o' := (S o + skip_flush (skipn (S o) cmds))%nat in if (o' =? length cmds)%nat then RFin else RAt o' 0, f).
Proof.
  intros Hn Hc seg. induction seg as [|x seg IH]; intros st A; [apply acc_nonempty in A; contradiction|].
  cbn [map] in A. inversion A as [? ? k D E1 E2|? ? k st1 ? D A1 E1]; subst.
  - cbn [rrun rstep]. rewrite Hn, Hc, (istable_delta _ _ _ _ D), D. cbn [negb].
    destruct seg; [|discriminate]. cbn [rrun]. destruct (_ =? _)%nat; reflexivity.
  - cbn [rrun rstep]. rewrite Hn, Hc, (istable_delta _ _ _ _ D), D. cbn [negb fst snd]. apply IH. exact A1.
Qed.
Lemma path_rrun cmds o c t f : nth_error cmds o = Some c -> ctype c = Some t -> forall seg st st', path t st (map fst seg) st' ->
  rrun cmds (RAt o st) f seg = (RAt o st', f).
Proof.
  intros Hn Hc seg. induction seg as [|x seg IH]; intros st st' A; inversion A as [|? ? k st1 ? ? D A1 E1]; subst; [reflexivity|].
  cbn [rrun rstep]. rewrite Hn, Hc, (istable_delta _ _ _ _ D), D. cbn [negb fst snd]. apply IH. exact A1.
Qed.
Lemma delta_69 t st : delta t st 69 = None.
Proof. destruct (delta t st 69) as [[k n]|] eqn:E; [|reflexivity]. apply delta_srv in E as (_ & _ & N). contradiction. Qed.
Lemma table_skip c t cs : ctype c = Some t -> istable t = true -> skip_flush (c :: cs) = 0%nat.
Proof. intros Hc S. cbn. unfold cmd_paths, istable in *. rewrite Hc. destruct (hook t) as [[|]|]; congruence. Qed.
Lemma answer_table t w : answer t w -> istable t = true.
Proof. intros H. apply answer_acc in H. inversion H; subst; eapply istable_delta; eauto. Qed.
Lemma resume_find cs cs' : resume cs cs' -> exists n, find_sync cs = Some n /\ skipn n cs = cs'.
Proof.
  intros (sk & r & -> & -> & N). exists (length sk). induction sk as [|x sk IH]; cbn; [auto|].
  destruct (is_sync x) eqn:E.
  - exfalso. apply N. left. destruct x; try discriminate. destruct k; try discriminate. reflexivity.
  - destruct IH as [-> ->]; [intros H; apply N; right; exact H|]. auto.
Qed.

Lemma conv_run cs l g : conv cs l g -> forall cmds o f, (o <= length cmds)%nat -> skipn o cmds = cs ->
  let o' := (o + skip_flush cs)%nat in
  if (o' =? length cmds)%nat then l = [] /\ g = None
  else exists r, rrun cmds (RAt o' 0) f l = (r, join_flag f g) /\ (r = RFin \/ r = RStop).
Proof.
  induction 1 as [|c cs l f Hc C IH|c t cs seg l f Hc A C IH|c t cs cs' seg body l f Hc N1 N2 B SV RS C IH
                 |c t cs seg body Hc N1 N2 B SV NS|c t cs seg body l f Hc Q B SV C IH|c t cs seg body Hc B SV];
    intros cmds o f0 Ho Hs; cbv zeta.
  - cbn [skip_flush]. rewrite Nat.add_0_r. assert (length (skipn o cmds) = 0%nat) as L by (rewrite Hs; reflexivity).
    rewrite skipn_length in L. replace (o =? length cmds)%nat with true by (symmetry; apply Nat.eqb_eq; lia). auto.
  - destruct (nth_skipn _ _ _ _ Hs) as (Hn & Hsk & Ho').
    assert (E : skip_flush (c :: cs) = S (skip_flush cs)) by (cbn; unfold cmd_paths; rewrite Hc; reflexivity).
    rewrite E. specialize (IH cmds (S o) f0 ltac:(lia) Hsk). cbv zeta in IH. rewrite Nat.add_succ_r. exact IH.
  - destruct (nth_skipn _ _ _ _ Hs) as (Hn & Hsk & Ho'). rewrite (table_skip c t cs Hc (answer_table _ _ A)), Nat.add_0_r.
    replace (o =? length cmds)%nat with false by (symmetry; apply Nat.eqb_neq; lia).
    rewrite rrun_app. rewrite (acc_rrun cmds o c t f0 Hn Hc _ _ (answer_acc _ _ A)). cbv zeta. cbn [fst snd]. rewrite Hsk.
    specialize (IH cmds (S o) f0 ltac:(lia) Hsk). cbv zeta in IH.
    destruct (_ =? _)%nat.
    + destruct IH as [-> ->]. exists RFin. cbn. auto.
    + exact IH.
  - destruct (nth_skipn _ _ _ _ Hs) as (Hn & Hsk & Ho'). destruct (begins_path _ _ B) as (st & P & S).
    rewrite (table_skip c t cs Hc S), Nat.add_0_r.
    replace (o =? length cmds)%nat with false by (symmetry; apply Nat.eqb_neq; lia).
    rewrite rrun_app, (path_rrun cmds o c t f0 Hn Hc _ _ _ P). cbn [fst snd rrun rstep].
    destruct (err_severity _ _ SV) as (em & E1 & E2). rewrite Hn, Hc, S, delta_69, E1, E2. cbn [negb].
    change (69 =? 69) with true. cbv iota. replace (isqf t) with false by (unfold isqf; lia). rewrite Hs.
    destruct (resume_find _ _ RS) as (n & F1 & F2). rewrite F1. cbn [fst snd].
    pose proof (find_sync_lt _ _ F1) as Ln. assert (length (skipn o cmds) = length (c :: cs)) as Lc by (rewrite Hs; reflexivity). rewrite skipn_length in Lc.
    assert (SK : skipn (o + n) cmds = cs') by (rewrite skipn_plus, Hs; exact F2).
    specialize (IH cmds (o + n)%nat (Some false) ltac:(lia) SK). cbv zeta in IH.
    destruct RS as (sk & r & _ & -> & _). cbn [skip_flush cmd_paths] in IH. 
    change (match cmd_paths (MEmpty ESynchronize) with Some None => Datatypes.S (skip_flush r) | _ => 0%nat end) with 0%nat in IH.
    rewrite Nat.add_0_r in IH. replace (o + n =? length cmds)%nat with false in IH by (symmetry; apply Nat.eqb_neq; lia).
    destruct IH as (rr & R1 & R2). exists rr. split; [|exact R2]. rewrite R1. destruct f; reflexivity.
  - destruct (nth_skipn _ _ _ _ Hs) as (Hn & Hsk & Ho'). destruct (begins_path _ _ B) as (st & P & S).
    rewrite (table_skip c t cs Hc S), Nat.add_0_r.
    replace (o =? length cmds)%nat with false by (symmetry; apply Nat.eqb_neq; lia).
    rewrite rrun_app, (path_rrun cmds o c t f0 Hn Hc _ _ _ P). cbn [fst snd rrun rstep].
    destruct (err_severity _ _ SV) as (em & E1 & E2). rewrite Hn, Hc, S, delta_69, E1, E2. cbn [negb].
    change (69 =? 69) with true. cbv iota. replace (isqf t) with false by (unfold isqf; lia). rewrite Hs.
    pose proof (find_sync_spec (c :: cs)) as FS. destruct (find_sync (c :: cs)) as [n|].
    + exfalso. destruct FS as (rr & E3 & _). apply NS. rewrite E3. apply in_app_iff. right. left. reflexivity.
    + exists RStop. cbn. auto.
  - destruct (nth_skipn _ _ _ _ Hs) as (Hn & Hsk & Ho'). destruct (begins_path _ _ B) as (st & P & S).
    specialize (IH cmds o (Some false) Ho Hs). cbv zeta in IH.
    rewrite (table_skip c t cs Hc S), Nat.add_0_r in *.
    replace (o =? length cmds)%nat with false in * by (symmetry; apply Nat.eqb_neq; lia).
    rewrite rrun_app, (path_rrun cmds o c t f0 Hn Hc _ _ _ P). cbn [fst snd rrun rstep].
    destruct (err_severity _ _ SV) as (em & E1 & E2). rewrite Hn, Hc, S, delta_69, E1, E2. cbn [negb].
    change (69 =? 69) with true. cbv iota. replace (isqf t) with true by (unfold isqf; lia). cbn [fst snd].
    destruct IH as (rr & R1 & R2). exists rr. split; [|exact R2]. rewrite R1. destruct f; reflexivity.
  - destruct (nth_skipn _ _ _ _ Hs) as (Hn & Hsk & Ho'). destruct (begins_path _ _ B) as (st & P & S).
    rewrite (table_skip c t cs Hc S), Nat.add_0_r.
    replace (o =? length cmds)%nat with false by (symmetry; apply Nat.eqb_neq; lia).
    rewrite rrun_app, (path_rrun cmds o c t f0 Hn Hc _ _ _ P). cbn [fst snd rrun rstep].
    destruct (err_severity _ _ SV) as (em & E1 & E2). rewrite Hn, Hc, S, delta_69, E1, E2. cbn [negb].
    change (69 =? 69) with true. cbv iota. exists RStop. cbn. auto.
Qed.

(** * consequences *)
Lemma irun_ok cmds s tr : irun cmds s tr -> all_ok cmds = true.
Proof. induction 1; auto. unfold inst_init in H. destruct (all_ok cmds); [reflexivity|discriminate]. Qed.
Lemma start_ok cmds l r f : rrun cmds (RAt 0 0) None l = (r, f) -> r = RFin \/ r = RStop ->
  exists c cs t, cmds = c :: cs /\ ctype c = Some t /\ istable t = true.
Proof.
  destruct l as [|x l]; cbn [rrun]; intros H Hr; [injection H as <- _; destruct Hr; discriminate|].
  cbn [rstep] in H. destruct cmds as [|c cs]; cbn [nth_error] in H; [cbn in H; rewrite rrun_viol in H; injection H as <- _; destruct Hr; discriminate|].
  destruct (ctype c) as [t|] eqn:Hc; [|cbn in H; rewrite rrun_viol in H; injection H as <- _; destruct Hr; discriminate].
  destruct (istable t) eqn:S; [eauto 6|]. cbn in H. rewrite rrun_viol in H; injection H as <- _; destruct Hr; discriminate.
Qed.
Lemma fin_conv cmds l r f : all_ok cmds = true -> rrun cmds (RAt 0 0) None l = (r, f) -> r = RFin \/ r = RStop -> conv cmds l f.
Proof.
  intros AO H Hr. destruct (start_ok _ _ _ _ H Hr) as (c & cs & t & -> & Hc & S).
  destruct (sound (c :: cs) l 0 0 c cs t [] None r f AO eq_refl Hc ltac:(constructor) S H Hr) as (g & C & E).
  cbn [app] in C. destruct g; cbn in E; subst; exact C.
Qed.
Lemma conv_fin cmds c cs l g : cmds = c :: cs -> ctype c <> Some 72 -> conv cmds l g ->
  exists r, rrun cmds (RAt 0 0) None l = (r, g) /\ (r = RFin \/ r = RStop).
Proof.
  intros E N C. pose proof (conv_run _ _ _ C cmds 0%nat None ltac:(lia) eq_refl) as H. cbv zeta in H.
  assert (K : skip_flush cmds = 0%nat).
  { subst cmds. cbn. destruct (cmd_paths c) as [[|]|] eqn:Ep; try reflexivity. exfalso. apply N.
    unfold cmd_paths in Ep. destruct (ctype c); [|discriminate]. f_equal. apply hook_flush. exact Ep. }
  rewrite K in H. subst cmds. cbn [Nat.add length Nat.eqb] in H. destruct H as (r & R & Hr). exists r. split; [|exact Hr].
  rewrite R. destruct g; reflexivity.
Qed.
Lemma conforms_good cmds l : conforms cmds l -> fst (rrun cmds (RAt 0 0) None (sync_part l)) <> RViol.
Proof.
  intros (c & cs & l' & g & E & N & C) V. destruct (conv_fin _ _ _ _ _ E N C) as (r & R & Hr).
  rewrite rrun_app, V, rrun_viol in R. injection R as <- _. destruct Hr; discriminate.
Qed.
Lemma conv_noerr cs l : conv cs l None -> no_errors l = l.
Proof.
  remember None as g eqn:Eg. induction 1; try discriminate; auto.
  - rewrite noerr_app, IHconv by auto. f_equal. apply answer_acc in H0. revert H0. generalize 0%nat. clear.
    induction seg as [|x seg IH]; intros st A; [reflexivity|]. cbn [map] in A.
    inversion A as [? ? k D E1 E2|? ? k st1 ? D A1 E1]; subst; apply delta_srv in D as (_ & _ & N); rewrite noerr_cons by exact N; f_equal.
    + destruct seg; [reflexivity|discriminate].
    + eapply IH; eauto.
  - destruct f; discriminate.
  - destruct f; discriminate.
Qed.

(** reachable positions can be completed *)
Definition wf (cmds : list message) (r : rst) : Prop :=
  match r with
  | RAt o st => exists c t w, nth_error cmds o = Some c /\ ctype c = Some t /\ istable t = true /\ path t 0 w st
  | _ => True
  end.
Lemma next_wf cmds o : all_ok cmds = true -> (o + skip_flush (skipn o cmds))%nat <> length cmds -> (o <= length cmds)%nat -> wf cmds (RAt (o + skip_flush (skipn o cmds)) 0).
Proof.
  intros AO N Ho. pose proof (skip_flush_le (skipn o cmds)) as L. rewrite skipn_length in L.
  set (o' := (o + skip_flush (skipn o cmds))%nat) in *.
  destruct (skipn_nth cmds o') as [c Hs]; [lia|]. destruct (nth_skipn _ _ _ _ Hs) as (Hn & _ & _).
  assert (In_ : List.In c cmds) by (eapply nth_error_In; eauto).
  unfold all_ok in AO. rewrite forallb_forall in AO. specialize (AO _ In_).
  destruct (cmd_paths c) as [ps|] eqn:Ep; [|discriminate]. destruct (cmd_paths_ctype _ _ Ep) as (t & E1 & E2).
  exists c, t, []. split; [exact Hn|]. split; [exact E1|]. split; [|constructor].
  unfold istable. rewrite E2. destruct ps as [ps|]; [reflexivity|exfalso].
  subst o'. rewrite skipn_plus in Hs. clear -Ep Hs. revert Hs. generalize (skipn (S (o + skip_flush (skipn o cmds))) cmds).
  generalize (skipn o cmds). intros cs. induction cs as [|y cs IH]; intros r Hs'; cbn in Hs'; [discriminate|].
  destruct (cmd_paths y) as [[|]|] eqn:Ey; cbn in Hs'; [injection Hs' as -> _; congruence|eapply IH; eauto|injection Hs' as -> _; congruence].
Qed.
Lemma rstep_wf cmds r f x : all_ok cmds = true -> wf cmds r -> wf cmds (fst (rstep cmds r f x)).
Proof.
  intros AO W. destruct r as [o st| | |]; cbn [rstep fst]; auto. destruct W as (c & t & w & Hn & Hc & S & P).
  assert (Ho : (o < length cmds)%nat) by (apply nth_error_Some; congruence).
  rewrite Hn, Hc, S. cbn [negb]. destruct (delta t st (fst x)) as [[k [st'|]]|] eqn:D.
  - exists c, t, (w ++ [fst x]). repeat (split; [assumption|]). eapply path_app; [exact P|]. econstructor; [exact D|constructor].
  - destruct (Nat.eqb_spec (Datatypes.S o + skip_flush (skipn (Datatypes.S o) cmds)) (length cmds)); cbn [fst]; [exact I|].
    apply next_wf; auto.
  - destruct (fst x =? 69); [|exact I]. destruct (parse _ _) as [em|]; [|exact I]. destruct (err_fatal em) as [[|]|]; try exact I.
    destruct (isqf t); cbn [fst]; [exists c, t, []; repeat (split; [assumption|]); constructor|].
    pose proof (find_sync_spec (skipn o cmds)) as FS. destruct (find_sync (skipn o cmds)) as [n|]; [|exact I].
    destruct FS as (r & _ & E & _). rewrite <- skipn_plus in E. destruct (nth_skipn _ _ _ _ E) as (Hn' & _ & _).
    exists (MEmpty ESynchronize), 83, []. split; [exact Hn'|]. split; [reflexivity|]. split; [reflexivity|constructor].
Qed.
Lemma rrun_wf cmds l : all_ok cmds = true -> forall r f, wf cmds r -> wf cmds (fst (rrun cmds r f l)).
Proof. intros AO. induction l as [|x l IH]; intros r f W; cbn [rrun]; [exact W|]. apply IH, rstep_wf; auto. Qed.

Lemma finish_from cmds n : all_ok cmds = true -> forall o f, (length cmds - o <= n)%nat -> (o <= length cmds)%nat ->
  o <> length cmds -> wf cmds (RAt o 0) -> exists l, rrun cmds (RAt o 0) f l = (RFin, f).
Proof.
  intros AO. induction n as [|n IH]; intros o f L Ho No W; [lia|].
  destruct W as (c & t & w & Hn & Hc & S & P). destruct (start_end _ S) as [w0 A].
  set (seg := map (fun ty => (ty, [])) w0 : list wmsg).
  assert (As : acc t 0 (map fst seg)) by (subst seg; rewrite map_map; cbn; rewrite map_id; exact A).
  pose proof (acc_rrun cmds o c t f Hn Hc seg 0%nat As) as R. cbv zeta in R.
  destruct (Nat.eqb_spec (Datatypes.S o + skip_flush (skipn (Datatypes.S o) cmds)) (length cmds)) as [E|N].
  - exists seg. exact R.
  - assert (W' := next_wf cmds (Datatypes.S o) AO N ltac:(lia)).
    pose proof (skip_flush_le (skipn (Datatypes.S o) cmds)) as SL. rewrite skipn_length in SL.
    destruct (IH (Datatypes.S o + skip_flush (skipn (Datatypes.S o) cmds))%nat f) as [l R2]; [lia|lia|exact N|exact W'|].
    exists (seg ++ l). rewrite rrun_app, R. exact R2.
Qed.
Lemma finish cmds o st f : all_ok cmds = true -> wf cmds (RAt o st) -> exists l, rrun cmds (RAt o st) f l = (RFin, f).
Proof.
  intros AO (c & t & w & Hn & Hc & S & P). destruct (can_end _ _ _ _ P (start_end _ S)) as [w0 A].
  assert (Ho : (o < length cmds)%nat) by (apply nth_error_Some; congruence).
  set (seg := map (fun ty => (ty, [])) w0 : list wmsg).
  assert (As : acc t st (map fst seg)) by (subst seg; rewrite map_map; cbn; rewrite map_id; exact A).
  pose proof (acc_rrun cmds o c t f Hn Hc seg st As) as R. cbv zeta in R.
  destruct (Nat.eqb_spec (Datatypes.S o + skip_flush (skipn (Datatypes.S o) cmds)) (length cmds)) as [E|N].
  - exists seg. exact R.
  - assert (W' := next_wf cmds (Datatypes.S o) AO N ltac:(lia)).
    pose proof (skip_flush_le (skipn (Datatypes.S o) cmds)) as SL. rewrite skipn_length in SL.
    destruct (finish_from cmds (length cmds) AO (Datatypes.S o + skip_flush (skipn (Datatypes.S o) cmds))%nat f) as [l R2]; [lia|lia|exact N|exact W'|].
    exists (seg ++ l). rewrite rrun_app, R. exact R2.
Qed.
