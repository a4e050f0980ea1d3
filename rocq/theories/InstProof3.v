(** InstProof3.v: progress, what is sent, determinism. *)
From Verif Require Import Base BaseProof PBufferModel PBufferProof Element3Model Element3Proof NegModel NegSpec NegProof InstModel InstSpec InstProof InstProof2.

(** * progress *)
Lemma wf_table cmds o st : wf cmds (RAt o st) -> exists c t ps tb, nth_error cmds o = Some c /\ ctype c = Some t /\
  cmd_paths c = Some (Some ps) /\ hook t = Some (Some ps) /\ istable t = true /\ nth_error ps st = Some tb.
Proof.
  intros (c & t & w & Hn & Hc & S & P). destruct (can_end _ _ _ _ P (start_end _ S)) as [w0 A].
  assert (D : exists ty v, delta t st ty = Some v) by (inversion A; subst; eauto).
  destruct D as (ty & v & D). unfold delta in D. destruct (hook t) as [[ps|]|] eqn:Eh; try discriminate.
  destruct (nth_error ps st) as [tb|] eqn:En; [|discriminate].
  exists c, t, ps, tb. unfold cmd_paths. rewrite Hc, Eh. auto 10.
Qed.
Lemma delta_lookup t ps st tb ty : hook t = Some (Some ps) -> nth_error ps st = Some tb -> delta t st ty = lookup ty tb.
Proof. intros H1 H2. unfold delta. rewrite H1, H2. reflexivity. Qed.

Definition prog_ok (cm : list message) (l : list wmsg) (x : inst * loopres) : Prop :=
  i_cmds (fst x) = cm /\
  match snd x with
  | LErr _ => ~ Forall well_formed l
  | LRet _ => i_state (fst x) = IComplete
  | LEnd o st _ _ => o = length cm \/ wf cm (RAt o st)
  end.
Lemma prog_cons cm x l r : prog_ok cm l r -> prog_ok cm (x :: l) r.
Proof.
  intros [C H]. split; [exact C|]. destruct (snd r); auto. intros F. apply H. inversion F; auto.
Qed.
Lemma put_loop_prog l : forall s o st p c, all_ok (i_cmds s) = true -> wf (i_cmds s) (RAt o st) ->
  prog_ok (i_cmds s) l (put_loop s o st p c l).
Proof.
  induction l as [|x l IH]; intros s o st p c AO W; [split; [reflexivity|right; exact W]|].
  destruct (wf_table _ _ _ W) as (cmd & t & ps & tb & Hn & Hc & Hp & Hh & S & Ht).
  cbn [put_loop]. rewrite Hn, Hp, Ht.
  pose proof (rstep_wf (i_cmds s) (RAt o st) None x AO W) as W'. cbn [rstep] in W'. rewrite Hn, Hc, S in W'. cbn [negb] in W'.
  rewrite (delta_lookup _ _ _ _ _ Hh Ht) in W'.
  pose proof (fun k n E => delta_srv t st (fst x) k n (eq_trans (delta_lookup _ _ _ _ _ Hh Ht) E)) as DS.
  destruct (lookup (fst x) tb) as [[k n]|] eqn:El.
  - destruct (parse k (snd x)) as [m|] eqn:Ep.
    + destruct n as [st'|].
      * apply prog_cons. apply IH; auto.
      * assert (Q : forall s1, i_cmds s1 = i_cmds s -> prog_ok (i_cmds s) (x :: l)
          (if (Datatypes.S o + skip_flush (skipn (Datatypes.S o) (i_cmds s1)) =? length (i_cmds s1))%nat
           then (s1, LEnd (Datatypes.S o + skip_flush (skipn (Datatypes.S o) (i_cmds s1))) 0 (p ++ [m]) (c + 1))
           else put_loop s1 (Datatypes.S o + skip_flush (skipn (Datatypes.S o) (i_cmds s1))) 0 (p ++ [m]) (c + 1) l)).
        { intros s1 E. rewrite E. destruct (Nat.eqb_spec (Datatypes.S o + skip_flush (skipn (Datatypes.S o) (i_cmds s))) (length (i_cmds s))) as [E1|E1].
          - split; [exact E|left; exact E1].
          - apply prog_cons. rewrite <- E. apply IH; rewrite E; auto. }
        destruct m; apply Q; reflexivity.
    + split; [reflexivity|]. cbn [snd]. intros F. inversion F as [|? ? (W1 & _ & _) _]; subst.
      destruct (DS _ _ eq_refl) as (E1 & _ & _). destruct (W1 _ E1) as [m E2]. congruence.
  - destruct (Z.eqb_spec (fst x) 69) as [E69|N69].
    + destruct (parse (KNotice true) (snd x)) as [em|] eqn:Ep.
      * destruct (err_fatal em) as [fatal|] eqn:Ef.
        -- destruct fatal; [split; [reflexivity|reflexivity]|]. rewrite Hc. unfold isqf in W'.
           change (i_cmds (set_error s false (IEServer em))) with (i_cmds s).
           destruct ((t =? 70) || (t =? 81)).
           ++ apply prog_cons. apply (IH (set_error s false (IEServer em))); auto.
           ++ destruct (find_sync (skipn o (i_cmds s))) as [n|]; [|split; reflexivity].
              apply prog_cons. apply (IH (set_error s false (IEServer em))); auto.
        -- split; [reflexivity|]. cbn [snd]. intros F. inversion F as [|? ? (_ & _ & W3) _]; subst.
           destruct (W3 E69) as [f V]. destruct (err_severity _ _ V) as (em' & E1 & E2). congruence.
      * split; [reflexivity|]. cbn [snd]. intros F. inversion F as [|? ? (_ & _ & W3) _]; subst.
        destruct (W3 E69) as [f V]. destruct (err_severity _ _ V) as (em' & E1 & E2). congruence.
    + destruct (async_kind (fst x)) as [k|] eqn:Ea; [|split; reflexivity].
      destruct (mem_async x (i_asyncs s)); [apply prog_cons; apply IH; auto|].
      destruct (parse k (snd x)) as [m|] eqn:Ep.
      * apply prog_cons. apply (IH (set_async s (i_asyncs s ++ [x]) (i_delivered s ++ [m]))); auto.
      * split; [reflexivity|]. cbn [snd]. intros F. inversion F as [|? ? (_ & W2 & _) _]; subst.
        assert (A : is_async x).
        { pose proof (async_of _ _ Ea) as A. unfold is_asyncb in A. unfold is_async. lia. }
        destruct (W2 A) as [m [[E E2]|[[E E2]|[E E2]]]]; rewrite E in Ea; cbn in Ea; injection Ea as <-; congruence.
Qed.

Definition pos (cmds : list message) (s : inst) : Prop :=
  i_cmds s = cmds /\ (i_state s = IComplete \/ wf cmds (RAt (fst (i_cur s)) (snd (i_cur s)))).
Lemma switch_frame s o p : i_cmds (switch s o p) = i_cmds s /\ i_cur (switch s o p) = i_cur s.
Proof.
  unfold switch. destruct (nth_error _ _) as [c0|]; auto. destruct (ctype c0) as [t0|]; auto. destruct (_ || _); auto.
  destruct (rev p) as [|m0 r0]; auto. destruct m0; auto. match goal with |- context [if ?b then _ else _] => destruct b end; auto.
Qed.
Definition put_prog (cmds : list message) (l : list wmsg) (x : inst * res Z) : Prop :=
  match snd x with Err _ => ~ Forall well_formed l | Ok _ => pos cmds (fst x) end.
Lemma standard_prog s id l cmds : all_ok cmds = true -> i_cmds s = cmds -> i_state s <> IComplete -> wf cmds (RAt (fst (i_cur s)) (snd (i_cur s))) -> id <> i_last s ->
  put_prog cmds l (standard_put s id l).
Proof.
  intros AO C N W Nid. unfold standard_put. apply Z.eqb_neq in Nid. rewrite Nid.
  destruct (i_cur s) as [o st] eqn:Ec. cbn [fst snd] in W.
  destruct (wf_table _ _ _ W) as (cmd & t & ps & tb & Hn & Hc & Hp & Hh & S & Ht).
  cbn [i_cmds set_async]. rewrite C, Hn, Hp.
  pose proof (put_loop_prog l (set_async s [] (i_delivered s)) o st [] 0) as P. cbn [i_cmds set_async] in P. rewrite C in P.
  specialize (P AO W). destruct (put_loop _ _ _ _ _ _) as [s' [e|c|o' st' p c]]; destruct P as [P1 P2]; cbn [fst snd] in *.
  - exact P2.
  - split; [exact P1|left; exact P2].
  - cbn [i_cmds set_done]. rewrite P1. destruct (Nat.eqb_spec o' (length cmds)) as [E|E]; split; cbn [fst snd i_cmds set_state set_done]; auto.
    + rewrite (proj1 (switch_frame _ _ _)). exact P1.
    + right. rewrite (proj2 (switch_frame _ _ _)). cbn. destruct P2; [contradiction|assumption].
Qed.
Lemma put_prog_ok s id l cmds : all_ok cmds = true -> pos cmds s -> receiving s -> id <> i_last s ->
  l <> [] \/ i_state s = IPut -> put_prog cmds l (inst_put s id l).
Proof.
  intros AO [C P] R Nid Nl. unfold inst_put.
  assert (W : wf cmds (RAt (fst (i_cur s)) (snd (i_cur s)))).
  { destruct P as [P|P]; [|exact P]. unfold receiving in R. rewrite P in R. destruct R as [R|[R|R]]; discriminate. }
  assert (F : put_prog cmds l (standard_put (set_state s IPut) id l)) by (apply standard_prog; cbn; auto; discriminate).
  destruct (i_state s) eqn:Es; try (unfold receiving in R; rewrite Es in R; destruct R as [R|[R|R]]; discriminate).
  - apply standard_prog; auto. congruence.
  - unfold put_copydata. destruct (rev l) as [|lm rl] eqn:El.
    + destruct Nl as [Nl|Nl]; [|discriminate]. exfalso. apply Nl. rewrite <- (rev_involutive l), El. reflexivity.
    + destruct (negb _); [exact F|]. destruct (negb _); [exact F|]. split; [exact C|right; exact W].
  - unfold put_tupledata. destruct (rev l) as [|lm rl] eqn:El.
    + destruct Nl as [Nl|Nl]; [|discriminate]. exfalso. apply Nl. rewrite <- (rev_involutive l), El. reflexivity.
    + destruct (negb _); [exact F|]. destruct (mapM _ _) as [ts|] eqn:Em.
      * destruct (negb _); [exact F|]. split; [exact C|right; exact W].
      * unfold put_prog. cbn [snd]. intros Hw. clear -Hw Em. revert e Em. induction l as [|x l IH]; intros e Em; [discriminate|].
        inversion Hw as [|? ? (W1 & _ & _) Hl]; subst. cbn [filter] in Em. destruct (Z.eqb_spec (fst x) 68) as [E|E]; [|eapply IH; eauto].
        cbn [mapM] in Em. destruct (W1 KTuple) as [m E2]; [rewrite E; reflexivity|]. rewrite E2 in Em. cbn in Em.
        destruct (mapM _ _) eqn:Em2; [discriminate|]. eapply IH; eauto.
Qed.
Lemma starts_wf cmds : all_ok cmds = true -> starts cmds -> wf cmds (RAt 0 0).
Proof.
  intros AO (c & cs & -> & N). unfold all_ok in AO. cbn in AO. apply andb_true_iff in AO as [AO _].
  destruct (cmd_paths c) as [ps|] eqn:Ep; [|discriminate]. destruct (cmd_paths_ctype _ _ Ep) as (t & E1 & E2).
  exists c, t, []. split; [reflexivity|]. split; [exact E1|]. split; [|constructor]. unfold istable. rewrite E2.
  destruct ps; [reflexivity|]. apply hook_flush in E2. subst. congruence.
Qed.
Lemma irun_pos cmds s tr : irun cmds s tr -> starts cmds -> pos cmds s.
Proof.
  intros H St. assert (AO := irun_ok _ _ _ H). induction H as [s E|s tr HR IH Sd|s tr p HR IH Sd Hp|s tr id l s' c HR IH Nid E].
  - unfold inst_init in E. rewrite AO in E. okinv E. split; [reflexivity|right]. apply starts_wf; auto.
  - destruct IH as [C P]. assert (Q : i_cmds (inst_sent s) = i_cmds s /\ i_cur (inst_sent s) = i_cur s /\ i_state s <> IComplete).
    { unfold inst_sent. destruct Sd as [Sd|Sd]; rewrite Sd; [|destruct (i_messages s)]; cbn [i_cmds i_cur set_state set_messages];
        (split; [reflexivity|split; [reflexivity|discriminate]]). }
    destruct Q as (Q1 & Q2 & Q3). split; [congruence|right]. rewrite Q2. destruct P; [contradiction|assumption].
  - destruct IH as [C P]. split; [exact C|]. destruct P as [P|P]; [left|right]; cbn; auto.
  - assert (R : receiving s).
    { unfold inst_put in E. unfold receiving. destruct (i_state s); try discriminate; auto. }
    assert (Nl : l <> [] \/ i_state s = IPut).
    { unfold inst_put in E. destruct (i_state s); auto; left; intros ->; discriminate. }
    pose proof (put_prog_ok s id l cmds AO IH R Nid Nl) as P. rewrite E in P. exact P.
Qed.

(** * what is sent *)
Definition tail_ok (cmds tail : list message) : Prop :=
  exists before c, cmds = before ++ c :: tail /\ (ctype c = Some 69 \/ ctype c = Some 81).
Definition sinv (cmds : list message) (s : inst) (tr : list ievent) : Prop :=
  i_cmds s = cmds /\
  match i_state s with
  | ISend => sends tr = [] /\ i_messages s = PList (map IMsg cmds)
  | ISendStdin => exists X B, sends tr = map IMsg cmds :: X ++ B /\ copies cmds X /\ Forall data_batch B /\ tail_ok cmds (i_tail s) /\
      (i_messages s = PFail \/ i_messages s = PDone \/ exists lines, i_messages s = PList (map IRaw lines))
  | _ => exists X, sends tr = map IMsg cmds :: X /\ copies cmds X /\ i_messages s = PList []
  end.
Lemma copies_app cmds X B e : copies cmds X -> Forall data_batch B -> copy_end cmds e -> copies cmds (X ++ B ++ [e]).
Proof.
  induction 1 as [|bs e' r Fb Ce Cr IH]; intros FB CE; cbn [app].
  - apply (cp_one cmds B e []); auto. constructor.
  - rewrite <- app_assoc. cbn [app]. apply cp_one; auto.
Qed.
Lemma sends_app a b : sends (a ++ b) = sends a ++ sends b.
Proof. induction a as [|[l|x] a IH]; cbn; rewrite ?IH; reflexivity. Qed.
Lemma sends_in l : sends (map IIn l) = [].
Proof. induction l; auto. Qed.
Lemma put_loop_frame l : forall s o st p c, let s' := fst (put_loop s o st p c l) in
  i_cmds s' = i_cmds s /\ i_messages s' = i_messages s /\ i_tail s' = i_tail s /\ (i_state s' = i_state s \/ i_state s' = IComplete).
Proof.
  induction l as [|x l IH]; intros s o st p c; cbv zeta; cbn [put_loop]; [cbn; auto|].
  assert (G : forall s1 o st p c, i_cmds s1 = i_cmds s -> i_messages s1 = i_messages s -> i_tail s1 = i_tail s -> i_state s1 = i_state s ->
    let s' := fst (put_loop s1 o st p c l) in
    i_cmds s' = i_cmds s /\ i_messages s' = i_messages s /\ i_tail s' = i_tail s /\ (i_state s' = i_state s \/ i_state s' = IComplete)).
  { intros s1 o1 st1 p1 c1 E1 E2 E3 E4. destruct (IH s1 o1 st1 p1 c1) as (A & B & C & D). cbv zeta. rewrite A, B, C, E1, E2, E3. rewrite E4 in D. auto. }
  cbv zeta in G.
  destruct (nth_error _ _) as [cmd|]; [|cbn; auto]. destruct (cmd_paths cmd) as [[ps|]|]; [|cbn; auto|cbn; auto].
  destruct (nth_error ps st) as [tb|]; [|cbn; auto]. destruct (lookup _ _) as [[k [n|]]|].
  - destruct (parse _ _); [|cbn; auto]. apply G; auto.
  - destruct (parse _ _) as [m|]; [|cbn; auto].
    set (s1 := match m with MReady st0 => set_ready s st0 | _ => s end).
    assert (E : i_cmds s1 = i_cmds s /\ i_messages s1 = i_messages s /\ i_tail s1 = i_tail s /\ i_state s1 = i_state s) by (subst s1; destruct m; auto).
    clearbody s1. destruct E as (E1 & E2 & E3 & E4). destruct (_ =? _)%nat; [cbn; auto|]. apply G; auto.
  - destruct (_ =? _).
    + destruct (parse _ _) as [em|]; [|cbn; auto]. destruct (err_fatal em) as [[|]|]; [cbn; auto| |cbn; auto].
      match goal with |- context [if ?b then _ else _] => destruct b end; [apply G; auto|]. destruct (find_sync _); [apply G; auto|cbn; auto].
    + destruct (async_kind _); [|cbn; auto]. destruct (mem_async _ _); [apply G; auto|]. destruct (parse _ _); [apply G; auto|cbn; auto].
Qed.
Lemma inst_put_send s id l s' c cmds tr : sinv cmds s tr -> inst_put s id l = (s', Ok c) -> sinv cmds s' (tr ++ map IIn (firstn (Z.to_nat c) l)).
Proof.
  intros [C P] E. unfold sinv. rewrite sends_app, sends_in, app_nil_r.
  assert (R : exists X, sends tr = map IMsg cmds :: X /\ copies cmds X /\ i_messages s = PList []).
  { unfold inst_put in E. destruct (i_state s); try discriminate; exact P. }
  assert (Rv : i_state s = IPut \/ i_state s = IPutCopy \/ i_state s = IPutTuple).
  { unfold inst_put in E. destruct (i_state s); auto; discriminate. }
  clear P. destruct R as (X & R1 & R2 & R3).
  assert (St : forall s, i_cmds s = cmds -> i_messages s = PList [] -> i_state s = IPut -> standard_put s id l = (s', Ok c) ->
    i_cmds s' = cmds /\ match i_state s' with
      | ISend => sends tr = [] /\ i_messages s' = PList (map IMsg cmds)
      | ISendStdin => exists X B, sends tr = map IMsg cmds :: X ++ B /\ copies cmds X /\ Forall data_batch B /\ tail_ok cmds (i_tail s') /\
      (i_messages s' = PFail \/ i_messages s' = PDone \/ exists lines, i_messages s' = PList (map IRaw lines))
      | _ => exists X, sends tr = map IMsg cmds :: X /\ copies cmds X /\ i_messages s' = PList []
      end).
  { clear s C R3 Rv E. intros s C R3 Es E. unfold standard_put in E.
    destruct (if id =? i_last s then i_prev s else i_cur s) as [o st].
    set (s1 := if id =? i_last s then s else set_async s [] (i_delivered s)) in *.
    assert (S1 : i_cmds s1 = cmds /\ i_messages s1 = PList [] /\ i_state s1 = IPut) by (subst s1; destruct (_ =? _); auto).
    destruct S1 as (S1 & S2 & S3). clearbody s1.
    destruct (nth_error (i_cmds s1) o); [|discriminate]. destruct (cmd_paths m); [|discriminate].
    pose proof (put_loop_frame l s1 o st [] 0) as F. cbv zeta in F.
    destruct (put_loop s1 o st [] 0 l) as [s2 [e|k|o' st' p k]]; cbn [fst] in F; destruct F as (F1 & F2 & F3 & F4); [discriminate| |].
    - injection E as <- <-. rewrite F1, F2. split; [exact S1|]. destruct F4 as [F4|F4]; rewrite F4, ?S3; exists X; auto.
    - cbn [i_cmds set_done] in E. destruct (_ =? _)%nat in E; injection E as <- <-.
      + cbn [i_cmds i_state set_state set_done i_messages]. split; [congruence|]. exists X. rewrite F2. auto.
      + split; [rewrite (proj1 (switch_frame _ _ _)); cbn; congruence|].
        set (s3 := set_done s2 _ _ _ _). assert (T1 : i_cmds s3 = cmds) by (cbn; congruence).
        assert (T2 : i_messages s3 = PList []) by (cbn; congruence). assert (T3 : i_state s3 = IPut \/ i_state s3 = IComplete) by (cbn; rewrite <- S3; exact F4).
        clearbody s3. clear -T1 T2 T3 R1 R2. unfold switch.
        assert (Z0 : match i_state s3 with ISend => sends tr = [] /\ i_messages s3 = PList (map IMsg cmds) | ISendStdin => exists X B, sends tr = map IMsg cmds :: X ++ B /\ copies cmds X /\ Forall data_batch B /\ tail_ok cmds (i_tail s3) /\
      (i_messages s3 = PFail \/ i_messages s3 = PDone \/ exists lines, i_messages s3 = PList (map IRaw lines))
        | _ => exists X, sends tr = map IMsg cmds :: X /\ copies cmds X /\ i_messages s3 = PList [] end) by (destruct T3 as [->| ->]; exists X; auto).
        destruct (nth_error (i_cmds s3) o') as [cmd|] eqn:En; [|exact Z0]. destruct (ctype cmd) as [t|] eqn:Et; [|exact Z0].
        destruct ((t =? 69) || (t =? 81)) eqn:Eb; [|exact Z0]. destruct (rev p) as [|m r]; [exact Z0|].
        destruct m; try exact Z0; cbn [i_state set_state i_messages i_tail set_tail]; try (exists X; auto; fail).
        match goal with |- context [if ?b then _ else _] => destruct b end; cbn [i_state set_state i_messages i_tail set_tail]; [exists X; auto|].
        exists X, []. rewrite app_nil_r. split; [exact R1|]. split; [exact R2|]. split; [constructor|]. split.
        * rewrite T1 in *. destruct (nth_error_split _ _ En) as (l1 & l2 & -> & <-). exists l1, cmd.
          replace (skipn (S (length l1)) (l1 ++ cmd :: l2)) with l2.
          -- split; [reflexivity|]. rewrite Et. apply orb_true_iff in Eb as [Eb|Eb]; apply Z.eqb_eq in Eb; subst; auto.
          -- replace (S (length l1)) with (length (l1 ++ [cmd])) by (rewrite app_length; cbn; lia).
             change (l1 ++ cmd :: l2) with (l1 ++ [cmd] ++ l2). rewrite app_assoc. rewrite skipn_app, skipn_all, Nat.sub_diag. reflexivity.
        * right. right. exists []. exact T2. }
  unfold inst_put in E. destruct (i_state s) eqn:Es; try (destruct Rv as [Rv|[Rv|Rv]]; discriminate).
  - apply (St s); auto.
  - unfold put_copydata in E. destruct (rev l) as [|lm rl]; [discriminate|].
    destruct (negb _) in E; [apply (St (set_state s IPut)); auto|]. destruct (negb _) in E; [apply (St (set_state s IPut)); auto|].
    injection E as <- <-. cbn. rewrite Es. split; [exact C|]. exists X. auto.
  - unfold put_tupledata in E. destruct (rev l) as [|lm rl]; [discriminate|].
    destruct (negb _) in E; [apply (St (set_state s IPut)); auto|]. destruct (mapM _ _) in E; [|discriminate].
    destruct (negb _) in E; [apply (St (set_state s IPut)); auto|].
    injection E as <- <-. cbn. rewrite Es. split; [exact C|]. exists X. auto.
Qed.
Lemma irun_sends cmds s tr : irun cmds s tr -> sinv cmds s tr.
Proof.
  induction 1 as [s E|s tr HR [C P] Sd|s tr p HR [C P] Sd Hp|s tr id l s' c HR IH Nid E].
  - unfold inst_init in E. destruct (all_ok cmds); [|discriminate]. okinv E. split; [reflexivity|]. split; reflexivity.
  - unfold sinv. rewrite sends_app. cbn [sends]. unfold inst_sent, outgoing. destruct Sd as [Sd|Sd]; rewrite Sd in *.
    + destruct P as [P1 P2]. cbn [i_cmds i_state set_state set_messages i_messages]. rewrite P1, P2. split; [exact C|]. exists []. cbn. split; [reflexivity|]. split; [constructor|reflexivity].
    + destruct P as (X & B & P1 & P2 & P3 & (bf & c0 & P4 & P5) & P6). destruct P6 as [P6|[P6|[lines P6]]]; rewrite P6.
      * cbn [i_cmds i_state set_state set_messages i_messages]. split; [exact C|]. eexists. rewrite P1. cbn [app]. rewrite <- app_assoc. split; [reflexivity|].
        split; [|reflexivity]. apply copies_app; auto. exists bf, c0, (i_tail s). auto.
      * cbn [i_cmds i_state set_state set_messages i_messages]. split; [exact C|]. eexists. rewrite P1. cbn [app]. rewrite <- app_assoc. split; [reflexivity|].
        split; [|reflexivity]. apply copies_app; auto. exists bf, c0, (i_tail s). auto.
      * cbn [i_cmds i_state set_state set_messages i_messages i_tail]. split; [exact C|]. rewrite Sd. exists X, (B ++ [map IRaw lines]). rewrite P1. cbn [app]. rewrite <- app_assoc.
        split; [reflexivity|]. split; [exact P2|]. split; [apply Forall_app; split; [exact P3|constructor; [exists lines; reflexivity|constructor]]|].
        split; [exists bf, c0; auto|auto].
  - split; [exact C|]. cbn [i_state set_messages i_messages i_tail]. rewrite Sd in *. destruct P as (X & B & P1 & P2 & P3 & P4 & P6).
    exists X, B. destruct Hp as [->|[lines ->]]; eauto 10.
  - eapply inst_put_send; eauto.
Qed.

(** * what is determined *)
Lemma msg_is_det x a b : msg_is x a -> msg_is x b -> a = b.
Proof. intros (k & A1 & A2) (k' & B1 & B2). rewrite A1 in B1. injection B1 as <-. rewrite A2 in B2. injection B2 as <-. reflexivity. Qed.
Lemma async_is_det x a b : async_is x a -> async_is x b -> a = b.
Proof.
  intros [[A1 A2]|[[A1 A2]|[A1 A2]]] [[B1 B2]|[[B1 B2]|[B1 B2]]]; rewrite A1 in B1; try discriminate; rewrite A2 in B2; injection B2 as <-; reflexivity.
Qed.
Lemma Forall2_det {A B} (R : A -> B -> Prop) : (forall x a b, R x a -> R x b -> a = b) ->
  forall l a b, Forall2 R l a -> Forall2 R l b -> a = b.
Proof.
  intros D l. induction l as [|x l IH]; intros a b H1 H2; inversion H1; subst; inversion H2; subst; [reflexivity|].
  f_equal; [eapply D; eauto|apply IH; auto].
Qed.
Lemma rrun_stop_last cmds l : forall r f f', r <> RStop -> rrun cmds r f l = (RStop, f') -> exists l1 body, l = l1 ++ [(69, body)].
Proof.
  induction l as [|x l IH]; intros r f f' N H; cbn [rrun] in H; [congruence|].
  destruct (rstep cmds r f x) as [r1 f1] eqn:Er. cbn [fst snd] in H. destruct l as [|y l].
  - cbn in H. injection H as -> ->. exists []. destruct r as [o st| | |]; cbn [rstep] in Er; try discriminate.
    destruct (nth_error cmds o) as [c|]; [|discriminate]. destruct (ctype c) as [t|]; [|discriminate]. destruct (negb _); [discriminate|].
    destruct (delta t st (fst x)) as [[k [st'|]]|]; [discriminate|destruct (_ =? _)%nat in Er; discriminate|].
    destruct (Z.eqb_spec (fst x) 69) as [E|E]; [|discriminate]. destruct x as [ty body]. cbn in E. subst. exists body. reflexivity.
  - destruct r1 as [o st| | |]; try (cbn [rrun] in H; cbn [rstep fst snd] in H; rewrite rrun_viol in H; discriminate).
    destruct (IH (RAt o st) f1 f') as (l1 & body & E); [discriminate|exact H|]. exists (x :: l1), body. rewrite E. reflexivity.
Qed.
Lemma errors_spec cmds l : forall r f d, fst (rrun cmds r f l) <> RViol ->
  (no_errors l = l /\ snd (rrun cmds r f l) = f /\ last_error l d = d) \/
  (exists body b m, last_reported l body /\ severity body b /\ parse (KNotice true) body = Ok m /\
     snd (rrun cmds r f l) = Some b /\ last_error l d = Some (IEServer m)).
Proof.
  induction l as [|x l IH]; intros r f d V; [left; auto|]. cbn [rrun last_error] in *.
  destruct (Z.eqb_spec (fst x) 69) as [E|E].
  - right. destruct r as [o st| | |]; cbn [rstep] in *; try (cbn in V; rewrite rrun_viol in V; cbn in V; congruence).
    destruct (nth_error cmds o) as [c|]; [|cbn in V; rewrite rrun_viol in V; cbn in V; congruence].
    destruct (ctype c) as [t|]; [|cbn in V; rewrite rrun_viol in V; cbn in V; congruence].
    destruct (negb (istable t)); [cbn in V; rewrite rrun_viol in V; cbn in V; congruence|]. rewrite E, delta_69 in *. cbn [Z.eqb Pos.eqb] in *.
    destruct (parse (KNotice true) (snd x)) as [em|] eqn:Ep; [|cbn in V; rewrite rrun_viol in V; cbn in V; congruence].
    destruct (err_fatal em) as [b|] eqn:Ef; [|cbn in V; rewrite rrun_viol in V; cbn in V; congruence].
    assert (Q : exists r1, (if b then (RStop, Some true) else if isqf t then (RAt o 0, Some false) else match find_sync (skipn o cmds) with
                     | Some n => (RAt (o + n) 0, Some false) | None => (RStop, Some false) end) = (r1, Some b)).
    { destruct b; [eauto|]. destruct (isqf t); [eauto|]. destruct (find_sync _); eauto. }
    destruct Q as [r1 Q]. rewrite Q in *. cbn [fst snd] in *.
    destruct (IH r1 (Some b) (Some (IEServer em)) V) as [(N & S & L)|(body & b' & m & (l1 & l2 & L1 & L2) & SV & P & S & L)].
    + exists (snd x), b, em. split; [|split; [eapply severity_err; eauto|auto]]. exists [], l. destruct x as [ty body]. cbn in E. subst ty.
      split; [reflexivity|]. intros b0 Hb. rewrite <- N in Hb. apply filter_In in Hb as [_ Hb]. discriminate.
    + exists body, b', m. split; [|auto]. exists (x :: l1), l2. rewrite L1. auto.
  - assert (Q : snd (rstep cmds r f x) = f).
    { destruct r as [o st| | |]; cbn [rstep]; auto. destruct (nth_error cmds o); auto. destruct (ctype m); auto. destruct (negb _); auto.
      destruct (delta _ _ _) as [[k [n|]]|]; auto; [destruct (_ =? _)%nat; auto|]. apply Z.eqb_neq in E. rewrite E. auto. }
    rewrite Q in *. destruct (IH (fst (rstep cmds r f x)) f d V) as [(N & S & L)|(body & b' & m & (l1 & l2 & L1 & L2) & SV & P & S & L)].
    + left. rewrite noerr_cons by exact E. rewrite N. auto.
    + right. exists body, b', m. split; [|auto]. exists (x :: l1), l2. rewrite L1. auto.
Qed.

(** * without error responses *)
Lemma rrun_quiet cmds l : forall r f, (forall b, ~ List.In (69, b) l) -> snd (rrun cmds r f l) = f.
Proof.
  induction l as [|x l IH]; intros r f N; [reflexivity|]. cbn [rrun].
  rewrite IH by (intros b Hb; apply (N b); right; exact Hb).
  assert (E : fst x <> 69) by (intros E; apply (N (snd x)); left; destruct x; cbn in *; subst; reflexivity).
  destruct r as [o st| | |]; cbn [rstep]; auto. destruct (nth_error cmds o) as [c|]; auto. destruct (ctype c) as [t|]; auto. destruct (negb _); auto.
  destruct (delta _ _ _) as [[k [n|]]|]; auto; [destruct (_ =? _)%nat; auto|]. apply Z.eqb_neq in E. rewrite E. auto.
Qed.
Lemma irun_quiet cmds s tr : irun cmds s tr -> (forall b, ~ List.In (69, b) (recvd tr)) ->
  i_fatal s = None \/ (i_fatal s = Some true /\ i_state s = IComplete).
Proof.
  induction 1 as [s E|s tr HR IH Sd|s tr p HR IH Sd Hp|s tr id l s' c HR IH Nid E]; intros Q.
  - unfold inst_init in E. destruct (all_ok cmds); [|discriminate]. okinv E. auto.
  - rewrite recvd_app in Q. cbn in Q. rewrite app_nil_r in Q. specialize (IH Q).
    assert (F : i_fatal (inst_sent s) = i_fatal s) by (unfold inst_sent; destruct (i_state s), (i_messages s); reflexivity).
    rewrite F. destruct IH as [IH|[_ IH]]; [auto|]. destruct Sd; congruence.
  - destruct (IH Q) as [IH'|[_ IH']]; [left; exact IH'|]. congruence.
  - rewrite recvd_app, recvd_in in Q. assert (Q1 : forall b, ~ List.In (69, b) (recvd tr)) by (intros b Hb; apply (Q b), in_or_app; auto).
    assert (Q2 : forall b, ~ List.In (69, b) (sync_part (firstn (Z.to_nat c) l))).
    { intros b Hb. apply filter_In in Hb as [Hb _]. apply (Q b), in_or_app; auto. }
    assert (F0 : i_fatal s = None).
    { destruct (IH Q1) as [IH'|[_ IH']]; [exact IH'|]. unfold inst_put in E. rewrite IH' in E. discriminate. }
    destruct (inst_put_ok _ _ _ _ _ E Nid) as [P|P].
    + unfold put_ok in P. cbn [i_cur i_cmds i_fatal set_state] in P. destruct (i_cur s) as [o st].
      destruct P as (k & -> & _ & _ & _ & _ & P). rewrite Nat2Z.id in *. destruct P as [(P1 & _ & _ & P)|(o' & st' & ms & _ & _ & _ & _ & P & _)].
      * destruct P as [(P & _ & _)|(P & _)]; [|auto]. apply rrun_stop_last in P as (l1 & body & P); [|discriminate].
        exfalso. apply (Q2 body). rewrite P. apply in_or_app. right. left. reflexivity.
      * apply (f_equal snd) in P. rewrite rrun_quiet in P by exact Q2. cbn in P. left. congruence.
    + destruct P as (_ & _ & ms & _ & -> & _). cbn. auto.
Qed.

(** * the same batch again *)
Lemma put_loop_mono l : forall s o st p c, incl (i_asyncs s) (i_asyncs (fst (put_loop s o st p c l))).
Proof.
  induction l as [|x l IH]; intros s o st p c; cbn [put_loop fst]; [apply incl_refl|].
  assert (G : forall s1 o st p c, incl (i_asyncs s) (i_asyncs s1) -> incl (i_asyncs s) (i_asyncs (fst (put_loop s1 o st p c l)))).
  { intros s1 o1 st1 p1 c1 H. eapply incl_tran; [exact H|apply IH]. }
  destruct (nth_error _ _) as [cmd|]; [|cbn; apply incl_refl]. destruct (cmd_paths cmd) as [[ps|]|]; [|cbn; apply incl_refl|cbn; apply incl_refl].
  destruct (nth_error ps st) as [tb|]; [|cbn; apply incl_refl]. destruct (lookup _ _) as [[k [n|]]|].
  - destruct (parse _ _); [|cbn; apply incl_refl]. apply G; cbn; apply incl_refl.
  - destruct (parse _ _) as [m|]; [|cbn; apply incl_refl].
    set (s1 := match m with MReady st0 => set_ready s st0 | _ => s end).
    assert (E : i_asyncs s1 = i_asyncs s) by (subst s1; destruct m; auto).
    clearbody s1. destruct (_ =? _)%nat; [cbn; rewrite E; apply incl_refl|]. apply G; rewrite E; apply incl_refl.
  - destruct (_ =? _).
    + destruct (parse _ _) as [em|]; [|cbn; apply incl_refl]. destruct (err_fatal em) as [[|]|]; [cbn; apply incl_refl| |cbn; apply incl_refl].
      match goal with |- context [if ?b then _ else _] => destruct b end; [apply G; cbn; apply incl_refl|]. destruct (find_sync _); [apply G; cbn; apply incl_refl|cbn; apply incl_refl].
    + destruct (async_kind _); [|cbn; apply incl_refl]. destruct (mem_async _ _); [apply G; cbn; apply incl_refl|].
      destruct (parse _ _); [apply G; cbn; apply incl_appl, incl_refl|cbn; apply incl_refl].
Qed.
Definition samepos (a b : inst) : Prop :=
  i_cmds a = i_cmds b /\ i_completed a = i_completed b /\ i_last a = i_last b /\ i_prev a = i_prev b /\ i_cur a = i_cur b /\
  i_delivered a = i_delivered b /\ i_state a = i_state b.
Lemma samepos_trans a b c : samepos a b -> samepos b c -> samepos a c.
Proof. unfold samepos. intuition congruence. Qed.
Lemma samepos_refl a : samepos a a.
Proof. unfold samepos. auto 10. Qed.
Lemma put_loop_again l : forall s o st p c s' o' st' p' c', put_loop s o st p c l = (s', LEnd o' st' p' c') ->
  forall s2, i_cmds s2 = i_cmds s -> incl (i_asyncs s') (i_asyncs s2) ->
  exists s2', put_loop s2 o st p c l = (s2', LEnd o' st' p' c') /\ samepos s2' s2.
Proof.
  induction l as [|x l IH]; intros s o st p c s' o' st' p' c' E s2 C I; cbn [put_loop] in *.
  { injection E as <- <- <- <- <-. exists s2. split; [reflexivity|apply samepos_refl]. }
  rewrite C. destruct (nth_error _ _) as [cmd|]; [|discriminate]. destruct (cmd_paths cmd) as [[ps|]|]; try discriminate.
  destruct (nth_error ps st) as [tb|]; [|discriminate]. destruct (lookup _ _) as [[k [n|]]|].
  - destruct (parse _ _); [|discriminate]. eapply IH; eauto.
  - destruct (parse _ _) as [m|]; [|discriminate].
    set (s1 := match m with MReady st0 => set_ready s st0 | _ => s end) in *.
    set (t1 := match m with MReady st0 => set_ready s2 st0 | _ => s2 end) in *.
    assert (E1 : i_cmds s1 = i_cmds s) by (subst s1; destruct m; auto).
    assert (E2 : i_cmds t1 = i_cmds s2 /\ i_asyncs t1 = i_asyncs s2 /\ samepos t1 s2) by (subst t1; destruct m; auto using samepos_refl; split; [|split]; auto; unfold samepos; auto 10).
    clearbody s1 t1. destruct E2 as (E2 & E3 & E4). rewrite E2, C, <- E1. destruct (_ =? _)%nat.
    + injection E as <- <- <- <- <-. exists t1. auto.
    + destruct (IH _ _ _ _ _ _ _ _ _ _ E t1) as (s2' & Q & Q2); [congruence|rewrite E3; exact I|]. exists s2'. split; [exact Q|].
      eapply samepos_trans; eauto.
  - destruct (_ =? _).
    + destruct (parse _ _) as [em|]; [|discriminate]. destruct (err_fatal em) as [[|]|]; try discriminate.
      cbn [i_cmds set_error] in *. rewrite C.
      match goal with |- context [if ?b then _ else _] => destruct b end;
      [|destruct (find_sync _); [|discriminate]];
      (destruct (IH _ _ _ _ _ _ _ _ _ _ E (set_error s2 false (IEServer em))) as (s2' & Q & Q2); [exact C|exact I|]; exists s2'; split; [exact Q|exact Q2]).
    + destruct (async_kind _); [|discriminate]. destruct (mem_async x (i_asyncs s)) eqn:Em.
      * replace (mem_async x (i_asyncs s2)) with true; [eapply IH; eauto|]. symmetry. apply mem_async_in. apply I.
        pose proof (put_loop_mono l s o st p (c + 1)) as M. rewrite E in M. apply M. apply mem_async_in. exact Em.
      * destruct (parse _ _) as [m|]; [|discriminate]. replace (mem_async x (i_asyncs s2)) with true; [eapply IH; eauto|].
        symmetry. apply mem_async_in. apply I.
        match type of E with put_loop ?a ?b ?d ?e ?f ?g = _ => pose proof (put_loop_mono g a b d e f) as M end. rewrite E in M. apply M.
        cbn. apply in_or_app. right. left. reflexivity.
Qed.
