(** LifeProof9.v: what the invariant says about portals, and about what is closed *)
From Coq Require Import Lia.
From Verif Require Import PyStr PyDict PyDictProof BaseProof LifeModel LifeSpec LifeProof LifeProof2 LifeProof3 LifeProof4 LifeProof5 LifeProof6 LifeProof7 LifeProof8.

Lemma psn_closing s n : psn s n <-> closing_stmt s n.
Proof.
  unfold psn, closing_stmt, trash_msgs. destruct (xact s) as [i|]; [destruct (in_owner i) eqn:O|].
  - split; [intros [H|[]]; now left|]. intros [H|(j & E & N & _)]; [now left|]. injection E as <-. congruence.
  - split; [intros [H|H]; [now left|right; eauto]|]. intros [H|(j & E & N & H)]; [now left|]. injection E as <-. now right.
  - split; [intros [H|[]]; now left|]. intros [H|(j & E & _)]; [now left|discriminate].
Qed.
Lemma pcn_closing s n : pcn s n <-> closing_portal s n.
Proof.
  unfold pcn, closing_portal, trash_msgs. destruct (xact s) as [i|]; [destruct (in_owner i) eqn:O|].
  - split; [intros [H|[]]; now left|]. intros [H|(j & E & N & _)]; [now left|]. injection E as <-. congruence.
  - split; [intros [H|H]; [now left|right; eauto]|]. intros [H|(j & E & N & H)]; [now left|]. injection E as <-. now right.
  - split; [intros [H|[]]; now left|]. intros [H|(j & E & _)]; [now left|discriminate].
Qed.
(** a message that does not close the portal or its statement keeps the portal *)
Lemma serve_keeps ok o m v n po : NoDup (dkeys (sv_portals v)) -> n <> [] -> dget n (sv_portals v) = Some po ->
  (forall c, m = MCloseS c -> c <> po_from po) -> m <> MCloseP n -> dget n (sv_portals (serve ok o m v)) = Some po.
Proof.
  intros ND NE G NS NP. unfold serve. destruct (sv_skip v); [destruct m; exact G|].
  assert (SET : forall p q, negb (seqb p []) && dmem p (sv_portals v) = false -> dget n (dset p q (sv_portals v)) = Some po).
  { intros p q H. rewrite dget_set. destruct (seqb_spec n p) as [->|]; [|exact G]. exfalso. unfold dmem in H. rewrite G, seqb_ne in H; [discriminate|exact NE]. }
  destruct m as [c|c|c q| |p c|p|]; try exact G.
  - cbn [sv_portals]. apply (dget_filter (fun p => negb (seqb c (po_from p)))); [exact ND|]. split; [exact G|]. rewrite seqb_ne; [reflexivity|]. now apply NS.
  - cbn [with_portals sv_portals]. rewrite dget_del, seqb_ne; [exact G|]. intros E. apply NP. now rewrite E.
  - destruct ok; [|exact G]. cbn [negb]. destruct (negb (seqb c []) && dmem c (sv_stmts v)); exact G.
  - destruct ok; exact G.
  - destruct ok; [|exact G]. cbn [negb]. destruct (dget c (sv_stmts v)); [|exact G]. destruct (negb (seqb p []) && dmem p (sv_portals v)) eqn:D; [exact G|]. cbn [with_portals sv_portals]. now apply SET.
  - destruct ok; [|exact G]. cbn [negb]. destruct (dget p (sv_portals v)) as [pp|]; [|exact G]. destruct (po_query pp) as [q|c q|c]; [exact G| |].
    + destruct (dmem c (sv_portals v)) eqn:D; [exact G|]. cbn [log with_portals sv_portals]. apply SET. rewrite D. apply andb_false_r.
    + destruct (dget c (sv_portals v)) as [p2|]; [|exact G]. destruct (po_query p2); exact G.
Qed.
Lemma typed_closes n cn cr own u p q : typed n cn cr own u p q -> forall m, In m q -> (forall c, m <> MCloseS c) /\ (forall c, m = MCloseP c -> c = []).
Proof. induction 1; intros m0 [<-|IN]; first [exact (IHtyped m0 IN)|destruct IN|split; [discriminate|intros c0 E; first [discriminate E|now injection E as <-]]]. Qed.
Lemma portal_step L s e s' k o j t po : Inv L s -> step e s = Some s' -> living s k o -> cursor_class (ob_class o) -> ob_begun o = true -> ob_closed o = Some false ->
  ob_of o = Some j -> living s j t -> ob_closed t = Some false -> dget (ob_name o) (sv_portals (sv s)) = Some po -> e <> EGone (ob_name o) -> dget (ob_name o) (sv_portals (sv s')) = Some po.
Proof.
  intros I E G C B CL OF GT CT P NG. pose proof (i_v _ _ I) as IV. pose proof (i_h _ _ I) as IH. unfold living in G, GT.
  destruct e as [c a name q of|act k1|k1|k1| | |ok|p|]; cbn [step] in E.
  - destruct (idle s); [|discriminate]. injection E as <-. unfold create. match goal with |- context [if ?b then _ else _] => idtac end. cbv zeta. unfold register.
    repeat match goal with |- context [if ?b then _ else _] => destruct b end; exact P.
  - destruct (idle s); [|discriminate]. destruct (request act k1 s); [|discriminate]. injection E as <-. exact P.
  - destruct (idle s); [|discriminate]. injection E as <-. unfold close. destruct (hget k1 (heap s)) as [o1|]; [|exact P]. destruct (ob_closed o1) as [[|]|]; try exact P. unfold trash. destruct (is_stmt (ob_class o1)); exact P.
  - injection E as <-. unfold drop. destruct (hget k1 (heap s)) as [o1|]; [|exact P]. destruct (is_stmt (ob_class o1)); destruct (dget (ob_name o1) _) as [j1|]; try exact P; destruct (Nat.eqb j1 k1); exact P.
  - unfold driver in E. destruct (at_ s) as [|x|x xm i|x xm i m|x i m|x m|x|]; try discriminate; try (injection E as <-; exact P).
    + destruct (xact s) as [i|]; [destruct (in_msgs i); [|discriminate]; injection E as <-; exact P|]. destruct (gar_s s), (gar_c s); injection E as <-; exact P.
    + destruct (nth_error (gar_c s) i); injection E as <-; exact P.
    + destruct (nth_error (gar_s s) m); injection E as <-; exact P.
    + destruct (xact s) as [i|]; [destruct (in_msgs i); [|discriminate]|]; injection E as <-; exact P.
  - unfold complete in E. destruct (at_ s); try discriminate. destruct (xact s) as [i|]; [|discriminate]. destruct (in_msgs i); [|discriminate]. injection E as <-. exact P.
  - unfold served in E. destruct (xact s) as [i|] eqn:X; [|discriminate]. destruct (in_msgs i) as [|m r] eqn:M; [discriminate|]. destruct (sent (at_ s)); [|discriminate]. injection E as <-. cbn [set_sv sv].
    assert (NE : ob_name o <> []) by (rewrite (cur_name_ne _ _ _ _ IH k o G C); apply ID_ne).
    destruct (v_Jc _ _ _ _ _ _ _ _ IV k o po G C B P) as [_ FR].
    assert (ST : ob_class t = CStatement /\ ob_begun t = true).
    { pose proof (h_of _ _ _ _ IH k o G) as HO. destruct C as [C|C]; rewrite C in HO; destruct HO as (j' & t' & E1 & E2 & E3 & E4 & _); rewrite OF in E1; injection E1 as <-; rewrite GT in E2; injection E2 as <-; auto. }
    destruct ST as [ST SB].
    apply serve_keeps; auto; [exact (v_pkeys _ _ _ _ _ _ _ _ IV)| |].
    + intros c -> EC. destruct FR as [FR|(j' & t' & E1 & E2 & E3)].
      * (* of the unnamed statement *) rewrite FR in EC. destruct (in_owner i) as [k1|] eqn:O.
        -- destruct (in_prepare i) eqn:PR.
           ++ destruct (v_prep _ _ _ _ _ _ _ _ IV i k1 eq_refl O PR) as (n & q & [_ _ X3 _ _ X6]). unfold pstate in X6. rewrite M in X6. destruct q as [q|].
              ** destruct X6 as [(D & _)|[(D & _)|(D & _)]]; [injection D as D1 D2; congruence|discriminate|destruct D as [D|[D|D]]; discriminate].
              ** destruct X6 as [D|[D|D]]; discriminate.
           ++ destruct (v_use _ _ _ _ _ _ _ _ IV i k1 eq_refl O PR) as (n & cn & cr & [_ _ X3 _ _]). rewrite M in X3. destruct X3 as [[D _]|(u & p & T & _)]; [discriminate|]. destruct (typed_closes _ _ _ _ _ _ _ T (MCloseS c) (or_introl eq_refl)) as [T1 _]. exact (T1 c eq_refl).
        -- pose proof (v_trash _ _ _ _ _ _ _ _ IV i eq_refl O) as T. rewrite M in T. apply Forall_inv in T. cbn in T. contradiction.
      * rewrite OF in E1. injection E1 as <-. rewrite GT in E2. injection E2 as <-. rewrite <- EC in E3. destruct (in_owner i) as [k1|] eqn:O.
        -- destruct (in_prepare i) eqn:PR.
           ++ destruct (v_prep _ _ _ _ _ _ _ _ IV i k1 eq_refl O PR) as (n & q & [_ X2 X3 X4 _ X6]).
              assert (CN : c = n).
              { unfold pstate in X6. rewrite M in X6. destruct q as [q|].
                ** destruct X6 as [(D & _)|[(D & _)|(D & _)]]; [now injection D as D1 D2|discriminate|destruct D as [D|[D|D]]; discriminate].
                ** destruct X6 as [D|[D|D]]; discriminate. }
              destruct (X4 j t GT ST ltac:(congruence)) as [->|NB]; [|congruence]. destruct (X2 t GT) as (_ & _ & CN' & _). congruence.
           ++ destruct (v_use _ _ _ _ _ _ _ _ IV i k1 eq_refl O PR) as (n & cn & cr & [_ _ X3 _ _]). rewrite M in X3. destruct X3 as [[D _]|(u & p & T & _)]; [discriminate|]. destruct (typed_closes _ _ _ _ _ _ _ T (MCloseS c) (or_introl eq_refl)) as [T1 _]. exact (T1 c eq_refl).
        -- assert (PP : psn s c) by (right; unfold trash_msgs; rewrite X, O, M; now left). destruct (v_Ks _ _ _ _ _ _ _ _ IV c j t PP GT ST E3); congruence.
    + intros ->. destruct (in_owner i) as [k1|] eqn:O.
      * destruct (in_prepare i) eqn:PR.
        -- destruct (v_prep _ _ _ _ _ _ _ _ IV i k1 eq_refl O PR) as (n & q & [_ _ X3 _ _ X6]). unfold pstate in X6. rewrite M in X6. destruct q as [q|].
           ++ destruct X6 as [(D & _)|[(D & _)|(D & _)]]; [discriminate|discriminate|destruct D as [D|[D|D]]; discriminate].
           ++ destruct X6 as [D|[D|D]]; discriminate.
        -- destruct (v_use _ _ _ _ _ _ _ _ IV i k1 eq_refl O PR) as (n & cn & cr & [_ _ X3 _ _]). rewrite M in X3. destruct X3 as [[D _]|(u & p & T & _)]; [discriminate|]. destruct (typed_closes _ _ _ _ _ _ _ T (MCloseP (ob_name o)) (or_introl eq_refl)) as [_ T1]. exact (NE (T1 _ eq_refl)).
      * assert (PP : pcn s (ob_name o)) by (right; unfold trash_msgs; rewrite X, O, M; now left). destruct (v_Kc _ _ _ _ _ _ _ _ IV _ k o PP G C eq_refl); congruence.
  - assert (E' : s' = set_sv s {| sv_stmts := sv_stmts (sv s); sv_portals := ddel p (sv_portals (sv s)); sv_skip := sv_skip (sv s); ran := ran (sv s) |}) by (destruct (at_ s); try discriminate; now injection E as <-).
    rewrite E'. cbn [set_sv sv sv_portals]. rewrite dget_del, seqb_ne; [exact P|]. intros EQ. apply NG. now rewrite EQ.
  - injection E as <-. exact P.
Qed.
(** ** the garbage is closed before the next request *)
Definition in_trash (s : st) (m : msg) : Prop := exists i, xact s = Some i /\ in_owner i = None /\ In m (in_msgs i).
Definition nos (n : text) (s : st) : Prop := dget n (sv_stmts (sv s)) = None.
Definition nop (n : text) (s : st) : Prop := dget n (sv_portals (sv s)) = None.
Definition ph (n : text) (s : st) : Prop :=
  match at_ s with
  | PComplete _ | PCursors _ _ _ | PStmts _ _ _ _ => In n (gar_s s)
  | PDelC _ _ _ | PDelS _ _ => in_trash s (MCloseS n)
  | PWait _ => in_trash s (MCloseS n) \/ nos n s
  | Idle | PDead => True
  end.
Definition pp (n : text) (s : st) : Prop :=
  match at_ s with
  | PComplete _ | PCursors _ _ _ => In n (gar_c s)
  | PStmts _ _ i _ => In n (firstn i (gar_c s))
  | PDelC _ _ _ | PDelS _ _ => in_trash s (MCloseP n)
  | PWait _ => in_trash s (MCloseP n) \/ nop n s
  | Idle | PDead => True
  end.
Lemma serve_trash_s ok v n m : sv_skip v = false -> trashy m -> dget n (sv_stmts v) = None \/ m = MCloseS n -> dget n (sv_stmts (serve ok None m v)) = None.
Proof. intros S T G. unfold serve. rewrite S. destruct m; try contradiction; try (destruct G as [G|G]; [exact G|discriminate]). cbn [sv_stmts]. rewrite dget_del. destruct (seqb_spec n n0); [reflexivity|]. destruct G as [G|G]; [exact G|]. congruence. Qed.
Lemma dget_filter_none {V} (P : V -> bool) k (d : list (text * V)) : NoDup (dkeys d) -> dget k d = None -> dget k (filter (fun p => P (snd p)) d) = None.
Proof. intros ND G. destruct (dget k (filter (fun p => P (snd p)) d)) as [v|] eqn:E; [|reflexivity]. apply dget_filter in E as [E _]; [congruence|exact ND]. Qed.
Lemma serve_trash_p ok v n m : NoDup (dkeys (sv_portals v)) -> sv_skip v = false -> trashy m -> dget n (sv_portals v) = None \/ m = MCloseP n -> dget n (sv_portals (serve ok None m v)) = None.
Proof.
  intros ND S T G. unfold serve. rewrite S. destruct m as [c|c| | | | |]; try contradiction; try (destruct G as [G|G]; [exact G|discriminate]).
  - cbn [sv_portals]. destruct G as [G|G]; [|discriminate]. now apply (dget_filter_none (fun p => negb (seqb c (po_from p)))).
  - cbn [with_portals sv_portals]. rewrite dget_del. destruct (seqb_spec n c); [reflexivity|]. destruct G as [G|G]; [exact G|congruence].
Qed.
Lemma drop_parts k s : at_ (drop k s) = at_ s /\ xact (drop k s) = xact s /\ sv (drop k s) = sv s /\ (exists es, gar_s (drop k s) = gar_s s ++ es) /\ (exists ec, gar_c (drop k s) = gar_c s ++ ec).
Proof.
  assert (Z : forall l : list text, exists e, l = l ++ e) by (intros l; exists []; now rewrite app_nil_r).
  unfold drop. destruct (hget k (heap s)) as [o|]; [|auto 10]. destruct (is_stmt (ob_class o)); destruct (dget (ob_name o) _) as [j|]; try (cbn; auto 10; fail); destruct (Nat.eqb j k); cbn; repeat (split; [reflexivity|]); auto; split; auto; eexists; reflexivity.
Qed.
Lemma in_trash_same s s' m : xact s' = xact s -> in_trash s m -> in_trash s' m.
Proof. unfold in_trash. now intros ->. Qed.
Lemma phase_step L s e s' n : Inv L s -> meanwhile e -> step e s = Some s' -> running (at_ s) <> None -> (ph n s -> ph n s') /\ (pp n s -> pp n s').
Proof.
  intros I MW E R. pose proof (i_at _ _ I) as IA. pose proof (i_v _ _ I) as IV. unfold ph, pp, at_ok in *.
  destruct e as [| | |k| | |ok|p|]; cbn [meanwhile] in MW; try contradiction; cbn [step] in E.
  - injection E as <-. destruct (drop_parts k s) as (A & X & V & (es & GS) & (ec & GC)). rewrite A, GS, GC.
    assert (T : forall m, in_trash s m -> in_trash (drop k s) m) by (intros m; now apply in_trash_same).
    unfold nos, nop. rewrite V. split; destruct (at_ s); auto; try (intros [H|H]; auto; fail); intros H; try (apply in_or_app; now left).
    destruct IA as (_ & LE & _). now rewrite firstn_more.
  - unfold driver in E. destruct (at_ s) as [|x|x xm i|x xm i j|x i j|x j|x|] eqn:A; try (now contradiction R).
    + destruct (xact s) as [i|] eqn:X.
      * destruct (in_msgs i); [|discriminate]. injection E as <-. cbn [set_at at_]. destruct (in_err i); cbn [set_at set_xact gar_s gar_c]; auto.
      * destruct (gar_s s) eqn:GS; destruct (gar_c s) eqn:GC; injection E as <-; cbn [begin set_heap set_at set_xact at_ gar_s gar_c]; rewrite ?GS, ?GC; auto.
    + destruct IA as (_ & LE & _). destruct (nth_error (gar_c s) i) eqn:N; injection E as <-; cbn [set_at at_ gar_s gar_c]; auto. split; [auto|]. apply nth_error_none_le in N; [|exact LE]. now rewrite N, firstn_all.
    + destruct (nth_error (gar_s s) j) eqn:N; injection E as <-; cbn [set_at at_ gar_s gar_c]; [auto|]. unfold in_trash. cbn [set_at set_xact xact].
      destruct IA as (_ & LE & LE2 & -> & _). split; intros H; (eexists; split; [reflexivity|]; split; [reflexivity|]); cbn [in_msgs]; rewrite !in_app_iff, !in_map_iff.
      * left. right. exists n. split; [reflexivity|]. apply nth_error_none_le in N; [|exact LE2]. now rewrite N, firstn_all.
      * left. left. exists n. auto.
    + injection E as <-. cbn [set_at at_]. split; intros H; (eapply in_trash_same; [|exact H]; reflexivity).
    + injection E as <-. cbn [set_at at_]. split; intros H; left; (eapply in_trash_same; [|exact H]; reflexivity).
    + destruct (xact s) as [t|] eqn:X.
      * destruct (in_msgs t) eqn:M; [|discriminate]. injection E as <-.
        assert (NT : forall m, ~ in_trash s m) by (intros m (i & E1 & _ & H); rewrite X in E1; injection E1 as <-; rewrite M in H; exact H).
        cbn [set_xact at_]. rewrite A. split; intros [H|H]; try (exfalso; now apply (NT _ H)); right; exact H.
      * injection E as <-. cbn [begin set_heap set_at at_]. auto.
  - unfold served in E. destruct (xact s) as [i|] eqn:X; [|discriminate]. destruct (in_msgs i) as [|m r] eqn:M; [discriminate|]. destruct (sent (at_ s)) eqn:SE; [|discriminate]. injection E as <-. cbn [set_sv set_xact at_ gar_s gar_c].
    destruct (at_ s) as [|x|x xm j|x xm a b|x a b|x a|x|]; try discriminate; auto. destruct IA as (XN & _). pose proof (XN i eq_refl) as O.
    pose proof (noskip _ _ _ _ _ _ _ _ IV ltac:(intros j Ej; injection Ej as <-; exact O)) as SK. pose proof (v_trash _ _ _ _ _ _ _ _ IV i eq_refl O) as T. rewrite M in T. apply Forall_inv in T.
    assert (ST : forall m', in_trash s m' -> m' = m \/ In m' r) by (intros m' (j & E1 & _ & H); rewrite X in E1; injection E1 as <-; rewrite M in H; destruct H as [H|H]; auto).
    unfold in_trash, nos, nop. cbn [set_sv set_xact xact sv]. rewrite O. split; intros [H|H].
    + apply ST in H as [<-|H]; [right; apply serve_trash_s; auto|left; eexists; split; [reflexivity|]; split; [reflexivity|exact H]].
    + right. apply serve_trash_s; auto.
    + apply ST in H as [<-|H]; [right; apply serve_trash_p; auto; exact (v_pkeys _ _ _ _ _ _ _ _ IV)|left; eexists; split; [reflexivity|]; split; [reflexivity|exact H]].
    + right. apply serve_trash_p; auto. exact (v_pkeys _ _ _ _ _ _ _ _ IV).
  - assert (E' : s' = set_sv s {| sv_stmts := sv_stmts (sv s); sv_portals := ddel p (sv_portals (sv s)); sv_skip := sv_skip (sv s); ran := ran (sv s) |}) by (destruct (at_ s); try discriminate; now injection E as <-).
    rewrite E'. cbn [set_sv at_ gar_s gar_c]. split; [destruct (at_ s); auto|]. destruct (at_ s); auto. intros [H|H]; [left; exact H|]. right. unfold nop in *. cbn [set_sv sv sv_portals]. rewrite dget_del. now destruct (seqb n p).
Qed.
Lemma goes_inv L s h s' : goes_on s h s' -> Inv L s -> Inv L s'.
Proof.
  induction 1 as [|s e s1 h s2 AL MW E G IH]; intros I; [exact I|]. apply IH. pose proof (Inv_step L s e s1 I AL E) as I1. destruct e; cbn [creation meanwhile] in *; try contradiction; now rewrite app_nil_r in I1.
Qed.
(** once the driver is idle, a push is over: only what follows begins a new one *)
Lemma idle_stays s h s' : goes_on s h s' -> at_ s = Idle \/ at_ s = PDead -> at_ s' = Idle \/ at_ s' = PDead.
Proof.
  induction 1 as [|s e s1 h s2 AL MW E G IH]; [auto|]. intros A. apply IH. clear IH G. destruct e as [| | |k| | |ok|p|]; cbn [meanwhile step] in *; try contradiction.
  - injection E as <-. destruct (drop_parts k s) as (-> & _). exact A.
  - unfold driver in E. destruct A as [A|A]; rewrite A in E; discriminate.
  - unfold served in E. destruct (xact s); [|discriminate]. destruct (in_msgs i); [discriminate|]. destruct (sent (at_ s)); [|discriminate]. injection E as <-. exact A.
  - destruct (at_ s) eqn:A'; try discriminate; injection E as <-; cbn [set_sv at_]; rewrite A'; exact A.
Qed.
Lemma phase_goes L s h s' n : goes_on s h s' -> Inv L s -> running (at_ s') <> None -> (ph n s -> ph n s') /\ (pp n s -> pp n s').
Proof.
  induction 1 as [|s e s1 h s2 AL MW E G IH]; intros I R; [auto|].
  assert (R0 : running (at_ s) <> None).
  { intros C. assert (A : at_ s = Idle \/ at_ s = PDead) by (destruct (at_ s); try discriminate; auto). destruct (idle_stays s (e :: h) s2 (G_step s e s1 h s2 AL MW E G) A) as [A2|A2]; rewrite A2 in R; now apply R. }
  assert (I1 : Inv L s1) by (pose proof (Inv_step L s e s1 I AL E) as I1; destruct e; cbn [creation meanwhile] in *; try contradiction; now rewrite app_nil_r in I1).
  destruct (IH I1 R) as [P1 P2]. destruct (phase_step L s e s1 n I MW E R0) as [Q1 Q2]. auto.
Qed.
Lemma pushed_absent L s s' x n : Inv L s -> pushed s s' x -> (ph n s -> dget n (sv_stmts (sv s')) = None) /\ (pp n s -> dget n (sv_portals (sv s')) = None).
Proof.
  intros I (R & E & A' & X'). cbn [step] in E. unfold driver in E. unfold ph, pp. pose proof (i_at _ _ I) as IA. unfold at_ok in IA. destruct (at_ s) as [|y|y xm i|y xm i j|y i j|y j|y|] eqn:A; try discriminate R.
  - destruct (xact s) as [i|] eqn:X.
    + destruct (in_msgs i); [|discriminate]. injection E as <-. discriminate X'.
    + destruct (gar_s s) eqn:GS; destruct (gar_c s) eqn:GC; injection E as <-; try discriminate A'. split; intros [].
  - destruct (nth_error (gar_c s) i); injection E as <-; discriminate A'.
  - destruct (nth_error (gar_s s) j); injection E as <-; discriminate A'.
  - injection E as <-. discriminate A'.
  - injection E as <-. discriminate A'.
  - destruct (xact s) as [t|] eqn:X.
    + destruct (in_msgs t); [|discriminate]. injection E as <-. discriminate X'.
    + injection E as <-. cbn [begin set_heap set_at set_xact sv]. split; intros [(i & E1 & _)|H]; [congruence|exact H|congruence|exact H].
Qed.
