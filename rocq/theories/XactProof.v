(** XactProof.v: transactions refine the reference *)
From Verif Require Import Base BaseProof PyStr XactModel XactSpec.

(** the connection is in the state [r] describes, above [saves]/[base] with innermost changes [c0] *)
Inductive rel (store : list Z) (x0 : option txn) : conn -> rstate -> Prop :=
| rel_top w r : x0 = None -> r_top r = true -> r_dead r = false -> r_doomed r = false -> idle_conn w (store ++ r_kept r) -> rel store x0 w r
| rel_in w r x : x0 = Some x -> x_failed x = false -> r_top r = false -> r_dead r = false ->
    block_conn w store (add_changes (r_kept r) (x_saves x) (x_base x) (r_doomed r)) -> rel store x0 w r
| rel_dead w r : r_dead r = true -> r_top r = match x0 with None => true | Some _ => false end ->
    lost_conn w (match x0 with None => store ++ r_kept r | Some _ => store end) -> rel store x0 w r.

Lemma add_failed l s b f : x_failed (add_changes l s b f) = f.
Proof. destruct s as [|[n c] s]; reflexivity. Qed.
Lemma add_add l l' s b f : add_changes l' (x_saves (add_changes l s b f)) (x_base (add_changes l s b f)) f = add_changes (l ++ l') s b f.
Proof. destruct s as [|[n c] s]; cbn; now rewrite app_assoc. Qed.
Lemma add_fail l s b f : {| x_saves := x_saves (add_changes l s b f); x_base := x_base (add_changes l s b f); x_failed := true |} = add_changes l s b true.
Proof. destruct s as [|[n c] s]; reflexivity. Qed.
Lemma add_nil x : x_failed x = false -> add_changes [] (x_saves x) (x_base x) false = x.
Proof. destruct x as [[|[n c] s] b f]; cbn; intros ->; now rewrite app_nil_r. Qed.
Lemma dead_exec e cs w : c_closed w = true -> execute e cs w = (w, Some Other).
Proof. intros E. destruct cs; cbn [execute]; now rewrite E. Qed.

(** savepoints *)
Lemma save_above n l s b f : find_save n (x_saves (add_changes l ((n, []) :: s) b f)) = Some (l, s).
Proof. cbn. rewrite Nat.eqb_refl. reflexivity. Qed.

Ltac inj := repeat match goal with H : (_, _) = (_, _) |- _ => injection H as ? ?; try subst end.

Lemma run_rel p : forall store x0 w r, no_interrupt p -> rel store x0 w r ->
  match run p w, ref p r with
  | (w', o), (r', b) => rel store x0 w' r' /\ raised o = b /\ o <> Some Interrupted
  end.
Proof.
  induction p as [|v ok k IH|e|st|b IHb k IHk|id iso mode sok cr b IHb k IHk]; intros store x0 w r NI R.
  - cbn. split; auto. split; [auto|discriminate].
  - cbn [run ref]. destruct R as [w r -> Tp Dd Dm (S & Q & C)|w r x -> Xf Tp Dd (S & Q & C)|w r Dd Tp (S & C)].
    + rewrite Dd, Dm. cbn [orb execute]. rewrite C, S. cbn [srv_exec v_xact idle]. destruct ok.
      * cbn [execute c_closed]. apply IH; auto. apply rel_top; auto. unfold idle_conn, keep. cbn. now rewrite app_assoc.
      * split; [|split; [reflexivity|discriminate]]. apply rel_top; auto; [cbn; now rewrite Tp|]. unfold idle_conn. cbn. auto.
    + rewrite Dd. cbn [orb execute]. rewrite C, S. cbn [srv_exec v_xact]. rewrite add_failed. destruct (r_doomed r) eqn:Dm.
      * split; [|split; [reflexivity|discriminate]]. eapply rel_in; eauto. unfold block_conn. cbn. rewrite Dm. unfold ready. cbn. auto.
      * destruct ok.
        -- cbn [execute c_closed]. apply IH; auto. eapply rel_in; eauto. unfold block_conn, keep. cbn. rewrite Dm, add_add. auto.
        -- split; [|split; [reflexivity|discriminate]]. eapply rel_in; eauto. unfold block_conn, doom. cbn. unfold fail_txn. cbn. rewrite add_fail, Tp. cbn [negb]. auto.
    + rewrite Dd. cbn [orb]. rewrite dead_exec by auto. split; [apply rel_dead; auto; split; auto|]. split; [reflexivity|discriminate].
  - cbn. split; auto. split; auto. intros [= ->]. now apply NI.
  - cbn [run ref]. split; [|split; [reflexivity|discriminate]]. destruct R as [w r -> Tp Dd Dm (S & Q & C)|w r x -> Xf Tp Dd (S & Q & C)|w r Dd Tp (S & C)].
    + rewrite C. apply rel_dead; auto. split; [cbn; now rewrite S|reflexivity].
    + rewrite C. apply rel_dead; auto. split; [cbn; now rewrite S|reflexivity].
    + rewrite C. apply rel_dead; auto. split; auto.
  - cbn [run ref]. destruct NI as (N1 & N2). specialize (IHb store x0 w r N1 R). destruct (run b w) as [w1 o1], (ref b r) as [r1 b1]. destruct IHb as (R1 & _ & No). cbn [fst].
    destruct o1 as [[| | |]|]; try (apply IHk; auto); congruence.
  - cbn [run ref]. destruct NI as (Nc & N1 & N2). unfold start. cbn [new_xact t_state t_iso t_mode t_id set_type].
    destruct R as [w r -> Tp Dd Dm (S & Q & C)|w r x -> Xf Tp Dd (S & Q & C)|w r Dd Tp (S & C)].
    + (* outside *)
      rewrite Dd, Dm, Tp, Q. cbn [orb]. destruct (semicolon iso || semicolon mode) eqn:Sc.
      { cbn [orb]. split; [apply rel_top; auto; split; auto|]. split; [reflexivity|discriminate]. }
      cbn [orb execute]. rewrite C, S. cbn [srv_exec v_xact idle]. destruct sok; cbn [negb].
      2:{ split; [apply rel_top; auto; split; auto|]. split; [reflexivity|discriminate]. }
      cbn [execute c_closed].
      set (x1 := {| x_saves := []; x_base := []; x_failed := false |}).
      match goal with |- context [run b ?y] => set (w1 := y) end.
      specialize (IHb (store ++ r_kept r) (Some x1) w1 inner N1). 
      destruct (run b w1) as [w2 o2], (ref b inner) as [i raised2].
      destruct IHb as (R2 & Ro & No). { eapply rel_in; eauto. split; [reflexivity|]. split; reflexivity. }
      destruct R2 as [w2 i ?|w2 i x Ex Xf Ti Di (S2 & Q2 & C2)|w2 i Di Ti (S2 & C2)]; [discriminate| |].
      * injection Ex as <-. rewrite Di. rewrite <- Ro.
        assert (Roll : forall t, t_state t = Open -> t_type t = TBlock -> exists w3, rollback t w2 = (w3, set_state t Aborted, None) /\ idle_conn w3 (store ++ r_kept r)).
        { intros t E1 E2. unfold rollback. rewrite E1, E2. cbn [execute]. rewrite C2, S2. cbn [srv_exec v_xact execute c_closed]. eexists. split; [reflexivity|]. split; auto. }
        unfold exit. destruct o2 as [e|].
        { assert (Hx : exists w3 t3, match e with Interrupted => (w2, set_state (set_type (new_xact id iso mode) TBlock) Open, None) | _ => if c_closed w2 then (w2, set_state (set_type (new_xact id iso mode) TBlock) Open, None) else rollback (set_state (set_type (new_xact id iso mode) TBlock) Open) w2 end = (w3, t3, None) /\ idle_conn w3 (store ++ r_kept r)).
          { destruct (Roll (set_state (set_type (new_xact id iso mode) TBlock) Open) eq_refl eq_refl) as (w3 & Er & Iw). rewrite C2, Er.
            destruct e; try congruence; eexists _, _; split; [reflexivity|exact Iw|reflexivity|exact Iw|reflexivity|exact Iw]. }
          destruct Hx as (w3 & t3 & Hx & Iw).
          assert (Goal2 : rel store None w3 r /\ raised (Some e) = true /\ Some e <> Some Interrupted) by (split; [apply rel_top; auto|split; [reflexivity|exact No]]).
          cbn [raised orb]. destruct e; try congruence; cbn [new_xact set_type set_state] in Hx; rewrite Hx; exact Goal2. }
        cbn [raised orb]. rewrite Q2, S2. unfold ready. cbn [v_xact]. rewrite add_failed. destruct (r_doomed i) eqn:Dmi.
        { rewrite C2. destruct (Roll (set_state (set_type (new_xact id iso mode) TBlock) Open) eq_refl eq_refl) as (w3 & Er & Iw). cbn [new_xact set_type set_state t_id t_iso t_mode t_type t_state] in *. rewrite Er.
          split; [apply rel_top; auto|]. split; [reflexivity|discriminate]. }
        unfold commit. cbn [set_state t_state t_type set_type]. cbn [execute]. rewrite C2, S2. cbn [srv_exec v_xact]. rewrite add_failed.
        assert (Ac : all_changes (add_changes (r_kept i) (x_saves x1) (x_base x1) false) = r_kept i) by (cbn; now rewrite app_nil_r).
        destruct cr as [e|].
        { assert (G2 : forall wz, idle_conn wz (store ++ r_kept r) -> rel store None wz r) by (intros wz Iz; apply rel_top; auto).
          destruct e; cbn [c_closed]; try congruence.
          - unfold rollback. cbn [set_state t_state t_type]. cbn [execute c_closed]. cbn [srv_exec v_xact idle c_srv execute c_closed]. split; [apply G2; split; auto|]. split; [reflexivity|discriminate].
          - split; [apply G2; split; auto|]. split; [reflexivity|discriminate].
          - split; [apply G2; split; auto|]. split; [reflexivity|discriminate]. }
        cbn [execute c_closed]. apply IHk; auto. apply rel_top; auto. unfold idle_conn, keep. cbn [c_srv c_state c_closed r_kept]. rewrite Ac, app_assoc. auto.
      * (* lost *)
        rewrite Di. assert (Hl : rel store None w2 (die r true)) by (apply rel_dead; [reflexivity|exact Tp|split; auto]).
        unfold exit. destruct o2 as [e|].
        { rewrite C2. destruct e; try congruence; (split; [exact Hl|split; [reflexivity|discriminate]]). }
        rewrite C2. unfold commit. cbn [set_state t_state t_type set_type]. rewrite dead_exec by auto.
        destruct (c_state w2); (split; [exact Hl|split; [reflexivity|discriminate]]).
    + (* inside *)
      rewrite Dd, Tp. cbn [orb]. rewrite Q, S. unfold ready. cbn [v_xact]. rewrite add_failed.
      assert (Rw : rel store (Some x) w r) by (eapply rel_in; eauto; split; auto).
      destruct (r_doomed r) eqn:Dm.
      { cbn [orb]. destruct iso, mode; try (split; [exact Rw|split; [reflexivity|discriminate]]).
        cbn [execute]. rewrite C, S. cbn [srv_exec v_xact]. rewrite add_failed. split; [|split; [reflexivity|discriminate]]. eapply rel_in; eauto. unfold block_conn. cbn. rewrite Dm. unfold ready. cbn. rewrite add_failed. auto. }
      cbn [orb]. unfold configured. destruct iso, mode; try (split; [exact Rw|split; [reflexivity|discriminate]]).
      cbn [execute]. rewrite C, S. cbn [srv_exec v_xact]. rewrite add_failed. cbn [execute c_closed].
      set (y := add_changes (r_kept r) (x_saves x) (x_base x) false).
      set (x1 := {| x_saves := (id, []) :: x_saves y; x_base := x_base y; x_failed := false |}).
      match goal with |- context [run b ?z] => set (w1 := z) end.
      specialize (IHb store (Some x1) w1 inner N1).
      destruct (run b w1) as [w2 o2], (ref b inner) as [i raised2].
      destruct IHb as (R2 & Ro & No). { eapply rel_in; eauto. split; [reflexivity|]. split; reflexivity. }
      destruct R2 as [w2 i ?|w2 i x2 Ex Xf2 Ti Di (S2 & Q2 & C2)|w2 i Di Ti (S2 & C2)]; [discriminate| |].
      * injection Ex as <-. rewrite Di. rewrite <- Ro.
        assert (Yf : x_failed y = false) by (unfold y; apply add_failed).
        assert (Roll : forall t, t_state t = Open -> t_type t = TSavepoint -> t_id t = id -> exists w3, rollback t w2 = (w3, set_state t Aborted, None) /\ block_conn w3 store y).
        { intros t E1 E2 E3. unfold rollback. rewrite E1, E2, E3. cbn [execute]. rewrite C2, S2. cbn [srv_exec v_xact]. unfold x1 at 1. cbn [x_saves]. rewrite save_above. cbn [execute c_closed srv_exec c_srv in_txn v_xact x_failed x_saves find_save]. rewrite Nat.eqb_refl.
          cbn [execute c_closed x_base]. eexists. split; [reflexivity|]. unfold x1. cbn [x_saves x_base add_changes]. 
          assert (Ey : add_changes [] (x_saves y) (x_base y) false = y) by (apply add_nil; exact Yf). unfold block_conn. cbn [c_srv c_state c_closed].
          assert (Eb : x_base (add_changes (r_kept i) ((id, []) :: x_saves y) (x_base y) (r_doomed i)) = x_base y) by reflexivity.
          rewrite ?Eb. rewrite Ey. split; [reflexivity|]. split; [reflexivity|reflexivity]. }
        assert (Gy : forall wz, block_conn wz store y -> rel store (Some x) wz r) by (intros wz Iz; eapply rel_in; eauto; rewrite Dm; exact Iz).
        unfold exit. set (t1 := set_state (set_type (new_xact id None None) TSavepoint) Open).
        change {| t_state := Open; t_type := TSavepoint; t_id := id; t_iso := None; t_mode := None |} with t1.
        destruct o2 as [e|].
        { destruct (Roll t1 eq_refl eq_refl eq_refl) as (w3 & Er & Iw). cbn [raised orb]. rewrite C2.
          destruct e; try congruence; change (set_state {| t_state := t_state (new_xact id None None); t_type := TSavepoint; t_id := t_id (new_xact id None None); t_iso := t_iso (new_xact id None None); t_mode := t_mode (new_xact id None None) |} Open) with t1; rewrite Er; (split; [apply Gy; exact Iw|split; [reflexivity|discriminate]]). }
        cbn [raised orb]. rewrite Q2, S2. unfold ready. cbn [v_xact]. rewrite add_failed. destruct (r_doomed i) eqn:Dmi.
        { rewrite C2. destruct (Roll t1 eq_refl eq_refl eq_refl) as (w3 & Er & Iw). 
          change (set_state {| t_state := t_state (new_xact id None None); t_type := TSavepoint; t_id := t_id (new_xact id None None); t_iso := t_iso (new_xact id None None); t_mode := t_mode (new_xact id None None) |} Open) with t1.
          rewrite Er. split; [apply Gy; exact Iw|]. split; [reflexivity|discriminate]. }
        unfold t1, commit. cbn [set_state t_state t_type set_type t_id new_xact]. cbn [execute]. rewrite C2, S2. cbn [srv_exec v_xact]. rewrite add_failed. unfold x1. cbn [x_saves x_base]. rewrite save_above. cbn [execute c_closed].
        match goal with |- context [run k ?z] => set (w4 := z) end.
        assert (R4 : rel store (Some x) w4 (keep r (r_kept i))).
        { eapply rel_in; eauto. unfold w4, block_conn, keep, in_txn. cbn [c_srv c_state c_closed r_kept r_doomed v_store]. rewrite Dm. unfold y.
          assert (Eb : x_base (add_changes (r_kept i) ((id, []) :: x_saves (add_changes (r_kept r) (x_saves x) (x_base x) false)) (x_base (add_changes (r_kept r) (x_saves x) (x_base x) false)) false) = x_base (add_changes (r_kept r) (x_saves x) (x_base x) false)) by reflexivity.
          rewrite ?Eb, add_add. auto. }
        destruct cr as [e|]; apply IHk; auto.
      * rewrite Di. assert (Hl : rel store (Some x) w2 (die r true)) by (apply rel_dead; [reflexivity|exact Tp|split; auto]).
        unfold exit. destruct o2 as [e|].
        { rewrite C2. destruct e; try congruence; (split; [exact Hl|split; [reflexivity|discriminate]]). }
        rewrite C2. unfold commit. cbn [set_state t_state t_type set_type]. rewrite dead_exec by auto.
        destruct (c_state w2); (split; [exact Hl|split; [reflexivity|discriminate]]).
    + (* no connection *)
      rewrite Dd. cbn [orb]. assert (Rw : rel store x0 w r) by (apply rel_dead; auto; split; auto).
      destruct (c_state w); [destruct (semicolon iso || semicolon mode); [|rewrite dead_exec by auto]|destruct iso, mode; try (rewrite dead_exec by auto)|destruct iso, mode; try (rewrite dead_exec by auto)|destruct iso, mode; try (rewrite dead_exec by auto)];
        (split; [exact Rw|split; [reflexivity|discriminate]]).
Qed.
