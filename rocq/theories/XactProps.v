(** XactProps.v: C37, transactions. *)
From Verif Require Import Base BaseProof PyStr XactModel XactSpec XactProof.


(** Outside of any transaction: after any program of changes, with-blocks at any depth, exceptions
    raised and caught anywhere, statements and COMMITs the server refuses, a lost connection: the
    changes made durable are exactly those which the program keeps, in order, and nothing is left
    open; an exception comes out exactly when it has to. *)
Theorem C37_outside : forall p w store, no_interrupt p -> idle_conn w store ->
  let '(w', o) := run p w in let '(r, b) := ref p top in
  raised o = b /\ (if r_dead r then lost_conn w' (store ++ r_kept r) else idle_conn w' (store ++ r_kept r)).
Proof.
  intros p w store NI I. pose proof (run_rel p store None w top NI) as H.
  destruct (run p w) as [w' o], (ref p top) as [r b].
  destruct H as (R & Ro & _). { apply rel_top; auto. cbn. now rewrite app_nil_r. }
  split; auto. destruct R as [w' r _ Tp Dd Dm X|w' r x Ex|w' r Dd Tp X]; [|discriminate|]; rewrite Dd; exact X.
Qed.
Print Assumptions C37_outside.

(** Inside a transaction (its savepoints, its changes so far): the same, within its innermost level;
    nothing outside of it is changed, nothing is made durable, and the savepoints are as before. *)
Theorem C37_inside : forall p w store x, no_interrupt p -> x_failed x = false -> block_conn w store x ->
  let '(w', o) := run p w in let '(r, b) := ref p inner in
  raised o = b /\
  (if r_dead r then lost_conn w' store
   else block_conn w' store (add_changes (r_kept r) (x_saves x) (x_base x) (r_doomed r))).
Proof.
  intros p w store x NI Xf I. pose proof (run_rel p store (Some x) w inner NI) as H.
  destruct (run p w) as [w' o], (ref p inner) as [r b].
  destruct H as (R & Ro & _). { eapply rel_in; eauto. cbn [inner r_kept r_doomed]. rewrite add_nil; auto. }
  split; auto. destruct R as [w' r E|w' r y Ey Yf Tp Dd X|w' r Dd Tp X]; [discriminate| |]; rewrite Dd; [injection Ey as <-|]; exact X.
Qed.
Print Assumptions C37_inside.

(** A block out of which an exception comes leaves the server exactly as it was before: whether
    its body raised it, a statement failed and the error was caught, COMMIT was refused, or it could
    not begin. *)
Theorem C37_failed_block : forall id iso mode sok cr b w w' e,
  no_interrupt b -> cr <> Some Interrupted -> c_closed w = false -> c_state w = ready (c_srv w) ->
  run (PBlock id iso mode sok cr b PDone) w = (w', Some e) -> c_closed w' = false ->
  c_srv w' = c_srv w /\ c_state w' = c_state w.
Proof.
  intros id iso mode sok cr b w w' e NI Ni Cl St Er Cl'.
  assert (NI2 : no_interrupt (PBlock id iso mode sok cr b PDone)) by (cbn; auto).
  destruct (v_xact (c_srv w)) as [x|] eqn:Ex.
  - destruct (x_failed x) eqn:Xf.
    + cbn [run] in Er. unfold start in Er. cbn [new_xact t_state t_iso t_mode t_id set_type] in Er.
      rewrite St in Er. unfold ready in Er. rewrite Ex, Xf in Er.
      destruct iso, mode; try (injection Er as <- <-; rewrite St; auto; fail).
      cbn [execute] in Er. rewrite Cl in Er. cbn [srv_exec] in Er. unfold srv_exec in Er. rewrite Ex, Xf in Er. injection Er as <- <-. cbn [c_srv c_state]. auto.
    + assert (B : block_conn w (v_store (c_srv w)) x). { split; [destruct (c_srv w) as [vs vx]; cbn in *; now rewrite Ex|]. split; auto. }
      pose proof (C37_inside _ w _ x NI2 Xf B) as H. rewrite Er in H. cbn [ref inner r_dead r_doomed r_top r_kept orb] in H.
      assert (Keep : lost_conn w' (v_store (c_srv w)) -> False) by (intros (_ & Q); congruence).
      assert (Same : block_conn w' (v_store (c_srv w)) (add_changes [] (x_saves x) (x_base x) false) -> c_srv w' = c_srv w /\ c_state w' = c_state w).
      { rewrite (add_nil x Xf). intros (Q1 & Q2 & Q3). assert (c_srv w' = c_srv w) as Q4 by (rewrite Q1; destruct B as (B1 & _); symmetry; exact B1). split; [exact Q4|]. now rewrite Q2, Q4, St. }
      destruct (configured iso mode); [destruct H as (_ & H); exact (Same H)|].
      destruct (ref b inner) as [i rz]. destruct (r_dead i); [destruct H as (_ & H); cbn in H; now apply Keep in H|].
      destruct (rz || r_doomed i); [destruct H as (_ & H); exact (Same H)|].
      destruct cr; destruct H as (H & _); discriminate.
  - assert (B : idle_conn w (v_store (c_srv w))).
    { assert (E0 : c_srv w = idle (v_store (c_srv w))) by (destruct (c_srv w) as [vs vx]; cbn in *; now rewrite Ex). split; [exact E0|]. rewrite St. unfold ready. now rewrite Ex. }
    pose proof (C37_outside _ w _ NI2 B) as H. rewrite Er in H. cbn [ref top r_dead r_doomed r_top r_kept orb] in H.
    assert (Keep : forall z, lost_conn w' z -> False) by (intros z (_ & Q); congruence).
    assert (Same : idle_conn w' (v_store (c_srv w) ++ []) -> c_srv w' = c_srv w /\ c_state w' = c_state w).
    { rewrite app_nil_r. intros (Q1 & Q2 & Q3). destruct B as (B1 & B2 & _). split; congruence. }
    destruct (semicolon iso || semicolon mode || negb sok); [destruct H as (_ & H); exact (Same H)|].
    destruct (ref b inner) as [i rz]. destruct (r_dead i); [destruct H as (_ & H); cbn in H; now apply Keep in H|].
    destruct (rz || r_doomed i); [destruct H as (_ & H); exact (Same H)|].
    destruct cr; [destruct H as (_ & H); exact (Same H)|]. destruct H as (H & _). discriminate.
Qed.
Print Assumptions C37_failed_block.

(** The commands sent.  A block begins with START TRANSACTION outside of any transaction and with
    SAVEPOINT in one; isolation level and mode are only possible outside, and without semicolon:
    otherwise nothing is sent. *)
Theorem C37_start_commands : forall id iso mode ok w w' t r,
  c_closed w = false -> start ok (new_xact id iso mode) w = (w', t, r) ->
  match c_state w with
  | QI => if semicolon iso || semicolon mode then w' = w /\ r = Some Client else c_log w' = c_log w ++ [CStart]
  | _ => if configured iso mode then w' = w /\ r = Some Client else c_log w' = c_log w ++ [CSave id]
  end /\ (t_state t = match r with None => Open | Some _ => Initialized end).
Proof.
  intros id iso mode ok w w' t r Cl E. unfold start in E. cbn [new_xact t_state t_iso t_mode t_id set_type] in E.
  assert (Ex : forall k c w2 o, execute Other [(k, c)] w = (w2, o) -> c_log w2 = c_log w ++ [c]).
  { intros k c w2 o Q. cbn [execute] in Q. rewrite Cl in Q. destruct (srv_exec k c (c_srv w)) as [s g]. destruct g; cbn [execute c_closed] in Q; injection Q as <- <-; reflexivity. }
  destruct (c_state w).
  - destruct (semicolon iso || semicolon mode); [injection E as <- <- <-; auto|].
    destruct (execute Other [(ok, CStart)] w) as [w2 [o|]] eqn:X; apply Ex in X; injection E as <- <- <-; auto.
  - unfold configured. destruct iso, mode; try (injection E as <- <- <-; auto; fail).
    destruct (execute Other [(true, CSave id)] w) as [w2 [o|]] eqn:X; apply Ex in X; injection E as <- <- <-; auto.
  - unfold configured. destruct iso, mode; try (injection E as <- <- <-; auto; fail).
    destruct (execute Other [(true, CSave id)] w) as [w2 [o|]] eqn:X; apply Ex in X; injection E as <- <- <-; auto.
  - unfold configured. destruct iso, mode; try (injection E as <- <- <-; auto; fail).
    destruct (execute Other [(true, CSave id)] w) as [w2 [o|]] eqn:X; apply Ex in X; injection E as <- <- <-; auto.
Qed.
Print Assumptions C37_start_commands.

(** commit() ends a block with COMMIT and a savepoint with RELEASE; rollback() sends ABORT, or
    ROLLBACK TO and RELEASE, of its own savepoint. *)
Theorem C37_end_commands : forall t w, c_closed w = false -> t_state t = Open ->
  (forall cr w' t' r, commit cr t w = (w', t', r) ->
     c_log w' = c_log w ++ [match t_type t with TBlock => CCommit | _ => CRelease (t_id t) end] /\
     t_state t' = match r with None => Committed | Some _ => Open end) /\
  (forall w' t', t_type t <> TNone -> rollback t w = (w', t', None) ->
     c_log w' = c_log w ++ match t_type t with TBlock => [CAbort] | _ => [CRollbackTo (t_id t); CRelease (t_id t)] end /\
     t_state t' = Aborted).
Proof.
  intros t w Cl St. split.
  - intros cr w' t' r E. unfold commit in E. rewrite St in E.
    set (c := match t_type t with TBlock => CCommit | _ => CRelease (t_id t) end).
    assert (Q : exists ok, match t_type t with TBlock => [(match cr with None => true | Some _ => false end, CCommit)] | _ => [(true, CRelease (t_id t))] end = [(ok, c)]) by (unfold c; destruct (t_type t); eexists; reflexivity).
    destruct Q as (ok & Q). rewrite Q in E. cbn [execute] in E. rewrite Cl in E. destruct (srv_exec ok c (c_srv w)) as [s g].
    destruct g; cbn [execute c_closed] in E; injection E as <- <- <-; cbn; auto.
  - intros w' t' Tn E. unfold rollback in E. rewrite St in E. destruct (t_type t); [| |congruence].
    + cbn [execute] in E. rewrite Cl in E. destruct (srv_exec true CAbort (c_srv w)) as [s g]. destruct g; cbn [execute c_closed] in E; [|discriminate]. injection E as <- <-. cbn. auto.
    + cbn [execute] in E. rewrite Cl in E. destruct (srv_exec true (CRollbackTo (t_id t)) (c_srv w)) as [s g]. destruct g; [|discriminate]. cbn [c_closed c_srv] in E.
      destruct (srv_exec true (CRelease (t_id t)) s) as [s2 g2]. destruct g2; cbn [execute c_closed c_log] in E; [|discriminate]. injection E as <- <-. cbn. rewrite <- app_assoc. auto.
Qed.
Print Assumptions C37_end_commands.

(** A transaction object is used once: before start() and after its end commit() and rollback() and
    start() send nothing and change nothing; repeating the call which ended it is accepted,
    everything else is an error. *)
Theorem C37_ended : forall t w cr ok, 
  (t_state t = Committed -> commit cr t w = (w, t, None) /\ rollback t w = (w, t, Some Client) /\ start ok t w = (w, t, Some Client)) /\
  (t_state t = Aborted -> rollback t w = (w, t, None) /\ commit cr t w = (w, t, Some Client) /\ start ok t w = (w, t, Some Client)) /\
  (t_state t = Initialized -> rollback t w = (w, t, Some Client) /\ commit cr t w = (w, t, Some Client)) /\
  (t_state t = Open -> start ok t w = (w, t, None)).
Proof. intros t w cr ok. unfold commit, rollback, start.
  split; [intros ->; auto|]. split; [intros ->; auto|]. split; [intros ->; auto|intros ->; auto]. Qed.
Print Assumptions C37_ended.

(** Not so for exceptions which are not an Exception (KeyboardInterrupt, GeneratorExit,
    SystemExit): the transaction is left open, and what follows is still part of it. *)
Theorem C37_interrupt_refuted : exists p w', run p w0 = (w', Some Interrupted) /\ v_xact (c_srv w') <> None /\
  v_store (c_srv (fst (run (PDo 2 true PDone) w'))) = [].
Proof. exists (PBlock 1 None None true None (PDo 1 true (PRaise Interrupted)) PDone). eexists. split; [reflexivity|]. split; [discriminate|reflexivity]. Qed.
Print Assumptions C37_interrupt_refuted.

(** Examples: nested blocks, the inner one failing and caught; a statement error caught inside the
    block makes the block fail. *)
Definition nested : prog :=
  PBlock 1 None None true None
    (PDo 1 true (PTry (PBlock 2 None None true None (PDo 2 true (PRaise Other)) PDone)
                      (PBlock 3 None None true None (PDo 3 true PDone) (PDo 4 true PDone))))
    (PDo 5 true PDone).
Example ex_nested : no_interrupt nested /\ idle_conn w0 [] /\ ref nested top = (keep top [1; 3; 4; 5], false) /\
  v_store (c_srv (fst (run nested w0))) = [1; 3; 4; 5] /\
  c_log (fst (run nested w0)) = [CStart; CDo 1; CSave 2; CDo 2; CRollbackTo 2; CRelease 2; CSave 3; CDo 3; CRelease 3; CDo 4; CCommit; CDo 5].
Proof. split; [|split; [|split; [|split]]]; try reflexivity; [cbn; repeat split; discriminate|repeat split]. Qed.
Example ex_swallowed : run (PBlock 1 None None true None (PDo 1 true (PTry (PDo 2 false PDone) PDone)) PDone) w0 =
  ({| c_srv := idle []; c_state := QI; c_closed := false; c_log := [CStart; CDo 1; CDo 2; CAbort] |}, Some Client).
Proof. reflexivity. Qed.
Example ex_refused : run (PTry (PBlock 1 None None true (Some Other) (PDo 1 true PDone) PDone) (PDo 2 true PDone)) w0 =
  ({| c_srv := idle [2]; c_state := QI; c_closed := false; c_log := [CStart; CDo 1; CCommit; CDo 2] |}, None).
Proof. reflexivity. Qed.
Example ex_inside : block_conn {| c_srv := {| v_store := [9]; v_xact := Some {| x_saves := [(4%nat, [5])]; x_base := [6]; x_failed := false |} |}; c_state := QT; c_closed := false; c_log := [] |} [9]
  {| x_saves := [(4%nat, [5])]; x_base := [6]; x_failed := false |}.
Proof. repeat split. Qed.

(** ** C49: the transaction of a DB-API connection *)
Definition drel (d : dbapi) (a : astate) : Prop :=
  if a_auto a then d_xact d = None /\ idle_conn (d_conn d) (a_store a) /\ a_pending a = [] /\ a_failed a = false
  else (exists t, d_xact d = Some t /\ t_state t = Open /\ t_type t = TBlock) /\
       block_conn (d_conn d) (a_store a) {| x_saves := []; x_base := a_pending a; x_failed := a_failed a |}.
Lemma begin_rel d w store : idle_conn w store ->
  match begin_new d w with (d', r) => r = None /\ drel d' {| a_store := store; a_pending := []; a_auto := false; a_failed := false |} end.
Proof.
  intros (S & Q & C). unfold begin_new, start, fresh. cbn [new_xact t_state t_iso t_mode set_type semicolon orb]. rewrite Q. cbn [execute]. rewrite C, S. cbn [srv_exec v_xact idle execute c_closed set_state].
  split; auto. unfold drel. cbn. split; [eexists; split; [reflexivity|auto]|]. split; [reflexivity|]. split; reflexivity.
Qed.
Lemma step_rel o d a : plain o -> drel d a ->
  match dbapi_step o d, aref o a with (d', r), (a', b) => drel d' a' /\ raised r = b end.
Proof.
  intros Pl R. destruct a as [st pe [|] fl]; unfold drel in R; cbn [a_auto a_store a_pending a_failed] in R.
  - destruct R as (Dx & (S & Q & C) & -> & ->). destruct o as [x ok|cr| |[|]]; cbn [dbapi_step aref a_auto a_store a_pending a_failed Bool.eqb]; rewrite ?Dx.
    + cbn [execute]. rewrite C, S. cbn [srv_exec v_xact idle]. destruct ok; cbn [execute c_closed]; (split; [|reflexivity]); unfold drel; cbn; (split; [first [exact Dx|reflexivity]|]); (split; [split; auto|auto]).
    + split; [|reflexivity]. unfold drel. cbn. repeat split; auto.
    + split; [|reflexivity]. unfold drel. cbn. repeat split; auto.
    + split; [|reflexivity]. unfold drel. cbn. repeat split; auto.
    + pose proof (begin_rel d (d_conn d) st (conj S (conj Q C))) as B. destruct (begin_new d (d_conn d)) as [d' r]. destruct B as (-> & B). split; [exact B|reflexivity].
  - destruct R as ((t & Dx & Ts & Tt) & (S & Q & C)). 
    assert (Roll : exists w', rollback t (d_conn d) = (w', set_state t Aborted, None) /\ idle_conn w' st).
    { unfold rollback. rewrite Ts, Tt. cbn [execute]. rewrite C, S. cbn [srv_exec v_xact execute c_closed]. eexists. split; [reflexivity|]. split; auto. }
    destruct Roll as (w' & Er & Iw).
    destruct o as [x ok|[e|]| |[|]]; cbn [dbapi_step aref a_auto a_store a_pending a_failed Bool.eqb]; rewrite ?Dx.
    + cbn [execute]. rewrite C, S. cbn [srv_exec v_xact x_failed]. destruct fl; [|destruct ok]; cbn [execute c_closed fail_txn v_xact]; (split; [|reflexivity]); unfold drel; cbn; (split; [eexists; split; [first [exact Dx|reflexivity]|auto]|]); split; auto.
    + destruct Pl.
    + unfold commit. rewrite Ts, Tt. cbn [execute]. rewrite C, S. cbn [srv_exec v_xact x_failed]. destruct fl; cbn [execute c_closed].
      * match goal with |- context [begin_new d ?w] => pose proof (begin_rel d w st) as B; destruct (begin_new d w) as [d' r] end.
        destruct B as (-> & B); [split; auto|]. split; [exact B|reflexivity].
      * match goal with |- context [begin_new d ?w] => pose proof (begin_rel d w (st ++ pe)) as B; destruct (begin_new d w) as [d' r] end.
        destruct B as (-> & B). { split; [|auto]. unfold all_changes. cbn. now rewrite app_nil_r. } split; [exact B|reflexivity].
    + rewrite Er. pose proof (begin_rel d w' st Iw) as B. destruct (begin_new d w') as [d' r]. destruct B as (-> & B). split; [exact B|reflexivity].
    + rewrite Er. split; [|reflexivity]. unfold drel. cbn. auto.
    + split; [|reflexivity]. unfold drel. cbn. split; [eexists; split; [first [exact Dx|reflexivity]|auto]|]. split; auto.
Qed.
(** For every sequence of statements (accepted by the server or not), commit(), rollback() and
    assignments to autocommit, in any order: what is durable on the server afterwards, what waits for the next
    commit(), and which of the calls raise. *)
Theorem C49_delimits : forall os w store, Forall plain os -> idle_conn w store ->
  let '(d0, r0) := dbapi_init w in
  let '(d, rs) := runs dbapi_step os d0 in
  let '(a, bs) := runs aref os {| a_store := store; a_pending := []; a_auto := false; a_failed := false |} in
  r0 = None /\ map raised rs = bs /\
  (if a_auto a then idle_conn (d_conn d) (a_store a)
   else block_conn (d_conn d) (a_store a) {| x_saves := []; x_base := a_pending a; x_failed := a_failed a |}).
Proof.
  intros os w store F I. unfold dbapi_init. pose proof (begin_rel {| d_conn := w; d_xact := None; d_next := 0 |} w store I) as B.
  destruct (begin_new _ w) as [d0 r0]. destruct B as (-> & R).
  revert R. generalize {| a_store := store; a_pending := []; a_auto := false; a_failed := false |} as a0. clear I. revert d0.
  induction F as [|o os Po F IH]; intros d0 a0 R.
  - cbn. split; [auto|]. split; [auto|]. unfold drel in R. destruct (a_auto a0); [exact (proj1 (proj2 R))|exact (proj2 R)].
  - cbn [runs]. pose proof (step_rel o d0 a0 Po R) as H. destruct (dbapi_step o d0) as [d1 r1], (aref o a0) as [a1 b1]. destruct H as (R1 & Eb).
    specialize (IH d1 a1 R1). destruct (runs dbapi_step os d1) as [d2 rs], (runs aref os a1) as [a2 bs]. destruct IH as (_ & E & G). split; [auto|]. split; [cbn; congruence|exact G].
Qed.
Print Assumptions C49_delimits.

(** Without autocommit, changes after which no commit() comes are not durable; with it, every
    change is at once; and rollback() undoes nothing which was committed. *)
Theorem C49_durable : forall os w store, Forall plain os -> idle_conn w store ->
  Forall (fun o => match o with DDo _ _ | DRollback => True | _ => False end) os ->
  let '(d0, _) := dbapi_init w in v_store (c_srv (d_conn (fst (runs dbapi_step os d0)))) = store.
Proof.
  intros os w store F I G. pose proof (C49_delimits os w store F I) as H. destruct (dbapi_init w) as [d0 r0].
  destruct (runs dbapi_step os d0) as [d rs]. cbn [fst].
  assert (E : forall os a0, Forall (fun o => match o with DDo _ _ | DRollback => True | _ => False end) os -> a_auto a0 = false ->
     a_auto (fst (runs aref os a0)) = false /\ a_store (fst (runs aref os a0)) = a_store a0).
  { clear. induction os as [|o os IH]; intros a0 G A; [auto|]. cbn [runs].
    assert (X : a_auto (fst (aref o a0)) = false /\ a_store (fst (aref o a0)) = a_store a0).
    { pose proof (Forall_inv G) as G1. destruct o as [x ok|cr| |v]; try easy; cbn [aref]; rewrite A; [destruct (a_failed a0); [|destruct ok]|]; cbn; auto. }
    destruct (aref o a0) as [a1 b1]. cbn [fst] in X. destruct X as (X1 & X2). pose proof (Forall_inv_tail G) as G2. specialize (IH a1 G2 X1). destruct (runs aref os a1) as [a2 bs]. cbn [fst] in *. destruct IH as (Y1 & Y2). split; congruence. }
  specialize (E os {| a_store := store; a_pending := []; a_auto := false; a_failed := false |} G eq_refl).
  destruct (runs aref os _) as [a bs]. cbn [fst a_store] in E. destruct E as (E1 & E2). destruct H as (_ & _ & H). rewrite E1 in H. destruct H as (H & _). rewrite H. cbn. exact E2.
Qed.
Print Assumptions C49_durable.

(** After a COMMIT which the server refuses (a deferred constraint), what follows is no longer in a
    transaction: a change is durable at once, and rollback() does not undo it. *)
Theorem C49_refused_commit_refuted :
  let '(d0, _) := dbapi_init w0 in
  let '(d, rs) := runs dbapi_step [DDo 1 true; DCommit (Some Other); DDo 2 true; DRollback] d0 in
  map raised rs = [false; true; false; false] /\ v_store (c_srv (d_conn d)) = [2].
Proof. split; reflexivity. Qed.
Print Assumptions C49_refused_commit_refuted.
(** commit() of a transaction in which a statement failed returns normally, and keeps nothing. *)
Theorem C49_failed_commit_refuted :
  let '(d0, _) := dbapi_init w0 in
  let '(d, rs) := runs dbapi_step [DDo 1 true; DDo 2 false; DCommit None] d0 in
  map raised rs = [false; true; false] /\ v_store (c_srv (d_conn d)) = [].
Proof. split; reflexivity. Qed.
Print Assumptions C49_failed_commit_refuted.
Example ex_dbapi : let '(d0, _) := dbapi_init w0 in
  let '(d, rs) := runs dbapi_step [DDo 1 true; DCommit None; DDo 2 true; DRollback; DAutocommit true; DDo 3 true; DCommit None; DAutocommit false; DDo 4 true] d0 in
  v_store (c_srv (d_conn d)) = [1; 3] /\ map raised rs = [false; false; false; false; false; false; true; false; false].
Proof. vm_compute. split; reflexivity. Qed.
