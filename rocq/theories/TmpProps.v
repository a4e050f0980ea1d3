(** TmpProps.v: C67 *)
From Verif Require Import Base BaseProof PyStr PyStrProof PyDict PyDictProof TmpModel TmpSpec TmpProof.

(** in a context, the provided names are those of the innermost context that has not been left, however contexts were
    entered, failed to be entered and were left before *)
Theorem C67_innermost : forall b es c xs open used k, hist es ((c, xs) :: open) used -> In k provided ->
  dget k (t_builtins (trun es (tinit b))) = Some (Of c k).
Proof. intros b es c xs open used k H I. destruct (inv_of b es _ _ H) as [V _]. exact (iv_local _ _ _ _ _ V k I). Qed.
(** the other builtins are never touched *)
Theorem C67_others : forall b es open used k, hist es open used -> own_name k ->
  dget k (t_builtins (trun es (tinit b))) = last_set es k (dget k b).
Proof. intros b es open used k H I. destruct (inv_of b es _ _ H) as [V _]. exact (iv_own _ _ _ _ _ V k I). Qed.
(** all contexts left: the names are gone, and the next context begins as the first one.  The full claim is that the
    builtins are as they were; it is false of "new", and of names that had a value (below) *)
Theorem C67_left_partial : forall b es used, hist es [] used -> (forall k, In k builtins_keys -> dget k b = None) ->
  (forall k, In k provided -> k <> str "new" -> dget k (t_builtins (trun es (tinit b))) = None) /\
  t_stack (trun es (tinit b)) = [] /\ t_sandbox (trun es (tinit b)) = 0.
Proof.
  intros b es used H N. destruct (inv_of b es _ _ H) as [V _]. split; [exact (iv_out _ _ _ _ _ V eq_refl N)|]. split; [exact (iv_stack _ _ _ _ _ V)|exact (iv_sandbox _ _ _ _ _ V)].
Qed.

Lemma close_good cs : forall os log, Forall (eq Good) os -> exists os', close_all cs os log = (log ++ map AClose cs, os', Good) /\ Forall (eq Good) os'.
Proof.
  induction cs as [|c cs IH]; intros os log F; [exists os; rewrite app_nil_r; auto|]. cbn [close_all map].
  destruct os as [|o os]; [destruct (IH [] (log ++ [AClose c]) F) as (os' & -> & F'); exists os'; rewrite <- app_assoc; auto|].
  apply Forall_inv in F as X. subst o. inversion F as [|? ? _ F2]; subst. destruct (IH os (log ++ [AClose c]) F2) as (os' & -> & F'). exists os'. rewrite <- app_assoc. auto.
Qed.
Lemma pop_top b es c xs open used : hist es ((c, xs) :: open) used -> exists base l, t_stack (trun es (tinit b)) = base :: l ++ [frame_of c] /\ l = map (fun p => frame_of (fst p)) (rev open).
Proof.
  intros H. destruct (inv_of b es _ _ H) as [V _]. destruct (iv_stack _ _ _ _ _ V) as (base & B). cbn [rev] in B. rewrite map_app in B. exists base. eexists. split; [exact B|reflexivity].
Qed.
(** leaving a context closes its connection and those made in it, each once, and then drops its schema *)
Theorem C67_exit : forall b es c xs open used os, hist es ((c, xs) :: open) used -> Forall (eq Good) os ->
  let s := trun es (tinit b) in snd (tstep (Exit false os) s) = Good /\
  t_log (fst (tstep (Exit false os) s)) = t_log s ++ map AClose (c :: xs) ++ [ADrop (len open + 1)].
Proof.
  intros b es c xs open used os H F s. destruct (inv_of b es _ _ H) as [V _]. fold s in V. destruct (pop_top b es c xs open used H) as (base & l & Q & QL). fold s in Q.
  cbn [tstep]. unfold pop. rewrite Q, app_comm_cons, rev_app_distr. cbn [rev app f_ctx frame_of].
  destruct (iv_extras _ _ _ _ _ V c xs (or_introl eq_refl)) as [-> _]. destruct (close_good (c :: xs) os (t_log s) F) as (os' & -> & F').
  pose proof (iv_sandbox _ _ _ _ _ V) as SB. unfold len in SB. cbn [length] in SB.
  assert (N : t_sandbox s - 1 + 1 = len open + 1) by (unfold len; lia). 
  destruct (rev l ++ [base]) as [|x [|y t]]; cbn [fst snd]; (destruct os' as [|[] os']; [|apply Forall_inv in F' as X; try discriminate X..]); cbn [fst snd t_log]; rewrite ?N, <- ?app_assoc; auto.
Qed.
(** an interrupt leaves the connections alone *)
Theorem C67_interrupted : forall b es c xs open used os, hist es ((c, xs) :: open) used ->
  let s := trun es (tinit b) in snd (tstep (Exit true os) s) = Good /\ t_log (fst (tstep (Exit true os) s)) = t_log s.
Proof.
  intros b es c xs open used os H s. destruct (pop_top b es c xs open used H) as (base & l & Q & QL). fold s in Q. cbn [tstep]. unfold pop. rewrite Q, app_comm_cons, rev_app_distr. cbn [rev app].
  destruct (rev l ++ [base]) as [|x [|y t]]; auto.
Qed.
Lemma close_grows cs : forall os log, exists b, fst (fst (close_all cs os log)) = log ++ b.
Proof.
  induction cs as [|c cs IH]; intros os log; [exists []; cbn; now rewrite app_nil_r|]. cbn [close_all].
  assert (X : forall os, exists b, fst (fst (close_all cs os (log ++ [AClose c]))) = log ++ b) by (intros o; destruct (IH o (log ++ [AClose c])) as (b & ->); exists ([AClose c] ++ b); now rewrite <- app_assoc).
  destruct os as [|[] os]; auto; exists []; cbn; now rewrite app_nil_r.
Qed.
Lemma pop_grows i os s : exists b, t_log (fst (pop i os s)) = t_log s ++ b.
Proof.
  unfold pop. assert (Z0 : exists b : list act, t_log s = t_log s ++ b) by (exists []; now rewrite app_nil_r).
  destruct (rev (t_stack s)) as [|top below]; [exact Z0|].
  destruct (match below with next :: _ :: _ => _ | _ => _ end) as [st b]. destruct i; [exact Z0|]. destruct (f_ctx top) as [c|]; [|exact Z0].
  destruct (close_grows (c :: extras_of c (t_extras s)) os (t_log s)) as (g & G). destruct (close_all _ os (t_log s)) as [[lg os'] o]. cbn [fst] in G. subst lg.
  destruct o; [destruct os' as [|[] os']|..]; cbn [fst t_log]; rewrite <- ?app_assoc; eauto.
Qed.
Lemma step_grows e s : exists b, t_log (fst (tstep e s)) = t_log s ++ b.
Proof.
  assert (Z0 : exists b : list act, t_log s = t_log s ++ b) by (exists []; now rewrite app_nil_r).
  destruct e as [c oc o os|i os|e|k v]; cbn [tstep].
  - unfold enter. destruct oc; [|exact Z0..]. destruct (push_good c s) as (base & P1 & P2). destruct (push c Good s) as [s1 o1]. cbn [fst snd] in *. subst o1. assert (L : t_log s1 = t_log s ++ [AConnect c]) by now subst s1.
    destruct o; cbn [fst t_log].
    + rewrite L, <- app_assoc. eauto.
    + destruct (pop_grows false os s1) as (b & G). rewrite L in G. destruct (pop false os s1) as [s2 []]; cbn [fst] in *; rewrite G, <- app_assoc; eauto.
    + rewrite L. eauto.
  - apply pop_grows.
  - unfold call_new. destruct (dget (str "new") (t_builtins s)) as [[|c w]|]; try exact Z0. destruct (seqb w (str "new")); [cbn; eauto|exact Z0].
  - exact Z0.
Qed.
(** the schema that is dropped is the one made for that context: contexts that are open at the same time have different
    schemas, created right after connecting *)
Theorem C67_schema : forall b es inner c xs outer used, hist es (inner ++ (c, xs) :: outer) used ->
  exists before after, t_log (trun es (tinit b)) = before ++ [AConnect c; ACreate (len outer + 1)] ++ after.
Proof.
  intros b es inner c xs outer used H. remember (inner ++ (c, xs) :: outer) as open eqn:E. revert inner c xs outer E.
  assert (GR : forall es e c n, (exists before after, t_log (trun es (tinit b)) = before ++ [AConnect c; ACreate n] ++ after) -> exists before after, t_log (trun (es ++ [e]) (tinit b)) = before ++ [AConnect c; ACreate n] ++ after).
  { intros es' e c n (x & y & Q). rewrite trun_app. destruct (step_grows e (trun es' (tinit b))) as (g & ->). exists x, (y ++ g). rewrite Q, <- !app_assoc. reflexivity. }
  induction H as [|es open used c0 os H IH N|es open used c0 oc o os H IH N|es open used c0 e os H IH N|es c0 xs0 open used i os H IH|es c0 xs0 open used e H IH N|es open used k v H IH N]; intros inner c xs outer E.
  - destruct inner; discriminate.
  - destruct inner as [|p inner]; [|injection E as _ E; apply GR; eapply IH; exact E]. injection E as <- <- <-.
    rewrite trun_app. destruct (inv_of b es _ _ H) as [V _]. set (s := trun es (tinit b)) in *. cbn [tstep]. unfold enter. destruct (push_good c0 s) as (base & P1 & P2). destruct (push c0 Good s) as [s1 o1]. cbn [fst snd] in *. subst o1. subst s1. cbn [fst t_log t_sandbox].
    rewrite (iv_sandbox _ _ _ _ _ V). exists (t_log s), []. rewrite <- app_assoc. reflexivity.
  - apply GR. eapply IH. exact E.
  - apply GR. eapply IH. exact E.
  - apply GR. apply (IH ((c0, xs0) :: inner) c xs outer). rewrite E. reflexivity.
  - apply GR. destruct inner as [|p inner].
    + injection E as <- _ <-. apply (IH [] c0 xs0 open). reflexivity.
    + injection E as _ E. apply (IH ((c0, xs0) :: inner) c xs outer). rewrite E. reflexivity.
  - apply GR. eapply IH. exact E.
Qed.
(** a context that cannot be entered raises the reason and does not count as entered (C67_innermost and C67_left_partial
    say what holds then); its connection is closed *)
Theorem C67_failed : forall b es open used c e os, hist es open used -> ~ In c used ->
  let s := trun es (tinit b) in
  (forall oc o, oc <> Good -> tstep (Enter c oc o os) s = (s, oc)) /\
  (Forall (eq Good) os -> snd (tstep (Enter c Good (Fails e) os) s) = Fails e /\
     t_log (fst (tstep (Enter c Good (Fails e) os) s)) = t_log s ++ [AConnect c; AClose c; ADrop (len open + 1)]).
Proof.
  intros b es open used c e os H N s. split.
  - intros oc o Q. cbn [tstep]. unfold enter, push. destruct oc; [congruence|reflexivity..].
  - intros F. destruct (inv_of b es _ _ H) as [V _]. fold s in V. cbn [tstep]. unfold enter. destruct (push_good c s) as (base & P1 & P2). destruct (push c Good s) as [s1 o1] eqn:PE. cbn [fst snd] in P1, P2. subst o1.
    pose proof (C67_exit b (es ++ [Enter c Good Good os]) c [] open (c :: used) os (hi_enter es open used c os H N) F) as X. cbv zeta in X. rewrite trun_app in X. fold s in X. cbn [tstep] in X. unfold enter in X. rewrite PE in X. cbn [fst] in X.
    set (s' := {| t_builtins := t_builtins s1; t_stack := t_stack s1; t_extras := t_extras s1; t_sandbox := t_sandbox s1; t_log := t_log s1 ++ [ACreate (t_sandbox s1)] |}) in X.
    assert (Y : snd (pop false os s1) = Good /\ t_log (fst (pop false os s1)) = t_log s1 ++ map AClose [c] ++ [ADrop (len open + 1)]).
    { destruct (iv_stack _ _ _ _ _ (inv_push b es open used s c s1 V N ltac:(subst s1; reflexivity) ltac:(exists base; subst s1; reflexivity) ltac:(subst s1; reflexivity) ltac:(subst s1; reflexivity))) as (bs & B). cbn [rev] in B. rewrite map_app in B. cbn [map fst app] in B.
      unfold pop. rewrite B, app_comm_cons, rev_app_distr. cbn [rev app f_ctx frame_of].
      destruct (iv_extras _ _ _ _ _ (inv_push b es open used s c s1 V N ltac:(subst s1; reflexivity) ltac:(exists base; subst s1; reflexivity) ltac:(subst s1; reflexivity) ltac:(subst s1; reflexivity)) c [] (or_introl eq_refl)) as [-> _].
      destruct (close_good [c] os (t_log s1) F) as (os' & -> & F').
      assert (M : t_sandbox s1 - 1 + 1 = len open + 1) by (subst s1; cbn [t_sandbox]; rewrite (iv_sandbox _ _ _ _ _ V); lia).
      destruct (rev (map (fun p => frame_of (fst p)) (rev open)) ++ [bs]) as [|x [|y t]]; cbn [fst snd]; (destruct os' as [|[] os']; [|apply Forall_inv in F' as Q; try discriminate Q..]); cbn [fst snd t_log]; rewrite ?M, <- ?app_assoc; auto. }
    destruct Y as [Y1 Y2]. destruct (pop false os s1) as [s2 o2]. cbn [fst snd] in *. subst o2. cbn [fst snd]. split; [reflexivity|]. rewrite Y2. subst s1. cbn [t_log]. rewrite <- !app_assoc. reflexivity.
Qed.
Print Assumptions C67_innermost. Print Assumptions C67_others. Print Assumptions C67_left_partial. Print Assumptions C67_exit. Print Assumptions C67_interrupted. Print Assumptions C67_schema. Print Assumptions C67_failed.

(** ** The rest of the claims is false of the code *)
(** what a name meant before the context is lost, and "new" stays *)
Theorem C67_left_refuted :
  let b := [(str "db", User 1); (str "new", User 2)] in let s := trun [Enter 7 Good Good []; Exit false []] (tinit b) in
  dget (str "db") (t_builtins s) = None /\ dget (str "new") (t_builtins s) = Some (Of 7 (str "new")).
Proof. split; reflexivity. Qed.
(** a connection that cannot be closed keeps the others open, and the schema *)
Theorem C67_exit_refuted :
  t_log (trun [Enter 7 Good Good []; New 8; New 9; Exit false [Good; Fails 1]] (tinit [])) =
  [AConnect 7; ACreate 1; AConnect 8; AConnect 9; AClose 7].
Proof. reflexivity. Qed.
(** an interrupt while entering leaves the context's names in place for good *)
Theorem C67_interrupt_refuted :
  let s := trun [Enter 5 Good Good []; Enter 7 Good (Interrupted 1) []; Exit true []] (tinit []) in
  dget (str "db") (t_builtins s) = Some (Of 5 (str "db")) /\ t_sandbox s = 1.
Proof. split; reflexivity. Qed.
Print Assumptions C67_left_refuted. Print Assumptions C67_exit_refuted. Print Assumptions C67_interrupt_refuted.

(** ** Cases *)
Definition prog : list tev := [Enter 1 Good Good []; Enter 2 Good (Fails 3) []; Enter 4 Good Good []; New 5; Set_ (str "x") 9; Exit false []; New 6].
Example prog_hist : hist prog [(1, [6])] [6; 5; 4; 2; 1].
Proof.
  apply (hi_new [Enter 1 Good Good []; Enter 2 Good (Fails 3) []; Enter 4 Good Good []; New 5; Set_ (str "x") 9; Exit false []] 1 [] []); [|cbn; lia].
  apply (hi_leave [Enter 1 Good Good []; Enter 2 Good (Fails 3) []; Enter 4 Good Good []; New 5; Set_ (str "x") 9] 4 [5]).
  apply (hi_set [Enter 1 Good Good []; Enter 2 Good (Fails 3) []; Enter 4 Good Good []; New 5]).
  - apply (hi_new [Enter 1 Good Good []; Enter 2 Good (Fails 3) []; Enter 4 Good Good []] 4 []); [|cbn; lia].
    apply (hi_enter [Enter 1 Good Good []; Enter 2 Good (Fails 3) []]); [|cbn; lia]. apply (hi_no_schema [Enter 1 Good Good []]); [|cbn; lia]. apply (hi_enter []); [constructor|cbn; lia].
  - split; [vm_compute; intuition discriminate|discriminate].
Qed.
Example prog_db : dget (str "db") (t_builtins (trun prog (tinit []))) = Some (Of 1 (str "db")). Proof. reflexivity. Qed.
Example prog_log : t_log (trun prog (tinit [])) = [AConnect 1; ACreate 1; AConnect 2; AClose 2; ADrop 2; AConnect 4; ACreate 2; AConnect 5; AClose 4; AClose 5; ADrop 2; AConnect 6]. Proof. reflexivity. Qed.
