(** LifeProps.v: C57: every prepared statement and cursor of a connection means its own query on the server for as long as it
    lives, and is closed there when it is no longer used *)
From Coq Require Import Lia.
From Verif Require Import PyStr PyDict PyDictProof BaseProof LifeModel LifeSpec LifeProof LifeProof2 LifeProof3 LifeProof4 LifeProof5 LifeProof6 LifeProof7 LifeProof8 LifeProof9 LifeProof10.

(** whatever was executed or read was so for one object, and was the query of that object, whatever objects had its address or were
    closed or collected at whatever moment (objects made of a name given by the user have no query of their own) *)
Theorem C57_own : forall h s ok t, history h s -> In (ok, t) (ran (sv s)) ->
  exists k, ok = Some k /\ (k < length (flat_map creation h))%nat /\ forall q, object_query h k = Some q -> t = q.
Proof.
  intros h s ok t H I. apply history_inv in H. destruct (v_ran _ _ _ _ _ _ _ _ (i_v _ _ H) ok t I) as (k & E & T & OW). exists k. split; [exact E|]. split; [exact T|].
  intros q Q. unfold ownq in OW. change (object_query h k) with (qof (flat_map creation h) k) in Q. rewrite Q in OW. now injection OW as ->.
Qed.
Print Assumptions C57_own.
(** a living statement that was prepared and not closed is on the server, with its query *)
Theorem C57_alive : forall h s k o q, history h s -> living s k o -> ob_class o = CStatement -> ob_closed o = Some false -> ob_query o = Some q ->
  dget (ob_name o) (sv_stmts (sv s)) = Some (QUser q).
Proof. intros h s k o q H G C CL Q. apply history_inv in H. exact (v_J2 _ _ _ _ _ _ _ _ (i_v _ _ H) k o q G C CL Q). Qed.
Print Assumptions C57_alive.
(** the portal of a living, open cursor of an open statement stays what it is, unless the server itself drops it *)
Theorem C57_portal : forall h s e s' k o j t po, history h s -> allowed s e -> step e s = Some s' ->
  living s k o -> ob_class o = CInside \/ ob_class o = CDeclared -> ob_begun o = true -> ob_closed o = Some false ->
  ob_of o = Some j -> living s j t -> ob_closed t = Some false ->
  dget (ob_name o) (sv_portals (sv s)) = Some po -> e <> EGone (ob_name o) -> dget (ob_name o) (sv_portals (sv s')) = Some po.
Proof. intros h s e s' k o j t po H _ E G C B CL OF GT CT P NG. apply history_inv in H. exact (portal_step _ s e s' k o j t po H E G C B CL OF GT CT P NG). Qed.
Print Assumptions C57_portal.
(** and it reads the query of its own statement *)
Theorem C57_portal_own : forall h s k o po q, history h s -> living s k o -> ob_class o = CInside \/ ob_class o = CDeclared -> ob_begun o = true ->
  dget (ob_name o) (sv_portals (sv s)) = Some po -> object_query h k = Some q -> po_query po = QUser q.
Proof.
  intros h s k o po q H G C B P Q. apply history_inv in H. destruct (v_Jc _ _ _ _ _ _ _ _ (i_v _ _ H) k o po G C B P) as [OW _]. unfold ownq in OW. change (object_query h k) with (qof (flat_map creation h) k) in Q. now rewrite Q in OW.
Qed.
Print Assumptions C57_portal_own.
(** nothing is forgotten on the server: what the driver named there belongs to a living object, or is to be closed *)
Theorem C57_no_leak_statements : forall h s n q, history h s -> dget n (sv_stmts (sv s)) = Some q -> made_name n ->
  (exists k o, living s k o /\ ob_class o = CStatement /\ ob_name o = n) \/ closing_stmt s n.
Proof.
  intros h s n q H G M. apply history_inv in H. destruct (v_Ls _ _ _ _ _ _ _ _ (i_v _ _ H) n q G M) as [(k & R)|P].
  - left. destruct (h_regs _ _ _ _ (i_h _ _ H) n k R) as (o & GO & C & N & _). exists k, o. auto.
  - right. now apply psn_closing.
Qed.
Print Assumptions C57_no_leak_statements.
Theorem C57_no_leak_portals : forall h s n po, history h s -> dget n (sv_portals (sv s)) = Some po -> made_name n ->
  (exists k o, living s k o /\ (ob_class o = CInside \/ ob_class o = CDeclared) /\ ob_name o = n) \/ closing_portal s n.
Proof.
  intros h s n po H G M. apply history_inv in H. destruct (v_Lc _ _ _ _ _ _ _ _ (i_v _ _ H) n po G M) as [(k & o & R & GO & _)|P].
  - left. destruct (h_regc _ _ _ _ (i_h _ _ H) n k R) as (o' & GO' & C & N). exists k, o'. auto.
  - right. now apply pcn_closing.
Qed.
Print Assumptions C57_no_leak_portals.
(** closing: whatever was to be closed when a push begins is gone from the server when the request of that push becomes current *)
Theorem C57_released : forall h s x n h1 s1 s', history h s -> at_ s = PComplete x -> goes_on s h1 s1 -> pushed s1 s' x ->
  (In n (gar_s s) -> dget n (sv_stmts (sv s')) = None) /\ (In n (gar_c s) -> dget n (sv_portals (sv s')) = None).
Proof.
  intros h s x n h1 s1 s' H A G P. apply history_inv in H. pose proof (goes_inv _ s h1 s1 G H) as I1.
  destruct (phase_goes _ s h1 s1 n G H) as [P1 P2]; [destruct P as (-> & _); discriminate|]. destruct (pushed_absent _ s1 s' x n I1 P) as [Q1 Q2].
  split; intros I; [apply Q1, P1|apply Q2, P2]; unfold ph, pp; rewrite A; exact I.
Qed.
Print Assumptions C57_released.
(** close() and the collection of an object ask for the closing of its name *)
Theorem C57_close : forall h s k o s', history h s -> living s k o -> ob_closed o = Some false -> step (EClose k) s = Some s' ->
  (exists o', living s' k o' /\ ob_closed o' = Some true) /\ (ob_class o = CStatement -> In (ob_name o) (gar_s s')) /\ (ob_class o <> CStatement -> In (ob_name o) (gar_c s')).
Proof.
  intros h s k o s' _ G CL E. cbn [step] in E. destruct (idle s); [|discriminate]. injection E as <-. unfold close, living in *. rewrite G, CL. split; [|split].
  - exists (set_closed true o). cbn [set_heap heap]. rewrite hget_set, Nat.eqb_refl, G. auto.
  - intros C. rewrite C. cbn. apply in_or_app. right. now left.
  - intros C. destruct (ob_class o); [contradiction| | | |]; cbn; apply in_or_app; right; now left.
Qed.
Print Assumptions C57_close.
Theorem C57_collected : forall h s k o s', history h s -> living s k o -> ob_closed o <> Some true -> allowed s (EDrop k) -> step (EDrop k) s = Some s' ->
  hget k (heap s') = None /\ (ob_class o = CStatement -> made_name (ob_name o) -> In (ob_name o) (gar_s s')) /\ (ob_class o = CInside \/ ob_class o = CDeclared -> In (ob_name o) (gar_c s')).
Proof.
  intros h s k o s' H G CL _ E. apply history_inv in H. pose proof (i_h _ _ H) as IH. cbn [step] in E. injection E as <-. unfold drop, living in *. rewrite G. split; [|split].
  - destruct (is_stmt (ob_class o)); destruct (dget (ob_name o) _) as [j|]; try destruct (Nat.eqb j k); cbn; rewrite hget_del, Nat.eqb_refl; reflexivity.
  - intros C (a & A & N). rewrite C. cbn [is_stmt]. pose proof (h_form _ _ _ _ IH k o G) as F. rewrite C in F. destruct F as [F|F]; [|destruct (ID_not_user a _ F N)].
    destruct (h_regs' _ _ _ _ IH k o G C F) as [R|R]; [|contradiction]. rewrite R, Nat.eqb_refl. cbn. apply in_or_app. right. now left.
  - intros C. destruct (h_regc' _ _ _ _ IH k o G C) as [R|R]; [|contradiction]. destruct C as [C|C]; rewrite C; cbn [is_stmt]; rewrite R, Nat.eqb_refl; cbn; apply in_or_app; right; now left.
Qed.
Print Assumptions C57_collected.
(** a push does not get stuck: the driver goes on, or waits for a server that has something to do *)
Theorem C57_progress : forall h s x, history h s -> running (at_ s) = Some x -> (exists s', step EDriver s = Some s') \/ (exists s', step (EServe true) s = Some s').
Proof.
  intros h s x _ R. cbn [step]. unfold driver, served. destruct (at_ s) as [|y|y xm i|y xm i j|y i j|y j|y|] eqn:A; try discriminate R.
  - destruct (xact s) as [i|]; [destruct (in_msgs i); [left; eauto|right; cbn [sent]; eauto]|]. left. destruct (gar_s s), (gar_c s); eauto.
  - left. destruct (nth_error (gar_c s) i); eauto.
  - left. destruct (nth_error (gar_s s) j); eauto.
  - left. eauto.
  - left. eauto.
  - destruct (xact s) as [i|]; [destruct (in_msgs i); [left; eauto|right; cbn [sent]; eauto]|]. left. eauto.
Qed.
Print Assumptions C57_progress.

(** ** a concrete history.  A statement is prepared, run, and given up; Python puts another one at its address; the name is the same. *)
Definition q1 := str "SELECT 1". Definition q2 := str "SELECT 2".
Definition ex_first : list ev :=
  [ECreate CStatement 140 [] (Some q1) None; EPush APrepare 0; EDriver; EServe true; EServe true; EServe true; EServe true; EComplete;
   EPush (ACall 2) 0; EDriver; EServe true; EServe true; EServe true; EServe true; EServe true; EComplete;
   ECreate CInside 172 [] None (Some 0%nat); EPush AOpen 1; EDriver; EServe true; EServe true; EServe true; EComplete].
Definition ex_second : list ev :=
  [EDrop 1; EDrop 0; ECreate CStatement 140 [] (Some q2) None; EPush APrepare 2; EDriver].
Definition ex_push : list ev := [EDriver; EDriver; EDriver; EDriver; EDriver; EDriver; EServe true; EServe true; EServe true; EDriver].
Definition ex_rest : list ev := [EDriver; EServe true; EServe true; EServe true; EServe true; EComplete; EPush (ACall 1) 2; EDriver; EServe true; EServe true; EServe true; EComplete].
Definition state (es : list ev) : st := match runs es init with Some s => s | None => init end.
Lemma state_history es s : runs es init = Some s -> history es s. Proof. intros H. exact (runs_history es [] init s H_init H). Qed.
Example ex_history_1 : history ex_first (state ex_first) /\ ran (sv (state ex_first)) = [(Some 0%nat, q1); (Some 0%nat, q1); (Some 1%nat, q1)] /\
  sv_stmts (sv (state ex_first)) = [(ID 140, QUser q1)] /\ sv_portals (sv (state ex_first)) = [([], {| po_query := QUser q1; po_from := ID 140 |}); (ID 172, {| po_query := QUser q1; po_from := ID 140 |})].
Proof. split; [apply state_history|split; [|split]]; vm_compute; reflexivity. Qed.
Example ex_history_2 : let es := ex_first ++ ex_second ++ ex_push ++ ex_rest in history es (state es) /\
  ran (sv (state es)) = [(Some 0%nat, q1); (Some 0%nat, q1); (Some 1%nat, q1); (Some 2%nat, q2)] /\ sv_stmts (sv (state es)) = [(ID 140, QUser q2)] /\ dget (ID 172) (sv_portals (sv (state es))) = None.
Proof. split; [apply state_history|split; [|split]]; vm_compute; reflexivity. Qed.
(** the hypotheses of C57_released *)
Example ex_released : let s := state (ex_first ++ removelast ex_second) in exists x, history (ex_first ++ removelast ex_second) s /\ at_ s = PComplete x /\ gar_s s = [ID 140] /\ gar_c s = [ID 172].
Proof. cbv zeta. eexists. split; [apply state_history; vm_compute; reflexivity|]. split; [vm_compute; reflexivity|]. split; vm_compute; reflexivity. Qed.
(** two statements of one name given by the user live at once: the first is closed, and still runs the query of the second.  (The
    conditions of [allowed] exclude it: the name must not be one of a living statement.) *)
Definition nm := str "s".
Definition ex_clash : list ev :=
  [ECreate CStatement 140 nm (Some q1) None; EPush APrepare 0; EDriver; EServe true; EServe true; EServe true; EServe true; EComplete; EClose 0;
   ECreate CStatement 172 nm (Some q2) None; EPush APrepare 1; EDriver; EDriver; EDriver; EDriver; EDriver; EDriver; EServe true; EServe true; EDriver; EDriver; EServe true; EServe true; EServe true; EServe true; EComplete;
   EPush (ACall 1) 0; EDriver; EServe true; EServe true; EServe true; EComplete].
Theorem C57_user_names_refuted : exists s o, free_runs ex_clash init = Some s /\ living s 0 o /\ ob_query o = Some q1 /\ ob_closed o = Some true /\ In (Some 0%nat, q2) (ran (sv s)).
Proof. eexists. eexists. split; [vm_compute; reflexivity|]. split; [vm_compute; reflexivity|]. split; [reflexivity|]. split; [reflexivity|]. vm_compute. auto 10. Qed.
Print Assumptions C57_user_names_refuted.
