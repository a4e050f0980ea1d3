(** NotifyProof.v: the conservation of the notifications *)
From Verif Require Import Base BaseProof StrProof3 NotifyModel NotifySpec.

Section P.
Context {raw note : Type} (decode : nat -> raw -> res note).
Notation man := (nman raw note).

Definition acct (m : man) (c : nat) (D : list note) : Prop :=
  exists a, n_recv m c = a ++ n_queue m c /\ mapM (decode c) a = Ok (D ++ collected m c).

Lemma of_conn_app c (a b : list (nat * list note)) : of_conn c (a ++ b) = of_conn c a ++ of_conn c b.
Proof. induction a as [|[d x] a IH]; cbn; auto. destruct (d =? c)%nat; rewrite IH; auto. now rewrite app_assoc. Qed.
(** each connection once *)
Definition keys (p : list (nat * list note)) : list nat := map fst p.
Lemma enqueue_keys p c l : keys (enqueue p c l) = if existsb (Nat.eqb c) (keys p) then keys p else keys p ++ [c].
Proof.
  unfold keys. induction p as [|[d x] p IH]; cbn; auto. rewrite (Nat.eqb_sym d). destruct (c =? d)%nat eqn:E; cbn; auto. rewrite IH. now destruct (existsb _ _).
Qed.
Lemma of_conn_none c (p : list (nat * list note)) : ~ List.In c (keys p) -> of_conn c p = [].
Proof. induction p as [|[d x] p IH]; cbn; auto. intros N. destruct (Nat.eqb_spec d c); [exfalso; auto|]. apply IH. tauto. Qed.
Lemma of_conn_enqueue p c l d : NoDup (keys p) -> of_conn d (enqueue p c l) = of_conn d p ++ (if (c =? d)%nat then l else []).
Proof.
  induction p as [|[e x] p IH]; cbn [keys map fst]; intros N.
  - cbn. destruct (c =? d)%nat; now rewrite ?app_nil_r.
  - pose proof (proj1 (NoDup_cons_iff _ _) N) as (N1 & N2). cbn [enqueue]. destruct (Nat.eqb_spec e c) as [->|Ne]; cbn [of_conn].
    + destruct (Nat.eqb_spec c d) as [->|]; [|now rewrite app_nil_r]. rewrite (of_conn_none d p) by exact N1. now rewrite !app_nil_r.
    + rewrite IH by exact N2. destruct (e =? d)%nat; [now rewrite app_assoc|reflexivity].
Qed.
Lemma NoDup_snoc {A} (l : list A) c : NoDup l -> ~ List.In c l -> NoDup (l ++ [c]).
Proof.
  induction l as [|x l IH]; intros N H; cbn; [constructor; [auto|constructor]|].
  apply NoDup_cons_iff in N as (N1 & N2). constructor; [|apply IH; auto; intros Q; apply H; now right].
  intros Q. apply in_app_or in Q as [Q|[->|[]]]; [auto|]. apply H. now left.
Qed.
Lemma enqueue_nodup p c l : NoDup (keys p) -> NoDup (keys (enqueue p c l)).
Proof.
  intros N. rewrite enqueue_keys. destruct (existsb (Nat.eqb c) (keys p)) eqn:E; auto. apply NoDup_snoc; auto.
  intros Q. assert (X : existsb (Nat.eqb c) (keys p) = true) by (apply existsb_exists; exists c; split; auto; apply Nat.eqb_refl). congruence.
Qed.

(** the invariant: the accounts, and the shape of what is held *)
Definition good (m : man) : Prop :=
  NoDup (keys (n_pulled m)) /\ Forall (fun x => snd x <> []) (n_pulled m) /\
  match n_incoming m with Some i => Forall (fun x => snd x <> []) i | None => True end.
Definition keeps (m m' : man) : Prop := (good m -> good m') /\ (good m -> forall c D, acct m c D -> acct m' c D).
Lemma keeps_refl m : keeps m m. Proof. split; auto. Qed.
Lemma keeps_trans a b c : keeps a b -> keeps b c -> keeps a c.
Proof. intros (A1 & A2) (B1 & B2). split; auto. Qed.
Lemma keeps_same m m' : n_pulled m' = n_pulled m -> n_incoming m' = n_incoming m -> n_queue m' = n_queue m -> n_recv m' = n_recv m -> keeps m m'.
Proof. intros P I Q R. unfold keeps, good, acct, collected. rewrite P, I, Q, R. split; auto. Qed.
Lemma keeps_receive m c l : keeps m (receive m c l).
Proof.
  split; [exact (fun H => H)|]. intros _ d D (a & R & M). exists a. cbn [receive n_recv n_queue]. unfold add_queue. split; [|exact M].
  destruct (d =? c)%nat; [rewrite R, app_assoc; reflexivity|exact R].
Qed.
Lemma keeps_collect r : forall m x exec m' x' ok, collect m r x exec = (m', x', ok) -> keeps m m'.
Proof.
  induction r as [|c r IH]; intros m x exec m' x' ok; cbn [collect].
  - intros [= <- _ _]. apply keeps_refl.
  - destruct (exec c) as [l e]. destruct e; intros H.
    + eapply keeps_trans; [apply keeps_receive|]. eapply IH; eauto.
    + eapply keeps_trans; [apply keeps_receive|]. eapply IH; eauto.
    + injection H as <- _ _. apply keeps_receive.
Qed.
Lemma keeps_wait m w m' ok : wait_on_wires m w = (m', ok) -> keeps m m'.
Proof.
  unfold wait_on_wires. intros H.
  set (m1 := match n_timeout m with Some 0 => m | _ => match n_last m with Some _ => m | None => set_last m (Some (t_wait w)) end end) in H.
  assert (K1 : keeps m m1) by (unfold m1; destruct (n_timeout m) as [[| |]|]; destruct (n_last m); try apply keeps_refl; apply keeps_same; reflexivity).
  cbv zeta in H. set (m2 := set_conns m1 _ _) in H. assert (K2 : keeps m m2) by (eapply keeps_trans; [exact K1|apply keeps_same; reflexivity]).
  destruct (t_select w) as [[r x]|]; [|injection H as <- _; exact K2].
  destruct (collect m2 r x (t_exec w)) as [[m3 x'] [|]] eqn:C; injection H as <- _.
  - eapply keeps_trans; [exact K2|]. eapply keeps_trans; [eapply keeps_collect; eauto|]. apply keeps_same; reflexivity.
  - eapply keeps_trans; [exact K2|]. eapply keeps_collect; eauto.
Qed.
Lemma mapM_nonnil {A B} (f : A -> res B) l y : mapM f l = Ok y -> l <> [] -> y <> [].
Proof. intros E N ->. pose proof (mapM_length _ _ _ E) as L. destruct l; [congruence|discriminate]. Qed.
Lemma enqueue_nonnil p c l : l <> [] -> Forall (fun x : nat * list note => snd x <> []) p -> Forall (fun x => snd x <> []) (enqueue p c l).
Proof.
  intros N F. induction p as [|[d x] p IH]; cbn [enqueue]; [constructor; auto|]. inversion F; subst.
  destruct (d =? c)%nat; constructor; auto. cbn in *. intros Q. apply app_eq_nil in Q. tauto.
Qed.
Lemma keeps_pull conns : forall m m' e, pull decode m conns = (m', e) -> keeps m m'.
Proof.
  induction conns as [|c conns IH]; intros m m' e; cbn [pull].
  - intros [= <- _]. apply keeps_refl.
  - destruct (n_queue m c) as [|x q] eqn:Q; [apply IH|]. rewrite <- Q. destruct (mapM (decode c) (n_queue m c)) as [l|ex] eqn:E.
    + intros H. eapply keeps_trans; [|eapply IH; exact H]. split.
      * intros (G1 & G2 & G3). split; [now apply enqueue_nodup|]. split; [|exact G3]. apply enqueue_nonnil; auto. eapply mapM_nonnil; eauto. congruence.
      * intros (G1 & _) d D (a & R & M). unfold acct. cbn [set_pulled n_recv n_queue]. unfold clear_queue.
        unfold collected. cbn [set_pulled n_incoming n_pulled]. rewrite of_conn_enqueue by exact G1.
        destruct (Nat.eqb_spec d c) as [->|N].
        -- exists (n_recv m c). rewrite app_nil_r. split; auto. rewrite R, mapM_app, M. cbn [bind]. rewrite E. cbn [bind]. rewrite Nat.eqb_refl.
           unfold collected. now rewrite !app_assoc.
        -- exists a. split; auto. replace (c =? d)%nat with false by (symmetry; apply Nat.eqb_neq; auto). rewrite app_nil_r. exact M.
    + intros [= <- _]. apply keeps_refl.
Qed.
Lemma keeps_next m : keeps m (queue_next m).
Proof.
  unfold queue_next. destruct (n_pulled m) as [|x p] eqn:P, (n_incoming m) as [i|] eqn:I; try apply keeps_refl; unfold keeps, good, acct, collected; rewrite P, I; cbn [set_incoming n_pulled n_incoming n_recv n_queue].
  - split; [intros _; split; [constructor|split; constructor]|exact (fun _ c D H => H)].
  - split; [intros (G1 & G2 & G3); split; [constructor|split; [constructor|apply Forall_app; auto]]|]. intros _ c D. rewrite of_conn_app. cbn [of_conn]. rewrite app_nil_r. auto.
  - split; [intros (G1 & G2 & G3); split; [constructor|split; [constructor|auto]]|]. intros _ c D. cbn [of_conn app]. rewrite app_nil_r. auto.
Qed.
Lemma keeps_out m t m' b : timedout m t = (m', b) -> keeps m m'.
Proof.
  unfold timedout. destruct (n_last m); [destruct (n_timeout m) as [t0|]; [destruct (_ && _)|]|]; intros [= <- _]; apply keeps_same; reflexivity.
Qed.

(** next() *)
Definition moves (m m' : man) (r : nres note) : Prop :=
  (good m -> good m') /\
  (good m -> forall c D, acct m c D -> acct m' c (D ++ match r with NYield d l => if (d =? c)%nat then l else [] | _ => [] end)) /\
  (good m -> forall d l, r = NYield d l -> l <> []).
Lemma keeps_moves a b c r : keeps a b -> moves b c r -> moves a c r.
Proof. intros (K1 & K2) (M1 & M2 & M3). split; [auto|]. split; [intros G d D A; apply M2; auto|intros G d l E; eapply M3; eauto]. Qed.
Lemma stays_moves a b r : keeps a b -> (forall d l, r <> NYield d l) -> moves a b r.
Proof.
  intros (K1 & K2) N. split; auto. split; [|intros _ d l ->; now destruct (N d l)].
  intros G c D A. replace (match r with NYield d l => if (d =? c)%nat then l else [] | _ => [] end) with (@nil note) by (destruct r; auto; now destruct (N c0 l)).
  rewrite app_nil_r. auto.
Qed.
Lemma moves_loop ws : forall m ck m' r ws', nm_loop decode m ck ws = (m', r, ws') -> moves m m' r.
Proof.
  induction ws as [|w ws IH]; intros m ck m' r ws' H.
  - cbn [nm_loop] in H. destruct (n_incoming m) as [[|[c l] i]|] eqn:I.
    + assert (K : keeps m (set_incoming m None (n_pulled m))).
      { unfold keeps, good, acct, collected. rewrite I. cbn. split; [intros (A & B & C); auto|auto]. }
      destruct (_ || _); injection H as <- <- _; apply stays_moves; auto; discriminate.
    + injection H as <- <- _. unfold moves, good, acct, collected. rewrite I. cbn [set_incoming n_pulled n_incoming n_recv n_queue]. split; [|split].
      * intros (A & B & C). split; auto. split; auto. now inversion C.
      * intros _ d D (a & R & M). exists a. split; auto. cbn [of_conn] in M. destruct (c =? d)%nat; rewrite ?app_nil_r, <- ?app_assoc in *; auto.
      * intros (A & B & C) d l0 [= -> ->]. now inversion C.
    + injection H as <- <- _. apply stays_moves; [apply keeps_refl|discriminate].
  - cbn [nm_loop] in H.
    set (X := match n_incoming m with Some ((c, l) :: i) => _ | Some [] => _ | None => _ end) in H.
    assert (HX : (exists m1 r1, X = (m1, Some r1) /\ moves m m1 r1) \/ (exists m1, X = (m1, None) /\ keeps m m1)).
    { unfold X. destruct (n_incoming m) as [[|[c l] i]|] eqn:I.
      - assert (K : keeps m (set_incoming m None (n_pulled m))).
        { unfold keeps, good, acct, collected. rewrite I. cbn. split; [intros (A & B & C); auto|auto]. }
        cbv zeta. destruct (_ || _); [left; eexists _, _; split; [reflexivity|apply stays_moves; auto; discriminate]|right; eauto].
      - left. eexists _, _. split; [reflexivity|]. unfold moves, good, acct, collected. rewrite I. cbn [set_incoming n_pulled n_incoming n_recv n_queue]. split; [|split].
        + intros (A & B & C). split; auto. split; auto. now inversion C.
        + intros _ d D (a & R & M). exists a. split; auto. cbn [of_conn] in M. destruct (c =? d)%nat; rewrite ?app_nil_r, <- ?app_assoc in *; auto.
        + intros (A & B & C) d l0 [= -> ->]. now inversion C.
      - right. eexists. split; [reflexivity|apply keeps_refl]. }
    destruct HX as [(m1 & r1 & E & M)|(m1 & E & K)]; rewrite E in H.
    { injection H as <- <- _. exact M. }
    destruct (timedout m1 (t_out w)) as [m2 idle] eqn:T. pose proof (keeps_trans _ _ _ K (keeps_out _ _ _ _ T)) as K2.
    destruct idle; [injection H as <- <- _; apply stays_moves; [exact K2|discriminate]|].
    assert (HW : exists m3 ok ck', (if negb ck && negb match n_conns m2 with [] => true | _ => false end
              then let (m, ok) := wait_on_wires m2 w in (m, ok, true) else (m2, true, false)) = (m3, ok, ck') /\ keeps m m3).
    { destruct (negb ck && _); [|eexists _, _, _; split; [reflexivity|exact K2]]. destruct (wait_on_wires m2 w) as [m3 ok] eqn:W.
      eexists _, _, _. split; [reflexivity|]. eapply keeps_trans; [exact K2|]. eapply keeps_wait; eauto. }
    destruct HW as (m3 & ok & ck' & EW & K3). rewrite EW in H. destruct ok; cbn [negb] in H; [|injection H as <- <- _; apply stays_moves; [exact K3|discriminate]].
    destruct (pull_from_connections decode m3) as [m4 [e|]] eqn:P; pose proof (keeps_trans _ _ _ K3 (keeps_pull _ _ _ _ P)) as K4.
    + injection H as <- <- _. apply stays_moves; [exact K4|discriminate].
    + eapply keeps_moves; [|eapply IH; exact H]. eapply keeps_trans; [exact K4|apply keeps_next].
Qed.
Lemma given_snoc c (tr : list (nevent note)) (e : nevent note) : given c (tr ++ [e]) = given c tr ++ match e with EGive d l => if (d =? c)%nat then l else [] | _ => [] end.
Proof.
  induction tr as [|[d l| | | |] tr IH]; cbn [given app]; auto.
  - destruct e; auto. destruct (c0 =? c)%nat; auto. now rewrite app_nil_r.
  - destruct (d =? c)%nat; auto. now rewrite IH, app_assoc.
Qed.
Theorem nrun_acct m0 m tr : new_manager m0 -> nrun decode m0 m tr -> good m /\ forall c, acct m c (given c tr).
Proof.
  intros (cs & t & q & E0) R. unfold nm_init, settimeout in E0. destruct (match t with Some _ => _ | None => _ end); [discriminate|]. cbn in E0. injection E0 as <-. induction R as [|m tr ws m' r ws' R IH E|m tr c l R IH|m tr t0 m' R IH E|m tr cs0 gs R IH].
  - split; [repeat split; constructor|]. intros c. exists []. cbn. auto.
  - destruct IH as (G & A). destruct (moves_loop _ _ _ _ _ _ E) as (M1 & M2 & _). split; auto.
    intros c. rewrite given_snoc. specialize (M2 G c _ (A c)). destruct r; exact M2.
  - destruct IH as (G & A). destruct (keeps_receive m c l) as (K1 & K2). split; auto.
  - destruct IH as (G & A). unfold settimeout in E. destruct (match t0 with Some _ => _ | None => _ end); [discriminate|]. injection E as <-.
    destruct (keeps_same m {| n_conns := n_conns m; n_garbage := n_garbage m; n_incoming := n_incoming m; n_timeout := t0; n_last := n_last m; n_pulled := n_pulled m; n_queue := n_queue m; n_recv := n_recv m |}) as (K1 & K2); auto.
  - destruct IH as (G & A). destruct (keeps_same m (set_conns m cs0 gs)) as (K1 & K2); auto.
Qed.
End P.
