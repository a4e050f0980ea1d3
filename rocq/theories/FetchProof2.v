(** FetchProof2.v: the invariant of a FetchAll *)
From Verif Require Import Base BaseProof PBufferModel Element3Model NegModel NegSpec InstModel InstSpec InstProof InstProof2 InstProof3.
From Verif Require Import InstProps FetchModel FetchSpec FetchProof.

Lemma wire_app a b : wire_msgs (a ++ b) = wire_msgs a ++ wire_msgs b.
Proof. induction a as [|[id l|] a IH]; cbn; auto. now rewrite IH, app_assoc. Qed.
Lemma data_app a b : data (a ++ b) = data a ++ data b.
Proof. apply filter_app. Qed.
Lemma data_sync l : data (sync_part l) = data l.
Proof.
  unfold data, sync_part, is_asyncb. induction l as [|x l IH]; cbn [filter]; auto.
  destruct (negb _) eqn:E; cbn [filter]; rewrite IH; auto.
  destruct (Z.eqb_spec (fst x) 68) as [Q|]; [rewrite Q in E; discriminate|]. destruct (Z.eqb_spec (fst x) 100) as [Q|]; [rewrite Q in E; discriminate|]. reflexivity.
Qed.
Lemma data_noerr l : data (no_errors l) = data l.
Proof.
  unfold data, no_errors. induction l as [|x l IH]; cbn [filter]; auto.
  destruct (Z.eqb_spec (fst x) 69) as [->|]; cbn [negb filter]; rewrite IH; auto.
Qed.
Lemma msg_data x m : msg_is x m -> is_data m = ((fst x =? 68) || (fst x =? 100)).
Proof.
  intros (k & S & P). apply parse_kind in P. subst k. unfold srv_kind in S.
  repeat match type of S with (if ?a =? ?b then _ else _) = _ => destruct (Z.eqb_spec a b) end;
    destruct m; try discriminate S; cbn [is_data];
    destruct (Z.eqb_spec (fst x) 68); try congruence; destruct (Z.eqb_spec (fst x) 100); try congruence; try reflexivity;
    exfalso; lia.
Qed.
Lemma data_msgs L M : Forall2 msg_is L M -> Forall2 msg_is (data L) (filter is_data M).
Proof.
  induction 1 as [|x m L M H F IH]; cbn [data filter]; [constructor|].
  rewrite <- (msg_data _ _ H). unfold data in IH. destruct (is_data m); [constructor; auto|auto].
Qed.
Lemma Forall2_prefix {A B} (P : A -> B -> Prop) L M1 M2 : Forall2 P L (M1 ++ M2) -> Forall2 P (firstn (length M1) L) M1.
Proof.
  revert L. induction M1 as [|m M1 IH]; intros L F; cbn; [constructor|].
  inversion F; subst. cbn. constructor; auto.
Qed.
Lemma firstn_firstn_app {A} n (a b : list A) : (n <= length a)%nat -> firstn n (a ++ b) = firstn n a.
Proof. intros N. rewrite firstn_app. replace (n - length a)%nat with 0%nat by lia. cbn. now rewrite app_nil_r. Qed.

Section Inv.
  Context (cmds : list message) (St : starts cmds) (e0 : list wire).

  Definition got (k : nat) (g : inst) : list message := filter is_data (concat (map snd (firstn k (i_completed g)))).
  Definition prefix_ok (out : list message) : Prop := Forall2 msg_is (firstn (length out) (data (wire_msgs e0))) out.
  Definition inv (k : nat) (x : inst) (e : list wire) (out : list message) : Prop :=
    exists g tr left, irun cmds g tr /\ (k <= length (i_completed g))%nat /\ out = got k g /\ prefix_ok out /\
      wire_msgs e0 = recvd tr ++ left ++ wire_msgs e /\
      (x = cut k g \/ (x = kill (cut k g) /\ List.In WLost e0)) /\ incl e e0 /\
      (i_state x <> IComplete -> left = [] /\ readable (i_last g) e).

  (** the result is over: an errorless conversation and all its data *)
  Definition over (out : list message) : Prop :=
    exists n, conv cmds (sync_part (firstn n (wire_msgs e0))) None /\ Forall2 msg_is (data (firstn n (wire_msgs e0))) out.

  Lemma irun_lastid g tr : irun cmds g tr -> lastid g.
  Proof. intros H. apply (irun_inv _ _ _ H). Qed.
  Lemma inv_init : readable 0 e0 -> forall s, inst_init cmds = Ok s -> inv 0 s e0 [].
  Proof.
    intros R s E. exists s, [], []. split; [now constructor|]. split; [lia|]. split; [reflexivity|]. split; [constructor|].
    split; [reflexivity|]. split; [left; now rewrite cut_0|]. split; [apply incl_refl|]. intros _. split; auto.
    unfold inst_init in E. destruct (all_ok cmds); [|discriminate]. injection E as <-. exact R.
  Qed.

  Lemma put_last g id l g' c : inst_put g id l = (g', Ok c) -> id <> i_last g -> i_state g' <> IComplete ->
    i_last g' = id /\ c = len l.
  Proof.
    intros E N S. destruct (inst_put_ok _ _ _ _ _ E N) as [Q|(_ & -> & ms & _ & -> & _)].
    - unfold put_ok in Q. cbn [i_cur set_state] in Q. destruct (i_cur g) as [o st]. destruct Q as (k & -> & K & _ & _ & _ & Q).
      destruct Q as [(Q & _)|(o' & st' & ms & _ & Q1 & _ & _ & _ & _ & _ & Q2 & Q3 & _)]; [contradiction|].
      split; auto. unfold len. rewrite Q2; auto.
    - split; reflexivity.
  Qed.

  Lemma got_ext k g g' new : (k <= length (i_completed g))%nat -> i_completed g' = i_completed g ++ new -> got k g' = got k g.
  Proof. intros K E. unfold got. rewrite E, firstn_firstn_app; auto. Qed.

  Lemma conn_step_inv k x e out x' e' b : inv k x e out -> conn_step x e = Some (x', e', b) ->
    b = false /\ inv k x' e' out.
  Proof.
    intros (g & tr & left & H & K & O & P & W & X & Su & L) E.
    destruct (i_state x) eqn:Es.
    6:{ unfold conn_step in E. rewrite Es in E. injection E as <- <- <-. split; auto. exists g, tr, left. do 7 (split; [auto|]). rewrite Es. contradiction. }
    all: assert (NC : i_state x <> IComplete) by (rewrite Es; discriminate).
    all: destruct X as [-> | (-> & _)]; [|exfalso; apply NC; reflexivity]; destruct (L ltac:(discriminate)) as (-> & R); clear L.
    all: assert (Es' : i_state g = i_state (cut k g)) by reflexivity; rewrite Es in Es'.
    1,2: unfold conn_step in E; rewrite Es in E; injection E as <- <- <-; split; [reflexivity|];
      exists (inst_sent g), (tr ++ [IOut (outgoing g)]), [];
      assert (H' : irun cmds (inst_sent g) (tr ++ [IOut (outgoing g)])) by (apply ir_send; auto);
      assert (C : i_completed (inst_sent g) = i_completed g /\ i_last (inst_sent g) = i_last g)
        by (unfold inst_sent; rewrite Es'; try (destruct (i_messages g)); auto);
      destruct C as (C1 & C2); split; [exact H'|]; split; [rewrite C1; auto|]; split; [rewrite (got_ext k g _ []); auto; rewrite app_nil_r; auto|];
      split; [exact P|]; split; [rewrite recvd_app; cbn; rewrite app_nil_r; auto|]; split; [left; unfold inst_sent; rewrite Es, Es'; cbn; try (destruct (i_messages g)); reflexivity|]; split; [exact Su|];
      rewrite C2; auto.
    all: assert (Rc : receiving g) by (unfold receiving; rewrite Es'; auto).
    all: destruct e as [|[id l|] e]; [unfold conn_step in E; rewrite Es in E; discriminate| |].
    2,4,6: unfold conn_step in E; rewrite Es in E; injection E as <- <- <-; split; [reflexivity|];
      exists g, tr, []; split; [auto|]; split; [auto|]; split; [auto|]; split; [auto|]; split; [auto|];
      split; [right; split; [reflexivity|apply Su; now left]|]; split; [intros y Hy; apply Su; now right|intros C; exfalso; apply C; reflexivity].
    all: cbn in R; destruct R as (R1 & R2 & R3 & R4);
      destruct (C25_progress _ _ _ id l H St Rc R1 R2 R3) as (g' & c & EP & Hc & Hd);
      destruct (put_cut k g id l K (irun_lastid _ _ H) R1) as (PC & new & EN);
      rewrite EP in PC, EN; cbn [fst] in EN;
      unfold conn_step in E; rewrite Es, PC in E; injection E as <- <- <-; split; [reflexivity|];
      exists g', (tr ++ map IIn (firstn (Z.to_nat c) l)), (skipn (Z.to_nat c) l);
      split; [eapply ir_put; eauto|]; split; [rewrite EN, app_length; lia|]; split; [rewrite (got_ext k g g' new); auto|];
      split; [exact P|]; split; [rewrite W; cbn [wire_msgs app]; rewrite recvd_app, recvd_in, <- !app_assoc; f_equal; rewrite app_assoc, firstn_skipn; reflexivity|];
      split; [left; reflexivity|]; split; [intros y Hy; apply Su; now right|];
      intros NC'; destruct (put_last _ _ _ _ _ EP R1 NC') as (-> & ->); rewrite len_nat, skipn_all; auto.
  Qed.

  Lemma complete_true x : complete x = true <-> i_state x = IComplete.
  Proof. unfold complete. destruct (i_state x); split; congruence. Qed.
  Lemma faulted_false x : faulted x = false <-> i_fatal x = None.
  Proof. unfold faulted. destruct (i_fatal x); split; congruence. Qed.

  Lemma pq_step_inv k x e out x' e' r : inv k x e out -> pq_step x e = (x', e', r) -> inv k x' e' out /\
    (r = FRaise -> faulted x' = true /\ complete x' = true).
  Proof.
    intros I. unfold pq_step. destruct (conn_step x e) as [[[x1 e1] b]|] eqn:E.
    - destruct (conn_step_inv _ _ _ _ _ _ _ I E) as (-> & I'). intros [= <- <- <-]. split; auto.
      destruct (complete x1 && faulted x1) eqn:C; [|discriminate]. apply andb_true_iff in C. tauto.
    - intros [= <- <- <-]. split; auto. discriminate.
  Qed.
  Lemma run_complete_inv k out fuel : forall x e x' e' r, inv k x e out -> run_complete fuel x e = (x', e', r) -> inv k x' e' out /\
    (r <> FRaise) /\ (r = FDone tt -> complete x' = true).
  Proof.
    induction fuel as [|fuel IH]; intros x e x' e' r I; cbn [run_complete];
      (destruct (complete x) eqn:C; [intros [= <- <- <-]; split; [auto|split; [discriminate|auto]]|]).
    - intros [= <- <- <-]; split; [auto|split; discriminate].
    - destruct (conn_step x e) as [[[x1 e1] b]|] eqn:E.
      + destruct (conn_step_inv _ _ _ _ _ _ _ I E) as (-> & I'). apply IH; auto.
      + intros [= <- <- <-]; split; [auto|split; discriminate].
  Qed.
  Lemma pq_complete_inv k out fuel x e x' e' r : inv k x e out -> pq_complete fuel x e = (x', e', r) -> inv k x' e' out /\
    (r = FDone tt -> complete x' = true /\ faulted x' = false) /\ (r = FRaise -> faulted x' = true /\ complete x' = true).
  Proof.
    intros I. unfold pq_complete. destruct (run_complete fuel x e) as [[x1 e1] r1] eqn:E.
    destruct (run_complete_inv _ _ _ _ _ _ _ _ I E) as (I' & NR & C).
    destruct r1 as [[]| | |]; intros [= <- <- <-]; (split; [auto|]); try (split; discriminate); [|now contradict NR].
    destruct (faulted x1); split; try discriminate; auto.
  Qed.
  Lemma next_loop_inv k out fuel : forall x e x' e' r, inv k x e out -> next_loop fuel x e = (x', e', r) -> inv k x' e' out /\
    (r = FDone tt -> complete x' = true \/ i_completed x' <> []).
  Proof.
    induction fuel as [|fuel IH]; intros x e x' e' r I; cbn [next_loop];
      (destruct (complete x || negb (length (i_completed x) =? 0)%nat) eqn:C;
        [intros [= <- <- <-]; split; [auto|]; intros _; apply orb_true_iff in C as [C|C]; [auto|right; destruct (i_completed x); [discriminate|discriminate]]|]).
    - intros [= <- <- <-]; split; [auto|discriminate].
    - destruct (pq_step x e) as [[x1 e1] r1] eqn:E. destruct (pq_step_inv _ _ _ _ _ _ _ I E) as (I' & _).
      destruct r1; try (intros [= <- <- <-]; split; [auto|discriminate]). apply IH; auto.
  Qed.

  (** the state of a transaction that is not faulted *)
  Lemma inv_sound k x e out : inv k x e out -> faulted x = false ->
    exists g tr left, x = cut k g /\ irun cmds g tr /\ (k <= length (i_completed g))%nat /\ out = got k g /\
      wire_msgs e0 = recvd tr ++ left ++ wire_msgs e /\ i_fatal g = None /\
      Forall2 msg_is (sync_part (recvd tr)) (messages_received g) /\
      incl e e0 /\ (i_state x <> IComplete -> left = [] /\ readable (i_last g) e).
  Proof.
    intros (g & tr & left & H & K & O & P & W & X & Su & L) F. apply faulted_false in F.
    destruct X as [-> | (-> & _)]; [|discriminate]. exists g, tr, left. split; auto. split; auto. split; auto. split; auto. split; auto.
    assert (Fg : i_fatal g = None) by exact F. split; auto. split; [apply (C25_accounted _ _ _ H St Fg)|]. split; [exact Su|exact L].
  Qed.
  (** complete, not faulted, and nothing left to be taken *)
  Lemma inv_over k x e out : inv k x e out -> faulted x = false -> complete x = true -> i_completed x = [] -> over out.
  Proof.
    intros I F C N. destruct (inv_sound _ _ _ _ I F) as (g & tr & left & -> & H & K & O & W & Fg & M & Su & L).
    apply complete_true in C. change (i_state (cut k g)) with (i_state g) in C.
    destruct (C25_complete _ _ _ H C Fg) as (V & _).
    exists (length (recvd tr)). rewrite W, firstn_firstn_app, firstn_all by lia. split; auto.
    assert (K' : firstn k (i_completed g) = i_completed g).
    { rewrite <- (firstn_skipn k (i_completed g)) at 2. cbn in N. rewrite N, app_nil_r. reflexivity. }
    subst out. unfold got. rewrite K'. rewrite <- data_sync. apply data_msgs. exact M.
  Qed.
  (** a chunk is taken *)
  Lemma inv_take k x e out id ms r : inv k x e out -> faulted x = false -> i_completed x = (id, ms) :: r ->
    inv (S k) (del_first x) e (out ++ filter is_data ms).
  Proof.
    intros I F N. destruct (inv_sound _ _ _ _ I F) as (g & tr & left & Ex & H & K & O & W & Fg & M & Su & L).
    subst x. cbn in N.
    assert (K' : (k < length (i_completed g))%nat).
    { destruct (Nat.le_gt_cases (length (i_completed g)) k); auto. rewrite skipn_all2 in N by auto. discriminate. }
    rewrite del_cut by auto.
    assert (E : firstn (S k) (i_completed g) = firstn k (i_completed g) ++ [(id, ms)]).
    { rewrite <- (firstn_skipn k (i_completed g)) at 1. rewrite N, firstn_app, firstn_length_le by lia.
      rewrite firstn_firstn. replace (Nat.min (S k) k) with k by lia. replace (S k - k)%nat with 1%nat by lia. reflexivity. }
    assert (G : out ++ filter is_data ms = got (S k) g).
    { unfold got. rewrite E, map_app, concat_app, filter_app. cbn. rewrite app_nil_r, O. reflexivity. }
    exists g, tr, left.
    split; auto. split; [lia|]. split; auto.
    assert (PR : prefix_ok (out ++ filter is_data ms)).
    { unfold prefix_ok. rewrite G. unfold got. pose proof (data_msgs _ _ M) as D. unfold messages_received in D.
      rewrite <- (firstn_skipn (S k) (i_completed g)), map_app, concat_app, filter_app in D.
      apply Forall2_prefix in D. rewrite data_sync in D.
      set (o := filter is_data (concat (map snd (firstn (S k) (i_completed g))))) in *.
      rewrite W, data_app, firstn_firstn_app; auto.
      assert (Len : length (firstn (length o) (data (recvd tr))) = length o) by (eapply Forall2_len; eauto).
      rewrite firstn_length in Len. lia. }
    split; auto.
  Qed.
End Inv.
