(** CluProof3.v: the waits end in time; restart and drop *)
From Verif Require Import Base PyStr PyInt PgcModel CluModel CluSpec CluProof CluProof2.

Section CluP3.
Variable U : unicode. Variable dv : decimals. Variable E : env. Variable ancient : bool.
Variable dir : text. Variable postmaster postgres : option text.

(** every later reading of the clock is at least [z] *)
Definition after (h : list event) (z : Z) : Prop := forall u, e_time E (h ++ u) >= z.
Lemma after_app h t z : after h z -> after (h ++ t) z.
Proof. intros A u. rewrite <- app_assoc. apply A. Qed.

Lemma started_fuel s T d (CR : clock_runs E) (D : 0 < d) fuel : forall k w w' r, started_loop U dv E ancient fuel s T d w = (w', r) ->
  after (w_hist w) (s + k * d) -> 0 <= k -> (k + Z.of_nat fuel - 1) * d >= T -> fuel <> O -> r <> Raise XFuel.
Proof.
  induction fuel as [|fuel IH]; intros k w w' r H A K B NZ; [congruence|]. cbn [started_loop] in H.
  apply bindM_inv in H as [(w1 & b & H1 & H2) | (x & H1 & ->)]; apply running_spec in H1 as (t0 & Eh & V).
  2: { apply seen_raise in V as [(a & l & e & -> & P & ->) | (a & n & err & -> & P & ->)]; discriminate. }
  unfold bindM at 1, get_proc in H2. apply bindM_inv in H2 as [(w2 & b' & H2 & H3) | (x & H2 & ->)].
  2: { destruct b; [discriminate|]. destruct (w_proc w1) as [[n [rc|]]|]; cbn in H2; try discriminate; injection H2 as <- <-; discriminate. }
  assert (w2 = w1) as ->. { destruct b; [injection H2; auto|]. destruct (w_proc w1) as [[n [rc|]]|]; cbn in H2; try discriminate. injection H2; auto. }
  clear H2. apply bindM_inv in H3 as [(w3 & q & H2 & H3) | (x & H2 & ->)]; apply ready_spec in H2 as (t1 & E1 & F1 & R1).
  2: { destruct x; try discriminate. contradiction. }
  unfold bindM at 1, ask in H3. cbv beta zeta in H3.
  assert (A3 : e_time E (w_hist w3) >= s + k * d). { rewrite E1, Eh, <- app_assoc. apply A. }
  set (now := e_time E (w_hist w3)) in *. clearbody now.
  assert (K' : forall f, f <> XFuel -> (if T <=? now - s then raise f else bindM (note (ESleep d)) (fun _ => started_loop U dv E ancient fuel s T d)) {| w_proc := w_proc w3; w_hist := w_hist w3 ++ [ETime now] |} = (w', r) -> r <> Raise XFuel).
  { intros f NF H. destruct (Z.leb_spec T (now - s)) as [LE|LT]; [injection H as <- <-; congruence|]. unfold bindM, note in H. cbn [w_hist w_proc] in H. eapply (IH (k + 1)); [exact H| |lia| |].
    - cbn [w_hist]. intros u. rewrite <- !app_assoc. pose proof (CR (w_hist w3) now [] d u) as Q. cbn [app] in *. nia.
    - nia.
    - intros ->. nia. }
  destruct q; [injection H3 as <- <-; discriminate| | |]; (eapply K'; [|exact H3]; discriminate).
Qed.
Lemma stopped_fuel s T d (CR : clock_runs E) (D : 0 < d) fuel : forall k w w' r, stopped_loop U dv E fuel s T d w = (w', r) ->
  after (w_hist w) (s + k * d) -> 0 <= k -> (k + Z.of_nat fuel - 1) * d >= T -> fuel <> O -> r <> Raise XFuel.
Proof.
  induction fuel as [|fuel IH]; intros k w w' r H A K B NZ; [congruence|]. cbn [stopped_loop] in H.
  apply bindM_inv in H as [(w1 & b & H1 & H2) | (x & H1 & ->)]; apply running_spec in H1 as (t0 & Eh & V).
  2: { apply seen_raise in V as [(a & l & e & -> & P & ->) | (a & n & err & -> & P & ->)]; discriminate. }
  destruct b; cbn [negb] in H2; [|injection H2 as <- <-; discriminate]. unfold bindM at 1, get_proc in H2.
  apply bindM_inv in H2 as [(w3 & q & H2 & H3) | (x & H2 & ->)].
  - assert (G : exists t1, w_hist w3 = w_hist w1 ++ t1).
    { destruct (w_proc w1) as [p|].
      - apply bindM_inv in H2 as [(w4 & q' & H2 & H4) | (x & _ & X)]; [|discriminate]. injection H4 as <- <-. apply poll_spec in H2 as (rc & t & _ & Q & F). eauto.
      - apply bindM_inv in H2 as [(w4 & q' & H2 & H4) | (x & _ & X)]; [|discriminate]. apply pid_file in H2 as (f & _ & -> & Q). destruct q' as [n|]; [|discriminate H4].
        unfold bindM in H4. rewrite kill_eq in H4. rewrite add_add in H4. destruct (e_kill _ _ _ _); [discriminate H4|]. injection H4 as <- <-. cbn [add w_hist]. eexists. reflexivity. }
    destruct G as (t1 & E1). unfold bindM at 1, ask in H3. cbv beta zeta in H3.
    assert (A3 : e_time E (w_hist w3) >= s + k * d). { rewrite E1, Eh, <- app_assoc. apply A. }
    set (now := e_time E (w_hist w3)) in *. clearbody now.
    destruct (Z.leb_spec T (now - s)) as [LE|LT]; [injection H3 as <- <-; congruence|]. unfold bindM, note in H3. cbn [w_hist w_proc] in H3. eapply (IH (k + 1)); [exact H3| |lia| |].
    + cbn [w_hist]. intros u. rewrite <- !app_assoc. pose proof (CR (w_hist w3) now [] d u) as Q. cbn [app] in *. nia.
    + nia.
    + intros ->. nia.
  - destruct (w_proc w1) as [p|] eqn:D1.
    + apply bindM_inv in H2 as [(w4 & q' & H2 & H4) | (y & H2 & X)]; [discriminate H4|]. apply poll_spec in H2 as (rc & t & Q & _). discriminate.
    + apply bindM_inv in H2 as [(w4 & q' & H2 & H4) | (y & H2 & X)].
      * destruct q' as [n|]; [|injection H4 as <- <-; discriminate]. unfold bindM in H4. rewrite kill_eq in H4. destruct (e_kill _ _ _ _); [injection H4 as <- <-; discriminate|discriminate H4].
      * injection X as <-. apply pid_file in H2 as (f & _ & -> & Q). destruct f as [l|err]; [|discriminate]. destruct (py_int U dv 10 l) as [|e] eqn:P; [discriminate|]. injection Q as ->. discriminate.
Qed.

(** signals and spawns in what was seen *)
Lemma signals_app a b : signals (a ++ b) = signals a ++ signals b.
Proof. induction a as [|[] a IH]; cbn [app signals]; auto. destruct (sig =? 0); cbn [app]; [|f_equal]; assumption. Qed.
Lemma looks_signals t : Forall looks t -> signals t = [].
Proof. induction 1 as [|e t H F IH]; [reflexivity|]. destruct e; cbn [looks] in H; try contradiction; cbn [signals]; auto. now rewrite H. Qed.
Lemma waits_signals t : Forall waits t -> signals t = [].
Proof. induction 1 as [|e t [H|H] F IH]; [reflexivity| |]; destruct e; cbn [looks] in H; try contradiction; cbn [signals]; auto. now rewrite H. Qed.
Lemma waits_spawn t : Forall waits t -> Forall (fun e => ~ is_spawn e) t.
Proof. apply Forall_impl. intros e [H|H]; destruct e; cbn in *; tauto. Qed.
Lemma waits_remove t : Forall waits t -> Forall (fun e => ~ removes e) t.
Proof. apply Forall_impl. intros e [H|H]; destruct e; cbn in *; tauto. Qed.

Lemma wait_started_spec fuel T d w w' r : wait_until_started U dv E ancient fuel T d w = (w', r) -> r <> Raise XFuel ->
  exists s t, w_hist w' = w_hist w ++ ETime s :: t /\ Forall waits t /\ started U dv ancient s T t (w_proc w') r.
Proof.
  unfold wait_until_started, bindM at 1, ask. cbv beta zeta. intros H NF. apply started_loop_spec in H as (t & Et & F & St); [|assumption]. cbn [w_hist] in Et. rewrite <- app_assoc in Et. cbn [app] in Et. eauto 6.
Qed.
Lemma wait_stopped_spec fuel T d w w' r : wait_until_stopped U dv E fuel T d w = (w', r) -> r <> Raise XFuel ->
  exists s t, w_hist w' = w_hist w ++ ETime s :: t /\ Forall waits t /\ stopped U dv s T t (w_proc w') r.
Proof.
  unfold wait_until_stopped, bindM at 1, ask. cbv beta zeta. intros H NF. apply stopped_loop_spec in H as (t & Et & F & St); [|assumption]. cbn [w_hist] in Et. rewrite <- app_assoc in Et. cbn [app] in Et. eauto 6.
Qed.

Lemma signal_signals sig w w' r : signal U dv E sig w = (w', r) -> sig <> 0 ->
  exists t, w_hist w' = w_hist w ++ t /\ Forall (fun e => ~ removes e /\ ~ is_spawn e) t /\ (signals t = [] \/ exists n, signals t = [(n, sig)]) /\ r <> Raise XFuel /\ r <> Raise XTimeout.
Proof.
  intros H NZ. apply signal_spec in H as (a & t & _ & _ & Eh & C). exists (EPid a :: t). split; [assumption|].
  assert (N : forall o, signals [EKill o sig None] = [(o, sig)] /\ forall e, signals [EKill o sig (Some e)] = [(o, sig)]).
  { intros o. cbn. destruct (Z.eqb_spec sig 0); [contradiction|]. auto. }
  assert (Q : forall l, Forall (fun e => ~ removes e /\ ~ is_spawn e) (EPid a :: l) <-> Forall (fun e => ~ removes e /\ ~ is_spawn e) l).
  { intros l. split; intros F; [now apply Forall_inv_tail in F|]. constructor; [cbn; tauto|assumption]. }
  rewrite Q. cbn [signals].
  destruct C as [(l & e & -> & _ & -> & ->) | [(_ & -> & ->) | (n & _ & [(-> & ->) | [(-> & ->) | (err & _ & -> & ->)]])]]; (split; [repeat constructor; cbn; tauto|]); rewrite ?(proj1 (N n)), ?(proj2 (N n)); (split; [eauto|]); split; discriminate.
Qed.

(** restart(): at most one SIGTERM, at most one new process, only after the old one was seen to be down *)
Lemma spawn_app a t : Forall (fun e => ~ is_spawn e) a -> lone_spawn U dv t -> lone_spawn U dv (a ++ t).
Proof.
  intros F [G | (x & cmd & q & y & -> & G & D)]; [left; apply Forall_app; auto|]. right. exists (a ++ x), cmd, q, y. rewrite <- !app_assoc. split; [reflexivity|]. split; [apply Forall_app; auto|]. now apply down_app.
Qed.
Lemma spawn_app_r a t : lone_spawn U dv a -> Forall (fun e => ~ is_spawn e) t -> lone_spawn U dv (a ++ t).
Proof.
  intros [G | (x & cmd & q & y & -> & G & D)] F; [left; apply Forall_app; auto|]. right. exists x, cmd, q, (y ++ t). rewrite <- !app_assoc. split; [reflexivity|]. split; [|assumption]. apply Forall_app in G as (G1 & G2). rewrite !Forall_app. auto.
Qed.

Lemma start_facts settings w w' r : start U dv E dir postmaster postgres settings w = (w', r) ->
  exists t, w_hist w' = w_hist w ++ t /\ signals t = [] /\ lone_spawn U dv t /\ Forall (fun e => ~ removes e) t /\ r <> Raise XFuel.
Proof.
  intros H. apply start_spec in H as (t0 & d & t & Eh & C). exists (t0 ++ t). split; [assumption|].
  assert (G : forall r0, seen_view U dv (w_proc w) d t0 r0 -> signals t0 = [] /\ Forall (fun e => ~ is_spawn e) t0 /\ Forall (fun e => ~ removes e) t0).
  { intros r0 V. apply seen_looks in V. split; [now apply looks_signals|]. split; [apply waits_spawn|apply waits_remove]; now apply looks_waits. }
  rewrite signals_app.
  destruct C as [(x & V & -> & -> & _) | [(V & -> & -> & _) | (V & [(_ & -> & -> & _) | [(_ & _ & -> & -> & _) | (path & _ & _ & [(n & -> & -> & _) | (err & -> & -> & _)])]])]]; destruct (G _ V) as (S1 & S2 & S3); rewrite S1, ?app_nil_r; cbn; (split; [reflexivity|]).
  all: try (split; [left; assumption|]; split; [assumption|]; try discriminate).
  - intros X. injection X as ->. apply seen_raise in V as [(a & l & e & _ & _ & X) | (a & n & err & _ & _ & X)]; discriminate.
  - split; [right; eexists t0, _, _, []; rewrite app_nil_r; split; [reflexivity|]; split; [assumption|]; now apply seen_down in V|]. split; [|discriminate]. apply Forall_app. split; [assumption|]. repeat constructor. cbn. tauto.
  - split; [right; eexists t0, _, _, []; rewrite app_nil_r; split; [reflexivity|]; split; [assumption|]; now apply seen_down in V|]. split; [|discriminate]. apply Forall_app. split; [assumption|]. repeat constructor. cbn. tauto.
Qed.

Lemma seen_facts d d' t r : seen_view U dv d d' t r -> signals t = [] /\ Forall (fun e => ~ is_spawn e) t /\ Forall (fun e => ~ removes e) t.
Proof. intros V. apply seen_looks in V. split; [now apply looks_signals|]. split; [apply waits_spawn|apply waits_remove]; now apply looks_waits. Qed.
Lemma waits_facts t s : Forall waits t -> signals (ETime s :: t) = [] /\ Forall (fun e => ~ is_spawn e) (ETime s :: t) /\ Forall (fun e => ~ removes e) (ETime s :: t).
Proof. intros F. split; [now apply (waits_signals t)|]. split; (apply Forall_cons; [cbn; tauto|]); [now apply waits_spawn|now apply waits_remove]. Qed.

Lemma restart_spec fuel settings T d w w' r : restart U dv E dir postmaster postgres ancient fuel settings T d w = (w', r) -> r <> Raise XFuel ->
  exists t, w_hist w' = w_hist w ++ t /\ restarted U dv ancient T t (w_proc w') r.
Proof.
  unfold restart. intros H NF. apply bindM_inv in H as [(w1 & b & H1 & H2) | (x & H1 & ->)]; apply running_spec in H1 as (t0 & E0 & V0); destruct (seen_facts _ _ _ _ V0) as (S0 & P0 & _).
  2: { exists t0. split; [assumption|]. split; [now left|]. split; [now left|]. discriminate. }
  (* stopping *)
  apply bindM_inv in H2 as [(w2 & u & H2 & H3) | (x & H2 & ->)].
  2: { destruct b; [|discriminate]. apply bindM_inv in H2 as [(w3 & u & H2 & H4) | (y & H2 & X)].
    - apply signal_signals in H2 as (t1 & E1 & F1 & C1 & _); [|discriminate]. apply wait_stopped_spec in H4 as (s & t2 & E2 & F2 & _); [|assumption]. destruct (waits_facts t2 s F2) as (S2 & P2 & _).
      exists (t0 ++ t1 ++ ETime s :: t2). rewrite E2, E1, E0, <- !app_assoc. split; [reflexivity|]. split; [left; rewrite !Forall_app; split; [assumption|]; split; [eapply Forall_impl; [|exact F1]; cbn; tauto|assumption]|]. rewrite !signals_app, S0, S2, app_nil_r. split; [assumption|discriminate].
    - injection X as <-. apply signal_signals in H2 as (t1 & E1 & F1 & C1 & _); [|discriminate]. exists (t0 ++ t1). rewrite E1, E0, <- app_assoc. split; [reflexivity|]. split; [left; rewrite !Forall_app; split; [assumption|]; eapply Forall_impl; [|exact F1]; cbn; tauto|]. rewrite !signals_app, S0. split; [assumption|discriminate]. }
  assert (G : exists t1, w_hist w2 = w_hist w ++ t1 /\ Forall (fun e => ~ is_spawn e) t1 /\ (signals t1 = [] \/ exists n, signals t1 = [(n, 15)])).
  { destruct b.
    - apply bindM_inv in H2 as [(w3 & u' & H2 & H4) | (y & H2 & X)]; [|discriminate]. apply signal_signals in H2 as (t1 & E1 & F1 & C1 & _); [|discriminate]. apply wait_stopped_spec in H4 as (s & t2 & E2 & F2 & _); [|discriminate]. destruct (waits_facts t2 s F2) as (S2 & P2 & _).
      exists (t0 ++ t1 ++ ETime s :: t2). rewrite E2, E1, E0, <- !app_assoc. split; [reflexivity|]. split; [rewrite !Forall_app; split; [assumption|]; split; [eapply Forall_impl; [|exact F1]; cbn; tauto|assumption]|]. rewrite !signals_app, S0, S2, app_nil_r. assumption.
    - injection H2 as <- <-. exists t0. auto. }
  clear H2 t0 E0 V0 S0 P0. destruct G as (t0 & E0 & P0 & S0).
  apply bindM_inv in H3 as [(w3 & b' & H1 & H2) | (x & H1 & ->)]; apply running_spec in H1 as (t1 & E1 & V1); destruct (seen_facts _ _ _ _ V1) as (S1 & P1 & _).
  2: { exists (t0 ++ t1). rewrite E1, E0, <- app_assoc. split; [reflexivity|]. split; [left; apply Forall_app; auto|]. rewrite signals_app, S1, app_nil_r. split; [assumption|discriminate]. }
  destruct b'.
  { injection H2 as <- <-. exists (t0 ++ t1). rewrite E1, E0, <- app_assoc. split; [reflexivity|]. split; [left; apply Forall_app; auto|]. rewrite signals_app, S1, app_nil_r. split; [assumption|discriminate]. }
  apply bindM_inv in H2 as [(w4 & u' & H2 & H3) | (x & H2 & ->)]; apply start_facts in H2 as (t2 & E2 & S2 & P2 & _ & _).
  2: { exists (t0 ++ t1 ++ t2). rewrite E2, E1, E0, <- !app_assoc. split; [reflexivity|]. split; [repeat (apply spawn_app; [assumption|]); assumption|]. rewrite !signals_app, S1, S2, !app_nil_r. split; [assumption|discriminate]. }
  apply wait_started_spec in H3 as (s & t3 & E3 & F3 & St); [|assumption]. destruct (waits_facts t3 s F3) as (S3 & P3 & _).
  exists (t0 ++ t1 ++ t2 ++ ETime s :: t3). rewrite E3, E2, E1, E0, <- !app_assoc. split; [reflexivity|]. split; [repeat (apply spawn_app; [assumption|]); now apply spawn_app_r|]. rewrite !signals_app, S1, S2, S3, !app_nil_r. split; [assumption|].
  intros ->. exists (t0 ++ t1 ++ t2), s, t3. rewrite <- !app_assoc. auto.
Qed.

(** the removal *)
Lemma remove_all_spec l : forall w w' r, remove_all E l w = (w', r) -> exists t, w_hist w' = w_hist w ++ t /\ removed l t r.
Proof.
  assert (G : forall l w w' r, remove_all E l w = (w', r) -> exists t, w_hist w' = w_hist w ++ t /\
     ((t = map (fun x => removal x None) l /\ r = Ret tt) \/ (exists a x b err, l = a ++ x :: b /\ t = map (fun x => removal x None) a ++ [removal x (Some err)] /\ r = Raise (XOS err)))).
  { clear l. induction l as [|[d p] l IH]; intros w w' r H; cbn [remove_all] in H.
    - injection H as <- <-. exists []. rewrite app_nil_r. auto.
    - unfold bindM at 1 in H. destruct d; unfold ask in H; cbv beta zeta in H;
      [destruct (e_rmdir _ _ _) as [err|]|destruct (e_unlink _ _ _) as [err|]].
      1,3: injection H as <- <-; eexists; (split; [reflexivity|]); right; first [exists [], (true, p), l, err; repeat split; reflexivity | exists [], (false, p), l, err; repeat split; reflexivity].
      all: apply IH in H as (t & Et & C); cbn [w_hist] in Et; rewrite <- app_assoc in Et; eexists; (split; [exact Et|]); destruct C as [(-> & ->) | (a & x & b & err & -> & -> & ->)]; [left; auto|right; first [exists ((true, p) :: a), x, b, err; repeat split; reflexivity | exists ((false, p) :: a), x, b, err; repeat split; reflexivity]]. }
  intros w w' r H. apply G in H as (t & Et & [(-> & ->) | (a & x & b & err & Q & -> & ->)]); (eexists; split; [exact Et|]); [apply rm_all|]. now apply rm_some with b.
Qed.

(** drop() *)
Lemma drop_spec fuel T d w w' r : drop U dv E dir fuel T d w = (w', r) -> r <> Raise XFuel ->
  exists t, w_hist w' = w_hist w ++ t /\ dropped U dv dir T t r.
Proof.
  unfold drop. intros H NF. apply bindM_inv in H as [(w1 & b & H1 & H2) | (x & H1 & ->)]; apply running_spec in H1 as (t0 & E0 & V0); destruct (seen_facts _ _ _ _ V0) as (S0 & _ & P0).
  2: { exists t0. split; [assumption|]. left. split; [assumption|]. split; [discriminate|]. rewrite S0. now left. }
  (* the stop of the server *)
  assert (G : forall w2 r2, (if b then bindM (shutdown U dv E) (fun _ => on_timeout (wait_until_stopped U dv E fuel T d) (bindM (kill U dv E) (fun _ => on_timeout (wait_until_stopped U dv E fuel T d) (note EWarn)))) else ret tt) w1 = (w2, r2) -> r2 <> Raise XFuel ->
     exists t1, w_hist w2 = w_hist w ++ t1 /\ Forall (fun e => ~ removes e) t1 /\ In (map snd (signals t1)) [[]; [2]; [9]; [2; 9]] /\ (r2 = Ret tt -> down_seen U dv t1 \/ gave_up T t1)).
  { intros w2 r2 Q NF2. destruct b.
    2: { injection Q as <- <-. exists t0. split; [assumption|]. split; [assumption|]. rewrite S0. split; [now left|]. intros _. left. now apply seen_down in V0. }
    apply bindM_inv in Q as [(w3 & u & Q1 & Q2) | (x & Q1 & ->)]; apply signal_signals in Q1 as (t1 & E1 & F1 & C1 & _ & _); try discriminate.
    2: { exists (t0 ++ t1). rewrite E1, E0, <- app_assoc. split; [reflexivity|]. split; [apply Forall_app; split; [assumption|eapply Forall_impl; [|exact F1]; cbn; tauto]|]. rewrite signals_app, S0. split; [destruct C1 as [-> | (n & ->)]; cbn; auto|discriminate]. }
    unfold on_timeout at 1 in Q2. destruct (wait_until_stopped U dv E fuel T d w3) as [w4 r4] eqn:W4.
    destruct (match r4 with Raise XTimeout => true | _ => false end) eqn:TO.
    2: { assert ((w4, r4) = (w2, r2)) as X by (destruct r4 as [|[]]; try discriminate; exact Q2). injection X as -> ->.
      apply wait_stopped_spec in W4 as (s & t2 & E2 & F2 & St); [|assumption]. destruct (waits_facts t2 s F2) as (S2 & _ & P2).
      exists (t0 ++ t1 ++ ETime s :: t2). rewrite E2, E1, E0, <- !app_assoc. split; [reflexivity|]. split; [rewrite !Forall_app; split; [assumption|]; split; [eapply Forall_impl; [|exact F1]; cbn; tauto|assumption]|]. rewrite !signals_app, S0, S2, app_nil_r. split; [destruct C1 as [-> | (n & ->)]; cbn; auto|].
      intros ->. left. inversion St; subst. apply (down_app U dv t0). apply (down_app U dv t1). now apply (down_app U dv [_]). }
    destruct r4 as [|[]]; try discriminate. clear TO.
    apply wait_stopped_spec in W4 as (s & t2 & E2 & F2 & St); [|discriminate]. destruct (waits_facts t2 s F2) as (S2 & _ & P2).
    inversion St as [|t2' n1 d' TO| | | |]; subst. clear St.
    apply bindM_inv in Q2 as [(w5 & u' & Q1 & Q2) | (x & Q1 & ->)]; apply signal_signals in Q1 as (t3 & E3 & F3 & C3 & _ & _); try discriminate.
    2: { exists (t0 ++ t1 ++ (ETime s :: t2' ++ [ETime n1]) ++ t3). rewrite E3, E2, E1, E0, <- !app_assoc. split; [reflexivity|]. split; [rewrite !Forall_app; split; [assumption|]; split; [eapply Forall_impl; [|exact F1]; cbn; tauto|]; split; [assumption|eapply Forall_impl; [|exact F3]; cbn; tauto]|]. rewrite !signals_app, S0, S2. split; [destruct C1 as [-> | (n & ->)], C3 as [-> | (n' & ->)]; cbn; auto|discriminate]. }
    unfold on_timeout in Q2. destruct (wait_until_stopped U dv E fuel T d w5) as [w6 r6] eqn:W6.
    destruct (match r6 with Raise XTimeout => true | _ => false end) eqn:TO6.
    2: { assert ((w6, r6) = (w2, r2)) as X by (destruct r6 as [|[]]; try discriminate; exact Q2). injection X as -> ->.
      apply wait_stopped_spec in W6 as (s' & t4 & E4 & F4 & St); [|assumption]. destruct (waits_facts t4 s' F4) as (S4 & _ & P4).
      exists (t0 ++ t1 ++ (ETime s :: t2' ++ [ETime n1]) ++ t3 ++ ETime s' :: t4). rewrite E4, E3, E2, E1, E0, <- !app_assoc. split; [reflexivity|]. split; [rewrite !Forall_app; split; [assumption|]; split; [eapply Forall_impl; [|exact F1]; cbn; tauto|]; split; [assumption|]; split; [eapply Forall_impl; [|exact F3]; cbn; tauto|assumption]|]. rewrite !signals_app, S0, S2, S4, app_nil_r. split; [destruct C1 as [-> | (n & ->)], C3 as [-> | (n' & ->)]; cbn; auto|].
      intros ->. left. inversion St; subst. rewrite !app_assoc. apply down_app. now apply (down_app U dv [_]). }
    destruct r6 as [|[]]; try discriminate. clear TO6.
    apply wait_stopped_spec in W6 as (s' & t4 & E4 & F4 & St); [|discriminate]. destruct (waits_facts t4 s' F4) as (S4 & _ & P4).
    inversion St as [|t4' n2 d' TO'| | | |]; subst. clear St. injection Q2 as <- <-. cbn [w_hist].
    exists (t0 ++ t1 ++ (ETime s :: t2' ++ [ETime n1]) ++ t3 ++ (ETime s' :: t4' ++ [ETime n2]) ++ [EWarn]). rewrite E4, E3, E2, E1, E0, <- !app_assoc. split; [reflexivity|]. split; [rewrite !Forall_app; split; [assumption|]; split; [eapply Forall_impl; [|exact F1]; cbn; tauto|]; split; [assumption|]; split; [eapply Forall_impl; [|exact F3]; cbn; tauto|]; split; [assumption|repeat constructor; cbn; tauto]|]. rewrite !signals_app, S0, S2, S4. cbn [signals]. split; [destruct C1 as [-> | (n & ->)], C3 as [-> | (n' & ->)]; cbn; auto|].
    intros _. right. exists (t0 ++ t1), s, t2', n1, t3, s', t4', n2. split; [|auto]. rewrite <- !app_assoc. cbn [app]. rewrite <- !app_assoc. reflexivity. }
  apply bindM_inv in H2 as [(w2 & u & H2 & H3) | (x & H2 & ->)].
  - apply G in H2 as (t1 & E1 & F1 & I1 & D1); [|discriminate]. destruct u. specialize (D1 eq_refl). unfold bindM, ask in H3. cbv beta zeta in H3. set (l := e_walk E (w_hist w2)) in *. clearbody l.
    apply remove_all_spec in H3 as (t2 & E2 & R2). cbn [w_hist] in E2. rewrite E1, <- !app_assoc in E2. cbn [app] in E2. eexists. split; [exact E2|]. right. exists t1, l, t2. auto.
  - apply G in H2 as (t1 & E1 & F1 & I1 & _); [|assumption]. exists t1. split; [assumption|]. left. split; [assumption|]. split; [discriminate|assumption].
Qed.
End CluP3.
