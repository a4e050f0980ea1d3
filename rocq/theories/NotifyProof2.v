(** NotifyProof2.v: idle events, polling, the clock *)
From Verif Require Import Base BaseProof StrProof3 NotifyModel NotifySpec NotifyProof.

Section P.
Context {raw note : Type} (decode : nat -> raw -> res note).
Notation man := (nman raw note).

Lemma collect_fields r : forall (m : man) x exec m' x' ok, collect m r x exec = (m', x', ok) ->
  n_pulled m' = n_pulled m /\ n_incoming m' = n_incoming m /\ n_timeout m' = n_timeout m /\ n_last m' = n_last m /\ n_conns m' = n_conns m.
Proof.
  induction r as [|c r IH]; intros m x exec m' x' ok; cbn [collect].
  - intros [= <- _ _]. auto.
  - destruct (exec c) as [l e]. destruct e; intros H; [apply IH in H; exact H|apply IH in H; exact H|injection H as <- _ _; cbn; auto].
Qed.
Lemma wait_fields (m : man) w m' ok : wait_on_wires m w = (m', ok) ->
  n_pulled m' = n_pulled m /\ n_incoming m' = n_incoming m /\ n_timeout m' = n_timeout m /\ (forall c, List.In c (n_conns m') -> List.In c (n_conns m)) /\
  (n_last m' = n_last m \/ n_last m' = Some (t_wait w)).
Proof.
  unfold wait_on_wires. intros H.
  set (m1 := match n_timeout m with Some 0 => m | _ => match n_last m with Some _ => m | None => set_last m (Some (t_wait w)) end end) in H.
  assert (F1 : n_pulled m1 = n_pulled m /\ n_incoming m1 = n_incoming m /\ n_timeout m1 = n_timeout m /\ n_conns m1 = n_conns m /\ (n_last m1 = n_last m \/ n_last m1 = Some (t_wait w))).
  { unfold m1; destruct (n_timeout m) as [[| |]|] eqn:T; destruct (n_last m) eqn:L; cbn; rewrite ?T, ?L; auto 6. }
  clearbody m1. destruct F1 as (A & B & C & D & E). cbv zeta in H.
  set (m2 := set_conns m1 _ _) in H.
  assert (F2 : forall c, List.In c (n_conns m2) -> List.In c (n_conns m)).
  { intros c. unfold m2. cbn [set_conns n_conns]. unfold minus. rewrite filter_In, D. tauto. }
  destruct (t_select w) as [[r x]|]; [|injection H as <- _; repeat split; auto].
  destruct (collect m2 r x (t_exec w)) as [[m3 x'] [|]] eqn:Cc; injection H as <- _;
    destruct (collect_fields _ _ _ _ _ _ _ Cc) as (G1 & G2 & G3 & G4 & G5); change (n_pulled m2) with (n_pulled m1) in G1; change (n_incoming m2) with (n_incoming m1) in G2;
    change (n_timeout m2) with (n_timeout m1) in G3; change (n_last m2) with (n_last m1) in G4;
    (split; [cbn [trash set_conns n_pulled]; congruence|]); (split; [cbn [trash set_conns n_incoming]; congruence|]); (split; [cbn [trash set_conns n_timeout]; congruence|]); split.
  - intros c. cbn [trash set_conns n_conns]. unfold minus. rewrite filter_In, G5. intros (Q & _). auto.
  - cbn [trash set_conns n_last]. rewrite G4. exact E.
  - intros c. rewrite G5. auto.
  - rewrite G4. exact E.
Qed.
Lemma pull_fields conns : forall (m m' : man) e, pull decode m conns = (m', e) ->
  n_incoming m' = n_incoming m /\ n_timeout m' = n_timeout m /\ n_last m' = n_last m /\ n_conns m' = n_conns m /\
  (forall c, List.In c (keys (n_pulled m')) -> List.In c (keys (n_pulled m)) \/ List.In c conns).
Proof.
  induction conns as [|c conns IH]; intros m m' e; cbn [pull].
  - intros [= <- _]. auto 6.
  - destruct (n_queue m c) as [|x q] eqn:Q; [intros H; destruct (IH _ _ _ H) as (A & B & C & D & E); repeat split; auto; intros d Hd; destruct (E d Hd); auto; right; now right|].
    rewrite <- Q. destruct (mapM (decode c) (n_queue m c)) as [l|ex] eqn:M.
    + intros H. destruct (IH _ _ _ H) as (A & B & C & D & E). cbn [set_pulled n_incoming n_timeout n_last n_conns n_pulled] in *. repeat split; auto.
      intros d Hd. destruct (E d Hd) as [K|K]; [|right; now right]. rewrite enqueue_keys in K. destruct (existsb _ _); [auto|].
      apply in_app_or in K as [K|[<-|[]]]; [auto|right; now left].
    + intros [= <- _]. auto 6.
Qed.
Lemma queue_next_none (m : man) : n_incoming m = None -> queue_next m = set_incoming m (Some (n_pulled m)) [].
Proof. intros E. unfold queue_next. rewrite E. destruct (n_pulled m); reflexivity. Qed.
Lemma timedout_fields (m : man) t m' b : timedout m t = (m', b) ->
  n_pulled m' = n_pulled m /\ n_incoming m' = n_incoming m /\ n_timeout m' = n_timeout m /\ n_conns m' = n_conns m /\
  (b = true -> n_last m' = None /\ exists l d, n_last m = Some l /\ n_timeout m = Some d /\ d <> 0 /\ l + d <= t) /\
  (b = false -> n_last m' = None \/ n_last m' = Some t).
Proof.
  unfold timedout. destruct (n_last m) as [l|]; [destruct (n_timeout m) as [d|] eqn:T|]; [destruct (negb (d =? 0) && (l + d <=? t)) eqn:B| |]; intros [= <- <-]; (split; [reflexivity|]); (split; [reflexivity|]); (split; [cbn; congruence|]); (split; [reflexivity|]); (split; [try discriminate|try discriminate; cbn; auto]).
  intros _. split; [reflexivity|]. apply andb_true_iff in B as (B1 & B2). apply negb_true_iff, Z.eqb_neq in B1. apply Z.leb_le in B2. exists l, d. auto.
Qed.

(** the loop, in one step *)
Lemma loop_step (m : man) ck ws : nm_loop decode m ck ws =
  match n_incoming m with
  | Some ((c, l) :: i) => (set_incoming m (Some i) (n_pulled m), NYield c l, ws)
  | _ =>
      let m1 := match n_incoming m with Some _ => set_incoming m None (n_pulled m) | None => m end in
      if match n_incoming m with Some _ => match n_timeout m with Some t => t =? 0 | None => false end || match n_conns m with [] => true | _ => false end | None => false end
      then (m1, NStop, ws)
      else match ws with
      | [] => (m1, NWaiting, [])
      | w :: ws =>
          let (m2, idle) := timedout m1 (t_out w) in
          if idle then (m2, NIdle, ws)
          else let '(m3, ok, ck') := if negb ck && negb match n_conns m2 with [] => true | _ => false end
                                     then let (m, ok) := wait_on_wires m2 w in (m, ok, true) else (m2, true, false) in
               if negb ok then (m3, NRaised, ws)
               else match pull_from_connections decode m3 with
                    | (m4, Some e) => (m4, NDecode e, ws)
                    | (m4, None) => nm_loop decode (queue_next m4) ck' ws
                    end
      end
  end.
Proof.
  destruct ws as [|w ws]; cbn [nm_loop]; destruct (n_incoming m) as [[|[c l] i]|]; try reflexivity; cbn [set_incoming n_timeout n_conns]; destruct (_ || _); reflexivity.
Qed.

(** nothing is left behind *)
Lemma loop_clean ws : forall (m : man) ck m' r ws', n_pulled m = [] -> nm_loop decode m ck ws = (m', r, ws') ->
  ((forall e, r <> NDecode e) -> n_pulled m' = []) /\
  (r = NIdle -> n_incoming m' = None /\ exists t, n_timeout m' = Some t /\ t <> 0) /\
  (r = NStop -> n_incoming m' = None /\ (n_timeout m' = Some 0 \/ n_conns m' = [])) /\
  n_timeout m' = n_timeout m.
Proof.
  induction ws as [|w ws IH]; intros m ck m' r ws' P H; rewrite loop_step in H.
  - destruct (n_incoming m) as [[|[c l] i]|] eqn:I.
    + cbv zeta in H. destruct (_ || _) eqn:B; injection H as <- <- _; cbn; repeat split; auto; try discriminate.
      apply orb_true_iff in B as [B|B]; [left|right].
      * destruct (n_timeout m); [apply Z.eqb_eq in B; now subst|discriminate].
      * destruct (n_conns m); [reflexivity|discriminate].
    + injection H as <- <- _. cbn. repeat split; auto; discriminate.
    + injection H as <- <- _. repeat split; auto; discriminate.
  - assert (Main : forall m1, n_incoming m1 = None -> n_pulled m1 = [] -> n_timeout m1 = n_timeout m ->
      (let (m2, idle) := timedout m1 (t_out w) in
          if idle then (m2, NIdle, ws)
          else let '(m3, ok, ck') := if negb ck && negb match n_conns m2 with [] => true | _ => false end
                                     then let (m, ok) := wait_on_wires m2 w in (m, ok, true) else (m2, true, false) in
               if negb ok then (m3, NRaised, ws)
               else match pull_from_connections decode m3 with
                    | (m4, Some e) => (m4, NDecode e, ws)
                    | (m4, None) => nm_loop decode (queue_next m4) ck' ws
                    end) = (m', r, ws') ->
      ((forall e, r <> NDecode e) -> n_pulled m' = []) /\
      (r = NIdle -> n_incoming m' = None /\ exists t, n_timeout m' = Some t /\ t <> 0) /\
      (r = NStop -> n_incoming m' = None /\ (n_timeout m' = Some 0 \/ n_conns m' = [])) /\ n_timeout m' = n_timeout m).
    { intros m1 I1 P1 T1. destruct (timedout m1 (t_out w)) as [m2 idle] eqn:T. destruct (timedout_fields _ _ _ _ T) as (F1 & F2 & F3 & F4 & F5 & F6).
      destruct idle.
      { intros [= <- <- _]. destruct (F5 eq_refl) as (_ & l & d & _ & Q & N & _). split; [intros _; congruence|]. split; [intros _; split; [congruence|exists d; split; congruence]|]. split; [discriminate|congruence]. }
      assert (HW : exists m3 ok ck', (if negb ck && negb match n_conns m2 with [] => true | _ => false end
              then let (m, ok) := wait_on_wires m2 w in (m, ok, true) else (m2, true, false)) = (m3, ok, ck') /\ n_pulled m3 = [] /\ n_incoming m3 = None /\ n_timeout m3 = n_timeout m).
      { destruct (negb ck && _); [|eexists _, _, _; split; [reflexivity|repeat split; congruence]]. destruct (wait_on_wires m2 w) as [m3 ok] eqn:W.
        destruct (wait_fields _ _ _ _ W) as (A & B & C & _). eexists _, _, _. split; [reflexivity|repeat split; congruence]. }
      destruct HW as (m3 & ok & ck' & -> & P3 & I3 & T3). destruct ok; cbn [negb]; [|intros [= <- <- _]; repeat split; auto; discriminate].
      destruct (pull_from_connections decode m3) as [m4 [e|]] eqn:Pl; destruct (pull_fields _ _ _ _ Pl) as (A & B & C & D & _).
      - intros [= <- <- _]. split; [intros N; now destruct (N e)|]. split; [discriminate|]. split; [discriminate|congruence].
      - intros H0. rewrite queue_next_none in H0 by congruence. apply IH in H0; [|reflexivity]. cbn [set_incoming n_timeout] in H0. rewrite B, T3 in H0. exact H0. }
    destruct (n_incoming m) as [[|[c l] i]|] eqn:I.
    + cbv zeta in H. destruct (_ || _) eqn:B.
      * injection H as <- <- _; cbn; repeat split; auto; try discriminate.
        apply orb_true_iff in B as [B|B]; [left|right].
        -- destruct (n_timeout m); [apply Z.eqb_eq in B; now subst|discriminate].
        -- destruct (n_conns m); [reflexivity|discriminate].
      * apply Main in H; auto.
    + injection H as <- <- _. cbn. repeat split; auto; discriminate.
    + apply Main in H; auto.
Qed.
Lemma nrun_clean m0 m tr : new_manager m0 -> nrun decode m0 m tr -> no_exception tr -> n_pulled m = [] /\ (forall t, n_timeout m = Some t -> 0 <= t).
Proof.
  intros (cs & t & q & E0) R. unfold nm_init, settimeout in E0. destruct (match t with Some _ => _ | None => _ end) eqn:Tn; [discriminate|]. cbn in E0. injection E0 as <-.
  induction R as [|m tr ws m' r ws' R IH E|m tr c l R IH|m tr t0 m' R IH E|m tr cs0 gs R IH]; intros N; try exact (IH N).
  - cbn. split; auto. intros t1 ->. apply Z.ltb_ge in Tn. exact Tn.
  - assert (N1 : no_exception tr) by (intros Q; apply N, in_or_app; auto). destruct (IH N1) as (P & T).
    destruct (loop_clean _ _ _ _ _ _ P E) as (A & _ & _ & B). rewrite B. split; auto. apply A. intros e ->. apply N, in_or_app. right. now left.
  - destruct (IH N) as (P & T). unfold settimeout in E. destruct (match t0 with Some _ => _ | None => _ end) eqn:Q; [discriminate|]. injection E as <-. cbn. split; auto.
    intros t1 ->. apply Z.ltb_ge in Q. exact Q.
Qed.

(** ** polling *)
Lemma pull_all conns : forall (m : man), NoDup conns -> (forall c, List.In c conns -> ~ List.In c (keys (n_pulled m))) ->
  (forall c, List.In c conns -> exists l, mapM (decode c) (n_queue m c) = Ok l) ->
  exists m' L, pull decode m conns = (m', None) /\ n_pulled m' = n_pulled m ++ L /\
    map fst L = filter (fun c => match n_queue m c with [] => false | _ => true end) conns /\
    (forall c l, List.In (c, l) L -> mapM (decode c) (n_queue m c) = Ok l).
Proof.
  induction conns as [|c conns IH]; intros m N Dj Dc; cbn [pull filter].
  - exists m, []. rewrite app_nil_r. repeat split; auto. intros c l [].
  - apply NoDup_cons_iff in N as (N1 & N2). destruct (n_queue m c) as [|x q] eqn:Q.
    + destruct (IH m) as (m' & L & A); auto. { intros d Hd. apply Dj. now right. } { intros d Hd. apply Dc. now right. } exists m', L. exact A.
    + rewrite <- Q. destruct (Dc c (or_introl eq_refl)) as (l & El). rewrite El.
      assert (Eq : enqueue (n_pulled m) c l = n_pulled m ++ [(c, l)]).
      { assert (Nc : ~ List.In c (keys (n_pulled m))) by (apply Dj; now left). clear - Nc. induction (n_pulled m) as [|[d y] p IHp]; [reflexivity|]. cbn [enqueue app]. cbn in Nc.
        destruct (Nat.eqb_spec d c); [tauto|]. rewrite IHp; auto. }
      assert (Qd : forall d, List.In d conns -> clear_queue (n_queue m) c d = n_queue m d).
      { intros d Hd. unfold clear_queue. destruct (Nat.eqb_spec d c) as [->|]; [contradiction|reflexivity]. }
      rewrite Eq.
      destruct (IH (set_pulled m (n_pulled m ++ [(c, l)]) (clear_queue (n_queue m) c))) as (m' & L & P1 & P2 & P3 & P4); auto.
      * intros d Hd Kd. cbn [set_pulled n_pulled] in Kd. unfold keys in Kd. rewrite map_app in Kd. apply in_app_or in Kd as [Kd|[Kd|[]]]; [revert Kd; apply Dj; now right|]. cbn in Kd. subst d. contradiction.
      * intros d Hd. cbn [set_pulled n_queue]. rewrite Qd by auto. apply Dc. now right.
      * exists m', ((c, l) :: L). split; [exact P1|]. cbn [set_pulled n_pulled n_queue] in *. split; [rewrite P2, <- app_assoc; reflexivity|].
        assert (Fe : filter (fun c0 => match clear_queue (n_queue m) c c0 with [] => false | _ => true end) conns = filter (fun c0 => match n_queue m c0 with [] => false | _ => true end) conns).
        { apply filter_ext_in. intros d Hd. now rewrite Qd. }
        split; [cbn [map fst]; rewrite P3, Fe; reflexivity|].
        intros d l' [[= <- <-]|Hl]; [exact El|]. specialize (P4 _ _ Hl). rewrite Qd in P4; [exact P4|].
        assert (Hd : List.In d (map fst L)) by (change d with (fst (d, l')); now apply in_map). rewrite P3 in Hd. apply filter_In in Hd. tauto.
Qed.
Lemma list_incoming L : forall (m : man) ws fuel, n_incoming m = Some L -> n_timeout m = Some 0 -> (length L < fuel)%nat -> to_list decode fuel m ws = Some L.
Proof.
  induction L as [|[c l] L IH]; intros m ws [|fuel] I T Hf; cbn [length] in Hf; try lia; cbn [to_list]; unfold nm_next; rewrite loop_step, I.
  - rewrite T. reflexivity.
  - rewrite IH; auto; lia.
Qed.
Lemma poll_next (m : man) w ws : n_incoming m = None -> n_timeout m = Some 0 ->
  exists m1, n_pulled m1 = n_pulled m /\ n_queue m1 = n_queue m /\ n_conns m1 = n_conns m /\ n_timeout m1 = Some 0 /\ n_incoming m1 = None /\
    nm_loop decode m true (w :: ws) = match pull decode m1 (n_conns m1) with (m4, None) => nm_loop decode (queue_next m4) false ws | (m4, Some e) => (m4, NDecode e, ws) end.
Proof.
  intros I T. rewrite loop_step, I. cbv zeta. unfold timedout. rewrite T. destruct (n_last m); cbn [negb Z.eqb andb]; [exists (set_last m None)|exists (set_last m (Some (t_out w)))]; (split; [reflexivity|]); (split; [reflexivity|]); (split; [reflexivity|]); (split; [exact T|]); (split; [exact I|]); reflexivity.
Qed.

(** ** the clock *)
Lemma clock_weaken T T' (ws : list (world raw)) : T' <= T -> clock T ws -> clock T' ws.
Proof. destruct ws as [|w ws]; cbn; auto. intros L (A & B & C). split; [lia|auto]. Qed.
Lemma loop_clock ws : forall (m : man) ck m' r ws' d T A, n_timeout m = Some d -> clock T ws -> A <= T -> (forall l, n_last m = Some l -> A <= l) ->
  nm_loop decode m ck ws = (m', r, ws') ->
  exists T', clock T' ws' /\ T <= T' /\ n_timeout m' = Some d /\ (forall l, n_last m' = Some l -> A <= l) /\
    (r = NIdle -> exists w, last_used ws ws' = Some w /\ (length ws' < length ws)%nat /\ A + d <= t_out w /\ t_out w <= T' /\ n_last m' = None).
Proof.
  induction ws as [|w ws IH]; intros m ck m' r ws' d T A Td C L P H; rewrite loop_step in H.
  - exists T. destruct (n_incoming m) as [[|[c l] i]|] eqn:I; [cbv zeta in H; destruct (_ || _)| |]; injection H as <- <- <-; (repeat split; auto; try lia; discriminate).
  - destruct C as (C1 & C2 & C3).
    assert (Main : forall m1, n_last m1 = n_last m -> n_timeout m1 = Some d ->
      (let (m2, idle) := timedout m1 (t_out w) in
          if idle then (m2, NIdle, ws)
          else let '(m3, ok, ck') := if negb ck && negb match n_conns m2 with [] => true | _ => false end
                                     then let (m, ok) := wait_on_wires m2 w in (m, ok, true) else (m2, true, false) in
               if negb ok then (m3, NRaised, ws)
               else match pull_from_connections decode m3 with
                    | (m4, Some e) => (m4, NDecode e, ws)
                    | (m4, None) => nm_loop decode (queue_next m4) ck' ws
                    end) = (m', r, ws') ->
      exists T', clock T' ws' /\ T <= T' /\ n_timeout m' = Some d /\ (forall l, n_last m' = Some l -> A <= l) /\
      (r = NIdle -> exists w0, last_used (w :: ws) ws' = Some w0 /\ (length ws' < length (w :: ws))%nat /\ A + d <= t_out w0 /\ t_out w0 <= T' /\ n_last m' = None)).
    { intros m1 L1 T1. destruct (timedout m1 (t_out w)) as [m2 idle] eqn:T0. destruct (timedout_fields _ _ _ _ T0) as (F1 & F2 & F3 & F4 & F5 & F6).
      destruct idle.
      { intros [= <- <- <-]. destruct (F5 eq_refl) as (Q0 & l & d' & Q1 & Q2 & _ & Q4). rewrite T1 in Q2. injection Q2 as <-. rewrite L1 in Q1. specialize (P _ Q1).
        exists (t_wait w). split; auto. split; [lia|]. split; [congruence|]. split; [congruence|]. intros _. exists w. unfold last_used. cbn [length]. replace (S (length ws) - length ws - 1)%nat with 0%nat by lia.
        repeat split; auto; lia. }
      assert (P2 : forall l, n_last m2 = Some l -> A <= l) by (intros l Q; destruct (F6 eq_refl) as [X|X]; rewrite X in Q; [discriminate|injection Q as <-; lia]).
      assert (HW : exists m3 ok ck', (if negb ck && negb match n_conns m2 with [] => true | _ => false end
              then let (m, ok) := wait_on_wires m2 w in (m, ok, true) else (m2, true, false)) = (m3, ok, ck') /\ n_timeout m3 = Some d /\ forall l, n_last m3 = Some l -> A <= l).
      { destruct (negb ck && _); [|eexists _, _, _; split; [reflexivity|split; [congruence|auto]]]. destruct (wait_on_wires m2 w) as [m3 ok] eqn:W.
        destruct (wait_fields _ _ _ _ W) as (_ & _ & X & _ & Y). eexists _, _, _. split; [reflexivity|]. split; [congruence|]. intros l Q. destruct Y as [Y|Y]; rewrite Y in Q; [auto|injection Q as <-; lia]. }
      destruct HW as (m3 & ok & ck' & -> & T3 & P3). destruct ok; cbn [negb].
      2:{ intros [= <- <- <-]. exists (t_wait w). repeat split; auto; [lia|discriminate]. }
      destruct (pull_from_connections decode m3) as [m4 [e|]] eqn:Pl; destruct (pull_fields _ _ _ _ Pl) as (_ & X & Y & _).
      - intros [= <- <- <-]. exists (t_wait w). split; auto. split; [lia|]. split; [congruence|]. split; [rewrite Y; auto|discriminate].
      - intros H0. assert (Fq : n_timeout (queue_next m4) = Some d /\ n_last (queue_next m4) = n_last m4) by (unfold queue_next; destruct (n_pulled m4), (n_incoming m4); cbn; split; congruence).
        destruct Fq as (Fq1 & Fq2). assert (Pq : forall l, n_last (queue_next m4) = Some l -> A <= l) by (rewrite Fq2, Y; exact P3).
        assert (Le : A <= t_wait w) by lia.
        destruct (IH (queue_next m4) ck' m' r ws' d (t_wait w) A Fq1 C3 Le Pq H0) as (T' & G1 & G2 & G3 & G4 & G5).
        exists T'. split; auto. split; [lia|]. split; auto. split; auto. intros R. destruct (G5 R) as (w0 & W1 & W2 & W3). exists w0. cbn [length]. split; [|split; [lia|auto]].
        unfold last_used in *. cbn [length]. replace (S (length ws) - length ws' - 1)%nat with (S (length ws - length ws' - 1)) by lia. exact W1. }
    destruct (n_incoming m) as [[|[c l] i]|] eqn:I.
    + cbv zeta in H. destruct (_ || _) eqn:B.
      * injection H as <- <- <-. exists T. cbn. repeat split; auto; try lia; discriminate.
      * apply Main in H; auto.
    + injection H as <- <- <-. exists T. cbn. repeat split; auto; try lia; discriminate.
    + apply Main in H; auto.
Qed.
Lemma trun_clock m0 ws0 d m ws is : new_manager m0 -> n_timeout m0 = Some d -> (exists t0, clock t0 ws0) -> trun decode m0 ws0 m ws is ->
  n_timeout m = Some d /\ (forall i a b, nth_error is i = Some a -> nth_error is (S i) = Some b -> a + d <= b) /\
  exists T, clock T ws /\ forall pre a, is = pre ++ [a] -> a <= T /\ forall l, n_last m = Some l -> a <= l.
Proof.
  intros Nm Td (t0 & C0) R. induction R as [|m ws is m' r ws' R IH E|m ws is c l R IH|m ws is cs gs R IH]; try exact IH.
  - split; auto. split; [intros [|i] a b; discriminate|]. exists t0. split; auto. intros pre a Q. destruct pre; discriminate.
  - destruct IH as (T1 & S & T & C & B).
    assert (HA : exists A, A <= T /\ (forall l, n_last m = Some l -> A <= l) /\ forall pre a, is = pre ++ [a] -> A = a).
    { destruct is as [|x is'] using rev_ind.
      - exists (match n_last m with Some l => Z.min l T | None => T end). repeat split.
        + destruct (n_last m); lia.
        + intros l ->. lia.
        + intros pre a Q. destruct pre; discriminate.
      - destruct (B _ _ eq_refl) as (B1 & B2). exists x. repeat split; auto. intros pre a Q. apply app_inj_tail in Q as (_ & ->). reflexivity. }
    destruct HA as (A & A1 & A2 & A3). destruct (loop_clock _ _ _ _ _ _ _ _ _ T1 C A1 A2 E) as (T' & G1 & G2 & G3 & G4 & G5).
    split; auto.
    assert (Same : (forall i a b, nth_error is i = Some a -> nth_error is (Datatypes.S i) = Some b -> a + d <= b) /\
      exists T, clock T ws' /\ forall pre a, is = pre ++ [a] -> a <= T /\ forall l, n_last m' = Some l -> a <= l).
    { split; auto. exists T'. split; auto. intros pre a Q. pose proof (A3 _ _ Q). subst a. split; [lia|auto]. }
    destruct r; try exact Same. destruct (G5 eq_refl) as (w & W1 & _ & W3 & W4 & W5). rewrite W1. split.
    + intros i a b Ea Eb. destruct (Nat.lt_ge_cases (Datatypes.S i) (length is)) as [Li|Li].
      * rewrite nth_error_app1 in Ea, Eb by lia. eapply S; eauto.
      * assert (Lb : (Datatypes.S i < length (is ++ [t_out w]))%nat) by (apply nth_error_Some; congruence). rewrite app_length in Lb. cbn in Lb.
        assert (Ei : Datatypes.S i = length is) by lia. rewrite nth_error_app2, Ei, Nat.sub_diag in Eb by lia. cbn in Eb. injection Eb as <-.
        rewrite nth_error_app1 in Ea by lia. destruct is as [|x is'] using rev_ind; [cbn in Ei; lia|]. rewrite app_length in Ei. cbn in Ei.
        rewrite nth_error_app2 in Ea by lia. replace (i - length is')%nat with 0%nat in Ea by lia. cbn in Ea. injection Ea as <-. rewrite (A3 _ _ eq_refl) in W3. exact W3.
    + exists T'. split; auto. intros pre a Q. apply app_inj_tail in Q as (_ & <-). split; [lia|]. rewrite W5. discriminate.
Qed.

(** ** iternotifies: one connection *)
Definition only (c : nat) (m : man) : Prop :=
  (forall d, List.In d (n_conns m) -> d = c) /\ (forall d, List.In d (keys (n_pulled m)) -> d = c) /\
  match n_incoming m with Some i => forall d, List.In d (keys i) -> d = c | None => True end.
Lemma only_loop c ws : forall (m : man) ck m' r ws', only c m -> nm_loop decode m ck ws = (m', r, ws') -> only c m' /\ forall d l, r = NYield d l -> d = c.
Proof.
  induction ws as [|w ws IH]; intros m ck m' r ws' (O1 & O2 & O3) H; rewrite loop_step in H.
  - destruct (n_incoming m) as [[|[c0 l] i]|] eqn:I; [cbv zeta in H; destruct (_ || _)| |]; injection H as <- <- _; (split; [|try discriminate]); try (split; [exact O1|split; [exact O2|cbn; auto]]).
    + intros d Hd. apply O3. now right.
    + intros d l0 [= <- _]. apply O3. now left.
    + rewrite I. exact Logic.I.
  - assert (Main : forall m1, n_incoming m1 = None -> n_conns m1 = n_conns m -> n_pulled m1 = n_pulled m ->
      (let (m2, idle) := timedout m1 (t_out w) in
          if idle then (m2, NIdle, ws)
          else let '(m3, ok, ck') := if negb ck && negb match n_conns m2 with [] => true | _ => false end
                                     then let (m, ok) := wait_on_wires m2 w in (m, ok, true) else (m2, true, false) in
               if negb ok then (m3, NRaised, ws)
               else match pull_from_connections decode m3 with
                    | (m4, Some e) => (m4, NDecode e, ws)
                    | (m4, None) => nm_loop decode (queue_next m4) ck' ws
                    end) = (m', r, ws') -> only c m' /\ forall d l, r = NYield d l -> d = c).
    { intros m1 I1 C1 P1. destruct (timedout m1 (t_out w)) as [m2 idle] eqn:T0. destruct (timedout_fields _ _ _ _ T0) as (F1 & F2 & F3 & F4 & _ & _).
      destruct idle; [intros [= <- <- _]; split; [unfold only; rewrite F1, F2, F4, I1, C1, P1; auto|discriminate]|].
      assert (HW : exists m3 ok ck', (if negb ck && negb match n_conns m2 with [] => true | _ => false end
              then let (m, ok) := wait_on_wires m2 w in (m, ok, true) else (m2, true, false)) = (m3, ok, ck') /\ n_incoming m3 = None /\ n_pulled m3 = n_pulled m /\ (forall d, List.In d (n_conns m3) -> d = c)).
      { destruct (negb ck && _); [|eexists _, _, _; split; [reflexivity|split; [congruence|split; [congruence|rewrite F4, C1; auto]]]]. destruct (wait_on_wires m2 w) as [m3 ok] eqn:W.
        destruct (wait_fields _ _ _ _ W) as (X1 & X2 & X3 & X4 & _). eexists _, _, _. split; [reflexivity|]. split; [congruence|]. split; [congruence|]. intros d Hd. apply O1. rewrite <- C1, <- F4. auto. }
      destruct HW as (m3 & ok & ck' & -> & I3 & P3 & C3). destruct ok; cbn [negb].
      2:{ intros [= <- <- _]. split; [unfold only; rewrite I3, P3; auto|discriminate]. }
      destruct (pull_from_connections decode m3) as [m4 [e|]] eqn:Pl; destruct (pull_fields _ _ _ _ Pl) as (X1 & X2 & X3 & X4 & X5).
      - intros [= <- <- _]. split; [|discriminate]. unfold only. rewrite X1, X4, I3. split; auto. split; auto. intros d Hd. destruct (X5 d Hd) as [Q|Q]; auto. apply O2. now rewrite <- P3.
      - intros H0. rewrite queue_next_none in H0 by congruence. eapply IH; [|exact H0]. unfold only. cbn [set_incoming n_conns n_pulled n_incoming]. rewrite X4. split; auto. split; [intros d []|].
        intros d Hd. destruct (X5 d Hd) as [Q|Q]; auto. apply O2. now rewrite <- P3. }
    destruct (n_incoming m) as [[|[c0 l] i]|] eqn:I.
    + cbv zeta in H. destruct (_ || _) eqn:B.
      * injection H as <- <- _. split; [|discriminate]. split; [exact O1|split; [exact O2|exact Logic.I]].
      * apply Main in H; auto.
    + injection H as <- <- _. split; [split; [exact O1|split; [exact O2|cbn; intros d Hd; apply O3; now right]]|]. intros d l0 [= <- _]. apply O3. now left.
    + apply Main in H; auto.
Qed.
End P.
