(** NotifyProps.v: C42. *)
From Verif Require Import Base BaseProof StrProof3 NotifyModel NotifySpec NotifyProof NotifyProof2.

Section C42.
Context {raw note : Type} (decode : nat -> raw -> res note).
Notation man := (nman raw note).

(** Every notification a connection received is in exactly one of three places, in order: it
    was given, it is collected, it is held by the connection. *)
Theorem C42_exactly_once : forall (m0 m : man) tr c, new_manager m0 -> nrun decode m0 m tr ->
  exists taken, n_recv m c = taken ++ n_queue m c /\ mapM (decode c) taken = Ok (given c tr ++ collected m c).
Proof. intros m0 m tr c N R. exact (proj2 (nrun_acct decode m0 m tr N R) c). Qed.

(** what is given is not empty *)
Theorem C42_not_empty : forall (m0 m : man) tr ws m' c l ws', new_manager m0 -> nrun decode m0 m tr ->
  nm_next decode m ws = (m', NYield c l, ws') -> l <> [].
Proof.
  intros m0 m tr ws m' c l ws' N R E. destruct (nrun_acct decode m0 m tr N R) as (G & _).
  destruct (moves_loop decode _ _ _ _ _ _ E) as (_ & _ & M). exact (M G c l eq_refl).
Qed.

(** an idle event: only with a timeout which is not zero, and when everything which was
    collected was given *)
Theorem C42_idle : forall (m0 m : man) tr ws m' ws', new_manager m0 -> nrun decode m0 m tr -> no_exception tr ->
  nm_next decode m ws = (m', NIdle, ws') -> (forall c, collected m' c = []) /\ exists t, n_timeout m = Some t /\ 0 < t.
Proof.
  intros m0 m tr ws m' ws' N R X E. destruct (nrun_clean decode _ _ _ N R X) as (P & T). destruct (loop_clean decode _ _ _ _ _ _ P E) as (A & B & _ & D).
  destruct (B eq_refl) as (I & t & Q & Nz). split.
  - intros c. unfold collected. rewrite I, A by discriminate. reflexivity.
  - exists t. split; [congruence|]. rewrite D in Q. specialize (T _ Q). lia.
Qed.

(** the end: only with timeout zero or without connections, and when everything which was
    collected was given *)
Theorem C42_stop : forall (m0 m : man) tr ws m' ws', new_manager m0 -> nrun decode m0 m tr -> no_exception tr ->
  nm_next decode m ws = (m', NStop, ws') -> (forall c, collected m' c = []) /\ (n_timeout m' = Some 0 \/ n_conns m' = []).
Proof.
  intros m0 m tr ws m' ws' N R X E. destruct (nrun_clean decode _ _ _ N R X) as (P & T). destruct (loop_clean decode _ _ _ _ _ _ P E) as (A & _ & B & _).
  destruct (B eq_refl) as (I & Q). split; auto. intros c. unfold collected. rewrite I, A by discriminate. reflexivity.
Qed.

(** polling, list(nm) with timeout zero: for each connection which holds notifications, all of
    them; then the end *)
Theorem C42_poll : forall (m : man) w ws, n_timeout m = Some 0 -> n_incoming m = None -> n_pulled m = [] -> NoDup (n_conns m) ->
  (forall c, List.In c (n_conns m) -> exists l, mapM (decode c) (n_queue m c) = Ok l) ->
  exists L, to_list decode (S (length L)) m (w :: ws) = Some L /\
    map fst L = filter (fun c => match n_queue m c with [] => false | _ => true end) (n_conns m) /\
    (forall c l, List.In (c, l) L -> mapM (decode c) (n_queue m c) = Ok l).
Proof.
  intros m w ws T I P N D.
  destruct (poll_next decode m w ws I T) as (m1 & E1 & E2 & E3 & E4 & E5 & EL).
  destruct (pull_all decode (n_conns m1) m1) as (m4 & L & Q1 & Q2 & Q3 & Q4).
  { now rewrite E3. } { intros c _. rewrite E1, P. intros []. } { intros c Hc. rewrite E2. apply D. now rewrite <- E3. }
  rewrite E1, P in Q2. cbn [app] in Q2. rewrite E2, E3 in Q3. exists L. split; [|split; [exact Q3|intros c l Hl; rewrite <- E2; auto]].
  destruct (pull_fields decode _ _ _ _ Q1) as (G1 & G2 & _).
  cbn [to_list]. unfold nm_next. rewrite EL, Q1, queue_next_none by congruence. rewrite Q2, loop_step. cbn [set_incoming n_incoming n_timeout n_pulled].
  destruct L as [|[c l] L].
  - rewrite G2, E4. reflexivity.
  - rewrite (list_incoming decode L); [reflexivity|reflexivity| |cbn [length]; lia]. cbn. congruence.
Qed.

(** the time given to select(): it is never negative (select() would refuse it), does not go past the moment the idle event is due,
    and is zero when polling *)
Theorem C42_wait : forall (m0 m : man) tr w, new_manager m0 -> nrun decode m0 m tr -> no_exception tr ->
  0 <= max_duration m w /\ (n_timeout m = Some 0 -> max_duration m w = 0) /\
  (forall t l, n_timeout m = Some t -> t <> 0 -> n_last m = Some l -> t_wait w <= l + t -> t_wait w + max_duration m w = l + t) /\
  (forall t, n_timeout m = Some t -> t <> 0 -> n_last m = None -> max_duration m w = t).
Proof.
  intros m0 m tr w N R X. destruct (nrun_clean decode _ _ _ N R X) as (_ & T). unfold max_duration. destruct (n_timeout m) as [t|] eqn:Q.
  - specialize (T t eq_refl). destruct (Z.eqb_spec t 0) as [->|Nz].
    + split; [lia|]. split; [reflexivity|]. split; intros; congruence.
    + assert (E : forall (a b : Z), match t with 0 => a | _ => b end = b) by (intros; destruct t; [contradiction|reflexivity|reflexivity]). rewrite E.
      split; [destruct (n_last m); lia|]. split; [congruence|]. split.
      * intros t' l [= <-] _ -> Hl. lia.
      * intros t' [= <-] _ ->. reflexivity.
  - split; [destruct (n_last m); lia|]. split; [discriminate|]. split; intros; discriminate.
Qed.

(** two idle events are not closer than the timeout *)
Theorem C42_idle_interval : forall (m0 m : man) ws0 ws is d, new_manager m0 -> n_timeout m0 = Some d -> (exists t0, clock t0 ws0) ->
  trun decode m0 ws0 m ws is -> forall i a b, nth_error is i = Some a -> nth_error is (S i) = Some b -> a + d <= b.
Proof. intros m0 m ws0 ws is d N T C R. destruct (trun_clock decode _ _ _ _ _ _ N T C R) as (_ & S & _). exact S. Qed.

(** if nothing happens, an idle event comes after the timeout.  The loop waits in the second
    world; [d] is the duration given to select(). *)
Theorem C42_idle_comes : forall (m : man) t w1 w2 w3 ws, 0 < t -> n_timeout m = Some t -> n_conns m <> [] -> n_pulled m = [] ->
  (n_incoming m = None \/ n_incoming m = Some []) -> (forall c, List.In c (n_conns m) -> n_queue m c = []) ->
  t_select w2 = Some ([], []) -> (forall c, t_closed w2 c = false) ->
  (let d := match n_last m with None => t | Some _ => Z.max 0 (t - (t_wait w2 - t_out w2)) end in t_wait w2 + d <= t_out w3) ->
  exists m' ws', nm_next decode m (w1 :: w2 :: w3 :: ws) = (m', NIdle, ws').
Proof.
  intros m t w1 w2 w3 ws Pt T Nc P I Q S2 C2 D. cbv zeta in D.
  assert (Bt : (t =? 0) = false) by (apply Z.eqb_neq; lia).
  assert (Pull : forall m1 : man, n_conns m1 = n_conns m -> n_queue m1 = n_queue m -> pull_from_connections decode m1 = (m1, None)).
  { intros m1 E1 E2. unfold pull_from_connections. rewrite E1. assert (Qa : forall c, List.In c (n_conns m) -> n_queue m1 c = []) by (rewrite E2; exact Q). clear - Qa.
    induction (n_conns m) as [|c cs IH]; [reflexivity|]. cbn [pull]. rewrite Qa by now left. apply IH. intros d Hd. apply Qa. now right. }
  (* the first turn of the loop: [lst] is _last_time *)
  assert (Turn1 : forall ck wx wr, exists m1, n_last m1 = n_last m /\ n_timeout m1 = Some t /\ n_conns m1 = n_conns m /\ n_queue m1 = n_queue m /\ n_pulled m1 = [] /\ n_incoming m1 = None /\
    nm_loop decode m ck (wx :: wr) = (let (m2, idle) := timedout m1 (t_out wx) in
          if idle then (m2, NIdle, wr)
          else let '(m3, ok, ck') := if negb ck && negb match n_conns m2 with [] => true | _ => false end
                                     then let (m, ok) := wait_on_wires m2 wx in (m, ok, true) else (m2, true, false) in
               if negb ok then (m3, NRaised, wr)
               else match pull_from_connections decode m3 with
                    | (m4, Some e) => (m4, NDecode e, wr)
                    | (m4, None) => nm_loop decode (queue_next m4) ck' wr
                    end)).
  { intros ck wx wr. rewrite loop_step. destruct I as [I|I]; rewrite I.
    - exists m. cbv zeta. auto 8.
    - rewrite T, Bt. destruct (n_conns m) eqn:Ec; [congruence|]. cbn [orb]. cbv zeta. exists (set_incoming m None (n_pulled m)). cbn. rewrite Ec. auto 8. }
  assert (NcB : forall m2 : man, n_conns m2 = n_conns m -> match n_conns m2 with [] => true | _ => false end = false) by (intros m2 ->; destruct (n_conns m); [congruence|reflexivity]).
  (* the turn where it waits, then the idle event *)
  assert (Turn2 : forall (m2 : man) wr, n_timeout m2 = Some t -> n_conns m2 = n_conns m -> n_queue m2 = n_queue m -> n_pulled m2 = [] -> n_incoming m2 = None ->
     (forall l, n_last m2 = Some l -> l + t <= t_out w3) -> (n_last m2 = None -> t_wait w2 + t <= t_out w3) ->
     exists m' ws', (let (m3, ok) := wait_on_wires m2 w2 in
       if negb ok then (m3, NRaised, w3 :: wr) else match pull_from_connections decode m3 with
                    | (m4, Some e) => (m4, NDecode e, w3 :: wr)
                    | (m4, None) => nm_loop decode (queue_next m4) true (w3 :: wr)
                    end) = (m', NIdle, ws')).
  { intros m2 wr T2 Cn2 Q2 P2 I2 La Lb. unfold wait_on_wires. rewrite T2. destruct t as [|p|p]; [lia| |lia].
    set (t := Z.pos p) in *.
    set (m3 := match n_last m2 with Some _ => m2 | None => set_last m2 (Some (t_wait w2)) end).
    assert (F3 : n_timeout m3 = Some t /\ n_conns m3 = n_conns m /\ n_queue m3 = n_queue m /\ n_pulled m3 = [] /\ n_incoming m3 = None /\ exists l, n_last m3 = Some l /\ l + t <= t_out w3).
    { unfold m3. destruct (n_last m2) as [l|] eqn:El; cbn; repeat split; auto; [exists l; auto|exists (t_wait w2); auto]. }
    clearbody m3. destruct F3 as (F1 & F2 & F3 & F4 & F5 & l & F6 & F7). cbv zeta. rewrite S2. cbn [collect].
    assert (Fc : filter (t_closed w2) (minus (n_conns m3) (n_garbage m3)) = []) by (induction (minus (n_conns m3) (n_garbage m3)) as [|c cs IHc]; cbn; [reflexivity|rewrite C2; exact IHc]).
    rewrite Fc, app_nil_r. unfold trash. cbn [set_conns n_conns n_garbage].
    assert (Mn : forall l0, minus l0 [] = l0) by (intros l0; unfold minus; induction l0 as [|a l0 IHl]; [reflexivity|]; cbn; f_equal; exact IHl). rewrite !Mn. cbn [negb].
    match goal with |- context [pull_from_connections decode ?x] => set (m5 := x) end.
    assert (F : n_timeout m5 = Some t /\ n_conns m5 = n_conns m /\ n_queue m5 = n_queue m /\ n_pulled m5 = [] /\ n_incoming m5 = None /\ n_last m5 = Some l) by (unfold m5; cbn; auto 8).
    clearbody m5. destruct F as (G1 & G2 & G3 & G4 & G5 & G6). rewrite Pull by auto. rewrite queue_next_none, G4 by auto.
    rewrite loop_step. cbn [set_incoming n_incoming n_timeout n_conns]. rewrite G1, Bt, (NcB m5 G2). cbn [orb]. cbv zeta. unfold timedout. cbn [set_incoming n_last n_timeout]. rewrite G6, G1, Bt. cbn [negb andb].
    replace (l + t <=? t_out w3) with true by (symmetry; apply Z.leb_le; exact F7). eauto. }
  unfold nm_next. destruct (Turn1 true w1 (w2 :: w3 :: ws)) as (m1 & L1 & T1 & C1 & Q1 & P1 & I1 & ->).
  unfold timedout at 1. rewrite L1, T1, Bt. cbn [negb andb].
  assert (Second : forall m2 : man, n_timeout m2 = Some t -> n_conns m2 = n_conns m -> n_queue m2 = n_queue m -> n_pulled m2 = [] -> n_incoming m2 = None ->
     (n_last m2 = None /\ t_wait w2 + Z.max 0 (t - (t_wait w2 - t_out w2)) <= t_out w3 \/ (exists l, n_last m2 = Some l) /\ t_wait w2 + t <= t_out w3) ->
     exists m' ws', nm_loop decode (queue_next m2) false (w2 :: w3 :: ws) = (m', NIdle, ws')).
  { intros m2 T2 Cn2 Q2 P2 I2 H. rewrite queue_next_none, P2 by auto. rewrite loop_step. cbn [set_incoming n_incoming n_timeout n_conns]. rewrite T2, Bt, (NcB m2 Cn2). cbn [orb]. cbv zeta.
    unfold timedout. cbn [set_incoming n_last n_timeout]. rewrite T2, Bt. cbn [negb andb]. destruct H as [(H & Hw)|((l & H) & Hw)]; rewrite H.
    - cbn [set_last set_incoming n_conns]. rewrite (NcB m2 Cn2). cbn [negb andb].
      match goal with |- context [wait_on_wires ?x w2] => destruct (Turn2 x ws) as (m' & ws' & E) end; cbn; auto.
      + intros l [= <-]. lia.
      + discriminate.
      + exists m', ws'. rewrite <- E. destruct (wait_on_wires _ w2) as [m3 ok]. reflexivity.
    - destruct (l + t <=? t_out w2); [eauto|]. cbn [set_last set_incoming n_conns]. rewrite (NcB m2 Cn2). cbn [negb andb].
      match goal with |- context [wait_on_wires ?x w2] => destruct (Turn2 x ws) as (m' & ws' & E) end; cbn; auto.
      + discriminate.
      + exists m', ws'. rewrite <- E. destruct (wait_on_wires _ w2) as [m3 ok]. reflexivity. }
  destruct (n_last m) as [l|] eqn:El.
  - destruct (l + t <=? t_out w1); [eauto|]. rewrite Pull by auto. apply Second; auto.
  - rewrite Pull by auto. apply Second; auto. right. split; auto. cbn. eauto.
Qed.

(** iternotifies: the notifications of the connection, one by one, each once and in order *)
Theorem C42_iternotifies : forall t q (m0 : man) s tr c, nm_init [c] t q = Ok m0 -> irun decode m0 s tr ->
  exists taken, n_recv (i_man s) c = taken ++ n_queue (i_man s) c /\ mapM (decode c) taken = Ok (ones tr ++ i_left s ++ collected (i_man s) c).
Proof.
  intros t q m0 s tr c E0 R.
  assert (H : good (i_man s) /\ only c (i_man s) /\ acct decode (i_man s) c (ones tr ++ i_left s)).
  { induction R as [|s tr ws s' r ws' R IH E|s tr d l R IH].
    - unfold nm_init, settimeout in E0. destruct (match t with Some _ => _ | None => _ end); [discriminate|]. cbn in E0. injection E0 as <-. cbn [i_man]. split; [repeat split; constructor|]. split.
      + split; [intros d [<-|[]]; reflexivity|]. split; [intros d []|exact Logic.I].
      + exists []. cbn. auto.
    - destruct IH as (G & O & A).
      assert (On : forall (x : ires note), ones (tr ++ [x]) = ones tr ++ match x with IOne n => [n] | _ => [] end).
      { intros x. clear. induction tr as [|[] tr IH]; cbn; [destruct x; reflexivity|now rewrite IH|exact IH|exact IH|exact IH|exact IH]. }
      rewrite On. unfold iter_next in E. destruct (i_left s) as [|n l] eqn:Il.
      + destruct (nm_next decode (i_man s) ws) as [[m r'] ws1] eqn:Nx. destruct (moves_loop decode _ _ _ _ _ _ Nx) as (M1 & M2 & M3). destruct (only_loop decode c _ _ _ _ _ _ O Nx) as (O' & Yd).
        specialize (M2 G c _ A). specialize (M1 G). rewrite app_nil_r in M2.
        destruct r' as [d l| | | | |]; [destruct l as [|n l]| | | | |]; injection E as <- <- _; cbn [i_man i_left]; (split; [exact M1|split; [exact O'|]]); rewrite ?app_nil_r in *; try exact M2.
        * exfalso. exact (M3 G _ _ eq_refl eq_refl).
        * rewrite (Yd _ _ eq_refl), Nat.eqb_refl in M2. rewrite <- app_assoc. exact M2.
      + injection E as <- <- _. cbn [i_man i_left]. split; auto. split; auto. rewrite <- app_assoc. exact A.
    - destruct IH as (G & O & A). cbn [i_man i_left]. destruct (keeps_receive decode (i_man s) d l) as (K1 & K2). split; auto. }
  destruct H as (_ & _ & (a & A1 & A2)). exists a. split; auto. now rewrite app_assoc.
Qed.
End C42.
Print Assumptions C42_exactly_once.
Print Assumptions C42_not_empty.
Print Assumptions C42_idle.
Print Assumptions C42_wait.
Print Assumptions C42_stop.
Print Assumptions C42_poll.
Print Assumptions C42_idle_interval.
Print Assumptions C42_idle_comes.
Print Assumptions C42_iternotifies.

(** ** examples, and what does not hold.  Notifications are numbers. *)
Definition idec (c : nat) (x : Z) : res Z := if x <? 0 then Err ValueError else Ok x.
Definition wq (t : Z) (sel : option (list nat * list nat)) (ex : nat -> list Z * xend) : world Z :=
  {| t_out := t; t_wait := t; t_closed := fun _ => false; t_select := sel; t_exec := ex |}.
Definition no_exec (c : nat) : list Z * xend := ([], XDone).
Definition m_of (cs : list nat) (t : option Z) : nman Z Z :=
  match nm_init cs t (fun _ => []) with Ok m => m | Err _ => {| n_conns := []; n_garbage := []; n_incoming := None; n_timeout := None; n_last := None; n_pulled := []; n_queue := fun _ => []; n_recv := fun _ => [] |} end.
(** two connections; the first has 1, 2, and while it waits the second receives 3; then the idle event *)
Definition ex_ws := [wq 0 None no_exec; wq 1 None no_exec;
  wq 1 (Some ([1%nat], [])) (fun c => ([3], XDone)); wq 2 None no_exec; wq 3 (Some ([], [])) no_exec; wq 20 None no_exec].
Definition ex_m := receive (receive (m_of [0; 1]%nat (Some 10)) 0 [1]) 0 [2].
Definition ex1 := nm_next idec ex_m ex_ws.
Definition ex2 := nm_next idec (fst (fst ex1)) (snd ex1).
Definition ex3 := nm_next idec (fst (fst ex2)) (snd ex2).
Example C42_ex : (snd (fst ex1), snd (fst ex2), snd (fst ex3)) = (NYield 0 [1; 2], NYield 1 [3], NIdle).
Proof. vm_compute. reflexivity. Qed.
Lemma ex_new cs t : match t with Some t => 0 <= t | None => True end -> new_manager (m_of cs t).
Proof. intros H. exists cs, t, (fun _ => []). unfold m_of, nm_init, settimeout. destruct t as [t|]; [|reflexivity]. replace (t <? 0) with false by (symmetry; apply Z.ltb_ge; exact H). reflexivity. Qed.
Example C42_ex_run : nrun idec (m_of [0; 1]%nat (Some 10)) (fst (fst ex3)) [EGive 0 [1; 2]; EGive 1 [3]; EIdle] /\ new_manager (m_of [0; 1]%nat (Some 10)).
Proof.
  split; [|apply ex_new; lia].
  refine (nr_next idec _ (fst (fst ex2)) [EGive 0 [1; 2]; EGive 1 [3]] (snd ex2) (fst (fst ex3)) NIdle (snd ex3) _ _); [|vm_compute; reflexivity].
  refine (nr_next idec _ (fst (fst ex1)) [EGive 0 [1; 2]] (snd ex1) (fst (fst ex2)) (NYield 1 [3]) (snd ex2) _ _); [|vm_compute; reflexivity].
  refine (nr_next idec _ ex_m [] ex_ws (fst (fst ex1)) (NYield 0 [1; 2]) (snd ex1) _ _); [|vm_compute; reflexivity].
  apply nr_receive, nr_receive, nr_init.
Qed.
Example C42_ex_clock : clock 0 ex_ws. Proof. cbn. lia. Qed.
Example C42_ex_poll : to_list idec 3 (receive (receive (m_of [0; 1; 2]%nat (Some 0)) 2 [7; 8]) 0 [9]) [wq 0 None no_exec] = Some [(0%nat, [9]); (2%nat, [7; 8])].
Proof. vm_compute. reflexivity. Qed.

(** Refuted: "every notification received is given": those received by the execute() which finds
    that the connection failed are not; the iteration ends *)
Theorem C42_failed_connection_refuted :
  ~ (forall (m0 m : nman Z Z) tr ws m' ws' c, new_manager m0 -> nrun idec m0 m tr -> nm_next idec m ws = (m', NStop, ws') -> n_queue m' c = []).
Proof.
  intros H.
  set (ws := [wq 0 None no_exec; wq 1 (Some ([0%nat], [])) (fun _ => ([5], XFailed)); wq 2 None no_exec]).
  set (x := nm_next idec (m_of [0%nat] None) ws).
  assert (E : x = (fst (fst x), NStop, snd x)) by (vm_compute; reflexivity).
  pose proof (H _ _ [] ws _ _ 0%nat (ex_new [0%nat] None Logic.I) (nr_init idec _) E) as Q. vm_compute in Q. discriminate.
Qed.
Print Assumptions C42_failed_connection_refuted.

(** Refuted: "a poll looks at the wires": with timeout zero, nothing on the wires is ever seen *)
Theorem C42_poll_wire_refuted :
  ~ (forall (m : nman Z Z) w ws m' ws' c x, n_timeout m = Some 0 -> n_conns m = [c] -> t_select w = Some ([c], []) -> t_exec w c = ([x], XDone) ->
     nm_next idec m (w :: w :: ws) <> (m', NStop, ws')).
Proof.
  intros H. set (w := wq 0 (Some ([0%nat], [])) (fun _ => ([5], XDone))). set (x := nm_next idec (m_of [0%nat] (Some 0)) [w; w]).
  refine (H (m_of [0%nat] (Some 0)) w [] (fst (fst x)) (snd x) 0%nat 5 eq_refl eq_refl eq_refl eq_refl _). vm_compute. reflexivity.
Qed.
Print Assumptions C42_poll_wire_refuted.

(** Refuted: "no idle event when there are real events": a notification which the connection
    already holds does not prevent it *)
Theorem C42_idle_held_refuted :
  ~ (forall (m0 m : nman Z Z) tr ws m' ws' c, new_manager m0 -> nrun idec m0 m tr -> nm_next idec m ws = (m', NIdle, ws') -> List.In c (n_conns m') -> n_queue m' c = []).
Proof.
  intros H.
  set (ws := [wq 0 None no_exec; wq 1 (Some ([0%nat], [])) (fun _ => ([5], XDone))]).
  set (x := nm_next idec (m_of [0%nat] (Some 10)) ws). set (m1 := receive (fst (fst x)) 0 [6]).
  set (y := nm_next idec m1 [wq 50 None no_exec]).
  assert (R : nrun idec (m_of [0%nat] (Some 10)) m1 [EGive 0 [5]]).
  { apply nr_receive. refine (nr_next idec _ (m_of [0%nat] (Some 10)) [] ws (fst (fst x)) (NYield 0 [5]) (snd x) (nr_init _ _) _). vm_compute. reflexivity. }
  assert (E : nm_next idec m1 [wq 50 None no_exec] = (fst (fst y), NIdle, snd y)) by (vm_compute; reflexivity).
  pose proof (H _ _ _ _ _ _ 0%nat (ex_new [0%nat] (Some 10) ltac:(cbn; lia)) R E ltac:(vm_compute; auto)) as Q. vm_compute in Q. discriminate.
Qed.
Print Assumptions C42_idle_held_refuted.

(** Refuted: "idle events are guaranteed to occur": when something wakes select() often enough
    (which does not have to be a notification), next() never gives one *)
Definition tick (k : Z) : world Z := wq k (Some ([0%nat], [])) no_exec.
Fixpoint ticks (k : Z) (n : nat) : list (world Z) := match n with O => [] | S n => tick k :: tick (k + 1) :: ticks (k + 2) n end.
Lemma ticks_clock n : forall k, clock k (ticks k n).
Proof. induction n as [|n IH]; intros k; cbn; [exact Logic.I|]. repeat split; try lia. specialize (IH (k + 2)). revert IH. apply clock_weaken. lia. Qed.
Theorem C42_idle_guaranteed_refuted :
  ~ (exists K, forall (m : nman Z Z) ws m' r ws' a b t0, new_manager m -> clock t0 ws -> nth_error ws a = Some b -> n_timeout m = Some 4 -> t0 + K <= t_out b ->
     nm_next idec m ws = (m', r, ws') -> r <> NWaiting).
Proof.
  intros (K & H).
  assert (L : forall n k (m : nman Z Z), n_conns m = [0%nat] -> n_garbage m = [] -> n_timeout m = Some 4 -> n_pulled m = [] -> n_queue m 0%nat = [] -> n_incoming m = None ->
     (match n_last m with Some l => l = k - 1 | None => True end) -> exists m', nm_loop idec m true (ticks k n) = (m', NWaiting, [])).
  { induction n as [|n IH]; intros k m C G T P Q I La.
    - cbn [ticks]. rewrite loop_step, I. eauto.
    - cbn [ticks]. rewrite loop_step, I. cbv zeta. unfold timedout. cbn [tick wq t_out]. rewrite T.
      set (m1 := match n_last m with Some _ => set_last m None | None => set_last m (Some k) end).
      assert (E1 : match n_last m with Some l => if negb (4 =? 0) && (l + 4 <=? k) then (set_last m None, true) else (set_last m None, false) | None => (set_last m (Some k), false) end = (m1, false)).
      { unfold m1. destruct (n_last m) as [l|]; [|reflexivity]. subst l. replace (k - 1 + 4 <=? k) with false by (symmetry; apply Z.leb_gt; lia). reflexivity. }
      assert (F1 : n_conns m1 = [0%nat] /\ n_garbage m1 = [] /\ n_timeout m1 = Some 4 /\ n_pulled m1 = [] /\ n_queue m1 0%nat = [] /\ n_incoming m1 = None /\ (n_last m1 = None \/ n_last m1 = Some k)).
      { unfold m1. destruct (n_last m); cbn; auto 10. }
      clearbody m1. rewrite E1. cbn [negb andb]. destruct F1 as (C1 & G1 & T1 & P1 & Q1 & I1 & L1).
      unfold pull_from_connections. rewrite C1. cbn [pull]. rewrite Q1, queue_next_none, P1 by auto. rewrite loop_step. cbn [set_incoming n_incoming n_timeout n_conns]. rewrite T1, C1. cbn [Z.eqb orb]. cbv zeta.
      unfold timedout. cbn [set_incoming n_last n_timeout t_out tick wq]. rewrite T1.
      set (m2 := match n_last m1 with None => set_last (set_incoming (set_incoming m1 (Some []) []) None []) (Some (k + 1)) | Some _ => set_last (set_incoming (set_incoming m1 (Some []) []) None []) None end).
      assert (E2 : match n_last m1 with Some l => if negb (4 =? 0) && (l + 4 <=? k + 1) then (set_last (set_incoming (set_incoming m1 (Some []) []) None []) None, true) else (set_last (set_incoming (set_incoming m1 (Some []) []) None []) None, false)
                    | None => (set_last (set_incoming (set_incoming m1 (Some []) []) None []) (Some (k + 1)), false) end = (m2, false)).
      { unfold m2. destruct L1 as [-> | ->]; [reflexivity|]. replace (k + 4 <=? k + 1) with false by (symmetry; apply Z.leb_gt; lia). reflexivity. }
      cbn [set_incoming n_pulled] in E2 |- *. rewrite E2.
      assert (F2 : n_conns m2 = [0%nat] /\ n_garbage m2 = [] /\ n_timeout m2 = Some 4 /\ n_pulled m2 = [] /\ n_queue m2 0%nat = [] /\ n_incoming m2 = None /\ (n_last m2 = None \/ n_last m2 = Some (k + 1))).
      { unfold m2. destruct L1 as [-> | ->]; cbn; auto 10. }
      clearbody m2. destruct F2 as (C2 & G2 & T2 & P2 & Q2 & I2 & L2). rewrite C2. cbn [negb andb].
      unfold wait_on_wires. rewrite T2. cbv beta iota.
      set (m3 := match n_last m2 with Some _ => m2 | None => set_last m2 (Some (t_wait (tick (k + 1)))) end).
      assert (F3 : n_conns m3 = [0%nat] /\ n_garbage m3 = [] /\ n_timeout m3 = Some 4 /\ n_pulled m3 = [] /\ n_queue m3 0%nat = [] /\ n_incoming m3 = None /\ n_last m3 = Some (k + 1)).
      { unfold m3. destruct L2 as [-> | L2]; [cbn; auto 10|]. rewrite L2. auto 10. }
      clearbody m3. destruct F3 as (C3 & G3 & T3 & P3 & Q3 & I3 & L3). cbv zeta. rewrite C3, G3. cbn [tick wq t_select t_closed t_exec no_exec collect].
      match goal with |- context [trash ?x []] => set (m5 := trash x []) end.
      assert (F5 : n_conns m5 = [0%nat] /\ n_garbage m5 = [] /\ n_timeout m5 = Some 4 /\ n_pulled m5 = [] /\ n_queue m5 0%nat = [] /\ n_incoming m5 = None /\ n_last m5 = Some (k + 1)).
      { unfold m5. cbn. unfold add_queue. cbn. rewrite Q3. auto 10. }
      clearbody m5. destruct F5 as (C5 & G5 & T5 & P5 & Q5 & I5 & L5). cbn [negb]. unfold pull_from_connections. rewrite C5. cbn [pull]. rewrite Q5, queue_next_none, P5 by auto.
      destruct (IH (k + 2) (set_incoming (set_incoming m5 (Some []) []) None [])) as (m' & E); cbn [set_incoming n_conns n_garbage n_timeout n_pulled n_queue n_incoming n_last]; auto; [rewrite L5; lia|].
      exists m'. rewrite <- E. rewrite !loop_step. cbn [n_incoming set_incoming n_timeout n_conns n_pulled]. rewrite T5, C5. cbn [Z.eqb orb]. reflexivity. }
  set (n := Z.to_nat (Z.max 1 K)).
  destruct (L (S n) 0 (m_of [0%nat] (Some 4))) as (m' & E); try reflexivity.
  assert (B : forall n k, nth_error (ticks k (S n)) (2 * n) = Some (tick (k + 2 * Z.of_nat n))).
  { clear. induction n as [|n IH]; intros k; [cbn; f_equal; f_equal; lia|]. replace (2 * S n)%nat with (S (S (2 * n))) by lia. change (ticks k (S (S n))) with (tick k :: tick (k + 1) :: ticks (k + 2) (S n)). cbn [nth_error].
    rewrite IH. f_equal. f_equal. lia. }
  refine (H (m_of [0%nat] (Some 4)) (ticks 0 (S n)) m' NWaiting [] (2 * n)%nat (tick (0 + 2 * Z.of_nat n)) 0 _ (ticks_clock _ _) (B _ _) eq_refl _ E eq_refl).
  - apply ex_new. lia.
  - cbn [tick wq t_out]. unfold n. lia.
Qed.
Print Assumptions C42_idle_guaranteed_refuted.
