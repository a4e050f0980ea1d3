(** CluProof2.v: the waits *)
From Verif Require Import Base PyStr PyInt PgcModel CluModel CluSpec CluProof.

Section CluP2.
Variable U : unicode. Variable dv : decimals. Variable E : env. Variable ancient : bool.

Lemma looks_waits t : Forall looks t -> Forall waits t.
Proof. apply Forall_impl. intros e H. now left. Qed.
Ltac wt := repeat (apply Forall_cons; [try (right; exact Logic.I); try (right; reflexivity); try (left; exact Logic.I); try (left; reflexivity)|]); try apply Forall_nil.
Hint Resolve looks_waits : core.
Ltac fw := repeat first [assumption | apply looks_waits; assumption | apply Forall_nil | apply Forall_app; split | apply Forall_cons; [first [right; exact Logic.I | right; reflexivity | left; exact Logic.I | left; reflexivity]|]].

Lemma look_at_spec fs : forall all pre, all = pre ++ fs -> Forall (plain ancient) pre ->
  match look_at ancient all fs with
  | Ret RTrue => exists a x b, all = a ++ x :: b /\ Forall (plain ancient) a /\ refuses ancient x
  | Ret RFalse => False
  | Ret (RNotReady f) => exists a b, all = a ++ f :: b /\ Forall (plain ancient) a /\ ~ refuses ancient f /\ x_notready f = true
  | Ret (RCannot l) => l = all /\ Forall (plain ancient) all
  | Raise (XServer f) => exists a b, all = a ++ f :: b /\ Forall (plain ancient) a /\ ~ refuses ancient f /\ x_config f = true
  | Raise _ => False
  end.
Proof.
  induction fs as [|x fs IH]; intros all pre Ea Fp; cbn [look_at].
  - rewrite app_nil_r in Ea. subst. auto.
  - destruct (x_authspec x || ancient && x_undefined x)%bool eqn:R.
    + exists pre, x, fs. split; [assumption|]. split; [assumption|]. apply orb_prop in R as [R|R]; [now left|]. apply andb_prop in R. now right.
    + assert (NR : ~ refuses ancient x). { intros [Q|[Q1 Q2]]; apply orb_false_elim in R as (R1 & R2); [congruence|]. rewrite Q1, Q2 in R2. discriminate. }
      destruct (x_config x) eqn:C; [exists pre, fs; auto|]. destruct (x_notready x) eqn:N; [exists pre, fs; auto|].
      apply (IH all (pre ++ [x])); [now rewrite <- app_assoc|]. apply Forall_app. split; [assumption|]. repeat constructor; assumption.
Qed.

(** a failing look *)
Lemma fileview_raise t x : fileview U dv t (Raise x) ->
  (exists a l e, t = a ++ [EPid (PLine l)] /\ py_int U dv 10 l = Err e /\ x = XValue) \/ (exists a n err, t = a ++ [EKill n 0 (Some err)] /\ err <> 3 /\ x = XOS err).
Proof.
  destruct x; cbn; intros H; try contradiction.
  - destruct H as (l & n & -> & _ & N). right. exists [EPid (PLine l)], n, errno. auto.
  - destruct H as (l & e & -> & P). left. exists [], l, e. auto.
Qed.
Lemma seen_raise d d' t x : seen_view U dv d d' t (Raise x) ->
  (exists a l e, t = a ++ [EPid (PLine l)] /\ py_int U dv 10 l = Err e /\ x = XValue) \/ (exists a n err, t = a ++ [EKill n 0 (Some err)] /\ err <> 3 /\ x = XOS err).
Proof.
  assert (Ap : forall b t, (exists a l e, t = a ++ [EPid (PLine l)] /\ py_int U dv 10 l = Err e /\ x = XValue) \/ (exists a n err, t = a ++ [EKill n 0 (Some err)] /\ err <> 3 /\ x = XOS err) ->
     (exists a l e, b ++ t = a ++ [EPid (PLine l)] /\ py_int U dv 10 l = Err e /\ x = XValue) \/ (exists a n err, b ++ t = a ++ [EKill n 0 (Some err)] /\ err <> 3 /\ x = XOS err)).
  { intros b t0 [(a & l & e & -> & P & Q) | (a & n & e & -> & P & Q)]; rewrite app_assoc; [left|right]; eauto 8. }
  unfold seen_view. destruct d as [p|]; [|intros (_ & H); now apply fileview_raise in H].
  destruct (p_rc p).
  - intros [(e & _ & X & _) | [(l & e & -> & P & X & _) | (l & n & v & -> & _ & _ & V)]]; try discriminate.
    + injection X as ->. left. exists [], l, e. auto.
    + apply (Ap [_]). now apply fileview_raise.
  - intros [(_ & X & _) | (rc & u & -> & [(e & _ & X & _) | [(l & e & -> & P & X & _) | (l & n & v & -> & _ & _ & V)]])]; try discriminate.
    + injection X as ->. left. exists [EPoll (Some rc)], l, e. auto.
    + apply (Ap [_; _]). now apply fileview_raise.
Qed.

Lemma address_spec w w' r : address U E w = (w', r) ->
  (exists c, w' = add [EConf (inl c)] w /\ r = Ret (address_of U c)) \/ (exists err, w' = add [EConf (inr err)] w /\ r = Raise (XOS err)).
Proof. unfold address, bindM, ask. cbv beta zeta. destruct (e_conf _ _); intros H; injection H as <- <-; [left|right]; eexists; split; reflexivity. Qed.

(** what [ready_for_connections] has seen *)
Definition ready_view (t : list event) (r : out ready) : Prop :=
  match r with
  | Ret RTrue => exists u c h p a, t = u ++ [EConf (inl c); EConnect h p ping_user a] /\ up_seen U dv u /\ address_of U c = (Some h, Some p) /\ answers ancient a
  | Ret RFalse => True
  | Ret (RNotReady f) => exists u h p a b, t = u ++ [EConnect h p ping_user (PCannot (a ++ f :: b))] /\ Forall (plain ancient) a /\ ~ refuses ancient f /\ x_notready f = true
  | Ret (RCannot _) => True
  | Raise (XServer f) => exists u h p a b, t = u ++ [EConnect h p ping_user (PCannot (a ++ f :: b))] /\ Forall (plain ancient) a /\ ~ refuses ancient f /\ x_config f = true
  | Raise (XOther n) => exists u h p, t = u ++ [EConnect h p ping_user (POther n)]
  | Raise XType => exists u c, t = u ++ [EConf (inl c)] /\ (fst (address_of U c) = None \/ snd (address_of U c) = None)
  | Raise XValue => exists u l e, t = u ++ [EPid (PLine l)] /\ py_int U dv 10 l = Err e
  | Raise (XOS err) => exists u, t = u ++ [EConf (inr err)] \/ exists n, t = u ++ [EKill n 0 (Some err)] /\ err <> 3
  | Raise _ => False
  end.
Lemma ready_spec w w' r : ready_for_connections U dv E ancient w = (w', r) ->
  exists t, w_hist w' = w_hist w ++ t /\ Forall waits t /\ ready_view t r.
Proof.
  unfold ready_for_connections. intros H. apply bindM_inv in H as [(w1 & b & H1 & H2) | (x & H1 & ->)]; apply running_spec in H1 as (t0 & Eh & V); pose proof (seen_looks _ _ _ _ _ _ V) as L.
  - destruct b; cbn [negb] in H2.
    + apply bindM_inv in H2 as [(w2 & a & H2 & H3) | (x & H2 & ->)]; apply address_spec in H2 as [(c & -> & Q) | (err & -> & Q)]; try discriminate.
      * injection Q as ->. unfold try_connect in H3. destruct (address_of U c) as [[h|] [p|]] eqn:A; cbn [fst snd] in H3.
        2,3,4 : injection H3 as <- <-; cbn [add w_hist]; rewrite Eh, <- app_assoc; eexists; (split; [reflexivity|]); (split; [apply Forall_app; split; [auto|wt]|]); exists t0, c; rewrite A; cbn; auto.
        unfold bindM, ask in H3. cbv beta zeta in H3. destruct (e_connect _ _ _ _) as [|fs|n].
        -- injection H3 as <- <-. cbn [add w_hist w_proc]. rewrite Eh, <- !app_assoc. eexists. split; [reflexivity|]. split; [apply Forall_app; split; [auto|wt]|]. exists t0, c, h, p, PConnected. split; [reflexivity|]. split; [eapply seen_up; exact V|]. split; [assumption|]. now left.
        -- pose proof (look_at_spec fs fs [] eq_refl (Forall_nil _)) as LA. injection H3 as <- <-. cbn [add w_hist w_proc]. rewrite Eh, <- !app_assoc. eexists. split; [reflexivity|]. split; [apply Forall_app; split; [auto|wt]|].
           destruct (look_at ancient fs fs) as [[]|[]]; cbn; try contradiction; auto.
           ++ destruct LA as (a & x & b & -> & F & R). exists t0, c, h, p, (PCannot (a ++ x :: b)). split; [reflexivity|]. split; [eapply seen_up; exact V|]. split; [assumption|]. right. exists a, x, b. auto.
           ++ destruct LA as (a & b & -> & F & R & N). exists (t0 ++ [EConf (inl c)]), h, p, a, b. rewrite <- app_assoc. auto.
           ++ destruct LA as (a & b & -> & F & R & N). exists (t0 ++ [EConf (inl c)]), h, p, a, b. rewrite <- app_assoc. auto.
        -- injection H3 as <- <-. cbn [add w_hist w_proc]. rewrite Eh, <- !app_assoc. eexists. split; [reflexivity|]. split; [apply Forall_app; split; [auto|wt]|]. exists (t0 ++ [EConf (inl c)]), h, p. rewrite <- app_assoc. reflexivity.
      * injection Q as ->. cbn [add w_hist w_proc]. rewrite Eh, <- !app_assoc. eexists. split; [reflexivity|]. split; [apply Forall_app; split; [auto|wt]|]. exists t0. now left.
    + injection H2 as <- <-. exists t0. split; [assumption|]. split; [auto|exact Logic.I].
  - exists t0. split; [assumption|]. split; [auto|]. apply seen_raise in V as [(a & l & e & -> & P & ->) | (a & n & err & -> & P & ->)]; cbn; [eauto|]. exists a. right. eauto.
Qed.

Lemma started_more s T t0 t d r : started U dv ancient s T t d r -> started U dv ancient s T (t0 ++ t) d r.
Proof.
  intros H. destruct H; rewrite ?(app_assoc t0).
  - now apply st_ready.
  - apply st_ended. now apply down_app.
  - apply st_none. now apply down_app.
  - now apply st_timeout.
  - now apply st_notready.
  - now apply st_config.
  - apply st_other.
  - now apply st_noaddress.
  - apply st_noconfig.
  - now eapply st_badpid; eauto.
  - now apply st_kill.
Qed.
Lemma started_loop_spec s T d fuel : forall w w' r, started_loop U dv E ancient fuel s T d w = (w', r) -> r <> Raise XFuel ->
  exists t, w_hist w' = w_hist w ++ t /\ Forall waits t /\ started U dv ancient s T t (w_proc w') r.
Proof.
  induction fuel as [|fuel IH]; intros w w' r H NF; [injection H as <- <-; congruence|]. cbn [started_loop] in H.
  apply bindM_inv in H as [(w1 & b & H1 & H2) | (x & H1 & ->)]; apply running_spec in H1 as (t0 & Eh & V); pose proof (seen_looks _ _ _ _ _ _ V) as L.
  2: { exists t0. split; [assumption|]. split; [auto|]. apply seen_raise in V as [(a & l & e & -> & P & ->) | (a & n & err & -> & P & ->)]; [eapply st_badpid|apply st_kill]; eauto. }
  unfold bindM at 1, get_proc in H2.
  assert (C : (b = false /\ ((w_proc w1 = None /\ w' = w1 /\ r = Raise XNotRunning) \/ (exists n rc, w_proc w1 = Some {| p_pid := n; p_rc := Some rc |} /\ w' = w1 /\ r = Raise (XStartup rc))))
     \/ bindM (ready_for_connections U dv E ancient) (fun r0 => bindM (ask (e_time E) ETime) (fun now => match r0 with RTrue => ret tt | _ => if T <=? now - s then match r0 with RNotReady f => raise (XServer f) | _ => raise XTimeout end else bindM (note (ESleep d)) (fun _ => started_loop U dv E ancient fuel s T d) end)) w1 = (w', r)).
  { destruct b.
    - right. exact H2.
    - left. split; [reflexivity|]. destruct (seen_down _ _ _ _ _ V) as (_ & N). destruct (w_proc w1) as [[n [rc|]]|]; cbn [p_rc] in H2.
      + injection H2 as <- <-. right. eauto.
      + exfalso. exact (N _ eq_refl eq_refl).
      + injection H2 as <- <-. left. auto. }
  destruct C as [(-> & [(Q & -> & ->) | (n & rc & Q & -> & ->)]) | C].
  { exists t0. split; [assumption|]. split; [auto|]. rewrite Q. apply st_none. eapply proj1, seen_down. exact V. }
  { exists t0. split; [assumption|]. split; [auto|]. rewrite Q. apply st_ended. eapply proj1, seen_down. exact V. }
  clear H2. apply bindM_inv in C as [(w2 & q & H2 & H3) | (x & H2 & ->)]; apply ready_spec in H2 as (t1 & E1 & F1 & R1).
  - unfold bindM at 1, ask in H3. cbv beta zeta in H3. set (now := e_time E (w_hist w2)) in *. clearbody now.
    assert (K : forall f, q <> RTrue -> (T <= now - s -> r = Raise f /\ w' = {| w_proc := w_proc w2; w_hist := w_hist w2 ++ [ETime now] |} -> started U dv ancient s T ((t0 ++ t1) ++ [ETime now]) (w_proc w') r) -> 
       (if T <=? now - s then raise f else bindM (note (ESleep d)) (fun _ => started_loop U dv E ancient fuel s T d)) {| w_proc := w_proc w2; w_hist := w_hist w2 ++ [ETime now] |} = (w', r) ->
       exists t, w_hist w' = w_hist w ++ t /\ Forall waits t /\ started U dv ancient s T t (w_proc w') r).
    { intros f NT TO H. destruct (Z.leb_spec T (now - s)) as [LE|LT].
      - injection H as <- <-. cbn [w_hist w_proc] in *. rewrite E1, Eh. exists ((t0 ++ t1) ++ [ETime now]). rewrite <- !app_assoc. split; [reflexivity|]. split; [|rewrite !app_assoc; apply TO; auto]. rewrite !Forall_app. split; [auto|]. split; [auto|]. wt.
      - unfold bindM, note in H. apply IH in H as (t & Et & Ft & St); [|assumption]. cbn [w_hist] in Et. rewrite E1, Eh, <- !app_assoc in Et. eexists. split; [exact Et|]. split; [fw|]. repeat apply started_more. exact St. }
    destruct q as [| |f|fs].
    + injection H3 as <- <-. cbn [w_hist w_proc]. rewrite E1, Eh, <- !app_assoc. destruct R1 as (u & c & h & p & a & -> & UP & A & AN). eexists. split; [reflexivity|]. split; [fw|].
      rewrite <- app_assoc. cbn [app]. now apply st_ready.
    + apply (K XTimeout); [discriminate| |exact H3]. intros LE (-> & _). apply st_timeout. assumption.
    + apply (K (XServer f)); [discriminate| |exact H3]. intros LE (-> & _). destruct R1 as (u & h & p & a & b' & -> & Fp & R & N). rewrite <- !app_assoc. cbn [app]. rewrite app_assoc. now apply st_notready.
    + apply (K XTimeout); [discriminate| |exact H3]. intros LE (-> & _). apply st_timeout. assumption.
  - exists (t0 ++ t1). rewrite E1, Eh, <- app_assoc. split; [reflexivity|]. split; [apply Forall_app; auto|]. apply started_more. destruct x; cbn in R1; try contradiction.
    + destruct R1 as (u & h & p & a & b' & -> & Fp & R & N). now apply st_config.
    + destruct R1 as (u & h & p & ->). apply st_other.
    + destruct R1 as (u & [-> | (n & -> & N)]); [apply st_noconfig|now apply st_kill].
    + destruct R1 as (u & l & e & -> & P). eapply st_badpid. exact P.
    + destruct R1 as (u & c & -> & P). apply st_noaddress. exact P.
Qed.

Lemma stopped_more s T t0 t d r : stopped U dv s T t d r -> stopped U dv s T (t0 ++ t) d r.
Proof.
  intros H. destruct H; rewrite ?(app_assoc t0).
  - apply sp_down; [now apply down_app|assumption].
  - now apply sp_timeout.
  - now eapply sp_badpid; eauto.
  - now apply sp_kill.
  - apply sp_race_file.
  - apply sp_race_kill.
Qed.
Lemma poll_spec p w w' r : poll E p w = (w', r) -> exists rc t, r = Ret rc /\ w_hist w' = w_hist w ++ t /\ Forall looks t.
Proof.
  unfold poll. destruct (p_rc p) as [rc|].
  - intros H. injection H as <- <-. exists (Some rc), []. rewrite app_nil_r. auto.
  - unfold bindM, ask, set_proc, ret. cbv beta zeta. destruct (e_poll _ _) as [rc|]; intros H; injection H as <- <-; cbn [w_hist]; eexists _, [_]; repeat split; repeat constructor.
Qed.
Lemma stopped_loop_spec s T d fuel : forall w w' r, stopped_loop U dv E fuel s T d w = (w', r) -> r <> Raise XFuel ->
  exists t, w_hist w' = w_hist w ++ t /\ Forall waits t /\ stopped U dv s T t (w_proc w') r.
Proof.
  induction fuel as [|fuel IH]; intros w w' r H NF; [injection H as <- <-; congruence|]. cbn [stopped_loop] in H.
  apply bindM_inv in H as [(w1 & b & H1 & H2) | (x & H1 & ->)]; apply running_spec in H1 as (t0 & Eh & V); pose proof (seen_looks _ _ _ _ _ _ V) as L.
  2: { exists t0. split; [assumption|]. split; [auto|]. apply seen_raise in V as [(a & l & e & -> & P & ->) | (a & n & err & -> & P & ->)]; [eapply sp_badpid|apply sp_kill]; eauto. }
  destruct b; cbn [negb] in H2.
  2: { injection H2 as <- <-. exists t0. split; [assumption|]. split; [auto|]. destruct (seen_down _ _ _ _ _ V). now apply sp_down. }
  unfold bindM at 1, get_proc in H2. apply bindM_inv in H2 as [(w2 & q & H2 & H3) | (x & H2 & ->)].
  - assert (G : exists t1, w_hist w2 = w_hist w1 ++ t1 /\ Forall looks t1).
    { destruct (w_proc w1) as [p|].
      - apply bindM_inv in H2 as [(w3 & q' & H2 & H4) | (x & _ & X)]; [|discriminate]. injection H4 as <- <-. apply poll_spec in H2 as (rc & t & _ & Q & F). eauto.
      - apply bindM_inv in H2 as [(w3 & q' & H2 & H4) | (x & _ & X)]; [|discriminate]. apply pid_file in H2 as (f & _ & -> & Q). destruct q' as [n|]; [|discriminate H4].
        unfold bindM in H4. rewrite kill_eq in H4. rewrite add_add in H4. destruct (e_kill _ _ _ _); [discriminate H4|]. injection H4 as <- <-. cbn [add w_hist]. eexists. split; [reflexivity|]. repeat constructor. }
    destruct G as (t1 & E1 & F1). unfold bindM at 1, ask in H3. cbv beta zeta in H3. set (now := e_time E (w_hist w2)) in *. clearbody now. destruct (Z.leb_spec T (now - s)) as [LE|LT].
    + injection H3 as <- <-. cbn [w_hist w_proc]. rewrite E1, Eh, <- !app_assoc. eexists. split; [reflexivity|]. split; [rewrite !Forall_app; split; [auto|]; split; [auto|wt]|]. rewrite app_assoc. now apply sp_timeout.
    + unfold bindM, note in H3. apply IH in H3 as (t & Et & Ft & St); [|assumption]. cbn [w_hist] in Et. rewrite E1, Eh, <- !app_assoc in Et. eexists. split; [exact Et|]. split; [fw|]. repeat apply stopped_more. assumption.
  - destruct (w_proc w1) as [p|] eqn:D1.
    + apply bindM_inv in H2 as [(w3 & q' & H2 & H4) | (y & H2 & X)]; [discriminate H4|]. apply poll_spec in H2 as (rc & t & Q & _). discriminate.
    + apply bindM_inv in H2 as [(w3 & q' & H2 & H4) | (y & H2 & X)].
      * apply pid_file in H2 as (f & _ & -> & Q). destruct q' as [n|].
        -- unfold bindM in H4. rewrite kill_eq in H4. rewrite add_add in H4. destruct (e_kill _ _ _ _) as [err|]; [|discriminate H4]. injection H4 as <- <-. cbn [add w_hist w_proc]. rewrite D1, Eh, <- app_assoc. eexists. split; [reflexivity|]. split; [rewrite Forall_app; split; [auto|]; cbn [app]; wt|].
           cbn [app]. replace (t0 ++ [EPid f; EKill n 0 (Some err)]) with ((t0 ++ [EPid f]) ++ [EKill n 0 (Some err)]) by (rewrite <- app_assoc; reflexivity). destruct (Z.eq_dec err 3) as [->|N]; [apply sp_race_kill|now apply sp_kill].
        -- injection H4 as <- <-. cbn [add w_hist w_proc]. rewrite D1, Eh, <- app_assoc. eexists. split; [reflexivity|]. split; [rewrite Forall_app; split; [auto|wt]|]. destruct f as [l|err]; [destruct (py_int U dv 10 l); discriminate|]. apply sp_race_file.
      * injection X as <-. apply pid_file in H2 as (f & _ & -> & Q). cbn [add w_hist w_proc]. rewrite Eh, <- app_assoc. eexists. split; [reflexivity|]. split; [rewrite Forall_app; split; [auto|wt]|].
        destruct f as [l|err]; [|discriminate]. destruct (py_int U dv 10 l) as [|e] eqn:P; [discriminate|]. injection Q as ->. eapply sp_badpid. exact P.
Qed.
End CluP2.
