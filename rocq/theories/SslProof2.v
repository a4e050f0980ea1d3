(** SslProof2.v: facts about the events of the whole *)
From Verif Require Import Base PBufferModel Element3Model PyStr IterModel IterProof PyDictProof SslModel SslSpec SslProof.

Definition of_sock (s : nat) (e : sev) : Prop :=
  match e with SOpen t | SPlain t _ | SRecv1 t | STls t | SStartup t | SClose t => t = s end.

Lemma plain_in s (ev : list sev) e : Forall (plain_only s) ev -> List.In e ev -> exists d, e = SPlain s d.
Proof. intros F I. rewrite Forall_forall in F. apply F. auto. Qed.

Section Events.
  Context {H : Type}.
  Notation attempt := (attempt H).

  Lemma shape_sock s ssl o ev d a e : shape s ssl o ev d a -> List.In e ev -> of_sock s e.
  Proof.
    intros S. assert (P : forall ev', Forall (plain_only s) ev' -> List.In e ev' -> of_sock s e).
    { intros ev' F I. apply (plain_in _ _ _ F) in I as (d' & ->). reflexivity. }
    destruct S; cbn; rewrite ?in_app_iff; cbn; intuition (subst; cbn; eauto).
  Qed.
  Lemma evs_sock out (a : attempt) e : faithful out a -> List.In e (evs out a) -> of_sock (a_num a) e.
  Proof.
    intros F I. destruct (faithful_shape _ _ F) as (ev & S & E). rewrite E in I. apply in_app_or in I as [I|I].
    - eapply shape_sock; eauto.
    - destruct (a_out a) as [|w exc []|]; cbn in I; intuition (subst; reflexivity).
  Qed.

  (** the events about a socket are those of its attempt *)
  Lemma num_unique (log : list attempt) n a b : map a_num log = seq n (length log) ->
    List.In a log -> List.In b log -> a_num a = a_num b -> a = b.
  Proof.
    intros E. assert (ND : NoDup (map a_num log)) by (rewrite E; apply seq_NoDup). clear E.
    induction log as [|c log IH]; [intros []|]. inversion ND as [|? ? N ND']; subst.
    intros [->|Ia] [->|Ib] En; auto.
    - exfalso. apply N. rewrite En. now apply in_map.
    - exfalso. apply N. rewrite <- En. now apply in_map.
  Qed.
  Lemma in_events out (log : list attempt) e : List.In e (concat (map (evs out) log)) ->
    exists a, List.In a log /\ List.In e (evs out a).
  Proof. rewrite in_concat. intros (l & I & Ie). apply in_map_iff in I as (a & <- & Ia). eauto. Qed.

  (** counts *)
  Lemma opens_app s a b : opens s (a ++ b) = (opens s a + opens s b)%nat.
  Proof. unfold opens. now rewrite filter_app, app_length. Qed.
  Lemma closes_app s a b : closes s (a ++ b) = (closes s a + closes s b)%nat.
  Proof. unfold closes. now rewrite filter_app, app_length. Qed.
  Lemma plain_app s a b : plain s (a ++ b) = plain s a ++ plain s b.
  Proof.
    induction a as [|e a IH]; cbn [plain app]; auto. destruct e; auto.
    destruct (Nat.eqb _ _); rewrite IH, ?app_assoc; auto.
  Qed.
  Lemma opens_zero s l : (forall e, List.In e l -> exists t, t <> s /\ of_sock t e) -> opens s l = O.
  Proof.
    induction l as [|e l IH]; intros F; cbn; auto. unfold opens in *. cbn [filter].
    destruct (F e (or_introl eq_refl)) as (t & N & O). rewrite <- (IH (fun e' I => F e' (or_intror I))).
    destruct e; cbn in O; auto. subst. destruct (Nat.eqb_spec t s); [contradiction|auto].
  Qed.
  Lemma closes_zero s l : (forall e, List.In e l -> exists t, t <> s /\ of_sock t e) -> closes s l = O.
  Proof.
    induction l as [|e l IH]; intros F; cbn; auto. unfold closes in *. cbn [filter].
    destruct (F e (or_introl eq_refl)) as (t & N & O). rewrite <- (IH (fun e' I => F e' (or_intror I))).
    destruct e; cbn in O; auto. subst. destruct (Nat.eqb_spec t s); [contradiction|auto].
  Qed.
  Lemma plain_zero s l : (forall e, List.In e l -> exists t, t <> s /\ of_sock t e) -> plain s l = [].
  Proof.
    induction l as [|e l IH]; intros F; cbn; auto.
    destruct (F e (or_introl eq_refl)) as (t & N & O). specialize (IH (fun e' I => F e' (or_intror I))).
    destruct e; cbn in O; auto. subst. destruct (Nat.eqb_spec t s); [contradiction|auto].
  Qed.

  (** one attempt's events in the middle of those of the others *)
  Lemma events_split out (log : list attempt) a n : Forall (faithful out) log ->
    map a_num log = seq n (length log) -> List.In a log ->
    exists u v, concat (map (evs out) log) = u ++ evs out a ++ v /\
      (forall e, List.In e u \/ List.In e v -> exists t, t <> a_num a /\ of_sock t e).
  Proof.
    intros F N I. destruct (in_split _ _ I) as (x & y & ->).
    exists (concat (map (evs out) x)), (concat (map (evs out) y)). split.
    - rewrite map_app, concat_app. cbn. reflexivity.
    - intros e Ie.
      assert (J : exists b, (List.In b x \/ List.In b y) /\ List.In e (evs out b))
        by (destruct Ie as [Ie|Ie]; apply in_events in Ie as (b & Ib & Ie); exists b; auto).
      destruct J as (b & Ib & Ie'). exists (a_num b). split.
      + rewrite map_app in N. cbn in N.
        assert (ND : NoDup (map a_num x ++ a_num a :: map a_num y)) by (rewrite N; apply seq_NoDup).
        apply NoDup_remove_2 in ND. intros E. apply ND. rewrite <- E, <- map_app. apply in_map, in_or_app. auto.
      + apply (evs_sock out b); auto. rewrite Forall_forall in F. apply F. apply in_or_app. cbn. tauto.
  Qed.

  Lemma plain_only_opens s ev : Forall (plain_only s) ev -> opens s ev = O /\ closes s ev = O.
  Proof. induction 1 as [|e ev (d & ->) F (IH1 & IH2)]; cbn; auto. Qed.

  Lemma evs_counts out (a : attempt) : faithful out a ->
    (opens (a_num a) (evs out a) <= 1)%nat /\
    closes (a_num a) (evs out a) =
      match a_out a with AFail _ _ _ => opens (a_num a) (evs out a) | _ => O end /\
    (a_out a = AOk -> opens (a_num a) (evs out a) = 1%nat).
  Proof.
    intros F. destruct (faithful_shape _ _ F) as (ev & S & E). rewrite E. clear E F.
    rewrite opens_app, closes_app. remember (a_num a) as s eqn:Es. remember (a_did a) as d eqn:Ed.
    remember (a_out a) as o eqn:Eo. clear Es Ed Eo.
    assert (P : forall pe tl, Forall (plain_only s) pe ->
      opens s (SOpen s :: pe ++ tl) = (1 + opens s tl)%nat /\ closes s (SOpen s :: pe ++ tl) = closes s tl).
    { intros pe tl Fp. apply plain_only_opens in Fp as (E1 & E2).
      change (SOpen s :: pe ++ tl) with ([SOpen s] ++ pe ++ tl). rewrite !opens_app, !closes_app, E1, E2.
      unfold opens at 1, closes at 1. cbn. rewrite Nat.eqb_refl. auto. }
    assert (C1 : closes s [SClose s] = 1%nat) by (unfold closes; cbn; now rewrite Nat.eqb_refl).
    assert (C2 : opens s [SClose s] = O) by reflexivity.
    assert (St : forall o o', o' = snd (startup s o) -> o' = AOk \/ o' = ARaise \/ exists e, o' = AFail WNegotiation e true)
      by (intros o0 o' ->; cbn; destruct (o_neg o0); eauto).
    destruct S as [Eo|Eo|o' Eo Es So|pe rst Eo Es Fp Er|pe b Eo Es Fp Er Eb N1 N2|pe Eo Es Fp Er Rf|pe o' Eo Es Fp Er Rf So|pe Eo Es Fp Er Ac|pe o' Eo Es Fp Er Ac So].
    - cbn. repeat split; try lia; discriminate.
    - cbn. repeat split; try lia; discriminate.
    - destruct (P [] [SStartup s] (Forall_nil _)) as (Q1 & Q2); cbn [app] in Q1, Q2; rewrite Q1, Q2; clear Q1 Q2.
      apply St in So as [-> | [-> | (e & ->)]]; rewrite ?C1, ?C2; cbn; repeat split; lia.
    - destruct (P pe [] Fp) as (E1 & E2). rewrite app_nil_r in E1, E2. rewrite E1, E2. cbn; repeat split; try lia; discriminate.
    - destruct (P pe [SRecv1 s] Fp) as (-> & ->). rewrite C1, C2. cbn; repeat split; try lia; discriminate.
    - destruct (P pe [SRecv1 s] Fp) as (-> & ->). rewrite C1, C2. cbn; repeat split; try lia; discriminate.
    - destruct (P pe [SRecv1 s; SStartup s] Fp) as (-> & ->).
      apply St in So as [-> | [-> | (e & ->)]]; rewrite ?C1, ?C2; cbn; repeat split; lia.
    - destruct (P pe [SRecv1 s] Fp) as (-> & ->). rewrite C1, C2. cbn; repeat split; try lia; discriminate.
    - destruct (P pe [SRecv1 s; STls s; SStartup s] Fp) as (-> & ->).
      apply St in So as [-> | [-> | (e & ->)]]; rewrite ?C1, ?C2; cbn; repeat split; lia.
  Qed.
End Events.
