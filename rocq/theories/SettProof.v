(** SettProof.v *)
From Verif Require Import Base BaseProof PyStr PyDict PyDictProof StrModel SettModel SettSpec.

Section sett.
Context {V : Type} (eqv : V -> V -> bool) (P : pg V) (OK : pg_ok eqv P) (U : unicode).
Notation state := (state V).

Lemma resolve_known k : In k (pg_names P) -> resolve P k = Some k.
Proof.
  unfold resolve. pose proof (po_names eqv P OK) as N. revert N. generalize (pg_names P) as l. induction l as [|n l IH]; intros N I; [easy|].
  cbn [find map] in *. inversion N; subst. destruct (seqb_spec (fold_case n) (fold_case k)) as [E|E].
  - destruct I as [->|I]; auto. exfalso. apply H1. rewrite E. now apply in_map.
  - destruct I as [->|I]; [congruence|auto].
Qed.
Lemma resolve_in k n : resolve P k = Some n -> In n (pg_names P).
Proof. unfold resolve. intros E. now apply find_some in E. Qed.
Lemma eqv_ne a b : eqv a b = false -> a <> b.
Proof. intros E Q. apply (po_eq eqv P OK) in Q. congruence. Qed.
Lemma mem_in k l : existsb (seqb k) l = true <-> In k l.
Proof. rewrite existsb_exists. split; [intros (x & I & E); destruct (seqb_spec k x); congruence|intros I; exists k; split; auto; destruct (seqb_spec k k); congruence]. Qed.

(** reports *)
Lemma fold_reports l g c k : dget k (fold_left (fun c n => dset n (pg_show P n (g n)) c) l c) = if existsb (seqb k) l then Some (pg_show P k (g k)) else dget k c.
Proof.
  revert c. induction l as [|n l IH]; intros c; [auto|]. cbn [fold_left existsb]. rewrite IH, dget_set.
  destruct (existsb (seqb k) l) eqn:E; [now rewrite orb_true_r|]. rewrite orb_false_r. destruct (seqb_spec k n) as [->|]; auto.
Qed.
Lemma reports_get f g c k : dget k (reports eqv P f g c) = if existsb (seqb k) (changed eqv P f g) then Some (pg_show P k (g k)) else dget k c.
Proof. apply fold_reports. Qed.
Lemma changed_in f g k : existsb (seqb k) (changed eqv P f g) = true <-> In k (pg_names P) /\ pg_report P k = true /\ f k <> g k.
Proof.
  rewrite mem_in. unfold changed. rewrite filter_In, andb_true_iff, negb_true_iff. split.
  - intros (I & R & E). split; auto. split; auto. now apply eqv_ne.
  - intros (I & R & E). split; auto. split; auto. destruct (eqv (f k) (g k)) eqn:Q; auto. apply (po_eq eqv P OK) in Q. congruence.
Qed.
(** after the server moved: coherent but for what changed and is not reported *)
Lemma goes_coh on s st : coherent P on st ->
  forall k v, dget k (st_cache (goes eqv P s st)) = Some v ->
  In k (pg_names P) /\ (on k = true -> in_force P (goes eqv P s st) k v \/ (pg_report P k = false /\ s_cur (st_srv st) k <> s_cur s k)).
Proof.
  intros C k v. cbn [goes st_cache]. rewrite reports_get. destruct (existsb (seqb k) (changed eqv P (s_cur (st_srv st)) (s_cur s))) eqn:E.
  - apply changed_in in E as (I & R & Ne). intros [= <-]. split; auto. intros _. left. unfold in_force. cbn. now apply (po_show eqv P OK).
  - intros G. destruct (C k v G) as (I & F). split; auto. intros O. specialize (F O). unfold in_force in *. cbn [goes st_srv].
    destruct (eqv (s_cur (st_srv st) k) (s_cur s k)) eqn:Q; [apply (po_eq eqv P OK) in Q; left; congruence|]. apply eqv_ne in Q.
    right. split; auto. destruct (pg_report P k) eqn:R; auto. exfalso. assert (T : existsb (seqb k) (changed eqv P (s_cur (st_srv st)) (s_cur s)) = true) by (apply changed_in; auto). congruence.
Qed.
Lemma goes_same on s st : coherent P on st -> (forall k, s_cur s k = s_cur (st_srv st) k) -> coherent P on (goes eqv P s st).
Proof. intros C E k v G. destruct (goes_coh on s st C k v G) as (I & F). split; auto. intros O. destruct (F O) as [H|(_ & H)]; auto. now rewrite E in H. Qed.

(** statements *)
Lemma statement_cases {R} (c : (text -> V) -> option ((text -> V) * R)) s s' r : statement c s = (s', r) ->
  match r with
  | None => forall k, s_cur s' k = s_cur s k
  | Some a => s_failed s = false /\ s_failed s' = false /\ s_saved s' = s_saved s /\ c (s_cur s) = Some (s_cur s', a)
  end.
Proof.
  unfold statement. destruct (s_failed s) eqn:F; [intros [= <- <-]; auto|].
  destruct (c (s_cur s)) as [[f a]|] eqn:E; intros [= <- <-]; cbn; auto.
Qed.
Lemma execute_cases {R} (c : (text -> V) -> option ((text -> V) * R)) st st' r : execute eqv P c st = (st', r) ->
  exists s, st' = goes eqv P s st /\
  match r with
  | None => forall k, s_cur s k = s_cur (st_srv st) k
  | Some a => c (s_cur (st_srv st)) = Some (s_cur s, a) /\ s_failed (st_srv st) = false
  end.
Proof.
  unfold execute. destruct (statement c (st_srv st)) as [s o] eqn:E. intros [= <- <-]. exists s. split; auto. apply statement_cases in E. destruct o; tauto.
Qed.
Lemma query_coh {R} on (q : (text -> V) -> R) st st' r : coherent P on st -> execute eqv P (query q) st = (st', r) ->
  coherent P on st' /\ (forall k, s_cur (st_srv st') k = s_cur (st_srv st) k) /\ (forall a, r = Some a -> a = q (s_cur (st_srv st))) /\ (s_failed (st_srv st) = false -> r <> None).
Proof.
  intros C E. assert (F : s_failed (st_srv st) = false -> r <> None).
  { unfold execute, statement in E. intros F. rewrite F in E. cbn in E. injection E as _ <-. discriminate. }
  apply execute_cases in E as (s & -> & E). assert (Q : forall k, s_cur s k = s_cur (st_srv st) k).
  { destruct r; auto. destruct E as (E & _). unfold query in E. injection E as <- _. auto. }
  split; [now apply goes_same|]. split; auto. split; auto. intros a ->. destruct E as (E & _). unfold query in E. now injection E.
Qed.
Lemma set_config_spec k v f g t : set_config P k v f = Some (g, t) -> exists n x, resolve P k = Some n /\
  match v with None => Some (pg_default P n) | Some u => pg_parse P n u end = Some x /\ g n = x /\ (forall m, m <> n -> g m = f m) /\ t = pg_show P n x.
Proof.
  unfold set_config. destruct (resolve P k) as [n|]; [|discriminate]. destruct (match v with None => _ | Some u => _ end) as [x|] eqn:E; [|discriminate].
  intros [= <- <-]. exists n, x. split; auto. split; auto. unfold put. split; [now destruct (seqb_spec n n)|]. split; auto. intros m Ne. destruct (seqb_spec m n); congruence.
Qed.
(** the server set [k] (as spelled), and the client remembers it *)
Lemma set_coh on k v st st' t : In k (pg_names P) -> coherent P on st -> execute eqv P (set_config P k v) st = (st', Some t) ->
  coherent P on (with_cache (dset k t (st_cache st')) st') /\ in_force P st' k t /\ (forall m, m <> k -> s_cur (st_srv st') m = s_cur (st_srv st) m) /\
  match v with None => s_cur (st_srv st') k = pg_default P k | Some u => pg_parse P k u = Some (s_cur (st_srv st') k) end.
Proof.
  intros I C E. apply execute_cases in E as (s & -> & E & _). apply set_config_spec in E as (n & x & R & X & G & O & ->).
  rewrite (resolve_known k I) in R. injection R as <-. cbn [goes st_srv] in *.
  assert (If : in_force P (goes eqv P s st) k (pg_show P k x)). { unfold in_force. cbn. rewrite G. now apply (po_show eqv P OK). }
  split; [|split; [exact If|split; [exact O|]]].
  - intros j w. cbn [with_cache st_cache]. rewrite dget_set. destruct (seqb_spec j k) as [->|Ne].
    + intros [= <-]. split; auto.
    + intros D. destruct (goes_coh on s st C j w D) as (J & F). split; auto. intros On. destruct (F On) as [H|(_ & H)]; auto. now rewrite O in H.
  - destruct v; cbn in *; congruence.
Qed.
Lemma sets_spec d : forall f g r, set_configs P d f = Some (g, r) -> Forall (fun k => In k (pg_names P)) (map fst d) ->
  map fst r = map fst d /\ (forall m, ~ In m (map fst d) -> g m = f m).
Proof.
  induction d as [|[k v] d IH]; intros f g r E F; cbn [set_configs] in E.
  - injection E as <- <-. cbn. auto.
  - destruct (set_config P k v f) as [[f1 t]|] eqn:S; [|discriminate]. destruct (set_configs P d f1) as [[f2 r2]|] eqn:S2; [|discriminate]. injection E as <- <-.
    inversion F; subst. destruct (IH f1 f2 r2 S2 H2) as (K & O). cbn [map fst]. split; [now rewrite K|].
    intros m N. rewrite O by (intros Q; apply N; now right). apply set_config_spec in S as (n & x & R & X & G & O1 & _). rewrite (resolve_known k H1) in R. injection R as <-. apply O1. intros ->. apply N. now left.
Qed.
(** the rows of setting_update, remembered in order *)
Lemma sets_cache d : forall f g r c, set_configs P d f = Some (g, r) -> Forall (fun k => In k (pg_names P)) (map fst d) ->
  forall k, dget k (dupdate c r) = if existsb (seqb k) (map fst d) then Some (pg_show P k (g k)) else dget k c.
Proof.
  induction d as [|[k v] d IH]; intros f g r c E F j; cbn [set_configs] in E.
  - injection E as <- <-. auto.
  - destruct (set_config P k v f) as [[f1 t]|] eqn:S; [|discriminate]. destruct (set_configs P d f1) as [[f2 r2]|] eqn:S2; [|discriminate]. injection E as <- <-.
    inversion F; subst. unfold dupdate. cbn [fold_left fst snd map existsb]. change (fold_left (fun d p => dset (fst p) (snd p) d) r2 (dset k t c)) with (dupdate (dset k t c) r2).
    rewrite (IH f1 f2 r2 (dset k t c) S2 H2 j). destruct (existsb (seqb j) (map fst d)) eqn:Q; [now rewrite orb_true_r|]. rewrite orb_false_r, dget_set.
    destruct (seqb_spec j k) as [->|]; auto. f_equal. apply set_config_spec in S as (n & x & R & X & G & O1 & ->). rewrite (resolve_known k H1) in R. injection R as <-.
    destruct (sets_spec d f1 f2 r2 S2 H2) as (_ & O). rewrite O; [now rewrite G|]. intros Q2. apply mem_in in Q2. congruence.
Qed.
Lemma update_coh on d st st' r : Forall (fun k => In k (pg_names P)) (map fst d) -> coherent P on st -> update eqv P d st = (st', r) ->
  coherent P on st' /\ (forall m, ~ In m (map fst d) \/ r <> None -> s_cur (st_srv st') m = s_cur (st_srv st) m).
Proof.
  intros F C E. unfold update in E. destruct (execute eqv P (set_configs P d) st) as [st1 o] eqn:X. apply execute_cases in X as (s & -> & X). destruct o as [rows|].
  - destruct X as (X & _). injection E as <- <-. destruct (sets_spec d _ _ _ X F) as (_ & O). split.
    + intros k v. cbn [with_cache st_cache]. rewrite (sets_cache d _ _ _ _ X F). destruct (existsb (seqb k) (map fst d)) eqn:Q.
      * intros [= <-]. apply mem_in in Q. pose proof (proj1 (Forall_forall _ _) F k Q) as I. split; auto. intros _. unfold in_force. cbn. now apply (po_show eqv P OK).
      * intros D. destruct (goes_coh on s st C k v D) as (I & G). split; auto. intros On. destruct (G On) as [H|(_ & H)]; auto. exfalso. apply H. symmetry. apply O. intros Q2. apply mem_in in Q2. congruence.
    + intros m [N|N]; [|congruence]. cbn. now apply O.
  - injection E as <- <-. split; [now apply goes_same|]. intros m _. cbn. apply X.
Qed.
(** values: each key gets the last value given *)
Lemma sets_value d : forall f g r, set_configs P d f = Some (g, r) -> Forall (fun k => In k (pg_names P)) (map fst d) -> NoDup (map fst d) ->
  forall k v, In (k, v) d -> match v with None => g k = pg_default P k | Some u => pg_parse P k u = Some (g k) end.
Proof.
  induction d as [|[k v] d IH]; intros f g r E F N j w I; [easy|]. cbn [set_configs] in E.
  destruct (set_config P k v f) as [[f1 t]|] eqn:S; [|discriminate]. destruct (set_configs P d f1) as [[f2 r2]|] eqn:S2; [|discriminate]. injection E as <- <-.
  inversion F; subst. inversion N; subst. destruct I as [I|I]; [|eapply IH; eauto]. injection I as <- <-.
  apply set_config_spec in S as (n & x & R & X & G & O1 & _). rewrite (resolve_known k H1) in R. injection R as <-.
  destruct (sets_spec d f1 f2 r2 S2 H2) as (_ & O). rewrite (O k H3). destruct v; cbn in *; congruence.
Qed.
Lemma sets_restore d m : forall f g r x, set_configs P d f = Some (g, r) ->
  (forall k t, In (k, t) d -> resolve P k = Some m -> exists u, t = Some u /\ pg_parse P m u = Some x) -> (exists k t, In (k, t) d /\ resolve P k = Some m) -> g m = x.
Proof.
  induction d as [|[k v] d IH]; intros f g r x E A B; cbn [set_configs] in E; [destruct B as (? & ? & [] & _)|].
  destruct (set_config P k v f) as [[f1 t]|] eqn:S; [|discriminate]. destruct (set_configs P d f1) as [[f2 r2]|] eqn:S2; [|discriminate]. injection E as <- <-.
  destruct (existsb (fun p => match resolve P (fst p) with Some n => seqb n m | None => false end) d) eqn:Q.
  - apply existsb_exists in Q as ([k2 t2] & I2 & Q). cbn [fst] in Q. destruct (resolve P k2) as [n|] eqn:R; [|discriminate]. destruct (seqb_spec n m) as [->|]; [|discriminate].
    eapply IH; [exact S2|intros; apply A with k0; auto; now right|]. exists k2, t2. auto.
  - assert (O : f2 m = f1 m).
    { revert f1 f2 r2 S S2 Q. clear. induction d as [|[k2 v2] d IH]; intros f1 f2 r2 S S2 Q; cbn [set_configs] in S2; [injection S2 as <- _; auto|].
      cbn [existsb fst] in Q. apply orb_false_iff in Q as (Q1 & Q2). destruct (set_config P k2 v2 f1) as [[f3 t3]|] eqn:S3; [|discriminate]. destruct (set_configs P d f3) as [[f4 r4]|] eqn:S4; [|discriminate]. injection S2 as <- _.
      assert (E4 : f4 m = f3 m). { assert (Hx : forall d f3 f4 r4, set_configs P d f3 = Some (f4, r4) -> existsb (fun p => match resolve P (fst p) with Some n => seqb n m | None => false end) d = false -> f4 m = f3 m).
        { clear. induction d as [|[k v] d IH]; intros f3 f4 r4 E Q; cbn [set_configs] in E; [injection E as <- _; auto|]. cbn [existsb fst] in Q. apply orb_false_iff in Q as (Q1 & Q2).
          destruct (set_config P k v f3) as [[f5 t5]|] eqn:S5; [|discriminate]. destruct (set_configs P d f5) as [[f6 r6]|] eqn:S6; [|discriminate]. injection E as <- _. rewrite (IH _ _ _ S6 Q2).
          apply set_config_spec in S5 as (n & x & R & _ & _ & O & _). rewrite R in Q1. apply O. intros ->. destruct (seqb_spec n n); congruence. }
        exact (Hx d f3 f4 r4 S4 Q2). }
      rewrite E4. apply set_config_spec in S3 as (n & x & R & _ & _ & O & _). rewrite R in Q1. apply O. intros ->. destruct (seqb_spec n n); congruence. }
    rewrite O. destruct B as (k2 & t2 & [B|B] & R).
    + injection B as <- <-. destruct (A k v (or_introl eq_refl) R) as (u & -> & Pu). apply set_config_spec in S as (n & y & R2 & X & G & _ & _). rewrite R in R2. injection R2 as <-. rewrite G. congruence.
    + exfalso. rewrite <- not_true_iff_false in Q. apply Q. apply existsb_exists. exists (k2, t2). split; auto. cbn [fst]. rewrite R. destruct (seqb_spec m m); congruence.
Qed.
(** reading *)
Lemma getitem_spec on k st st' r : In k (pg_names P) -> coherent P on st -> getitem eqv P k st = (st', r) ->
  coherent P on st' /\ (forall m, s_cur (st_srv st') m = s_cur (st_srv st) m) /\
  match r with inl v => on k = true -> in_force P st' k v | inr e => e = SServer /\ s_failed (st_srv st) = true end.
Proof.
  intros I C E. unfold getitem in E. destruct (dget k (st_cache st)) as [v|] eqn:D.
  - injection E as <- <-. split; auto. split; auto. intros On. now apply (C k v D).
  - destruct (execute eqv P (setting_get P k) st) as [st1 o] eqn:X. apply (query_coh on) in X as (C1 & S1 & A & F); auto.
    destruct o as [[v|]|].
    + injection E as <- <-. split; auto. split; auto. intros _. specialize (A _ eq_refl). destruct (known P k); [|discriminate]. injection A as ->. unfold in_force. rewrite S1. now apply (po_raw eqv P OK).
    + exfalso. specialize (A _ eq_refl). assert (known P k = true) as Kn by (now apply mem_in). rewrite Kn in A. discriminate.
    + injection E as <- <-. split; auto. split; auto. split; auto. destruct (s_failed (st_srv st)); auto. destruct (F eq_refl eq_refl).
Qed.
Lemma dset_coh on k v st : coherent P on st -> In k (pg_names P) -> (on k = true -> in_force P st k v) -> coherent P on (with_cache (dset k v (st_cache st)) st).
Proof. intros C I F j w. cbn [with_cache st_cache]. rewrite dget_set. destruct (seqb_spec j k) as [->|]; [intros [= <-]; auto|apply C]. Qed.
Lemma get_spec on k st st' r : In k (pg_names P) -> coherent P on st -> get eqv P k st = (st', r) ->
  coherent P on st' /\ (forall m, s_cur (st_srv st') m = s_cur (st_srv st) m) /\
  match r with inl (Some v) => on k = true -> in_force P st' k v | inl None => False | inr e => e = SServer /\ s_failed (st_srv st) = true end.
Proof.
  intros I C E. unfold get in E. destruct (dget k (st_cache st)) as [v|] eqn:D.
  - injection E as <- <-. split; auto. split; auto. intros On. now apply (C k v D).
  - destruct (execute eqv P (setting_get P k) st) as [st1 o] eqn:X. apply (query_coh on) in X as (C1 & S1 & A & F); auto.
    destruct o as [[v|]|].
    + injection E as <- <-. specialize (A _ eq_refl). destruct (known P k); [|discriminate]. injection A as ->.
      assert (If : in_force P st1 k (pg_raw P k (s_cur (st_srv st) k))) by (unfold in_force; rewrite S1; now apply (po_raw eqv P OK)).
      split; [apply dset_coh; auto|]. split; auto.
    + exfalso. specialize (A _ eq_refl). assert (known P k = true) as Kn by (now apply mem_in). rewrite Kn in A. discriminate.
    + injection E as <- <-. split; auto. split; auto. split; auto. destruct (s_failed (st_srv st)); auto. destruct (F eq_refl eq_refl).
Qed.
Lemma cached_spec c ks m r : cached c ks = (m, r) -> (forall k v, In (k, v) m -> dget k c = Some v) /\ (forall k, In k r -> In k ks) /\ (forall k, In k ks <-> In k (map fst m) \/ In k r).
Proof.
  revert m r. induction ks as [|k ks IH]; intros m r E; cbn [cached] in E; [injection E as <- <-; cbn; tauto|].
  destruct (cached c ks) as [m1 r1]. destruct (IH m1 r1 eq_refl) as (A & B & D). destruct (dget k c) as [v|] eqn:G; injection E as <- <-.
  - split; [intros j w [Q|Q]; [injection Q as <- <-; auto|auto]|]. split; [intros j Q; right; auto|]. intros j. cbn [map fst In]. rewrite D. tauto.
  - split; [auto|]. split; [intros j [->|Q]; [now left|right; auto]|]. intros j. cbn [In]. rewrite D. tauto.
Qed.
Lemma dupdate_get (e : list (text * text)) : forall c k, dget k (dupdate c e) = match dget k (rev e) with Some v => Some v | None => dget k c end.
Proof.
  induction e as [|[j v] e IH]; intros c k; [reflexivity|]. unfold dupdate. cbn [fold_left fst snd rev]. change (fold_left (fun d p => dset (fst p) (snd p) d) e (dset j v c)) with (dupdate (dset j v c) e).
  rewrite IH, dget_app, dget_set. destruct (dget k (rev e)); auto. cbn [dget]. destruct (seqb_spec k j); auto.
Qed.
Lemma dget_pair k v (d : list (text * text)) : dget k d = Some v -> In (k, v) d.
Proof. apply dget_In. Qed.
Lemma dset_in (c : list (text * text)) j u k v : In (k, v) (dset j u c) -> (k, v) = (j, u) \/ In (k, v) c.
Proof. induction c as [|[a b] c IH]; cbn [dset]; [intros [H|[]]; auto|]. destruct (seqb_spec j a) as [->|]; cbn [In]; [intros [H|H]; auto|intros [H|H]; auto]. destruct (IH H); auto. Qed.
Lemma dupdate_in (e : list (text * text)) : forall c k v, In (k, v) (dupdate c e) -> In (k, v) e \/ In (k, v) c.
Proof.
  induction e as [|[j u] e IH]; intros c k v I; [now right|]. unfold dupdate in I. cbn [fold_left fst snd] in I. change (In (k, v) (dupdate (dset j u c) e)) in I.
  apply IH in I as [I|I]; [left; now right|]. apply dset_in in I as [I|I]; [left; left; congruence|now right].
Qed.
Lemma dset_keys (c : list (text * text)) j u k : In k (dkeys (dset j u c)) <-> k = j \/ In k (dkeys c).
Proof.
  rewrite dkeys_set. unfold dmem. destruct (dget j c) eqn:E.
  - apply dget_In in E. assert (In j (dkeys c)) by (change j with (fst (j, l)); now apply in_map). split; [auto|intros [->|]; auto].
  - rewrite in_app_iff. cbn. intuition.
Qed.
Lemma dupdate_keys (e : list (text * text)) : forall c k, In k (dkeys (dupdate c e)) <-> In k (dkeys e) \/ In k (dkeys c).
Proof.
  induction e as [|[j u] e IH]; intros c k; [cbn; tauto|]. unfold dupdate. cbn [fold_left fst snd]. change (In k (dkeys (dupdate (dset j u c) e)) <-> In k (dkeys ((j, u) :: e)) \/ In k (dkeys c)).
  rewrite IH, dset_keys. unfold dkeys. cbn [map fst In]. intuition.
Qed.
Lemma getset_spec on ks st st' r : Forall (fun k => In k (pg_names P)) ks -> coherent P on st -> getset eqv P ks st = (st', r) ->
  coherent P on st' /\ (forall m, s_cur (st_srv st') m = s_cur (st_srv st) m) /\ st_cms st' = st_cms st /\
  match r with
  | inl m => (forall k v, In (k, v) m -> In k (pg_names P) /\ (on k = true -> in_force P st' k v)) /\ (forall k, In k (dkeys m) <-> In k ks)
  | inr e => e = SServer /\ s_failed (st_srv st) = true
  end.
Proof.
  intros F C E. unfold getset in E. destruct (cached (st_cache st) ks) as [m0 rk] eqn:Ca. apply cached_spec in Ca as (A & B & D).
  assert (M0 : forall k v, In (k, v) m0 -> In k (pg_names P) /\ (on k = true -> in_force P st k v)) by (intros k v I; apply C; auto).
  destruct rk as [|r0 rk'] eqn:Rk.
  - injection E as <- <-. split; auto. split; auto. split; auto. split; auto. intros k. rewrite D. cbn. unfold dkeys. tauto.
  - rewrite <- Rk in *. clear Rk r0 rk'. destruct (execute eqv P (setting_mget P rk) st) as [st1 o] eqn:X.
    assert (Cm : st_cms st1 = st_cms st) by (apply execute_cases in X as (s & -> & _); reflexivity).
    apply (query_coh on) in X as (C1 & S1 & Q & Fl); auto. destruct o as [rows|].
    + specialize (Q _ eq_refl). cbn beta in Q.
      assert (RI : forall k v, In (k, v) rows -> In k (pg_names P) /\ In k rk /\ in_force P st1 k v).
      { intros k v I. subst rows. apply in_map_iff in I as (n & Eq & I). apply filter_In in I as (I & Ex). injection Eq as <- <-. apply mem_in in Ex. split; auto. split; auto. unfold in_force. rewrite S1. now apply (po_raw eqv P OK). }
      assert (RK : forall k, In k rk -> In k (map fst rows)).
      { intros k I. subst rows. rewrite map_map. cbn [fst]. rewrite map_id. apply filter_In. split; [apply (proj1 (Forall_forall _ _) F); auto|now apply mem_in]. }
      assert (Co : coherent P on (with_cache (dupdate (st_cache st1) rows) st1)).
      { intros k v. cbn [with_cache st_cache]. rewrite dupdate_get. destruct (dget k (rev rows)) as [u|] eqn:Du.
        - intros [= <-]. apply dget_In in Du. apply in_rev in Du. destruct (RI k u Du) as (I1 & _ & I3). split; auto.
        - apply C1. }
      assert (Fb : forallb (fun k => existsb (seqb k) (map fst rows)) rk = true) by (apply forallb_forall; intros k I; apply mem_in; auto).
      rewrite Fb in E. injection E as <- <-. split; [exact Co|]. split; [exact S1|]. split; [exact Cm|]. split.
      * intros k v I. apply dupdate_in in I as [I|I]; [destruct (RI k v I) as (I1 & _ & I3); auto|]. destruct (M0 k v I) as (I1 & I2). split; auto. intros On. specialize (I2 On). unfold in_force in *. cbn [with_cache st_srv]. now rewrite S1.
      * intros k. rewrite dupdate_keys, D. unfold dkeys. split; [intros [I|I]; auto|intros [I|I]; auto].
        right. apply in_map_iff in I as ((k2 & v2) & <- & I). apply (RI k2 v2 I).
    + injection E as <- <-. split; auto. split; auto. split; auto. split; auto. destruct (s_failed (st_srv st)); auto. destruct (Fl eq_refl eq_refl).
Qed.

(** ** one step *)
Definition cms_ok (st : state) : Prop := forall i m, nth i (st_cms st) None = Some m -> Forall (fun k => In k (pg_names P)) (map fst m).
Lemma set_nth_length {A} n (x : A) l : length (set_nth n x l) = length l.
Proof. unfold set_nth. rewrite app_length, firstn_length. pose proof (skipn_length n l). destruct (skipn n l); cbn in *; lia. Qed.
Lemma nth_set_nth {A} n (x : A) l i d : nth i (set_nth n x l) d = if (i =? n)%nat && (n <? length l)%nat then x else nth i l d.
Proof.
  unfold set_nth. revert n i. induction l as [|a l IH]; intros n i.
  - destruct n; cbn; rewrite ?andb_false_r; reflexivity.
  - destruct n as [|n]; cbn [firstn skipn app]; [destruct i; reflexivity|]. destruct i as [|i]; [reflexivity|]. cbn [nth length]. rewrite IH. reflexivity.
Qed.
Lemma goes_cms s st : st_cms (goes eqv P s st) = st_cms st. Proof. reflexivity. Qed.
Lemma execute_cms {R} (c : (text -> V) -> option ((text -> V) * R)) st st' r : execute eqv P c st = (st', r) -> st_cms st' = st_cms st.
Proof. intros E. apply execute_cases in E as (s & -> & _). reflexivity. Qed.
Lemma getset_cms ks st st' r : getset eqv P ks st = (st', r) -> st_cms st' = st_cms st.
Proof.
  unfold getset. destruct (cached (st_cache st) ks) as [m0 rk]. destruct rk; [intros [= <- _]; auto|]. destruct (execute eqv P _ st) as [st1 o] eqn:X. apply execute_cms in X.
  destruct o as [rows|]; [|intros [= <- _]; auto]. destruct (forallb _ _); intros [= <- _]; auto.
Qed.
Lemma update_cms d st st' r : update eqv P d st = (st', r) -> st_cms st' = st_cms st.
Proof. unfold update. destruct (execute eqv P _ st) as [st1 o] eqn:X. apply execute_cms in X. destruct o; intros [= <- _]; auto. Qed.
Lemma getitem_cms k st st' r : getitem eqv P k st = (st', r) -> st_cms st' = st_cms st.
Proof. unfold getitem. destruct (dget k _); [intros [= <- _]; auto|]. destruct (execute eqv P _ st) as [st1 o] eqn:X. apply execute_cms in X. destruct o as [[|]|]; intros [= <- _]; auto. Qed.
Lemma setitem_cms k v st st' r : setitem eqv P k v st = (st', r) -> st_cms st' = st_cms st.
Proof. unfold setitem. destruct (match dget k _ with Some _ => _ | None => _ end); [intros [= <- _]; auto|]. destruct (execute eqv P _ st) as [st1 o] eqn:X. apply execute_cms in X. destruct o; intros [= <- _]; auto. Qed.
(** what a context manager stored stays *)
Lemma step_cm o st i m : nth i (st_cms st) None = Some m -> nth i (st_cms (fst (step eqv P U o st))) None = Some m.
Proof.
  intros N. destruct o; cbn [step].
  - destruct (getitem eqv P k st) as [st1 r] eqn:E. apply getitem_cms in E. cbn. now rewrite E.
  - destruct (get eqv P k st) as [st1 r] eqn:E. cbn. unfold get in E. destruct (dget k _); [injection E as <- _; auto|]. destruct (execute eqv P _ st) as [st2 o] eqn:X. apply execute_cms in X. destruct o as [[|]|]; injection E as <- _; cbn; congruence.
  - destruct (getset eqv P ks st) as [st1 r] eqn:E. apply getset_cms in E. cbn. now rewrite E.
  - destruct (setitem eqv P k v st) as [st1 r] eqn:E. apply setitem_cms in E. cbn. now rewrite E.
  - destruct (delitem eqv P k st) as [st1 r] eqn:E. cbn. unfold delitem in E. destruct (execute eqv P _ st) as [st2 o] eqn:X. apply execute_cms in X. destruct o; injection E as <- _; cbn; congruence.
  - destruct (update eqv P d st) as [st1 r] eqn:E. apply update_cms in E. cbn. now rewrite E.
  - cbn. rewrite app_nth1; auto. destruct (Nat.lt_ge_cases i (length (st_cms st))) as [L|L]; auto. rewrite nth_overflow in N by auto. discriminate.
  - unfold enter. destruct (nth i0 (st_cms st) None) eqn:N0; [exact N|]. destruct (getset eqv P (map fst d) st) as [st1 [m1|e]] eqn:E; apply getset_cms in E.
    + destruct (update eqv P d _) as [st2 r] eqn:X. apply update_cms in X. cbn [fst]. rewrite X. cbn [st_cms]. rewrite nth_set_nth, E. destruct (Nat.eqb_spec i i0) as [->|]; cbn [andb]; congruence.
    + cbn. now rewrite E.
  - unfold exit. destruct (nth i0 (st_cms st) None); [|exact N]. destruct (update eqv P _ st) as [st2 r] eqn:X. apply update_cms in X. cbn. now rewrite X.
  - unfold get_path. destruct (getitem eqv P path_key st) as [st1 [v|e]] eqn:E; apply getitem_cms in E; cbn; now rewrite E.
  - unfold set_path. destruct (setitem eqv P path_key _ st) as [st1 r] eqn:E. apply setitem_cms in E. cbn. now rewrite E.
  - unfold del_path. destruct c as [l|].
    + unfold set_path. destruct (setitem eqv P path_key _ st) as [st1 r] eqn:E. apply setitem_cms in E. cbn. now rewrite E.
    + destruct (execute eqv P _ st) as [st2 o] eqn:X. apply execute_cms in X. destruct o; cbn; now rewrite X.
  - destruct (s_failed (st_srv st)); auto.
  - destruct (s_failed (st_srv st)); auto. destruct (s_saved (st_srv st)) as [|a [|b l]]; auto.
  - auto.
  - destruct (execute eqv P _ st) as [st2 o] eqn:X. apply execute_cms in X. cbn. now rewrite X.
  - destruct (execute eqv P _ st) as [st2 o] eqn:X. apply execute_cms in X. cbn. now rewrite X.
Qed.
Lemma goes_unreported on s st : coherent P on st -> (forall k, on k = true -> pg_report P k = true) -> coherent P on (goes eqv P s st).
Proof. intros C R k v G. destruct (goes_coh on s st C k v G) as (I & F). split; auto. intros O. destruct (F O) as [H|(H & _)]; auto. rewrite R in H by auto. discriminate. Qed.
Lemma setitem_coh on k v st st' r : In k (pg_names P) -> coherent P on st -> setitem eqv P k v st = (st', r) -> coherent P on st'.
Proof.
  intros I C E. unfold setitem in E. destruct (match dget k _ with Some _ => _ | None => _ end); [injection E as <- _; auto|].
  destruct (execute eqv P (set_config P k v) st) as [st1 o] eqn:X. destruct o as [t|]; injection E as <- _.
  - now apply (set_coh on k v st st1 t).
  - apply execute_cases in X as (s & -> & X). now apply goes_same.
Qed.
Lemma step_coh on o st : spelled P o -> coherent P on st -> cms_ok st -> quiet o st \/ (forall k, on k = true -> pg_report P k = true) ->
  coherent P on (fst (step eqv P U o st)) /\ cms_ok (fst (step eqv P U o st)).
Proof.
  intros Sp C M Q.
  assert (Mk : forall st', st_cms st' = st_cms st -> cms_ok st') by (intros st' E i m; rewrite E; apply M).
  destruct o; cbn [step spelled] in *.
  - destruct (getitem eqv P k st) as [st1 r] eqn:E. pose proof (getitem_cms _ _ _ _ E). apply (getitem_spec on) in E; auto. cbn. split; [apply E|auto].
  - assert (Ec : st_cms (fst (get eqv P k st)) = st_cms st).
    { unfold get. destruct (dget k _); auto. destruct (execute eqv P _ st) as [st2 o] eqn:X. apply execute_cms in X. destruct o as [[|]|]; cbn; auto. }
    destruct (get eqv P k st) as [st1 r] eqn:E. apply (get_spec on) in E; auto. cbn in *. split; [apply E|auto].
  - destruct (getset eqv P ks st) as [st1 r] eqn:E. pose proof (getset_cms _ _ _ _ E). apply (getset_spec on) in E; auto. cbn. split; [apply E|auto].
  - destruct (setitem eqv P k v st) as [st1 r] eqn:E. pose proof (setitem_cms _ _ _ _ _ E). cbn. split; auto. eapply setitem_coh; eauto.
  - unfold delitem. destruct (execute eqv P _ st) as [st1 o] eqn:X. pose proof (execute_cms _ _ _ _ X) as Ec. destruct o as [t|]; cbn; (split; [|auto]).
    + pose proof (set_coh on k None st st1 t Sp C X) as (C1 & _). intros j w D. cbn [with_cache st_cache] in D. rewrite dget_del in D. destruct (seqb_spec j k) as [->|Ne]; [discriminate|].
      apply (C1 j w). cbn [with_cache st_cache]. rewrite dget_set. destruct (seqb_spec j k); congruence.
    + apply execute_cases in X as (s & -> & X). now apply goes_same.
  - destruct (update eqv P d st) as [st1 r] eqn:E. pose proof (update_cms _ _ _ _ E). apply (update_coh on) in E; auto. cbn. split; [apply E|auto].
  - cbn. split; [exact C|]. intros i m N. cbn [st_cms] in N. destruct (Nat.lt_ge_cases i (length (st_cms st))) as [L|L]; [rewrite app_nth1 in N by auto; now apply M in N|].
    rewrite app_nth2 in N by auto. destruct (i - length (st_cms st))%nat as [|[|]]; discriminate.
  - unfold enter. destruct (nth i (st_cms st) None) eqn:N; [auto|]. destruct (getset eqv P (map fst d) st) as [st1 [m|e]] eqn:E; pose proof (getset_cms _ _ _ _ E) as Ec; apply (getset_spec on) in E; auto.
    + destruct E as (C1 & S1 & _ & Mm & Km). destruct (update eqv P d _) as [st2 r] eqn:X. pose proof (update_cms _ _ _ _ X) as Ec2. apply (update_coh on) in X; auto. cbn [fst].
      split; [apply X|]. intros j m2 N2. rewrite Ec2 in N2. cbn [st_cms] in N2. rewrite nth_set_nth in N2. destruct ((j =? i)%nat && _).
      * injection N2 as <-. apply Forall_forall. intros k Ik. apply in_map_iff in Ik as ((k2 & v2) & <- & Ik). apply (Mm k2 v2 Ik).
      * rewrite Ec in N2. now apply M in N2.
    + cbn. split; [apply E|auto].
  - unfold exit. destruct (nth i (st_cms st) None) as [m|] eqn:N; [|auto]. destruct (update eqv P (some_values m) st) as [st2 r] eqn:X. pose proof (update_cms _ _ _ _ X) as Ec2. cbn [fst]. split; [|auto].
    apply (update_coh on) in X; auto; [apply X|]. unfold some_values. rewrite map_map. cbn [fst]. apply (M i m N).
  - unfold get_path. destruct (getitem eqv P path_key st) as [st1 r] eqn:E. pose proof (getitem_cms _ _ _ _ E). apply (getitem_spec on) in E; auto. destruct r; cbn; (split; [apply E|auto]).
  - unfold set_path. destruct (setitem eqv P path_key _ st) as [st1 r] eqn:E. pose proof (setitem_cms _ _ _ _ _ E). cbn. split; auto. eapply setitem_coh; eauto.
  - unfold del_path. destruct c as [l|].
    + unfold set_path. destruct (setitem eqv P path_key _ st) as [st1 r] eqn:E. pose proof (setitem_cms _ _ _ _ _ E). cbn. split; auto. eapply setitem_coh; eauto.
    + destruct Q as [[]|Q]. destruct (execute eqv P _ st) as [st1 o] eqn:X. pose proof (execute_cms _ _ _ _ X) as Ec. apply execute_cases in X as (s & -> & X). assert (coherent P on (goes eqv P s st)) by (now apply goes_unreported). destruct o; cbn; auto.
  - destruct (s_failed (st_srv st)); [auto|]. split; [now apply goes_same|]. exact M.
  - destruct (s_failed (st_srv st)) eqn:Fl.
    + destruct Q as [Q|Q]; [cbn in Q; congruence|]. destruct (s_saved (st_srv st)) as [|a [|b l]]; auto. split; [now apply goes_unreported|exact M].
    + split; [now apply goes_same|]. exact M.
  - destruct Q as [[]|Q]. split; [now apply goes_unreported|exact M].
  - destruct Q as [[]|Q]. destruct (execute eqv P _ st) as [st1 o] eqn:X. pose proof (execute_cms _ _ _ _ X) as Ec. apply execute_cases in X as (s & -> & X). cbn. split; [now apply goes_unreported|auto].
  - destruct (execute eqv P _ st) as [st1 o] eqn:X. pose proof (execute_cms _ _ _ _ X) as Ec. apply execute_cases in X as (s & -> & X). cbn [fst]. split; [|auto]. apply goes_same; auto. destruct o; [destruct X; discriminate|exact X].
Qed.
End sett.
