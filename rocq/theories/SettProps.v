(** SettProps.v: C38, C50: settings. *)
From Verif Require Import Base BaseProof PyStr PyDict PyDictProof StrModel StrProof SettModel SettSpec SettProof.

(** What the client remembers, after any history, is in force on the server: for all settings, if
    nothing changed them behind its back (quiet_run: no rollback, no SET by SQL); *)
Lemma run_inv {V} (eqv : V -> V -> bool) P U on (OK : pg_ok eqv P) os : forall st, Forall (spelled P) os -> coherent P on st -> cms_ok P st ->
  quiet_run eqv P U os st \/ (forall k, on k = true -> pg_report P k = true) ->
  coherent P on (fst (steps eqv P U os st)) /\ cms_ok P (fst (steps eqv P U os st)).
Proof.
  induction os as [|o os IH]; intros st F C M Q; [auto|]. cbn [steps].
  assert (S1 : coherent P on (fst (step eqv P U o st)) /\ cms_ok P (fst (step eqv P U o st))).
  { apply step_coh; auto; [exact (Forall_inv F)|]. destruct Q as [(Q & _)|Q]; auto. }
  assert (Q2 : quiet_run eqv P U os (fst (step eqv P U o st)) \/ (forall k, on k = true -> pg_report P k = true)) by (destruct Q as [(_ & Q)|Q]; auto).
  destruct (step eqv P U o st) as [st1 a]. cbn [fst] in *. specialize (IH st1 (Forall_inv_tail F) (proj1 S1) (proj2 S1) Q2).
  destruct (steps eqv P U os st1) as [st2 l]. exact IH.
Qed.
Lemma new_cms {V} (P : pg V) s : cms_ok P (new_state s). Proof. intros i m N. destruct i; discriminate. Qed.
Lemma new_coh {V} (P : pg V) on s : coherent P on (new_state s). Proof. intros k v [=]. Qed.
Theorem C38_coherent : forall V (eqv : V -> V -> bool) P U os s, pg_ok eqv P -> Forall (spelled P) os -> quiet_run eqv P U os (new_state s) ->
  coherent P all_settings (fst (steps eqv P U os (new_state s))).
Proof. intros V eqv P U os s OK F Q. apply (run_inv eqv P U all_settings OK os); auto using new_cms, new_coh. Qed.
Print Assumptions C38_coherent.
(** and for the settings the server reports, always. *)
Theorem C38_reported : forall V (eqv : V -> V -> bool) P U os s, pg_ok eqv P -> Forall (spelled P) os ->
  coherent P (pg_report P) (fst (steps eqv P U os (new_state s))).
Proof. intros V eqv P U os s OK F. apply (run_inv eqv P U (pg_report P) OK os); auto using new_cms, new_coh. Qed.
Print Assumptions C38_reported.

(** Reading.  settings[k], settings.get(k) and settings.getset(keys) give values in force, for
    exactly the settings asked for; they fail only in a failed transaction; and they change nothing on the server. *)
Theorem C38_read : forall V (eqv : V -> V -> bool) P U on st o, pg_ok eqv P -> spelled P o -> coherent P on st ->
  match o with OItem _ | OGet _ | OGetset _ => True | _ => False end ->
  let '(st', a) := step eqv P U o st in
  (forall n, s_cur (st_srv st') n = s_cur (st_srv st) n) /\
  match o, a with
  | OItem k, AText v => on k = true -> in_force P st k v
  | OGet k, AOpt (Some v) => on k = true -> in_force P st k v
  | OGetset ks, AMap m => (forall k, In k (dkeys m) <-> In k ks) /\ (forall k v, In (k, v) m -> on k = true -> in_force P st k v)
  | _, AErr e => e = SServer /\ s_failed (st_srv st) = true
  | _, _ => False
  end.
Proof.
  intros V eqv P U on st o OK Sp C R.
  assert (Fr : forall st' k v, (forall n, s_cur (st_srv st') n = s_cur (st_srv st) n) -> in_force P st' k v -> in_force P st k v) by (unfold in_force; intros st' k v E; now rewrite E).
  destruct o; try destruct R; cbn [step spelled] in *.
  - destruct (getitem eqv P k st) as [st1 r] eqn:E. apply (getitem_spec eqv P OK on) in E; auto. destruct E as (_ & S1 & E). split; auto. destruct r; eauto.
  - destruct (get eqv P k st) as [st1 r] eqn:E. apply (get_spec eqv P OK on) in E; auto. destruct E as (_ & S1 & E). split; auto. destruct r as [[v|]|e]; eauto.
  - destruct (getset eqv P ks st) as [st1 r] eqn:E. apply (getset_spec eqv P OK on) in E; auto. destruct E as (_ & S1 & _ & E). split; auto. destruct r as [m|e]; auto. destruct E as (E1 & E2). split; auto. intros k v I On. eapply Fr; eauto. now apply (E1 k v I).
Qed.
Print Assumptions C38_read.
(** A name the server does not know: KeyError, and get() gives the alternative. *)
Theorem C38_unknown : forall V (eqv : V -> V -> bool) P U on st k, pg_ok eqv P -> coherent P on st -> ~ In k (pg_names P) -> s_failed (st_srv st) = false ->
  snd (step eqv P U (OItem k) st) = AErr SKey /\ snd (step eqv P U (OGet k) st) = AOpt None.
Proof.
  intros V eqv P U on st k OK C N F.
  assert (D : dget k (st_cache st) = None) by (destruct (dget k (st_cache st)) as [v|] eqn:D; auto; destruct (C k v D); contradiction).
  assert (Kn : known P k = false) by (unfold known; destruct (existsb (seqb k) (pg_names P)) eqn:E; auto; apply mem_in in E; contradiction).
  cbn [step]. unfold getitem, get. rewrite D. unfold execute, statement. rewrite F. unfold setting_get, query. rewrite Kn. auto.
Qed.
Print Assumptions C38_unknown.

(** Writing.  When settings[k] = v returns normally, the value of v is in force, even when nothing
    was sent; other settings are unchanged.  When it raises nothing is changed. *)
Theorem C38_set : forall V (eqv : V -> V -> bool) P U on st k v, pg_ok eqv P -> In k (pg_names P) -> coherent P on st -> on k = true ->
  let '(st', a) := step eqv P U (OSet k (Some v)) st in
  (forall n, n <> k \/ a <> ANone -> s_cur (st_srv st') n = s_cur (st_srv st) n) /\
  (a = ANone -> in_force P st' k v).
Proof.
  intros V eqv P U on st k v OK I C On. cbn [step]. unfold setitem. destruct (dget k (st_cache st)) as [c|] eqn:D.
  - destruct (seqb_spec c v) as [->|Ne].
    + split; [intros n _; reflexivity|]. intros _. now apply (C k v D).
    + destruct (execute eqv P (set_config P k (Some v)) st) as [st1 o] eqn:X. destruct o as [t|].
      * pose proof (set_coh eqv P OK on k (Some v) st st1 t I C X) as (_ & _ & O & H). split; [intros n [Hn|Hn]; [now apply O|now destruct Hn]|]. intros _. exact H.
      * apply execute_cases in X as (s & -> & X). split; [intros n _; apply X|discriminate].
  - destruct (execute eqv P (set_config P k (Some v)) st) as [st1 o] eqn:X. destruct o as [t|].
    + pose proof (set_coh eqv P OK on k (Some v) st st1 t I C X) as (_ & _ & O & H). split; [intros n [Hn|Hn]; [now apply O|now destruct Hn]|]. intros _. exact H.
    + apply execute_cases in X as (s & -> & X). split; [intros n _; apply X|discriminate].
Qed.
Print Assumptions C38_set.
(** del settings[k]: the default value *)
Theorem C38_del : forall V (eqv : V -> V -> bool) P U st k, pg_ok eqv P -> In k (pg_names P) ->
  let '(st', a) := step eqv P U (ODel k) st in
  (forall n, n <> k \/ a <> ANone -> s_cur (st_srv st') n = s_cur (st_srv st) n) /\
  (a = ANone -> s_cur (st_srv st') k = pg_default P k /\ dget k (st_cache st') = None).
Proof.
  intros V eqv P U st k OK I. cbn [step]. unfold delitem. destruct (execute eqv P (set_config P k None) st) as [st1 o] eqn:X. apply execute_cases in X as (s & -> & X). destruct o as [t|].
  - destruct X as (X & _). apply (set_config_spec P) in X as (n & x & R & Y & G & O & _). rewrite (resolve_known eqv P OK k I) in R. injection R as <-. injection Y as <-.
    split; [intros m [Hn|Hn]; [now apply O|now destruct Hn]|]. intros _. split; [exact G|]. cbn [with_cache st_cache]. rewrite dget_del. destruct (seqb_spec k k); congruence.
  - split; [intros n _; apply X|discriminate].
Qed.
Print Assumptions C38_del.
(** settings.update(d): all of it, or nothing *)
Theorem C38_update : forall V (eqv : V -> V -> bool) P U st d, pg_ok eqv P -> NoDup (map fst d) -> spelled P (OUpdate d) ->
  let '(st', a) := step eqv P U (OUpdate d) st in
  (forall n, ~ In n (map fst d) \/ a <> ANone -> s_cur (st_srv st') n = s_cur (st_srv st) n) /\
  (a = ANone -> forall k v, In (k, v) d -> match v with Some t => in_force P st' k t | None => s_cur (st_srv st') k = pg_default P k end).
Proof.
  intros V eqv P U st d OK N F. cbn [step spelled] in *. unfold update. destruct (execute eqv P (set_configs P d) st) as [st1 o] eqn:X. apply execute_cases in X as (s & -> & X). destruct o as [rows|].
  - destruct X as (X & _). destruct (sets_spec eqv P OK d _ _ _ X F) as (_ & O). split; [intros n [Hn|Hn]; [now apply O|now destruct Hn]|]. intros _ k v I. pose proof (sets_value eqv P OK d _ _ _ X F N k v I) as H. destruct v; exact H.
  - split; [intros n _; apply X|discriminate].
Qed.
Print Assumptions C38_update.

(** A block: with db.settings(...).  Whatever happens in the block, if its end returns normally the
    settings named have the values they had before it, and the others are as the block left them. *)
Theorem C38_block : forall V (eqv : V -> V -> bool) P U i d st mid, pg_ok eqv P -> spelled P (OEnter i d) ->
  coherent P (fun k => existsb (seqb k) (map fst d)) st -> (i < length (st_cms st))%nat ->
  snd (step eqv P U (OEnter i d) st) = ANone ->
  let st2 := fst (steps eqv P U mid (fst (step eqv P U (OEnter i d) st))) in
  let '(st3, a) := step eqv P U (OExit i) st2 in
  (a = ANone -> forall k, In k (map fst d) -> s_cur (st_srv st3) k = s_cur (st_srv st) k) /\
  (forall n, ~ In n (map fst d) \/ a <> ANone -> s_cur (st_srv st3) n = s_cur (st_srv st2) n).
Proof.
  intros V eqv P U i d st mid OK Sp C Li A st2. subst st2. cbn [spelled] in Sp.
  set (on := fun k => existsb (seqb k) (map fst d)) in *.
  assert (St : exists m, nth i (st_cms (fst (step eqv P U (OEnter i d) st))) None = Some m /\ (forall k, In k (dkeys m) <-> In k (map fst d)) /\ (forall k v, In (k, v) m -> in_force P st k v)).
  { cbn [step] in *. unfold enter in *. destruct (nth i (st_cms st) None) eqn:N; [discriminate|]. destruct (getset eqv P (map fst d) st) as [st1 [m|e]] eqn:E; [|discriminate].
    pose proof (getset_cms _ _ _ _ _ _ E) as Ec. apply (getset_spec eqv P OK on) in E; auto. destruct E as (C1 & S1 & _ & Mm & Km).
    destruct (update eqv P d _) as [st3 r] eqn:X. pose proof (update_cms _ _ _ _ _ _ X) as Ec2. cbn [fst] in *. exists m. split.
    - rewrite Ec2. cbn [st_cms]. rewrite nth_set_nth, Ec, Nat.eqb_refl. destruct (Nat.ltb_spec i (length (st_cms st))); [reflexivity|lia].
    - split; auto. intros k v I. destruct (Mm k v I) as (_ & Q). unfold in_force in *. rewrite S1 in Q. apply Q. unfold on. apply mem_in. apply Km. unfold dkeys. change k with (fst (k, v)). now apply in_map. }
  destruct St as (m & N & Km & Vm). clear A.
  assert (N2 : nth i (st_cms (fst (steps eqv P U mid (fst (step eqv P U (OEnter i d) st))))) None = Some m).
  { revert N. generalize (fst (step eqv P U (OEnter i d) st)) as st1. clear. induction mid as [|o mid IH]; intros st1 N; [auto|]. cbn [steps].
    pose proof (step_cm eqv P U o st1 i m N) as N1. destruct (step eqv P U o st1) as [st2 a]. specialize (IH st2 N1). destruct (steps eqv P U mid st2) as [st3 l]. exact IH. }
  generalize dependent (fst (steps eqv P U mid (fst (step eqv P U (OEnter i d) st)))). intros st2 N2.
  cbn [step]. unfold exit. rewrite N2. unfold update.
  assert (Fm : Forall (fun k => In k (pg_names P)) (map fst (some_values m))).
  { unfold some_values. rewrite map_map. cbn [fst]. apply Forall_forall. intros k I. apply Km in I. exact (proj1 (Forall_forall _ _) Sp k I). }
  destruct (execute eqv P (set_configs P (some_values m)) st2) as [st3 o] eqn:X. apply execute_cases in X as (s & -> & X). destruct o as [rows|].
  - destruct X as (X & _). split.
    + intros _ k I. cbn [with_cache goes st_srv]. pose proof (proj1 (Forall_forall _ _) Sp k I) as Ik. cbn beta in Ik. apply (sets_restore P _ k _ _ _ _ X).
      * intros j t J R. unfold some_values in J. apply in_map_iff in J as ((j2 & v2) & Eq & J). injection Eq as <- <-. cbn [fst snd]. exists v2. split; auto.
        assert (In j2 (pg_names P)) as Ij. { apply (proj1 (Forall_forall _ _) Sp). apply Km. unfold dkeys. change j2 with (fst (j2, v2)). now apply in_map. }
        rewrite (resolve_known eqv P OK j2 Ij) in R. injection R as ->. exact (Vm k v2 J).
      * apply Km in I. unfold dkeys in I. apply in_map_iff in I as ((k2 & v2) & <- & J). cbn [fst] in *. exists k2, (Some v2). split; [unfold some_values; apply in_map_iff; exists (k2, v2); auto|]. now apply (resolve_known eqv P OK).
    + intros n [Hn|Hn]; [|now destruct Hn]. destruct (sets_spec eqv P OK _ _ _ _ X Fm) as (_ & O). cbn. apply O. unfold some_values. rewrite map_map. cbn [fst]. intros I. apply Hn. now apply Km.
  - split; [discriminate|]. intros n _. apply X.
Qed.
Print Assumptions C38_block.

(** settings.path: what was assigned is read back *)
Theorem C38_path : forall V (eqv : V -> V -> bool) P U l st, pg_ok eqv P -> unicode_ok U -> l <> [] -> In path_key (pg_names P) ->
  (forall t x, pg_parse P path_key t = Some x -> pg_show P path_key x = t) ->       (* search_path is shown as it was set *)
  let '(st1, a) := step eqv P U (OSetPath l) st in a = ANone -> snd (step eqv P U OPath st1) = AList l.
Proof.
  intros V eqv P U l st OK HU N I Sh. cbn [step]. unfold set_path, setitem.
  assert (Sp : split_ident U (path_value l) 44 34 (-1) = Ok l).
  { unfold split_ident, path_value. rewrite split_using_cuts by discriminate. destruct l as [|a l]; [congruence|]. rewrite cuts_qname by (try discriminate; lia).
    apply (mapM_map_ok (split_ident1 U) quote_ident (a :: l)). intros x. apply split_ident1_quoted. rewrite (uo_space U HU) by lia. reflexivity. }
  assert (Rd : forall st1 : state V, dget path_key (st_cache st1) = Some (path_value l) -> snd (step eqv P U OPath st1) = AList l).
  { intros st1 D. cbn [step]. unfold get_path, getitem. rewrite D, Sp. reflexivity. }
  destruct (dget path_key (st_cache st)) as [c|] eqn:D.
  - destruct (seqb_spec c (path_value l)) as [->|Ne]; [intros _; now apply Rd|].
    destruct (execute eqv P (set_config P path_key (Some (path_value l))) st) as [st1 o] eqn:X. destruct o as [t|]; [|discriminate]. intros _. apply Rd. cbn [with_cache st_cache]. rewrite dget_set_same. f_equal.
    apply execute_cases in X as (s & -> & X & _). apply (set_config_spec P) in X as (n & x & R & Y & _ & _ & ->). rewrite (resolve_known eqv P OK _ I) in R. injection R as <-. now apply Sh.
  - destruct (execute eqv P (set_config P path_key (Some (path_value l))) st) as [st1 o] eqn:X. destruct o as [t|]; [|discriminate]. intros _. apply Rd. cbn [with_cache st_cache]. rewrite dget_set_same. f_equal.
    apply execute_cases in X as (s & -> & X & _). apply (set_config_spec P) in X as (n & x & R & Y & _ & _ & ->). rewrite (resolve_known eqv P OK _ I) in R. injection R as <-. now apply Sh.
Qed.
Print Assumptions C38_path.

(** ** where it fails *)
Notation run os := (steps seqb demo ascii_unicode os demo0).
Lemma demo_ok : pg_ok seqb demo.
Proof.
  constructor; [|reflexivity|reflexivity|intros a b; destruct (seqb_spec a b); split; congruence].
  cbn. repeat constructor; cbn; intuition discriminate.
Qed.
(** After a rollback, a setting which is not reported is remembered as it was before; setting it again to the
    remembered value then sends nothing. *)
Theorem C38_rollback_refuted : let '(st, a) := run [OBegin; OSet (str "work_mem") (Some (str "8")); ORollback; OItem (str "work_mem"); OSet (str "work_mem") (Some (str "8"))] in
  a = [ANone; ANone; ANone; AText (str "8"); ANone] /\ s_cur (st_srv st) (str "work_mem") = str "d".
Proof. split; reflexivity. Qed.
Print Assumptions C38_rollback_refuted.
(** The same after SET by SQL. *)
Theorem C38_sql_refuted : let '(st, a) := run [OGet (str "work_mem"); OSql (str "work_mem") (Some (str "8")); OItem (str "work_mem")] in
  a = [AOpt (Some (str "d")); ANone; AText (str "d")] /\ s_cur (st_srv st) (str "work_mem") = str "8".
Proof. split; reflexivity. Qed.
Print Assumptions C38_sql_refuted.
(** A setting spelled differently (case) is another one for the client; *)
Theorem C38_spelling_refuted : let '(st, a) := run [OSet (str "timezone") (Some (str "a")); OSet (str "TimeZone") (Some (str "b")); OItem (str "timezone"); OSet (str "timezone") (Some (str "a"))] in
  a = [ANone; ANone; AText (str "a"); ANone] /\ s_cur (st_srv st) (str "TimeZone") = str "b".
Proof. split; reflexivity. Qed.
Print Assumptions C38_spelling_refuted.
(** and the example of the documentation, with db.settings(search_path = ..., timezone = 'mst'), raises KeyError. *)
Theorem C38_documented_block_refuted : snd (run [ONew; OEnter 0 [(str "search_path", Some (str "local,public")); (str "timezone", Some (str "mst"))]]) = [ANone; AErr SKey].
Proof. reflexivity. Qed.
Print Assumptions C38_documented_block_refuted.
(** del settings.path leaves the path remembered; *)
Theorem C38_del_path_refuted : let '(st, a) := run [OSetPath [str "a"]; ODelPath None; OPath] in
  a = [ANone; ANone; AList [str "a"]] /\ s_cur (st_srv st) path_key = str "d".
Proof. split; reflexivity. Qed.
Print Assumptions C38_del_path_refuted.
(** an empty path cannot be read; *)
Theorem C38_empty_path_refuted : snd (run [OSetPath []; OPath]) = [ANone; AErr SValue].
Proof. reflexivity. Qed.
Print Assumptions C38_empty_path_refuted.
(** settings[k] = None does nothing if the setting is not remembered. *)
Theorem C38_none_refuted : let '(st, a) := run [OSql (str "work_mem") (Some (str "8")); OSet (str "work_mem") None] in
  a = [ANone; ANone] /\ s_cur (st_srv st) (str "work_mem") = str "8".
Proof. split; reflexivity. Qed.
Print Assumptions C38_none_refuted.
Example ex_block : let os := [ONew; OSet (str "work_mem") (Some (str "3")); OEnter 0 [(str "work_mem", Some (str "4")); (str "TimeZone", Some (str "z"))]; OItem (str "work_mem"); OSet (str "work_mem") (Some (str "5")); OExit 0; OItem (str "TimeZone"); OItem (str "work_mem")] in
  Forall (spelled demo) os /\ quiet_run seqb demo ascii_unicode os demo0 /\
  snd (run os) = [ANone; ANone; ANone; AText (str "4"); ANone; ANone; AText (str "d"); AText (str "3")].
Proof. split; [|split; [|reflexivity]]; [|cbn; tauto]. repeat apply Forall_cons; try apply Forall_nil; cbn; auto; repeat apply Forall_cons; try apply Forall_nil; cbn; auto. Qed.

(** ** C50: subscriptions *)
Lemma keyb_spec a b : reflect (a = b) (keyb a b).
Proof. destruct a as [a|], b as [b|]; cbn; try (constructor; congruence). destruct (seqb_spec a b); constructor; congruence. Qed.
Lemma subs_get_set k j v d : subs_get k (subs_set j v d) = if keyb k j then v else subs_get k d.
Proof.
  induction d as [|[a l] d IH]; cbn [subs_set subs_get]; [destruct (keyb_spec k j); auto|]. destruct (keyb_spec j a) as [->|N]; cbn [subs_get].
  - destruct (keyb_spec k a); auto.
  - destruct (keyb_spec k a) as [->|]; [|exact IH]. destruct (keyb_spec a j); congruence.
Qed.
Lemma zmem x l : existsb (Z.eqb x) l = true <-> In x l.
Proof. rewrite existsb_exists. split; [intros (y & I & E); apply Z.eqb_eq in E; congruence|intros I; exists x; split; auto; apply Z.eqb_refl]. Qed.
Lemma remove1_in x y l : NoDup l -> (In y (remove1 x l) <-> y <> x /\ In y l).
Proof.
  induction l as [|a l IH]; intros N; [cbn; tauto|]. inversion N; subst. cbn [remove1]. destruct (Z.eqb_spec x a) as [->|Ne].
  - cbn. split; [intros I; split; [intros ->; auto|auto]|intros (Q & [Q2|Q2]); [congruence|auto]].
  - cbn [In]. rewrite IH by auto. split; [intros [->|Q]; [split; auto|tauto]|intros (Q & [Q2|Q2]); auto].
Qed.
Lemma remove1_nodup x l : NoDup l -> NoDup (remove1 x l).
Proof.
  induction l as [|a l IH]; intros N; [constructor|]. inversion N; subst. cbn [remove1]. destruct (Z.eqb_spec x a); auto. constructor; auto. rewrite remove1_in by auto. tauto.
Qed.
Lemma subs_step h o : subs_of (o :: h) = sub_step (subs_of h) o.
Proof. unfold subs_of. cbn [rev]. rewrite fold_left_app. reflexivity. Qed.
Lemma subs_inv h k : NoDup (subs_get k (subs_of h)) /\ (forall cb, In cb (subs_get k (subs_of h)) <-> subscribed k cb h).
Proof.
  induction h as [|o h (N & IH)]; [cbn; split; [constructor|tauto]|]. rewrite subs_step. destruct o as [j c|j c]; cbn [sub_step subscribed].
  - unfold subscribe. rewrite subs_get_set. destruct (keyb_spec k j) as [->|Ne].
    + destruct (existsb (Z.eqb c) (subs_get j (subs_of h))) eqn:E.
      * apply zmem in E. split; auto. intros cb. rewrite IH. split; auto. intros [(_ & ->)|Q]; auto. now apply IH.
      * assert (~ In c (subs_get j (subs_of h))) as Nc by (intros Q; apply zmem in Q; congruence). split; [now apply nodup_snoc|]. intros cb. rewrite in_app_iff, IH. cbn. intuition congruence.
    + split; auto. intros cb. rewrite IH. intuition congruence.
  - unfold unsubscribe. destruct (existsb (Z.eqb c) (subs_get j (subs_of h))) eqn:E.
    + rewrite subs_get_set. destruct (keyb_spec k j) as [->|Ne].
      * split; [now apply remove1_nodup|]. intros cb. rewrite remove1_in by auto. rewrite IH. intuition congruence.
      * split; auto. intros cb. rewrite IH. intuition congruence.
    + split; auto. intros cb. rewrite IH. split; [|tauto]. intros Q. split; auto. intros (-> & ->). apply IH in Q. apply zmem in Q. congruence.
Qed.
Lemma call_all_none l : call_all no_raise l = (l, false).
Proof. induction l as [|x l IH]; cbn; [|rewrite IH]; reflexivity. Qed.
(** When a setting is reported: each callback subscribed to it is called once, then each callback subscribed to
    all settings; no other; after that the new value is remembered. *)
Theorem C50_called : forall h key val cache, exists one all,
  notify no_raise (subs_of h) key val cache = (one ++ all, dset key val cache) /\
  NoDup one /\ NoDup all /\
  (forall cb, In cb one <-> subscribed (Some key) cb h) /\ (forall cb, In cb all <-> subscribed None cb h).
Proof.
  intros h key val cache. exists (subs_get (Some key) (subs_of h)), (subs_get None (subs_of h)). unfold notify. rewrite !call_all_none. split; auto.
  destruct (subs_inv h (Some key)) as (N1 & I1), (subs_inv h None) as (N2 & I2). auto.
Qed.
Print Assumptions C50_called.
(** They are called in the order of subscription: a new one is called last, and the end of a
    subscription does not change the order of the others. *)
Theorem C50_order : forall h k cb, 
  (~ subscribed k cb h -> subs_get k (subs_of (SSub k cb :: h)) = subs_get k (subs_of h) ++ [cb]) /\
  (subscribed k cb h -> subs_get k (subs_of (SSub k cb :: h)) = subs_get k (subs_of h)) /\
  (forall a b, subs_get k (subs_of h) = a ++ cb :: b -> subs_get k (subs_of (SUnsub k cb :: h)) = a ++ b).
Proof.
  intros h k cb. rewrite !subs_step. cbn [sub_step]. destruct (subs_inv h k) as (N & I). unfold subscribe, unsubscribe. rewrite subs_get_set. destruct (keyb_spec k k) as [_|]; [|congruence].
  split; [|split].
  - intros Ns. destruct (existsb (Z.eqb cb) (subs_get k (subs_of h))) eqn:E; auto. apply zmem, I in E. contradiction.
  - intros Ns. apply I, zmem in Ns. now rewrite Ns.
  - intros a b E. assert (Ex : existsb (Z.eqb cb) (subs_get k (subs_of h)) = true) by (apply zmem; rewrite E; apply in_app_iff; right; now left). rewrite Ex, subs_get_set. destruct (keyb_spec k k) as [_|]; [|congruence].
    rewrite E in *. clear - N. induction a as [|x a IH]; cbn [remove1 app]; [now rewrite Z.eqb_refl|]. inversion N; subst. destruct (Z.eqb_spec cb x) as [->|]; [exfalso; apply H1; apply in_app_iff; right; now left|]. f_equal. auto.
Qed.
Print Assumptions C50_order.
(** If a callback raises, the callbacks after it are not called, and the value remembered is the old one, no longer in force. *)
Theorem C50_raising_refuted : exists h raises, notify raises (subs_of h) (str "TimeZone") (str "b") [(str "TimeZone", str "a")] = ([1], [(str "TimeZone", str "a")]) /\
  subscribed (Some (str "TimeZone")) 2 h.
Proof. exists [SSub (Some (str "TimeZone")) 2; SSub (Some (str "TimeZone")) 1], (Z.eqb 1). split; [reflexivity|]. cbn. auto. Qed.
Print Assumptions C50_raising_refuted.
Example ex_subs : notify no_raise (subs_of [SUnsub None 3; SSub None 4; SSub None 3; SSub (Some (str "a")) 1; SSub (Some (str "b")) 9; SSub (Some (str "a")) 2; SSub (Some (str "a")) 1]) (str "a") (str "v") [] =
  ([1; 2; 4], [(str "a", str "v")]).
Proof. reflexivity. Qed.
