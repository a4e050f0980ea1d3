From Verif Require Import PyStr PyStrProof BaseProof PyDict PyDictProof IRIModel ParamModel ParamSpec.

Lemma patheqb_spec p q : reflect (p = q) (patheqb p q).
Proof. unfold patheqb. destruct (list_eq_dec (list_eq_dec Z.eq_dec) p q); constructor; auto. Qed.
Lemma get_path_cons k p d : p <> [] -> get_path (k :: p) d = match dget k d with Some (PDict s) => get_path p s | _ => None end.
Proof. destruct p; [contradiction|reflexivity]. Qed.
Lemma set_path_cons k p v d : p <> [] -> set_path (k :: p) v d =
  match dget k d with
  | None => do s <- set_path p v []; Ok (dset k (PDict s) d)
  | Some (PDict s) => do s <- set_path p v s; Ok (dset k (PDict s) d)
  | Some _ => Err TypeError
  end.
Proof. destruct p; [contradiction|reflexivity]. Qed.
(** a proper, non-empty prefix *)
Definition pprefix (q p : list text) : Prop := q <> [] /\ exists r, r <> [] /\ p = q ++ r.
Lemma set_ok p v : forall d, p <> [] -> (forall q, pprefix q p -> forall w, get_path q d = Some w -> exists s, w = PDict s) -> exists d', set_path p v d = Ok d'.
Proof.
  induction p as [|k p IH]; intros d NE H; [contradiction|]. destruct p as [|k2 p]; [cbn; eauto|]. rewrite set_path_cons by discriminate.
  assert (E : forall s, (forall q, pprefix q (k2 :: p) -> forall w, get_path q s = Some w -> exists s, w = PDict s) -> exists s', set_path (k2 :: p) v s = Ok s') by (intros s; apply IH; discriminate).
  destruct (dget k d) as [w|] eqn:G.
  - destruct (H [k] ltac:(split; [discriminate|exists (k2 :: p); split; [discriminate|reflexivity]]) w G) as (s & ->).
    destruct (E s) as (s' & ES); [|rewrite ES; cbn [bind]; eauto]. intros q (Q1 & r & Q2 & Q3) w Gq. apply (H (k :: q)).
    + split; [discriminate|]. exists r. split; [exact Q2|]. cbn. now rewrite Q3.
    + rewrite get_path_cons by exact Q1. rewrite G. exact Gq.
  - destruct (E []) as (s' & ES); [|rewrite ES; cbn [bind]; eauto]. intros q (Q1 & _) w Gq. destruct q as [|a [|b q]]; cbn in Gq; discriminate.
Qed.
Lemma get_set_same p v : forall d d', set_path p v d = Ok d' -> get_path p d' = Some v.
Proof.
  induction p as [|k p IH]; intros d d' H; [discriminate|]. destruct p as [|k2 p].
  - cbn in H. apply Ok_inj in H. subst d'. cbn. apply dget_set_same.
  - rewrite set_path_cons in H by discriminate. rewrite get_path_cons by discriminate.
    destruct (dget k d) as [[]|]; try discriminate; apply bind_Ok in H as (s & E & H); apply Ok_inj in H; subst d'; rewrite dget_set_same; eapply IH; eauto.
Qed.
Lemma get_set_other p v : forall q d d', set_path p v d = Ok d' -> (forall r, q <> p ++ r) -> (forall r, p <> q ++ r) -> get_path q d' = get_path q d.
Proof.
  induction p as [|k p IH]; intros q d d' H N1 N2; [discriminate|]. destruct q as [|j q]; [destruct (N2 (k :: p)); reflexivity|].
  destruct p as [|k2 p].
  - cbn in H. apply Ok_inj in H. subst d'. assert (j <> k) by (intros ->; apply (N1 q); reflexivity). destruct q; cbn; rewrite dget_set_other by auto; reflexivity.
  - rewrite set_path_cons in H by discriminate. destruct (list_eq_dec Z.eq_dec j k) as [->|NE].
    + destruct q as [|j2 q]; [destruct (N2 (k2 :: p)); reflexivity|]. rewrite !get_path_cons by discriminate.
      assert (M1 : forall r, j2 :: q <> (k2 :: p) ++ r) by (intros r E; apply (N1 r); cbn; cbn in E; congruence).
      assert (M2 : forall r, k2 :: p <> (j2 :: q) ++ r) by (intros r E; apply (N2 r); cbn; cbn in E; congruence).
      destruct (dget k d) as [[]|]; try discriminate; apply bind_Ok in H as (s & E & H); apply Ok_inj in H; subst d'; rewrite dget_set_same.
      * now apply (IH (j2 :: q)) in E.
      * apply (IH (j2 :: q)) in E; auto. rewrite E. destruct q; reflexivity.
    + assert (G : dget j d' = dget j d) by (destruct (dget k d) as [[]|]; try discriminate; apply bind_Ok in H as (s & E & H); apply Ok_inj in H; subst d'; apply dget_set_other; auto).
      destruct q; cbn [get_path]; rewrite G; reflexivity.
Qed.
Lemma get_set_prefix p v : forall q d d', set_path p v d = Ok d' -> pprefix q p -> exists s, get_path q d' = Some (PDict s).
Proof.
  induction p as [|k p IH]; intros q d d' H (Q1 & r & Q2 & Q3); [discriminate|]. destruct q as [|j q]; [contradiction|]. cbn in Q3. injection Q3 as <- Q3.
  destruct p as [|k2 p]; [destruct q; [cbn in Q3; subst r; contradiction|discriminate]|]. rewrite set_path_cons in H by discriminate.
  assert (X : exists s s0, set_path (k2 :: p) v s0 = Ok s /\ d' = dset k (PDict s) d).
  { destruct (dget k d) as [[]|]; try discriminate; apply bind_Ok in H as (s & E & H); apply Ok_inj in H; eauto. }
  destruct X as (s & s0 & E & ->). destruct q as [|j2 q].
  - cbn. rewrite dget_set_same. eauto.
  - rewrite get_path_cons by discriminate. rewrite dget_set_same. eapply IH; [exact E|]. split; [discriminate|]. exists r. auto.
Qed.
Lemma last_app p a b : last_of p (a ++ b) = or_else (last_of p b) (last_of p a).
Proof.
  induction a as [|[q v] a IH]; cbn [app last_of]; [destruct (last_of p b); reflexivity|]. rewrite IH. destruct (last_of p b); cbn [or_else]; reflexivity.
Qed.
Lemma last_none p l : ~ In p (map fst l) -> last_of p l = None.
Proof.
  induction l as [|[q v] l IH]; intros N; [reflexivity|]. cbn [last_of]. rewrite IH by (intros C; apply N; right; exact C). destruct (patheqb_spec p q) as [->|]; [|reflexivity].
  exfalso. apply N. left. reflexivity.
Qed.
(** ** normalize *)
Definition repr (all : list (list text)) (items : list (list text * pval)) (d : cpd) : Prop :=
  (forall p, In p all -> get_path p d = last_of p items) /\
  (forall q p, In p all -> pprefix q p -> forall w, get_path q d = Some w -> exists s, w = PDict s) /\
  (forall p, p <> [] -> (forall a r, In a all -> a <> p ++ r) -> (forall a r, In a all -> p <> a ++ r) -> get_path p d = None).
Lemma normalize_repr all : prefix_free all -> forall items done d, (forall i, In i items -> In (fst i) all) -> repr all done d ->
  exists d', normalize_go items d = Ok d' /\ repr all (done ++ items) d'.
Proof.
  intros [NE PF]. induction items as [|[p v] items IH]; intros done d HI (R1 & R2 & R3).
  - exists d. rewrite app_nil_r. split; [reflexivity|]. split; auto.
  - cbn [normalize_go]. assert (Ip : In p all) by (apply (HI (p, v)); left; reflexivity).
    destruct (set_ok p v d (NE p Ip)) as (d1 & E1); [intros q Q; apply (R2 q p Ip Q)|]. rewrite E1. cbn [bind].
    destruct (IH (done ++ [(p, v)]) d1) as (d' & E & R); [intros i Hi; apply HI; right; exact Hi| |exists d'; split; [exact E|rewrite <- app_assoc in R; exact R]].
    split; [|split].
    + intros q Iq. rewrite last_app. cbn [last_of]. destruct (patheqb_spec q p) as [->|N]; cbn [or_else].
      * eapply get_set_same; eauto.
      * rewrite <- (R1 q Iq). eapply get_set_other; [exact E1| |].
        -- intros r E'. apply N. rewrite E'. rewrite (PF p q Ip Iq r E'). apply app_nil_r.
        -- intros r E'. apply N. rewrite E'. rewrite (PF q p Iq Ip r E'). symmetry; apply app_nil_r.
    + intros q a Ia Q w G. destruct Q as (Q1 & r & Q2 & Q3).
      destruct (list_eq_dec (list_eq_dec Z.eq_dec) (firstn (length q) p) q) as [F|F].
      * assert (EP : p = q ++ skipn (length q) p) by (rewrite <- F at 1; symmetry; apply firstn_skipn).
        destruct (skipn (length q) p) as [|x t] eqn:S.
        -- rewrite app_nil_r in EP. subst q. rewrite (PF p a Ip Ia r Q3) in Q2. contradiction.
        -- destruct (get_set_prefix p v q d d1 E1) as (s & G'); [split; [exact Q1|exists (x :: t); split; [discriminate|exact EP]]|]. rewrite G in G'. injection G' as ->. eauto.
      * rewrite (get_set_other p v q d d1 E1) in G.
        -- apply (R2 q a Ia); [split; [exact Q1|eauto]|exact G].
        -- intros t E'. assert (EA : a = p ++ (t ++ r)) by (rewrite Q3, E'; now rewrite app_assoc). apply (PF p a Ip Ia) in EA. apply app_eq_nil in EA as [_ EA]. contradiction.
        -- intros t E'. apply F. rewrite E'. rewrite firstn_app, firstn_all, Nat.sub_diag. cbn [firstn]. apply app_nil_r.
    + intros q Q1 Q2 Q3. rewrite (get_set_other p v q d d1 E1); [now apply R3| |].
      * intros t E'. exact (Q3 p t Ip E').
      * intros t E'. exact (Q2 p t Ip E').
Qed.
Lemma normalize_ok items : prefix_free (map fst items) -> exists d, normalize items = Ok d /\
  (forall p, In p (map fst items) -> get_path p d = last_of p items) /\
  (forall p, p <> [] -> (forall a r, In a (map fst items) -> a <> p ++ r) -> (forall a r, In a (map fst items) -> p <> a ++ r) -> get_path p d = None).
Proof.
  intros PF. destruct (normalize_repr (map fst items) PF items [] []) as (d & E & R1 & R2 & R3).
  - intros i Hi. now apply in_map.
  - split; [|split].
    + intros p Ip. cbn. destruct p as [|k [|j p]]; reflexivity.
    + intros q p _ (Q1 & _) w G. destruct q as [|k [|j q]]; cbn in G; discriminate.
    + intros p P _ _. destruct p as [|k [|j p]]; reflexivity.
  - exists d. cbn [app] in *. auto.
Qed.
Lemma standard_free ps : (forall p, In p ps -> standard p) -> prefix_free ps.
Proof.
  intros H. split.
  - intros p I. destruct (H p I) as [(k & -> & _)|(k & ->)]; discriminate.
  - intros p q Ip Iq r E. destruct (H p Ip) as [(k & -> & K)|(k & ->)], (H q Iq) as [(j & -> & J)|(j & ->)]; cbn in E; try congruence.
    injection E as E1 E2. now subst.
Qed.
(** ** the sources have standard paths *)
Definition all_standard (l : list pitem) : Prop := Forall standard_item l.
Lemma settings_standard (s : list (text * pval)) : all_standard (map (fun q => At [k_settings; fst q] (snd q)) s).
Proof. apply Forall_map, Forall_forall. intros q _. right. eauto. Qed.
Lemma denorm_standard p : forall l, denormalize p = Ok l -> all_standard l.
Proof.
  induction p as [|[k v] p IH]; intros l H; cbn [denormalize] in H; [apply Ok_inj in H; subst; constructor|].
  apply bind_Ok in H as (h & E & H). apply bind_Ok in H as (t & ET & H). apply Ok_inj in H. subst l. apply Forall_app. split; [|now apply IH].
  destruct (seqb_spec k k_settings) as [->|N].
  - destruct v as [[]| | | |[]|s|s]; try discriminate; apply Ok_inj in E; subst h; try constructor; apply settings_standard.
  - apply Ok_inj in E. subst h. constructor; [|constructor]. left. exists k. auto.
Qed.
Lemma x_settings_standard v l : x_settings v = Ok l -> all_standard l.
Proof. destruct v as [[]| | | |[]|s|s]; cbn; intros H; try discriminate; apply Ok_inj in H; subst l; try constructor; apply settings_standard. Qed.
Section params.
Context (U : unicode) (join : text -> text -> text) (exists_file : text -> bool) (sections : text -> list (text * list (text * text))) (user userdir : text).
Lemma service_standard p : all_standard (service_item U p).
Proof.
  unfold service_item. cbv zeta. destruct (seqb_spec (py_lower U (fst p)) (str "ldap")); [repeat constructor|]. destruct (seqb_spec (py_lower U (fst p)) (str "pg_service")); [constructor|].
  destruct (seqb_spec (py_lower U (fst p)) (str "hostaddr")); [constructor; [left; eexists; split; [reflexivity|discriminate]|constructor]|].
  destruct (seqb_spec (py_lower U (fst p)) (str "dbname")); [constructor; [left; eexists; split; [reflexivity|discriminate]|constructor]|].
  destruct (existsb (seqb (py_lower U (fst p))) service_driver_parameters) eqn:E; cbn [negb].
  - constructor; [|constructor]. left. eexists. split; [reflexivity|]. intros C. rewrite C in E. vm_compute in E. discriminate.
  - constructor; [right; eauto|constructor].
Qed.
Lemma find_standard files name l : find_service U exists_file sections files name = Ok l -> all_standard l.
Proof.
  induction files as [|f files IH]; cbn [find_service]; [discriminate|]. destruct (exists_file f); [|exact IH]. destruct (dget name (sections f)) as [es|]; [|exact IH].
  intros H. apply Ok_inj in H. subst l. apply Forall_flat_map, Forall_forall. intros p _. apply service_standard.
Qed.
Lemma callback_standard name cb v c l : callback U join exists_file sections userdir name = Some cb -> cb v c = Ok l -> all_standard l.
Proof.
  unfold callback. destruct (seqb name k_settings); [intros H; injection H as <-; apply x_settings_standard|].
  destruct (seqb name (str "pq_iri")).
  { intros H; injection H as <-. destruct v; try discriminate. intros H. apply bind_Ok in H as (p & _ & H). eapply denorm_standard; eauto. }
  destruct (seqb name (str "pg_service")).
  { intros H; injection H as <-. destruct v as [s| | | | | |]; try discriminate. apply (find_standard (service_files join userdir c) s). }
  destruct (seqb name (str "pg_ldap")); [|discriminate]. intros H; injection H as <-. discriminate.
Qed.
Notation extra := (extrapolate U join exists_file sections userdir).
(** the configuration after the items *)
Definition conf_of (items : list pitem) (c : cpd) : cpd :=
  fold_left (fun c i => match i with Special k v => if py_startswith config_prefix k then dset (skipn 7 k) v c else c | At _ _ => c end) items c.
Lemma extra_cons_at fuel p v r c : extra (S fuel) (At p v :: r) c = do t <- extra (S fuel) r c; Ok ((p, v) :: t).
Proof. reflexivity. Qed.
Lemma extra_cons_special fuel k v r c : extra (S fuel) (Special k v :: r) c =
  if py_startswith config_prefix k then extra (S fuel) r (dset (skipn 7 k) v c)
  else match callback U join exists_file sections userdir k with
       | None => extra (S fuel) r c
       | Some cb => do xs <- cb v c; do h <- extra fuel xs c; do t <- extra (S fuel) r c; Ok (h ++ t)
       end.
Proof. reflexivity. Qed.
Lemma extra_app fuel a b : forall c l, extra (S fuel) (a ++ b) c = Ok l <-> exists la lb, extra (S fuel) a c = Ok la /\ extra (S fuel) b (conf_of a c) = Ok lb /\ l = la ++ lb.
Proof.
  induction a as [|i a IH]; intros c l; cbn [app].
  - split; [intros H; exists [], l; auto|]. intros (la & lb & E1 & E2 & ->). apply Ok_inj in E1. subst la. exact E2.
  - destruct i as [p v|k v]; cbn [conf_of fold_left].
    + rewrite !extra_cons_at. fold (conf_of a c). split.
      * intros H. apply bind_Ok in H as (t & E & H). apply Ok_inj in H. subst l. apply IH in E as (la & lb & E1 & E2 & ->). exists ((p, v) :: la), lb. rewrite E1. auto.
      * intros (la & lb & E1 & E2 & ->). apply bind_Ok in E1 as (t & E & E1). apply Ok_inj in E1. subst la.
        rewrite (proj2 (IH c (t ++ lb))) by eauto. reflexivity.
    + rewrite !extra_cons_special. destruct (py_startswith config_prefix k); [apply IH|]. fold (conf_of a c).
      destruct (callback U join exists_file sections userdir k) as [cb|]; [|apply IH]. destruct (cb v c) as [xs|e]; cbn [bind].
      2:{ split; [discriminate|]. intros (la & lb & E & _). discriminate. }
      destruct (extra fuel xs c) as [h|e]; cbn [bind]; [|split; [discriminate|]; intros (la & lb & E & _); discriminate]. split.
      * intros H. apply bind_Ok in H as (t & E & H). apply Ok_inj in H. subst l. apply IH in E as (la & lb & E1 & E2 & ->). exists (h ++ la), lb. rewrite E1. cbn [bind]. rewrite app_assoc. auto.
      * intros (la & lb & E1 & E2 & ->). apply bind_Ok in E1 as (t & E & E1). apply Ok_inj in E1. subst la. rewrite (proj2 (IH c (t ++ lb))) by eauto. cbn [bind]. now rewrite app_assoc.
Qed.
Lemma extra_standard fuel : forall items c l, all_standard items -> extra fuel items c = Ok l -> forall p, In p (map fst l) -> standard p.
Proof.
  induction fuel as [|fuel IHf]; intros items c l S H; [discriminate|]. revert c l H. induction S as [|i items Hi S IH]; intros c l H.
  - apply Ok_inj in H. subst l. intros p [].
  - destruct i as [q v|k v].
    + rewrite extra_cons_at in H. apply bind_Ok in H as (t & E & H). apply Ok_inj in H. subst l. intros p [<-|I]; [exact Hi|]. eapply IH; eauto.
    + rewrite extra_cons_special in H. destruct (py_startswith config_prefix k); [eapply IH; eauto|].
      destruct (callback U join exists_file sections userdir k) as [cb|] eqn:CB; [|eapply IH; eauto].
      apply bind_Ok in H as (xs & EX & H). apply bind_Ok in H as (h & EH & H). apply bind_Ok in H as (t & ET & H). apply Ok_inj in H. subst l.
      intros p I. rewrite map_app in I. apply in_app_or in I as [I|I]; [|eapply IH; eauto]. eapply IHf; [|exact EH|exact I]. eapply callback_standard; eauto.
Qed.
Lemma extra_plain fuel items c : (forall i, In i items -> match i with At _ _ => True | Special _ _ => False end) -> extra (S fuel) items c = Ok (pairs items) /\ conf_of items c = c.
Proof.
  induction items as [|[p v|k v] items IH]; intros H; [split; reflexivity| |destruct (H (Special k v)); left; reflexivity].
  rewrite extra_cons_at. destruct IH as [E1 E2]; [intros i Hi; apply H; right; exact Hi|]. rewrite E1. split; [reflexivity|exact E2].
Qed.
Lemma denorm_plain p : forall l, denormalize p = Ok l -> forall i, In i l -> match i with At _ _ => True | Special _ _ => False end.
Proof.
  assert (MS : forall s : list (text * pval), forall i, In i (map (fun q => At [k_settings; fst q] (snd q)) s) -> match i with At _ _ => True | Special _ _ => False end).
  { intros s i Hi. apply in_map_iff in Hi as (q & <- & _). exact I. }
  induction p as [|[k v] p IH]; intros l H; cbn [denormalize] in H; [apply Ok_inj in H; subst; intros i []|].
  apply bind_Ok in H as (h & E & H). apply bind_Ok in H as (t & ET & H). apply Ok_inj in H. subst l. intros i Hi. apply in_app_or in Hi as [Hi|Hi]; [|eapply IH; eauto].
  destruct (seqb k k_settings).
  - destruct v as [[]| | | |[]|s|s]; try discriminate; apply Ok_inj in E; subst h; try destruct Hi; eapply MS; eauto.
  - apply Ok_inj in E. subst h. destruct Hi as [<-|[]]. exact I.
Qed.
Lemma defaults_plain i : In i (defaults join exists_file user userdir) -> match i with At _ _ => True | Special _ _ => False end.
Proof.
  unfold defaults. intros H. apply in_app_or in H as [H|H]; [cbn [In] in H; repeat destruct H as [<-|H]; try exact I; destruct H|]. apply in_map_iff in H as (q & <- & _). exact I.
Qed.
End params.
