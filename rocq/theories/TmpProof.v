From Verif Require Import Base BaseProof PyStr PyStrProof PyDict PyDictProof TmpModel TmpSpec.

Lemma dupdate_get {V} (e : list (text * V)) : forall c k, dget k (dupdate c e) = match dget k (rev e) with Some v => Some v | None => dget k c end.
Proof.
  induction e as [|[j v] e IH]; intros c k; [reflexivity|]. unfold dupdate. cbn [fold_left fst snd rev]. change (fold_left (fun d p => dset (fst p) (snd p) d) e (dset j v c)) with (dupdate (dset j v c) e).
  rewrite IH, dget_app, dget_set. destruct (dget k (rev e)); auto. cbn [dget]. destruct (seqb_spec k j); auto.
Qed.
Lemma local_get c k : dget k (rev (local_builtins c)) = if existsb (seqb k) provided then Some (Of c k) else None.
Proof.
  unfold local_builtins. change local_names with provided. rewrite <- map_rev.
  replace (existsb (seqb k) provided) with (existsb (seqb k) (rev provided)).
  - induction (rev provided) as [|x l IH]; [reflexivity|]. cbn [map dget existsb]. destruct (seqb_spec k x) as [->|]; [reflexivity|exact IH].
  - destruct (existsb (seqb k) provided) eqn:E.
    + apply existsb_exists in E as (x & I & Q). apply existsb_exists. exists x. split; [now apply -> in_rev|assumption].
    + destruct (existsb (seqb k) (rev provided)) eqn:E2; [|reflexivity]. apply existsb_exists in E2 as (x & I & Q). rewrite <- in_rev in I.
      assert (existsb (seqb k) provided = true) by (apply existsb_exists; eauto). congruence.
Qed.
Lemma in_provided k : existsb (seqb k) provided = true <-> In k provided.
Proof.
  rewrite existsb_exists. split; [intros (x & I & Q); apply seqb_eq in Q as ->; assumption|]. intros I. exists k. split; [assumption|apply seqb_refl].
Qed.
Lemma ddels_get {V} ks : forall (d : list (text * V)) k, dget k (fold_left (fun d k => ddel k d) ks d) = if existsb (seqb k) ks then None else dget k d.
Proof.
  induction ks as [|x ks IH]; intros d k; [reflexivity|]. cbn [fold_left existsb]. rewrite IH. destruct (existsb (seqb k) ks); [now rewrite orb_true_r|]. rewrite orb_false_r, dget_del. reflexivity.
Qed.

Definition frame_of (c : Z) : frame := {| f_ctx := Some c; f_dict := local_builtins c |}.
Record inv (b : list (text * bval)) (es : list tev) (open : list (Z * list Z)) (used : list Z) (s : tstate) : Prop := {
  iv_sandbox : t_sandbox s = len open;
  iv_stack : match open with [] => t_stack s = [] | _ => exists base, t_stack s = base :: map (fun p => frame_of (fst p)) (rev open) end;
  iv_local : match open with [] => True | (c, _) :: _ => forall k, In k provided -> dget k (t_builtins s) = Some (Of c k) end;
  iv_own : forall k, own_name k -> dget k (t_builtins s) = last_set es k (dget k b);
  iv_out : open = [] -> (forall k, In k builtins_keys -> dget k b = None) -> forall k, In k provided -> k <> str "new" -> dget k (t_builtins s) = None;
  iv_nodup : NoDup (map fst open);
  iv_extras : forall c xs, In (c, xs) open -> extras_of c (t_extras s) = xs /\ In c used;
  iv_used : forall p, In p (t_extras s) -> In (fst p) used
}.

Lemma last_set_snoc es k v0 e : last_set (es ++ [e]) k v0 = match e with Set_ j v => if seqb k j then Some (User v) else last_set es k v0 | _ => last_set es k v0 end.
Proof. revert v0. induction es as [|x es IH]; intros v0; [destruct e; reflexivity|]. cbn [app last_set]. destruct x; apply IH. Qed.
Lemma trun_app a e s : trun (a ++ [e]) s = fst (tstep e (trun a s)).
Proof. revert s. induction a as [|x a IH]; intros s; [reflexivity|]. cbn [app trun]. apply IH. Qed.
Lemma extras_app x c d : extras_of d (x ++ [(c, [])]) = extras_of d x.
Proof.
  unfold extras_of. induction x as [|p x IH]; cbn [app find]; [cbn [fst]; now destruct (c =? d)|]. destruct (fst p =? d); [reflexivity|exact IH].
Qed.

(** push *)
Lemma push_good c s : exists base, fst (push c Good s) = {| t_builtins := dupdate (t_builtins s) (local_builtins c);
    t_stack := match t_stack s with [] => [base] | l => l end ++ [frame_of c]; t_extras := t_extras s ++ [(c, [])]; t_sandbox := t_sandbox s + 1; t_log := t_log s ++ [AConnect c] |} /\ snd (push c Good s) = Good.
Proof. unfold push. eexists. split; [|reflexivity]. cbn [fst]. reflexivity. Qed.
Lemma inv_push b es open used s c s' : inv b es open used s -> ~ In c used ->
  t_builtins s' = dupdate (t_builtins s) (local_builtins c) -> (exists base, t_stack s' = match t_stack s with [] => [base] | l => l end ++ [frame_of c]) ->
  t_extras s' = t_extras s ++ [(c, [])] -> t_sandbox s' = t_sandbox s + 1 -> inv b es ((c, []) :: open) (c :: used) s'.
Proof.
  intros [A B C D E F G H] N Q1 (base & Q2) Q3 Q4. constructor.
  - rewrite Q4, A. unfold len. cbn [length]. lia.
  - destruct open as [|p open].
    + rewrite B in Q2. exists base. exact Q2.
    + destruct B as (bs & B). rewrite B in Q2. exists bs. rewrite Q2. cbn [rev app]. rewrite !map_app. reflexivity.
  - intros k I. rewrite Q1, dupdate_get, local_get. apply in_provided in I. now rewrite I.
  - intros k O. rewrite Q1, dupdate_get, local_get. destruct (existsb (seqb k) provided) eqn:I; [apply in_provided in I; destruct O; contradiction|]. now apply D.
  - discriminate.
  - cbn [map fst]. constructor; [|assumption]. intros I. apply in_map_iff in I as ([d xs] & Q & I). cbn in Q. subst d. apply G in I as [_ I]. contradiction.
  - intros d xs [I|I].
    + injection I as <- <-. rewrite Q3, extras_app. split; [|now left]. unfold extras_of. destruct (find _ _) as [p|] eqn:FI; [|reflexivity]. apply find_some in FI as [FI Q]. apply Z.eqb_eq in Q. subst c. apply H in FI. contradiction.
    + apply G in I as [I J]. rewrite Q3, extras_app. split; [assumption|now right].
  - intros p I. rewrite Q3 in I. apply in_app_iff in I as [I|[<-|[]]]; [right; now apply H|now left].
Qed.
Lemma pop_state i os s base l c : t_stack s = base :: l ++ [frame_of c] ->
  t_builtins (fst (pop i os s)) = match rev l with next :: _ => dupdate (t_builtins s) (f_dict next) | [] => fold_left (fun d k => ddel k d) builtins_keys (t_builtins s) end /\
  t_stack (fst (pop i os s)) = match l with [] => [] | _ => base :: l end /\
  t_extras (fst (pop i os s)) = t_extras s /\ t_sandbox (fst (pop i os s)) = t_sandbox s - 1.
Proof.
  intros Q. unfold pop. rewrite Q, app_comm_cons, rev_app_distr. cbn [rev app].
  assert (G : forall x : tstate * outc, x = x -> True) by auto.
  destruct (rev l) as [|next r] eqn:R.
  - assert (L : l = []) by (apply (f_equal (@rev frame)) in R; rewrite rev_involutive in R; exact R). subst l. cbn [app rev tl f_ctx frame_of].
    destruct i; [cbn; auto|]. destruct (close_all _ os (t_log s)) as [[lg os'] o]. destruct o; [destruct os' as [|[] ?]|..]; cbn; auto.
  - assert (L : l <> []) by (intros ->; discriminate). assert (X : exists a t, r ++ [base] = a :: t) by (destruct r; cbn; eauto). destruct X as (a & t & X). cbn [app]. rewrite X.
    assert (Y : rev (next :: a :: t) = base :: l). { rewrite <- X. change (next :: r ++ [base]) with ((next :: r) ++ [base]). rewrite rev_app_distr, <- R, rev_involutive. reflexivity. }
    rewrite Y. destruct l as [|l0 l]; [congruence|]. cbn [f_ctx frame_of].
    destruct i; [cbn; auto|]. destruct (close_all _ os (t_log s)) as [[lg os'] o]. destruct o; [destruct os' as [|[] ?]|..]; cbn; auto.
Qed.
Lemma keys_provided k : In k builtins_keys <-> In k provided /\ k <> str "new" \/ k = str "newdb".
Proof.
  assert (A : forallb (fun k => (existsb (seqb k) provided && negb (seqb k (str "new"))) || seqb k (str "newdb")) builtins_keys = true) by reflexivity.
  assert (B : forallb (fun k => seqb k (str "new") || existsb (seqb k) builtins_keys) provided = true) by reflexivity.
  rewrite forallb_forall in A, B. split.
  - intros I. specialize (A k I). apply orb_true_iff in A as [A|A]; [left|right; now apply seqb_eq]. apply andb_true_iff in A as [A1 A2]. apply in_provided in A1. split; [assumption|]. intros ->. now rewrite seqb_refl in A2.
  - intros [[I N]| ->]; [|vm_compute; tauto]. specialize (B k I). apply orb_true_iff in B as [B|B]; [apply seqb_eq in B; contradiction|]. apply existsb_exists in B as (x & J & Q). apply seqb_eq in Q as ->. assumption.
Qed.
Lemma inv_pop b es c xs open used s s' : inv b es ((c, xs) :: open) used s ->
  (forall base l, t_stack s = base :: l ++ [frame_of c] ->
    t_builtins s' = match rev l with next :: _ => dupdate (t_builtins s) (f_dict next) | [] => fold_left (fun d k => ddel k d) builtins_keys (t_builtins s) end /\
    t_stack s' = match l with [] => [] | _ => base :: l end /\ t_extras s' = t_extras s /\ t_sandbox s' = t_sandbox s - 1) -> inv b es open used s'.
Proof.
  intros [A B C D E F G H] P. destruct B as (base & B). cbn [rev] in B. rewrite map_app in B. cbn [map fst] in B. destruct (P _ _ B) as (Q1 & Q2 & Q3 & Q4). clear P.
  constructor.
  - rewrite Q4, A. unfold len. cbn [length]. lia.
  - destruct open as [|[d ys] open]; [exact Q2|]. exists base. rewrite Q2. destruct (map (fun p => frame_of (fst p)) (rev ((d, ys) :: open))) eqn:M; [|reflexivity].
    apply (f_equal (@length frame)) in M. rewrite map_length, rev_length in M. discriminate.
  - destruct open as [|[d ys] open]; [exact Logic.I|]. intros k I. rewrite Q1, <- map_rev, rev_involutive. cbn [map fst f_dict frame_of]. rewrite dupdate_get, local_get. apply in_provided in I. now rewrite I.
  - intros k O. rewrite <- (D k O), Q1. destruct (rev (map (fun p => frame_of (fst p)) (rev open))) as [|nx r] eqn:R.
    + rewrite ddels_get. destruct (existsb (seqb k) builtins_keys) eqn:X; [|reflexivity]. apply existsb_exists in X as (x & I & Q). apply seqb_eq in Q as <-. apply keys_provided in I as [[I _]|I]; destruct O; contradiction.
    + assert (X : exists d, nx = frame_of d). { assert (I : In nx (rev (map (fun p => frame_of (fst p)) (rev open)))) by (rewrite R; now left). rewrite <- in_rev in I. apply in_map_iff in I as (p & <- & _). eauto. }
      destruct X as (d & ->). cbn [f_dict frame_of]. rewrite dupdate_get, local_get. destruct (existsb (seqb k) provided) eqn:X; [apply in_provided in X; destruct O; contradiction|reflexivity].
  - intros -> _ k I N. rewrite Q1. cbn [rev map]. rewrite ddels_get. assert (J : In k builtins_keys) by (apply keys_provided; auto).
    assert (X : existsb (seqb k) builtins_keys = true) by (apply existsb_exists; exists k; split; [assumption|apply seqb_refl]). now rewrite X.
  - cbn [map] in F. now inversion F.
  - intros d ys I. rewrite Q3. apply G. now right.
  - intros p I. rewrite Q3 in I. now apply H.
Qed.
Lemma add_extra_of c e x d : extras_of d (add_extra c e x) = if d =? c then (if existsb (fun p => fst p =? c) x then extras_of d x ++ [e] else extras_of d x) else extras_of d x.
Proof.
  unfold extras_of, add_extra. induction x as [|p x IH]; [cbn; now destruct (d =? c)|]. cbn [map find existsb].
  destruct (Z.eqb_spec (fst p) c) as [Q|Q].
  - cbn [fst orb]. destruct (Z.eqb_spec d c) as [E0|N]; [subst d|].
    + rewrite Q, Z.eqb_refl. reflexivity.
    + rewrite Q in *. destruct (Z.eqb_spec c d); [congruence|]. exact IH.
  - cbn [orb]. destruct (Z.eqb_spec (fst p) d) as [Q2|Q2].
    + destruct (Z.eqb_spec d c); [congruence|]. reflexivity.
    + exact IH.
Qed.
Lemma inv_of b es open used : hist es open used -> inv b es open used (trun es (tinit b)) /\ (forall c, In c (map fst open) -> existsb (fun p => fst p =? c) (t_extras (trun es (tinit b))) = true).
Proof.
  induction 1 as [|es open used c os H IH N|es open used c oc o os H IH N|es open used c e os H IH N|es c xs open used i os H IH|es c xs open used e H IH N|es open used k v H IH N].
  - split; [|intros c []]. constructor; cbn; auto; try constructor; try tauto. intros _ Hb k I Nk. apply Hb, keys_provided. now left.
  - destruct IH as [IH IX]. rewrite trun_app. set (s := trun es (tinit b)) in *. cbn [tstep]. unfold enter. destruct (push_good c s) as (base & P1 & P2). destruct (push c Good s) as [s1 o1]. cbn [fst snd] in P1, P2. subst s1 o1. cbn [fst].
    pose proof (inv_push b es open used s c {| t_builtins := dupdate (t_builtins s) (local_builtins c); t_stack := match t_stack s with [] => [base] | l => l end ++ [frame_of c]; t_extras := t_extras s ++ [(c, [])]; t_sandbox := t_sandbox s + 1; t_log := t_log s ++ [AConnect c] |} IH N eq_refl (ex_intro _ base eq_refl) eq_refl eq_refl) as [A B C D E F G J].
    cbn in *. split.
    + constructor; cbn; auto. intros k O. rewrite last_set_snoc. now apply D.
    + intros d [<-|I]; apply existsb_exists; [exists (c, []); split; [apply in_app_iff; right; now left|cbn; apply Z.eqb_refl]|]. apply IX, existsb_exists in I as (p & I & Q). exists p. split; [apply in_app_iff; now left|assumption].
  - destruct IH as [IH IX]. rewrite trun_app. cbn [tstep]. unfold enter, push. destruct oc; [congruence| |]; cbn [fst]; (split; [destruct IH as [A B C D E F G J]; constructor; auto; intros k O; rewrite last_set_snoc; now apply D|assumption]).
  - destruct IH as [IH IX]. rewrite trun_app. set (s := trun es (tinit b)) in *. cbn [tstep]. unfold enter. destruct (push_good c s) as (base & P1 & P2). destruct (push c Good s) as [s1 o1]. cbn [fst snd] in P1, P2. subst o1.
    assert (I1 : inv b es ((c, []) :: open) (c :: used) s1) by (subst s1; eapply inv_push; try eassumption; try reflexivity; eexists; reflexivity).
    assert (I2 : inv b es open (c :: used) (fst (pop false os s1))) by (eapply inv_pop; [exact I1|intros bs l Q; exact (pop_state false os s1 bs l c Q)]).
    assert (R : fst (match pop false os s1 with (s2, Good) => (s2, Fails e) | r => r end) = fst (pop false os s1)) by (destruct (pop false os s1) as [s2 []]; reflexivity).
    rewrite R. assert (EX : t_extras (fst (pop false os s1)) = t_extras s1).
    { destruct (iv_stack _ _ _ _ _ I1) as (bs & B). cbn [rev] in B. rewrite map_app in B. cbn [map fst] in B. exact (proj1 (proj2 (proj2 (pop_state false os s1 bs _ c B)))). }
    split.
    + destruct I2 as [A B C D E F G J]. constructor; auto. intros k O. rewrite last_set_snoc. now apply D.
    + intros d I. rewrite EX, P1. cbn [t_extras]. apply IX, existsb_exists in I as (p & I & Q). apply existsb_exists. exists p. split; [apply in_app_iff; now left|assumption].
  - destruct IH as [IH IX]. rewrite trun_app. set (s := trun es (tinit b)) in *. cbn [tstep].
    assert (I2 : inv b es open used (fst (pop i os s))) by (eapply inv_pop; [exact IH|intros bs l Q; exact (pop_state i os s bs l c Q)]).
    assert (EX : t_extras (fst (pop i os s)) = t_extras s).
    { destruct (iv_stack _ _ _ _ _ IH) as (bs & B). cbn [rev] in B. rewrite map_app in B. cbn [map fst] in B. exact (proj1 (proj2 (proj2 (pop_state i os s bs _ c B)))). }
    split.
    + destruct I2 as [A B C D E F G J]. constructor; auto. intros k O. rewrite last_set_snoc. now apply D.
    + intros d I. rewrite EX. apply IX. cbn [map]. now right.
  - destruct IH as [IH IX]. rewrite trun_app. set (s := trun es (tinit b)) in *. cbn [tstep fst]. destruct IH as [A B C D E F G J]. unfold call_new.
    assert (P : In (str "new") provided) by (vm_compute; tauto). rewrite (C _ P). rewrite seqb_refl.
    assert (FS : forall p, In p (add_extra c e (t_extras s)) -> exists p', In p' (t_extras s) /\ fst p' = fst p).
    { intros p I. unfold add_extra in I. apply in_map_iff in I as (p' & <- & I). exists p'. split; [assumption|]. now destruct (fst p' =? c). }
    split.
    + constructor; cbn [t_sandbox t_stack t_builtins t_extras].
      * rewrite A. reflexivity.
      * destruct B as (base & B). exists base. rewrite B. cbn [rev]. rewrite !map_app. reflexivity.
      * exact C.
      * intros k O. rewrite last_set_snoc. now apply D.
      * discriminate.
      * exact F.
      * intros d ys [I|I].
        -- injection I as <- <-. rewrite add_extra_of, Z.eqb_refl. rewrite (IX c) by now left. destruct (G c xs) as [Q1 Q2]; [now left|]. rewrite Q1. split; [reflexivity|now right].
        -- destruct (G d ys) as [Q1 Q2]; [now right|]. split; [|now right]. rewrite add_extra_of. cbn [map fst] in F. inversion F as [|? ? NI _]; subst. destruct (Z.eqb_spec d c) as [->|]; [|reflexivity]. destruct NI. apply in_map_iff. exists (c, extras_of c (t_extras s)). auto.
      * intros p I. apply FS in I as (p' & I & <-). right. now apply J.
    + intros d I. cbn [map fst] in I. cbn [t_extras]. assert (I' : In d (map fst ((c, xs) :: open))) by exact I. apply IX, existsb_exists in I' as (p & I' & Q). apply existsb_exists. exists (if fst p =? c then (fst p, snd p ++ [e]) else p).
      split; [unfold add_extra; apply in_map_iff; exists p; auto|]. now destruct (fst p =? c).
  - destruct IH as [IH IX]. rewrite trun_app. cbn [tstep fst]. split; [|exact IX]. destruct IH as [A B C D E F G J]. destruct N as [N1 N2]. constructor; cbn [t_sandbox t_stack t_builtins t_extras]; auto.
    + destruct open as [|[c xs] open]; [exact Logic.I|]. intros j I. rewrite dget_set. destruct (seqb_spec j k) as [->|]; [contradiction|]. now apply C.
    + intros j O. rewrite dget_set, last_set_snoc. destruct (seqb j k); [reflexivity|]. now apply D.
    + intros O1 O2 j I Nj. rewrite dget_set. destruct (seqb_spec j k) as [->|]; [contradiction|]. now apply E.
Qed.
