(** TresProof3.v: the types of an acyclic catalog are resolved; anonymous records; what was packed can be unpacked *)
From Verif Require Import PyStr PyDict PyDictProof BaseProof PyListProof IterModel TypeIOModel TypeIOSpec TypeIOProof TypeIOProof2 ArrayModel ArraySpec ArrayProof ArrayProof2 RowProof TresModel TresSpec TresProof TresProof2.

Section Total.
Context {B : Type}.
Notation pv := (pv B). Notation io := (io B).
Context (iter_other : pv -> res (list pv)) (chars_other : pv -> option (list pv)) (encode : pv -> res (list Z)) (decode : list Z -> res pv).
Context (builtins : Z -> option io) (known : Z -> option io) (cat : catalog) (BO : bases_ok cat).
Notation good := (good encode decode).
Notation is_type := (is_type builtins known cat). Notation columns := (columns builtins known cat).
Notation resolve := (resolve iter_other chars_other encode decode builtins cat).
Notation Inv := (Inv encode decode builtins known cat).
Context (rank : Z -> nat).
Context (AC : forall o ti, known o = None -> builtins o = None -> lookup_type cat o = Ok (Some ti) ->
    (t_relid ti <> 0 -> forall atts x, lookup_composite cat (t_relid ti) = Ok atts -> In x atts ->
       forall b, (if att_domain x then domain_base cat (att_type x) b else b = att_type x) -> (rank b < rank o)%nat) /\
    (t_relid ti = 0 -> t_ae ti <> None -> (rank (t_elem ti) < rank o)%nat) /\
    (t_relid ti = 0 -> t_ae ti = None -> t_type ti = 100 -> forall b, domain_base cat o b -> (rank b < rank o)%nat)).
Definition below (o : Z) (from : list Z) : Prop := forall y, In y from -> (rank o < rank y)%nat.
Lemma below_not o from : below o from -> existsb (Z.eqb o) from = false.
Proof.
  intros H. destruct (existsb (Z.eqb o) from) eqn:E; [|reflexivity]. apply existsb_exists in E as (y & I & E). apply Z.eqb_eq in E. subst y. specialize (H _ I). lia.
Qed.
Lemma below_more o b from : below o from -> (rank b < rank o)%nat -> below b (from ++ [o]).
Proof. intros H L y I. apply in_app_or in I as [I|[<-|[]]]; [specialize (H _ I); lia|exact L]. Qed.
Definition found (o : Z) (N : nat) : Prop := forall anon fuel st from, (N <= fuel)%nat -> Inv st -> below o from ->
  exists st' i, resolve anon fuel st o from = (st', Ok i).
Definition found_cols (atts : list (Z * text * bool)) (N : nat) : Prop := forall anon fuel n st from, (N <= fuel)%nat -> (N <= n)%nat -> Inv st ->
  (forall x b, In x atts -> (if att_domain x then domain_base cat (att_type x) b else b = att_type x) -> below b from) ->
  exists st' l, mapS (fun st x => match (if att_domain x then lookup_domain_basetype cat n (att_type x) else Ok (att_type x)) with
    | Err e => (st, Err e) | Ok t => resolve anon fuel st t from end) st atts = (st', Ok l).
Lemma resolve_start anon fuel st o from N : (S N <= fuel)%nat -> below o from ->
  (zget o st = None -> exists fuel', fuel = S fuel' /\ (N <= fuel')%nat /\ exists st' i, resolve anon fuel st o from = (st', Ok i)) ->
  exists st' i, resolve anon fuel st o from = (st', Ok i).
Proof.
  intros L BL H. destruct fuel as [|fuel]; [lia|]. destruct (zget o st) as [i|] eqn:E.
  - exists st, i. cbn [TresModel.resolve]. now rewrite (below_not _ _ BL), E.
  - destruct (H eq_refl) as (_ & _ & _ & X). exact X.
Qed.
Lemma types_found : (forall o t, is_type o t -> exists N, found o N) /\ (forall atts cols, columns atts cols -> exists N, found_cols atts N).
Proof.
  assert (M : forall (C : Prop), ((forall o t, is_type o t -> exists N, found o N) -> (forall atts cols, columns atts cols -> exists N, found_cols atts N) -> C) -> C).
  2:{ apply M. intros H1 H2. split; assumption. }
  intros C K.
  assert (c1 : forall o i, known o = Some i -> exists N, found o N).
  { intros o i E. exists 1%nat. intros anon fuel st from L I BL. destruct fuel as [|fuel]; [lia|]. cbn [TresModel.resolve]. rewrite (below_not _ _ BL), (proj1 I o i E). eauto. }
  assert (c2 : forall o i, known o = None -> builtins o = Some i -> exists N, found o N).
  { intros o i E E2. exists 1%nat. intros anon fuel st from L I BL. apply (resolve_start anon fuel st o from 0); [lia|exact BL|]. intros Z0. destruct fuel as [|fuel]; [lia|]. exists fuel. split; [reflexivity|]. split; [lia|].
    cbn [TresModel.resolve]. rewrite (below_not _ _ BL), Z0, E2. eauto. }
  assert (c3 : forall o, known o = None -> builtins o = None -> lookup_type cat o = Ok None -> exists N, found o N).
  { intros o E E2 E3. exists 1%nat. intros anon fuel st from L I BL. apply (resolve_start anon fuel st o from 0); [lia|exact BL|]. intros Z0. destruct fuel as [|fuel]; [lia|]. exists fuel. split; [reflexivity|]. split; [lia|].
    cbn [TresModel.resolve]. rewrite (below_not _ _ BL), Z0, E2, E3. eauto. }
  assert (c4 : forall o ti atts cols, known o = None -> builtins o = None -> lookup_type cat o = Ok (Some ti) -> t_relid ti <> 0 ->
    lookup_composite cat (t_relid ti) = Ok atts -> NoDup (map att_name atts) -> columns atts cols -> (exists N, found_cols atts N) -> exists N, found o N).
  { intros o ti atts cols E E2 E3 ER EC ND CC (N & F). exists (S N). intros anon fuel st from L I BL. apply (resolve_start anon fuel st o from N); [lia|exact BL|]. intros Z0. destruct fuel as [|fuel]; [lia|]. exists fuel. split; [reflexivity|]. split; [lia|].
    cbn [TresModel.resolve]. rewrite (below_not _ _ BL), Z0, E2, E3. destruct (Z.eqb_spec (t_relid ti) 0); [contradiction|]. cbn [negb]. rewrite EC.
    destruct (F anon fuel (S fuel) st (from ++ [o])) as (st' & l & M); [lia|lia|exact I| |].
    - intros x b IX D. apply below_more; [exact BL|]. destruct (AC o ti E E2 E3) as (A1 & _). apply (A1 ER atts x EC IX b D).
    - cbv zeta. rewrite M. eauto. }
  assert (c5 : forall o ti t ae, known o = None -> builtins o = None -> lookup_type cat o = Ok (Some ti) -> t_relid ti = 0 -> t_ae ti = Some ae -> is_type (t_elem ti) t -> (exists N, found (t_elem ti) N) -> exists N, found o N).
  { intros o ti t [bi bo] E E2 E3 ER EA TT (N & F). exists (S N). intros anon fuel st from L I BL. apply (resolve_start anon fuel st o from N); [lia|exact BL|]. intros Z0. destruct fuel as [|fuel]; [lia|]. exists fuel. split; [reflexivity|]. split; [lia|].
    cbn [TresModel.resolve]. rewrite (below_not _ _ BL), Z0, E2, E3, ER. cbn [Z.eqb negb]. rewrite EA. destruct (F anon fuel st (from ++ [o])) as (st' & l & M); [lia|exact I| |rewrite M; eauto].
    apply below_more; [exact BL|]. destruct (AC o ti E E2 E3) as (_ & A1 & _). apply A1; [exact ER|congruence]. }
  assert (c6 : forall o ti b t, known o = None -> builtins o = None -> lookup_type cat o = Ok (Some ti) -> t_relid ti = 0 -> t_ae ti = None -> t_type ti = 100 -> domain_base cat o b -> is_type b t -> (exists N, found b N) -> exists N, found o N).
  { intros o ti b t E E2 E3 ER EA ET D TT (N & F). destruct (base_total builtins known cat BO o b D) as (N2 & D2). exists (S (N + N2)). intros anon fuel st from L I BL. apply (resolve_start anon fuel st o from (N + N2)); [lia|exact BL|]. intros Z0. destruct fuel as [|fuel]; [lia|]. exists fuel. split; [reflexivity|]. split; [lia|].
    cbn [TresModel.resolve]. rewrite (below_not _ _ BL), Z0, E2, E3, ER. cbn [Z.eqb negb]. rewrite EA, ET, Z.eqb_refl. rewrite D2 by lia.
    destruct (F anon fuel st (from ++ [o])) as (st' & l & M); [lia|exact I| |rewrite M; eauto].
    apply below_more; [exact BL|]. destruct (AC o ti E E2 E3) as (_ & _ & A1). apply A1; assumption. }
  assert (c7 : forall o ti, known o = None -> builtins o = None -> lookup_type cat o = Ok (Some ti) -> t_relid ti = 0 -> t_ae ti = None -> t_type ti <> 100 -> exists N, found o N).
  { intros o ti E E2 E3 ER EA ET. exists 1%nat. intros anon fuel st from L I BL. apply (resolve_start anon fuel st o from 0); [lia|exact BL|]. intros Z0. destruct fuel as [|fuel]; [lia|]. exists fuel. split; [reflexivity|]. split; [lia|].
    cbn [TresModel.resolve]. rewrite (below_not _ _ BL), Z0, E2, E3, ER. cbn [Z.eqb negb]. rewrite EA. destruct (Z.eqb_spec (t_type ti) 100); [contradiction|].
    destruct (_ && _); eauto. }
  assert (d1 : exists N, found_cols [] N) by (exists O; intros anon fuel n st from _ _ _ _; cbn [mapS]; eauto).
  assert (d2 : forall o n t atts cols, is_type o t -> (exists N, found o N) -> columns atts cols -> (exists N, found_cols atts N) -> exists N, found_cols ((o, n, false) :: atts) N).
  { intros o nm t atts cols T (N1 & F1) CC (N2 & F2). exists (N1 + N2)%nat. intros anon fuel n st from L1 L2 I BL. cbn [mapS att_domain snd att_type fst].
    destruct (F1 anon fuel st from) as (st1 & i & E1); [lia|exact I|apply (BL (o, nm, false)); [now left|reflexivity]|]. rewrite E1.
    destruct (resolve_sound iter_other chars_other encode decode builtins known cat BO anon fuel _ _ _ _ _ I E1) as [I1 _].
    destruct (F2 anon fuel n st1 from) as (st2 & l & E2); [lia|lia|exact I1|intros x b IX; apply BL; now right|]. rewrite E2. eauto. }
  assert (d3 : forall o b n t atts cols, domain_base cat o b -> is_type b t -> (exists N, found b N) -> columns atts cols -> (exists N, found_cols atts N) -> exists N, found_cols ((o, n, true) :: atts) N).
  { intros o b nm t atts cols D T (N1 & F1) CC (N2 & F2). destruct (base_total builtins known cat BO o b D) as (N3 & D3). exists (N1 + N2 + N3)%nat. intros anon fuel n st from L1 L2 I BL. cbn [mapS att_domain snd att_type fst]. rewrite D3 by lia.
    destruct (F1 anon fuel st from) as (st1 & i & E1); [lia|exact I|apply (BL (o, nm, true)); [now left|exact D]|]. rewrite E1.
    destruct (resolve_sound iter_other chars_other encode decode builtins known cat BO anon fuel _ _ _ _ _ I E1) as [I1 _].
    destruct (F2 anon fuel n st1 from) as (st2 & l & E2); [lia|lia|exact I1|intros x b' IX; apply BL; now right|]. rewrite E2. eauto. }
  apply K.
  - intros o t T. refine (is_type_mut _ builtins known cat (fun o _ => exists N, found o N) (fun atts _ => exists N, found_cols atts N) _ _ _ _ _ _ _ _ _ _ _ o t T); eauto.
  - intros atts cols T. refine (columns_mut _ builtins known cat (fun o _ => exists N, found o N) (fun atts _ => exists N, found_cols atts N) _ _ _ _ _ _ _ _ _ _ _ atts cols T); eauto.
Qed.
End Total.

Scheme received_mut := Minimality for received Sort Prop with received_columns_mut := Minimality for received_columns Sort Prop.
Section Anonymous.
Context {B : Type}.
Notation pv := (pv B). Notation io := (io B).
Context (iter_other : pv -> res (list pv)) (chars_other : pv -> option (list pv)) (encode : pv -> res (list Z)) (decode : list Z -> res pv).
Context (builtins : Z -> option io) (c : cache (B := B)) (cat : catalog) (BO : bases_ok cat).
Notation known := (fun o => zget o c).
Notation is_type := (is_type builtins known cat).
Notation resolve := (resolve iter_other chars_other encode decode builtins cat).
Notation resolver := (resolver iter_other chars_other encode decode builtins cat c).
Notation anonymous := (anonymous builtins known cat).
Notation Inv := (Inv encode decode builtins known cat).
(** anonymous records have the pair made for them *)
Definition InvA (anon : Z -> res io) (st : cache) : Prop := forall o i, zget o st = Some i -> anonymous o -> i = anon_record_io_factory decode anon.
Lemma inva_set anon st o i : InvA anon st -> (anonymous o -> i = anon_record_io_factory decode anon) -> InvA anon (zset o i st).
Proof. intros H N o' i' E A. rewrite zget_set in E. destruct (Z.eqb_spec o' o) as [->|]; [injection E as <-; auto|eauto]. Qed.
Lemma inva_init anon : InvA anon c.
Proof. intros o i E (K & _). congruence. Qed.
Lemma inv_init : Inv c.
Proof.
  split; [auto|]. intros o i t E T. inversion T; subst; try congruence. replace i with i0 by congruence. apply (atom_good encode decode).
Qed.
Lemma mapS_inva {X Y} (f : cache -> X -> cache * res Y) anon : (forall st x st' r, InvA anon st -> f st x = (st', r) -> InvA anon st') ->
  forall l st st' r, InvA anon st -> mapS f st l = (st', r) -> InvA anon st'.
Proof.
  intros F. induction l as [|x l IH]; intros st st' r I H; cbn [mapS] in H; [injection H as <- <-; exact I|].
  destruct (f st x) as [st1 [y|e]] eqn:E; [|injection H as <- <-; eapply F; eauto]. pose proof (F _ _ _ _ I E) as I1.
  destruct (mapS f st1 l) as [st2 [ys|e]] eqn:M; injection H as <- <-; eapply IH; eauto.
Qed.
Lemma resolve_inva anon fuel : forall st o from st' r, InvA anon st -> resolve anon fuel st o from = (st', r) ->
  InvA anon st' /\ (anonymous o -> forall i, r = Ok i -> i = anon_record_io_factory decode anon).
Proof.
  induction fuel as [|fuel IH]; intros st o from st' r I H.
  { injection H as <- <-. split; [exact I|discriminate]. }
  cbn [TresModel.resolve] in H. destruct (existsb (Z.eqb o) from); [injection H as <- <-; split; [exact I|discriminate]|].
  destruct (zget o st) as [i0|] eqn:EZ.
  { injection H as <- <-. split; [exact I|]. intros A i [= <-]. now apply (I o). }
  destruct (builtins o) as [i0|] eqn:EB.
  { injection H as <- <-. assert (NA : anonymous o -> False) by (intros (_ & X & _); congruence). split; [apply inva_set; [exact I|intros A; destruct (NA A)]|intros A; destruct (NA A)]. }
  destruct (lookup_type cat o) as [[ti|]|e] eqn:EL.
  2:{ injection H as <- <-. split; [exact I|]. intros (_ & _ & ti & X & _). congruence. }
  2:{ injection H as <- <-. split; [exact I|discriminate]. }
  destruct (negb (t_relid ti =? 0)) eqn:ER.
  { apply negb_true_iff, Z.eqb_neq in ER. assert (NA : anonymous o -> False) by (intros (_ & _ & ti' & X & X2 & _); assert (ti' = ti) by congruence; congruence).
    destruct (lookup_composite cat (t_relid ti)) as [atts|e]; [|injection H as <- <-; split; [exact I|discriminate]].
    match type of H with match ?m with _ => _ end = _ => destruct m as [st1 r1] eqn:M end.
    apply (mapS_inva _ anon) in M; [|intros s x s' q I' F; destruct (if att_domain x then _ else _) as [tt|e]; [exact (proj1 (IH _ _ _ _ _ I' F))|injection F as <- <-; exact I']|exact I].
    destruct r1; injection H as <- <-; (split; [|intros A; destruct (NA A)]); [|exact M]. apply inva_set; [exact M|intros A; destruct (NA A)]. }
  apply negb_false_iff, Z.eqb_eq in ER. destruct (t_ae ti) as [[bi bo]|] eqn:EA.
  { assert (NA : anonymous o -> False) by (intros (_ & _ & ti' & X & _ & X2 & _); assert (ti' = ti) by congruence; congruence).
    destruct (resolve anon fuel st (t_elem ti) (from ++ [o])) as [st1 r1] eqn:M. destruct (IH _ _ _ _ _ I M) as [I1 _].
    destruct r1; injection H as <- <-; (split; [|intros A; destruct (NA A)]); [|exact I1]. apply inva_set; [exact I1|intros A; destruct (NA A)]. }
  destruct (t_type ti =? 100) eqn:ET.
  { apply Z.eqb_eq in ET. assert (NA : anonymous o -> False) by (intros (_ & _ & ti' & X & _ & _ & X2 & _); assert (ti' = ti) by congruence; subst ti'; rewrite ET in X2; discriminate).
    destruct (lookup_domain_basetype cat (S fuel) o) as [b|e]; [|injection H as <- <-; split; [exact I|discriminate]].
    destruct (resolve anon fuel st b (from ++ [o])) as [st1 r1] eqn:M. destruct (IH _ _ _ _ _ I M) as [I1 _].
    destruct r1; injection H as <- <-; (split; [|intros A; destruct (NA A)]); [|exact I1]. apply inva_set; [exact I1|intros A; destruct (NA A)]. }
  match type of H with (if ?cc then _ else _) = _ => destruct cc eqn:EN end; injection H as <- <-.
  - split; [apply inva_set; auto|]. intros _ i [= <-]. reflexivity.
  - assert (NA : anonymous o -> False).
    { intros (_ & _ & ti' & X & _ & _ & X2 & X3 & X4). assert (ti' = ti) by congruence. subst ti'. rewrite X2, X3, X4, Z.eqb_refl, !seqb_refl in EN. discriminate. }
    split; [apply inva_set; [exact I|intros A; destruct (NA A)]|intros A; destruct (NA A)].
Qed.
Lemma resolve_anonymous anon fuel st o : (1 <= fuel)%nat -> anonymous o -> InvA anon st -> exists st', resolve anon fuel st o [] = (st', Ok (anon_record_io_factory decode anon)).
Proof.
  intros L (K & EB & ti & EL & ER & EA & ET & EN & EM) I. destruct fuel as [|fuel]; [lia|]. cbn [TresModel.resolve existsb].
  destruct (zget o st) as [i|] eqn:E.
  - exists st. f_equal. f_equal. apply (I o i E). repeat split; auto. exists ti. auto 10.
  - rewrite EB, EL, ER. cbn [Z.eqb negb]. rewrite EA, ET, EN, EM. cbn [Z.eqb Pos.eqb]. rewrite !seqb_refl. cbn [andb]. eauto.
Qed.
Section Ac.
Context (AC : acyclic builtins known cat).
Lemma types_resolved o t : is_type o t -> exists N, forall anon fuel st, (N <= fuel)%nat -> Inv st -> exists st' i, resolve anon fuel st o [] = (st', Ok i).
Proof.
  intros T. destruct AC as (rank & A). destruct (proj1 (types_found iter_other chars_other encode decode builtins known cat BO rank A) o t T) as (N & F).
  exists N. intros anon fuel st L I. apply F; [exact L|exact I|]. intros y [].
Qed.
Definition reads (n : nat) (o : Z) (v : pv) (b : list Z) : Prop := exists N, forall fuel depth st, (N <= fuel)%nat -> (n <= depth)%nat -> Inv st -> InvA (resolver fuel depth) st ->
  exists st' i, resolve (resolver fuel depth) fuel st o [] = (st', Ok i) /\ unpack_of decode i b = Ok v.
Definition reads_columns (n : nat) (cols : list (Z * option (list Z))) (vs : list pv) : Prop := exists N, forall fuel depth, (N <= fuel)%nat -> (n <= depth)%nat ->
  exists colio, mapM (fun x => resolver fuel (S depth) (fst x)) cols = Ok colio /\ length colio = length cols /\
    forall k, exists r, process_items (map (unpack_of decode) colio) (map snd cols) attribute_error k = Ok r /\ map unopt r = vs.
Lemma received_reads n o v b : received encode decode builtins known cat n o v b -> reads n o v b.
Proof.
  refine (received_mut _ encode decode builtins known cat reads reads_columns _ _ _ _ _ n o v b).
  - clear n o v b. intros n o t v v' b T W. destruct (types_resolved o t T) as (N & F). exists N. intros fuel depth st L _ I _. destruct (F (resolver fuel depth) fuel st L I) as (st' & i & E).
    exists st', i. split; [exact E|]. destruct (resolve_sound iter_other chars_other encode decode builtins known cat BO _ _ _ _ _ _ _ I E) as [_ G]. now apply (proj1 (G i t eq_refl T) v v' b).
  - clear n o v b. intros n o cols vs A W _ (N & F). exists (S N). intros fuel depth st L LD I IA. destruct depth as [|depth]; [lia|].
    destruct (resolve_anonymous (resolver fuel (S depth)) fuel st o) as (st' & E); [lia|exact A|exact IA|]. eexists _, _. split; [exact E|].
    change (unpack_anonymous decode (resolver fuel (S depth)) (record_wire cols) = Ok (VTuple vs)). unfold unpack_anonymous. rewrite record_unpack_ok by exact W. cbn [bind].
    destruct (F fuel depth) as (colio & EM & EL & P); [lia|lia|]. rewrite EM. cbn [bind]. destruct (P O) as (r & ER & EV). unfold process_tuple. rewrite !map_length, EL, Nat.eqb_refl, ER. cbn [bind]. now rewrite EV.
  - exists O. intros fuel depth _ _. exists []. split; [reflexivity|]. split; [reflexivity|]. intros k. exists []. auto.
  - clear n o v b. intros n o t cols vs T _ (N & F). assert (R : exists N2, forall fuel depth, (N2 <= fuel)%nat -> exists i, resolver fuel (S depth) o = Ok i).
    { destruct T as [T|A].
      - destruct (types_resolved o t T) as (N2 & F2). exists N2. intros fuel depth L. cbn [TresModel.resolver]. destruct (F2 (resolver fuel depth) fuel c L inv_init) as (st' & i & ->). now exists i.
      - exists 1%nat. intros fuel depth L. cbn [TresModel.resolver]. destruct (resolve_anonymous (resolver fuel depth) fuel c o) as (st' & ->); [lia|exact A|apply inva_init|]. eexists. reflexivity. }
    destruct R as (N2 & R). exists (N + N2)%nat. intros fuel depth L LD. destruct (F fuel depth) as (colio & EM & EL & P); [lia|lia|]. destruct (R fuel depth) as (i & ER); [lia|].
    exists (i :: colio). cbn [mapM fst]. rewrite ER. cbn [bind]. rewrite EM. split; [reflexivity|]. split; [cbn [length]; lia|]. intros k. cbn [map snd process_items]. destruct (P (S k)) as (r & -> & <-). cbn [bind]. exists (None :: r). auto.
  - clear n o v b. intros n o b v cols vs _ (N2 & R) _ (N & F). exists (N + N2)%nat. intros fuel depth L LD. destruct (F fuel depth) as (colio & EM & EL & P); [lia|lia|].
    destruct (R fuel depth c) as (st' & i & ER & EU); [lia|lia|apply inv_init|apply inva_init|].
    assert (ES : resolver fuel (S depth) o = Ok i) by (cbn [TresModel.resolver]; now rewrite ER).
    exists (i :: colio). cbn [mapM fst]. rewrite ES. cbn [bind]. rewrite EM. split; [reflexivity|]. split; [cbn [length]; lia|]. intros k. cbn [map snd process_items]. rewrite EU. cbn [bind]. destruct (P (S k)) as (r & -> & <-). cbn [bind]. exists (Some v :: r). auto.
Qed.
End Ac.
End Anonymous.

(** ** a finite catalog *)
Section Finite.
Context {B : Type}.
Notation pv := (pv B). Notation io := (io B).
Context (iter_other : pv -> res (list pv)) (chars_other : pv -> option (list pv)) (encode : pv -> res (list Z)) (decode : list Z -> res pv).
Context (builtins : Z -> option io) (cat : catalog) (types : list Z) (FC : finite_catalog cat types).
Notation resolve := (resolve iter_other chars_other encode decode builtins cat).
Lemma mapS_not_fuel {X Y} (f : cache (B := B) -> X -> cache * res Y) l : (forall st x, In x l -> snd (f st x) <> Err OutOfFuel) -> forall st, snd (mapS f st l) <> Err OutOfFuel.
Proof.
  induction l as [|x l IH]; intros F st; cbn [mapS]; [discriminate|]. pose proof (F st x (or_introl eq_refl)) as F0. destruct (f st x) as [st1 [y|e]]; cbn [snd] in *; [|congruence].
  assert (F1 : forall st x, In x l -> snd (f st x) <> Err OutOfFuel) by (intros s z Z; apply F; now right). pose proof (IH F1 st1) as I1. destruct (mapS f st1 l) as [st2 [ys|e]]; cbn [snd] in *; congruence.
Qed.
Lemma resolve_terminates anon fuel : forall st o from, In o types -> NoDup from -> incl from types -> (length types < fuel + length from)%nat ->
  snd (resolve anon fuel st o from) <> Err OutOfFuel.
Proof.
  destruct FC as (F1 & F2 & F3 & F4 & F5). induction fuel as [|fuel IH]; intros st o from IO ND IN L.
  { pose proof (NoDup_incl_length ND IN). lia. }
  cbn [TresModel.resolve]. destruct (existsb (Z.eqb o) from) eqn:EX; [discriminate|].
  assert (NI : ~ In o from) by (intros I; assert (existsb (Z.eqb o) from = true) by (apply existsb_exists; exists o; split; [exact I|apply Z.eqb_refl]); congruence).
  assert (ND' : NoDup (from ++ [o])). { apply nodup_snoc; assumption. }
  assert (IN' : incl (from ++ [o]) types) by (intros x X; apply in_app_or in X as [X|[<-|[]]]; auto).
  assert (L' : (length types < fuel + length (from ++ [o]))%nat) by (rewrite app_length; cbn [length]; lia).
  destruct (zget o st); [discriminate|]. destruct (builtins o); [discriminate|].
  destruct (lookup_type cat o) as [[ti|]|e] eqn:EL; [|discriminate|intros [= ->]; exact (F2 o EL)].
  destruct (negb (t_relid ti =? 0)) eqn:ER.
  { destruct (lookup_composite cat (t_relid ti)) as [atts|e] eqn:EC; [|intros [= ->]; exact (F3 _ EC)]. cbv zeta.
    match goal with |- snd (match ?m with _ => _ end) <> _ => assert (M : snd m <> Err OutOfFuel); [|destruct m as [st1 [cio|e]]; cbn [snd] in *; congruence] end.
    apply mapS_not_fuel. intros s x IX. destruct (F5 o ti IO EL) as (A1 & _). pose proof (A1 atts x EC IX) as A. unfold lookup_domain_basetype. rewrite F1.
    destruct (att_domain x).
    - destruct (lookup_base_recursive cat (att_type x)) as [b|e] eqn:EB; [|intros [= ->]; exact (F4 _ EB)]. apply IH; auto.
    - apply IH; auto. }
  apply negb_false_iff, Z.eqb_eq in ER. destruct (F5 o ti IO EL) as (_ & A1 & A2). destruct (t_ae ti) as [[bi bo]|] eqn:EA.
  { pose proof (IH st (t_elem ti) (from ++ [o]) (A1 ltac:(discriminate)) ND' IN' L') as M. destruct (resolve anon fuel st (t_elem ti) (from ++ [o])) as [st1 [te|e]]; cbn [snd] in *; congruence. }
  destruct (t_type ti =? 100) eqn:ET.
  { unfold lookup_domain_basetype. rewrite F1. destruct (lookup_base_recursive cat o) as [b|e] eqn:EB; [|intros [= ->]; exact (F4 _ EB)].
    pose proof (IH st b (from ++ [o]) (A2 b eq_refl) ND' IN' L') as M. destruct (resolve anon fuel st b (from ++ [o])) as [st1 [te|e]]; cbn [snd] in *; congruence. }
  destruct (_ && _); discriminate.
Qed.
End Finite.
