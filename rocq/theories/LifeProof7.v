(** LifeProof7.v: the invariant through the collection of an object *)
From Coq Require Import Lia.
From Verif Require Import PyStr PyDict PyDictProof BaseProof LifeModel LifeSpec LifeProof LifeProof2 LifeProof3 LifeProof4 LifeProof5 LifeProof6.

Section dropped.
Context (L : table) (h : list (nat * obj)) (rs rc rs' rc' : list (text * nat)) (k : nat) (o : obj).
Hypothesis HI : HInv L h rs rc.
Hypothesis GO : hget k h = Some o.
Hypothesis NOREF : forall j p, hget j h = Some p -> ob_of p <> Some k.
Notation h' := (hdel k h).
Hypothesis SUBs : forall n j, dget n rs' = Some j -> dget n rs = Some j /\ j <> k.
Hypothesis SUBc : forall n j, dget n rc' = Some j -> dget n rc = Some j /\ j <> k.
Hypothesis KEEPs : forall n j, dget n rs = Some j -> j <> k -> dget n rs' = Some j.
Hypothesis KEEPc : forall n j, dget n rc = Some j -> j <> k -> dget n rc' = Some j.
Lemma drop_back : forall j p, hget j h' = Some p -> j <> k /\ hget j h = Some p.
Proof. intros j p G. rewrite hget_del in G. destruct (Nat.eqb_spec j k) as [->|N]; [discriminate|auto]. Qed.
Lemma drop_forw : forall j p, hget j h = Some p -> j <> k -> hget j h' = Some p.
Proof. intros j p G N. rewrite hget_del. destruct (Nat.eqb_spec j k) as [->|]; [contradiction|auto]. Qed.
Lemma drop_link : forall j p i, hget j h = Some p -> ob_of p = Some i -> forall t, hget i h = Some t -> hget i h' = Some t.
Proof. intros j p i G E t GT. apply drop_forw; [exact GT|]. intros ->. exact (NOREF j p G E). Qed.
Lemma HInv_dropped : HInv L h' rs' rc'.
Proof.
  pose proof drop_back as B. destruct HI as [H1 H2 H3 H4 H5 H6 H7 H8 H9 H10 H11 H12 H13]. constructor.
  - exact H1.
  - intros j p G. apply B in G as [_ G]. now apply H2.
  - intros j p G. apply B in G as [_ G]. now apply (H3 j).
  - intros k1 o1 k2 o2 G1 G2. apply B in G1 as [_ G1]. apply B in G2 as [_ G2]. now apply (H4 k1 o1 k2 o2).
  - intros j p G. apply B in G as [_ G]. now apply (H5 j).
  - intros k1 o1 k2 o2 G1 G2. apply B in G1 as [_ G1]. apply B in G2 as [_ G2]. now apply (H6 k1 o1 k2 o2).
  - intros j p G. apply B in G as [_ G]. specialize (H7 j p G). destruct (ob_class p); auto;
      destruct H7 as (i & t & E & GT & R); exists i, t; (split; [exact E|]); (split; [exact (drop_link j p i G E t GT)|exact R]).
  - intros j p G. apply B in G as [_ G]. now apply (H8 j).
  - intros j p G. apply B in G as [_ G]. now apply (H9 j).
  - intros n j E. apply SUBs in E as [E N]. destruct (H10 n j E) as (p & G & R). exists p. split; [now apply drop_forw|exact R].
  - intros j p G C N. apply B in G as [NK G]. destruct (H11 j p G C N) as [E|E]; [left; now apply KEEPs|now right].
  - intros n j E. apply SUBc in E as [E N]. destruct (H12 n j E) as (p & G & R). exists p. split; [now apply drop_forw|exact R].
  - intros j p G C. apply B in G as [NK G]. destruct (H13 j p G C) as [E|E]; [left; now apply KEEPc|now right].
Qed.
Context (PS PC PS' PC' : text -> Prop) (x : option instr) (v : server).
Hypothesis MONs : forall n, PS n -> PS' n.
Hypothesis MONc : forall n, PC n -> PC' n.
Hypothesis NEWs : forall n, PS' n -> PS n \/ (ob_class o = CStatement /\ n = ob_name o).
Hypothesis NEWc : forall n, PC' n -> PC n \/ (cursor_class (ob_class o) /\ n = ob_name o).
Hypothesis LOSTs : forall n, dget n rs = Some k -> PS' n.
Hypothesis LOSTc : forall n, dget n rc = Some k -> PC' n.
Lemma VInv_dropped : VInv L h rs rc PS PC x v -> VInv L h' rs' rc' PS' PC' x v.
Proof.
  intros [V1 V2 V3 V4 V5 V6 V7 V8 V9 V10 V11 V12 V13 V14 V15]. pose proof drop_back as B.
  assert (RS : forall n j, dget n rs = Some j -> dget n rs' = Some j \/ PS' n) by (intros n j E; destruct (Nat.eq_dec j k) as [->|N]; [right; now apply LOSTs|left; now apply KEEPs]).
  assert (LINK : forall jj oo f, hget jj h = Some oo -> (exists j t, ob_of oo = Some j /\ hget j h = Some t /\ ob_name t = f) -> exists j t, ob_of oo = Some j /\ hget j h' = Some t /\ ob_name t = f).
  { intros jj oo f G (j & t & E1 & E2 & E3). exists j, t. split; [exact E1|]. split; [exact (drop_link jj oo j G E1 t E2)|exact E3]. }
  constructor; auto.
  - intros i k0 E O P. destruct (V3 i k0 E O P) as (n & q & [X1 X2 X3 X4 X5 X6]).
    exists n, q. constructor; auto.
    + intros p G. apply B in G as [_ G]. now apply X2.
    + intros k' p G C N. apply B in G as [_ G]. now apply (X4 k' p G).
    + intros M. destruct (X5 M) as [E0|E0]; [now apply RS|right; auto].
  - intros i k0 E O P. destruct (V4 i k0 E O P) as (n & cn & cr & [X1 X2 X3 X4 X5]). exists n, cn, cr. constructor; auto.
    + intros p G. apply B in G as [_ G]. destruct (X2 p G) as [B1 B2]. split; [exact B1|]. intros C. destruct (B2 C) as [B3 B4]. split; [exact B3|]. now apply (LINK k0).
    + intros N k' p G C E'. apply B in G as [_ G]. now apply (X4 N k' p G).
    + intros R N M. destruct (X5 R N M) as [(p & E0 & G0)|E0]; [|right; auto]. destruct (Nat.eq_dec k0 k) as [->|NK]; [right; now apply LOSTc|]. left. exists p. split; [now apply KEEPc|now apply drop_forw].
  - intros n j p P G C N. apply B in G as [NK G]. apply NEWs in P as [P|[CO ->]]; [now apply (V7 n j p)|]. exfalso. apply NK. now apply (h_sname _ _ _ _ HI j p k o).
  - intros n j p P G C N. apply B in G as [NK G]. apply NEWc in P as [P|[CO ->]]; [now apply (V8 n j p)|]. exfalso. apply NK. now apply (cur_same _ _ _ _ HI j p k o).
  - intros j p q G C BG Q. apply B in G as [NK G]. now apply (V9 j p q G).
  - intros j p q G C CL Q. apply B in G as [NK G]. now apply (V10 j p q).
  - intros j p po G C BG E. apply B in G as [NK G]. destruct (V11 j p po G C BG E) as [OW FR]. split; [exact OW|]. destruct FR as [FR|FR]; [now left|right]. now apply (LINK j).
  - intros n q E M. destruct (V12 n q E M) as [(j & E0)|P]; [|right; auto]. destruct (RS _ _ E0) as [E1|E1]; [left; eauto|now right].
  - intros n po E M. destruct (V13 n po E M) as [(j & p & E0 & G0 & B0)|P]; [|right; auto]. destruct (Nat.eq_dec j k) as [->|NK]; [right; now apply LOSTc|]. left. exists j, p. split; [now apply KEEPc|]. split; [now apply drop_forw|exact B0].
  - intros n P. apply NEWs in P as [P|(C & ->)]; [now apply V15|]. exact (stmt_name_ne _ _ _ _ HI k o GO C).
Qed.
End dropped.
Lemma firstn_more {A} i (l e : list A) : (i <= length l)%nat -> firstn i (l ++ e) = firstn i l.
Proof. intros H. rewrite firstn_app. replace (i - length l)%nat with 0%nat by lia. cbn [firstn]. apply app_nil_r. Qed.
Lemma skipn_more {A} i (l e : list A) : (i <= length l)%nat -> skipn i (l ++ e) = skipn i l ++ e.
Proof. intros H. rewrite skipn_app. replace (i - length l)%nat with 0%nat by lia. reflexivity. Qed.
Lemma at_ok_more s s' es ec : at_ok s -> at_ s' = at_ s -> xact s' = xact s -> gar_s s' = gar_s s ++ es -> gar_c s' = gar_c s ++ ec ->
  (forall x k o, running (at_ s) = Some x -> in_owner x = Some k -> living s' k o ->
     living s k o /\ (ob_class o = CStatement -> ~ In (ob_name o) es) /\ (cursor_class (ob_class o) -> ~ In (ob_name o) ec)) -> at_ok s'.
Proof.
  intros H A X GS GC LV.
  assert (RO : forall x gs gc es' ec', running (at_ s) = Some x -> (es' = [] \/ es' = es) -> (ec' = [] \/ ec' = ec) -> rest_ok s x gs gc -> rest_ok s' x (gs ++ es') (gc ++ ec')).
  { intros x gs gc es' ec' R ES EC RO k o O G. destruct (LV x k o R O G) as (G0 & N1 & N2). destruct (RO k o O G0) as [R1 R2]. split; intros C I; apply in_app_or in I as [I|I].
    - exact (R1 C I).
    - destruct ES as [-> | ->]; [exact I|exact (N1 C I)].
    - exact (R2 C I).
    - destruct EC as [-> | ->]; [exact I|exact (N2 C I)]. }
  unfold at_ok in *. rewrite A, X, GS, GC. destruct (at_ s) as [|x|x xm i|x xm i j|x i j|x j|x|]; auto.
  - destruct H as (H1 & H2 & H3). rewrite app_length, firstn_more by exact H2. split; [exact H1|]. split; [lia|exact H3].
  - destruct H as (H1 & H2 & H3 & H4 & H5). rewrite !app_length, !firstn_more, skipn_more by assumption. split; [exact H1|]. split; [lia|]. split; [lia|]. split; [exact H4|].
    apply (RO x [] _ [] ec); auto.
  - destruct H as (H1 & H2 & H3 & H4). rewrite !app_length, !firstn_more, !skipn_more by assumption. split; [lia|]. split; [lia|]. split; [exact H3|]. apply RO; auto.
  - destruct H as (H1 & H3 & H4). rewrite !app_length, !firstn_more, !skipn_more by assumption. split; [lia|]. split; [exact H3|]. apply RO; auto.
  - destruct H as (H1 & H4). split; [exact H1|]. apply RO; auto.
Qed.
Lemma Inv_drop L s k o : Inv L s -> living s k o -> (forall x, running (at_ s) = Some x -> in_owner x <> Some k) -> (forall j p, living s j p -> ob_of p <> Some k) -> Inv L (drop k s).
Proof.
  intros [IF IH IV IR IA] G NR NOREF. unfold living in G. unfold drop. rewrite G.
  assert (LIV : forall s', heap s' = hdel k (heap s) -> forall x k0 o0, running (at_ s) = Some x -> in_owner x = Some k0 -> living s' k0 o0 -> living s k0 o0 /\ k0 <> k).
  { intros s' HE x k0 o0 _ _ G0. unfold living in *. rewrite HE in G0. apply drop_back in G0. tauto. }
  assert (RUN : forall s', heap s' = hdel k (heap s) -> forall x, running (at_ s) = Some x -> exists k0 o0 act, req s' x k0 o0 act).
  { intros s' HE x R. destruct (IR x R) as (k0 & o0 & act & [R1 R2 R3 R4 R5 R6]). exists k0, o0, act.
    assert (NK : k0 <> k) by (intros ->; exact (NR x R R1)).
    constructor; auto.
    - unfold living in *. rewrite HE. now apply drop_forw.
    - rewrite HE. cbv zeta in R6 |- *. rewrite R6. destruct (ob_of o0) as [j|] eqn:OF; [|reflexivity]. rewrite hget_del. destruct (Nat.eqb_spec j k) as [->|]; [|reflexivity]. exfalso. exact (NOREF k0 o0 R2 OF). }
  assert (PLAIN : (forall n, dget n (reg_s s) <> Some k) -> (forall n, dget n (reg_c s) <> Some k) -> Inv L (set_heap s (hdel k (heap s)))).
  { intros NS NC. constructor; cbn [set_heap heap fresh reg_s reg_c xact at_ sv].
    - exact IF.
    - apply (HInv_dropped L (heap s) (reg_s s) (reg_c s)); auto; intros n j E; (split; [exact E|]); intros ->; [exact (NS n E)|exact (NC n E)].
    - apply (VInv_dropped L (heap s) (reg_s s) (reg_c s) (reg_s s) (reg_c s) k o IH G NOREF) with (PS := psn s) (PC := pcn s); auto; try (intros n E; exfalso; first [exact (NS n E)|exact (NC n E)]).
    - now apply RUN.
    - apply (at_ok_more s _ [] []); auto; cbn [set_heap gar_s gar_c]; rewrite ?app_nil_r; auto.
      intros x k0 o0 R O G0. destruct (LIV (set_heap s (hdel k (heap s))) eq_refl x k0 o0 R O G0) as [G1 _]. split; [exact G1|]. split; intros _ []. }
  destruct (is_stmt (ob_class o)) eqn:IS.
  - assert (C : ob_class o = CStatement) by (destruct (ob_class o); try discriminate; reflexivity).
    assert (NC : forall n, dget n (reg_c s) <> Some k).
    { intros n E. destruct (h_regc _ _ _ _ IH _ _ E) as (p & GP & CP & _). rewrite G in GP. injection GP as <-. rewrite C in CP. destruct CP; discriminate. }
    assert (NM : forall n, dget n (reg_s s) = Some k -> n = ob_name o).
    { intros n E. destruct (h_regs _ _ _ _ IH _ _ E) as (p & GP & _ & NP & _). rewrite G in GP. now injection GP as <-. }
    destruct (dget (ob_name o) (reg_s s)) as [j|] eqn:D; [destruct (Nat.eqb_spec j k) as [->|NK]|].
    + assert (KEEP : forall n j, dget n (reg_s s) = Some j -> j <> k -> dget n (ddel (ob_name o) (reg_s s)) = Some j).
      { intros n j E NK. rewrite dget_del, seqb_ne; [exact E|]. intros ->. congruence. }
      assert (SUB : forall n j, dget n (ddel (ob_name o) (reg_s s)) = Some j -> dget n (reg_s s) = Some j /\ j <> k).
      { intros n j. rewrite dget_del. destruct (seqb_spec n (ob_name o)) as [->|N]; [discriminate|]. intros E. split; [exact E|]. intros ->. apply N. now apply NM. }
      assert (SUBC : forall n j, dget n (reg_c s) = Some j -> dget n (reg_c s) = Some j /\ j <> k) by (intros n j E; split; [exact E|]; intros ->; exact (NC n E)).
      unfold trash. constructor; cbn [set_heap heap fresh reg_s reg_c xact at_ sv].
      * exact IF.
      * apply (HInv_dropped L (heap s) (reg_s s) (reg_c s)); auto.
      * apply (VInv_dropped L (heap s) (reg_s s) (reg_c s) (ddel (ob_name o) (reg_s s)) (reg_c s) k o IH G NOREF) with (PS := psn s) (PC := pcn s); auto; unfold psn, pcn, trash_msgs; cbn [set_heap xact gar_s gar_c].
        -- intros n [I|I]; [left; apply in_or_app; now left|now right].
        -- intros n [I|I]; [|left; now right]. apply in_app_or in I as [I|[<-|[]]]; [left; now left|right; auto].
        -- intros n E. left. apply in_or_app. right. left. symmetry. now apply NM.
        -- intros n E. exfalso. exact (NC n E).
      * now apply RUN.
      * apply (at_ok_more s _ [ob_name o] []); auto; cbn [set_heap gar_s gar_c]; rewrite ?app_nil_r; auto.
        intros x k0 o0 R O G0. unfold living in G0. cbn [heap set_heap] in G0. apply drop_back in G0 as [NK G1]. split; [exact G1|]. split; [|intros _ []].
        intros C0 [E|[]]. apply NK. now apply (h_sname _ _ _ _ IH k0 o0 k o).
    + apply PLAIN; [|exact NC]. intros n E. pose proof (NM n E) as ->. congruence.
    + apply PLAIN; [|exact NC]. intros n E. pose proof (NM n E) as ->. congruence.
  - assert (C : ob_class o <> CStatement) by (intros C; rewrite C in IS; discriminate).
    assert (NS : forall n, dget n (reg_s s) <> Some k).
    { intros n E. destruct (h_regs _ _ _ _ IH _ _ E) as (p & GP & CP & _). rewrite G in GP. injection GP as <-. contradiction. }
    assert (NM : forall n, dget n (reg_c s) = Some k -> n = ob_name o /\ cursor_class (ob_class o)).
    { intros n E. destruct (h_regc _ _ _ _ IH _ _ E) as (p & GP & CP & NP). rewrite G in GP. now injection GP as <-. }
    destruct (dget (ob_name o) (reg_c s)) as [j|] eqn:D; [destruct (Nat.eqb_spec j k) as [->|NK]|].
    + destruct (NM _ D) as [_ CC].
      assert (KEEP : forall n j, dget n (reg_c s) = Some j -> j <> k -> dget n (ddel (ob_name o) (reg_c s)) = Some j).
      { intros n j E NK. rewrite dget_del, seqb_ne; [exact E|]. intros ->. congruence. }
      assert (SUB : forall n j, dget n (ddel (ob_name o) (reg_c s)) = Some j -> dget n (reg_c s) = Some j /\ j <> k).
      { intros n j. rewrite dget_del. destruct (seqb_spec n (ob_name o)) as [->|N]; [discriminate|]. intros E. split; [exact E|]. intros ->. apply N. now apply NM. }
      assert (SUBS : forall n j, dget n (reg_s s) = Some j -> dget n (reg_s s) = Some j /\ j <> k) by (intros n j E; split; [exact E|]; intros ->; exact (NS n E)).
      unfold trash. constructor; cbn [set_heap heap fresh reg_s reg_c xact at_ sv].
      * exact IF.
      * apply (HInv_dropped L (heap s) (reg_s s) (reg_c s)); auto.
      * apply (VInv_dropped L (heap s) (reg_s s) (reg_c s) (reg_s s) (ddel (ob_name o) (reg_c s)) k o IH G NOREF) with (PS := psn s) (PC := pcn s); auto; unfold psn, pcn, trash_msgs; cbn [set_heap xact gar_s gar_c].
        -- intros n [I|I]; [left; apply in_or_app; now left|now right].
        -- intros n [I|I]; [|left; now right]. apply in_app_or in I as [I|[<-|[]]]; [left; now left|right; auto].
        -- intros n E. exfalso. exact (NS n E).
        -- intros n E. left. apply in_or_app. right. left. symmetry. now apply NM.
      * now apply RUN.
      * apply (at_ok_more s _ [] [ob_name o]); auto; cbn [set_heap gar_s gar_c]; rewrite ?app_nil_r; auto.
        intros x k0 o0 R O G0. unfold living in G0. cbn [heap set_heap] in G0. apply drop_back in G0 as [NK G1]. split; [exact G1|]. split; [intros _ []|].
        intros C0 [E|[]]. apply NK. now apply (cur_same _ _ _ _ IH k0 o0 k o).
    + apply PLAIN; [exact NS|]. intros n E. destruct (NM n E) as [-> _]. congruence.
    + apply PLAIN; [exact NS|]. intros n E. destruct (NM n E) as [-> _]. congruence.
Qed.
