(** LifeProof6.v: the invariant through the completion of a preparation, close(), the collection of an object, and the creation of one *)
From Coq Require Import Lia.
From Verif Require Import PyStr PyDict PyDictProof BaseProof LifeModel LifeSpec LifeProof LifeProof2 LifeProof3 LifeProof4 LifeProof5.

Section closed.
Context (L : table) (h : list (nat * obj)) (rs rc rs' rc' : list (text * nat)) (k : nat) (o : obj) (b : bool).
Hypothesis HI : HInv L h rs rc.
Hypothesis GO : hget k h = Some o.
Hypothesis BO : ob_class o = CStatement -> ob_begun o = true.
Notation h' := (hset k (set_closed b) h).
Hypothesis SUBs : forall n j, dget n rs' = Some j -> dget n rs = Some j.
Hypothesis SUBc : forall n j, dget n rc' = Some j -> dget n rc = Some j.
Hypothesis KEEPs : forall n j, dget n rs = Some j -> j <> k -> dget n rs' = Some j.
Hypothesis KEEPc : forall n j, dget n rc = Some j -> j <> k -> dget n rc' = Some j.
Hypothesis SELFs : b = true \/ forall n, dget n rs = Some k -> dget n rs' = Some k.
Hypothesis SELFc : b = true \/ forall n, dget n rc = Some k -> dget n rc' = Some k.
Hypothesis NOT : b = true \/ ob_closed o <> Some true.
Lemma closed_back : forall j o', hget j h' = Some o' -> (j = k /\ o' = set_closed b o) \/ (j <> k /\ hget j h = Some o').
Proof. intros j o' G. rewrite hget_set in G. destruct (Nat.eqb_spec j k) as [->|N]; [|now right]. rewrite GO in G. injection G as <-. now left. Qed.
Lemma closed_forw : forall j p, hget j h = Some p -> exists o', hget j h' = Some o' /\ ob_class o' = ob_class p /\ ob_addr o' = ob_addr p /\ ob_name o' = ob_name p /\ ob_query o' = ob_query p /\ ob_of o' = ob_of p /\ ob_begun o' = ob_begun p /\ (ob_closed p <> None -> ob_closed o' <> None).
Proof. intros j p G. rewrite hget_set, G. destruct (Nat.eqb j k); eexists; (split; [reflexivity|]); cbn [set_closed ob_class ob_addr ob_name ob_query ob_of ob_begun ob_closed]; repeat (split; [reflexivity|]); [discriminate|auto]. Qed.
Lemma closed_same : forall j o', hget j h' = Some o' -> exists p, hget j h = Some p /\ ob_class o' = ob_class p /\ ob_addr o' = ob_addr p /\ ob_name o' = ob_name p /\ ob_query o' = ob_query p /\ ob_of o' = ob_of p /\ ob_begun o' = ob_begun p.
Proof. intros j o' G. apply closed_back in G as [[-> ->]|[_ G]]; [exists o|exists o']; auto 10. Qed.
Lemma HInv_closed : HInv L h' rs' rc'.
Proof.
  pose proof closed_same as B. pose proof closed_forw as F. destruct HI as [H1 H2 H3 H4 H5 H6 H7 H8 H9 H10 H11 H12 H13]. constructor.
  - exact H1.
  - intros j o' G. apply B in G as (p & G & -> & _ & _ & -> & -> & _). now apply H2.
  - intros j o' G. apply B in G as (p & G & _ & -> & _). now apply (H3 j).
  - intros k1 o1 k2 o2 G1 G2. apply B in G1 as (p1 & G1 & _ & -> & _). apply B in G2 as (p2 & G2 & _ & -> & _). now apply (H4 k1 p1 k2 p2).
  - intros j o' G. apply B in G as (p & G & -> & -> & -> & _). now apply (H5 j).
  - intros k1 o1 k2 o2 G1 G2. apply B in G1 as (p1 & G1 & -> & _ & -> & _). apply B in G2 as (p2 & G2 & -> & _ & -> & _). now apply (H6 k1 p1 k2 p2).
  - intros j o' G. apply B in G as (p & G & -> & _ & _ & _ & -> & _). specialize (H7 j p G). destruct (ob_class p); auto;
      destruct H7 as (i & t & E & GT & CT & BT & CL & QT); destruct (F i t GT) as (t' & GT' & C' & _ & _ & Q' & _ & B' & CL'); exists i, t'; rewrite C', Q', B'; auto 10.
  - intros j o' G C N. apply closed_back in G as [[-> ->]|[_ G]]; [now apply BO|now apply (H8 j o')].
  - intros j o' G C. apply closed_back in G as [[-> ->]|[_ G]]; [discriminate|now apply (H9 j o')].
  - intros n j E. apply SUBs in E. destruct (H10 n j E) as (p & G & C & N & A). destruct (F j p G) as (o' & G' & C' & A' & N' & _). exists o'. rewrite C', A', N'. auto.
  - intros j o' G C N. apply closed_back in G as [[-> ->]|[NK G]].
    + cbn [set_closed ob_closed ob_name ob_class ob_addr] in *. destruct b; [now right|]. left. destruct SELFs as [?|SE]; [discriminate|]. destruct NOT as [?|NO]; [discriminate|]. destruct (H11 k o GO C N) as [E|E]; [now apply SE|contradiction].
    + destruct (H11 j o' G C N) as [E|E]; [left; now apply KEEPs|now right].
  - intros n j E. apply SUBc in E. destruct (H12 n j E) as (p & G & C & N). destruct (F j p G) as (o' & G' & C' & A' & N' & _). exists o'. rewrite C', N'. auto.
  - intros j o' G C. apply closed_back in G as [[-> ->]|[NK G]].
    + cbn [set_closed ob_closed ob_name ob_class] in *. destruct b; [now right|]. left. destruct SELFc as [?|SE]; [discriminate|]. destruct NOT as [?|NO]; [discriminate|]. destruct (H13 k o GO C) as [E|E]; [now apply SE|contradiction].
    + destruct (H13 j o' G C) as [E|E]; [left; now apply KEEPc|now right].
Qed.
Context (PS PC PS' PC' : text -> Prop) (x : option instr) (v : server).
Hypothesis MONs : forall n, PS n -> PS' n.
Hypothesis MONc : forall n, PC n -> PC' n.
Hypothesis NEWs : forall n, PS' n -> PS n \/ (b = true /\ ob_class o = CStatement /\ n = ob_name o).
Hypothesis NEWc : forall n, PC' n -> PC n \/ (b = true /\ ob_class o <> CStatement /\ n = ob_name o).
Hypothesis LOSTs : forall n, dget n rs = Some k -> dget n rs' = Some k \/ PS' n.
Hypothesis LOSTc : forall n, dget n rc = Some k -> dget n rc' = Some k \/ PC' n.
Hypothesis NOPREP : forall i, x = Some i -> in_owner i = Some k -> in_prepare i = false.
Hypothesis OPEN : b = false -> ob_class o = CStatement /\ ~ PS (ob_name o) /\ forall q, ob_query o = Some q -> dget (ob_name o) (sv_stmts v) = Some (QUser q).
Lemma VInv_closed : VInv L h rs rc PS PC x v -> VInv L h' rs' rc' PS' PC' x v.
Proof.
  intros [V1 V2 V3 V4 V5 V6 V7 V8 V9 V10 V11 V12 V13 V14 V15].
  assert (RS : forall n j, dget n rs = Some j -> dget n rs' = Some j \/ PS' n) by (intros n j E; destruct (Nat.eq_dec j k) as [->|N]; [now apply LOSTs|left; now apply KEEPs]).
  assert (RC : forall n j, dget n rc = Some j -> dget n rc' = Some j \/ PC' n) by (intros n j E; destruct (Nat.eq_dec j k) as [->|N]; [now apply LOSTc|left; now apply KEEPc]).
  assert (LINK : forall oo f, (exists j t, ob_of oo = Some j /\ hget j h = Some t /\ ob_name t = f) -> exists j t, ob_of oo = Some j /\ hget j h' = Some t /\ ob_name t = f).
  { intros oo f (j & t & E1 & E2 & E3). destruct (closed_forw j t E2) as (t' & G' & _ & _ & N' & _). exists j, t'. rewrite N'. auto. }
  constructor; auto.
  - intros i k0 E O P. destruct (V3 i k0 E O P) as (n & q & [X1 X2 X3 X4 X5 X6]). assert (NK : k0 <> k) by (intros ->; rewrite (NOPREP i E O) in P; discriminate).
    exists n, q. constructor; auto.
    + intros o' G. apply closed_back in G as [[C _]|[_ G]]; [contradiction|now apply X2].
    + intros k' o' G C N. apply closed_same in G as (p & G & C' & _ & N' & _ & _ & ->). apply (X4 k' p G); congruence.
    + intros M. destruct (X5 M) as [E0|E0]; [now apply RS|right; auto].
  - intros i k0 E O P. destruct (V4 i k0 E O P) as (n & cn & cr & [X1 X2 X3 X4 X5]). exists n, cn, cr. constructor; auto.
    + intros o' G. apply closed_same in G as (p & G & -> & _ & -> & _ & OF & ->). destruct (X2 p G) as [B1 B2]. split; [exact B1|]. intros C. destruct (B2 C) as [B3 B4]. split; [exact B3|]. rewrite OF. now apply (LINK p).
    + intros N k' o' G C E'. apply closed_same in G as (p & G & C' & _ & N' & _ & _ & ->). apply (X4 N k' p G); congruence.
    + intros R N M. destruct (X5 R N M) as [(p & E0 & G0)|E0]; [|right; auto]. destruct (RC _ _ E0) as [E1|E1]; [|now right]. left. destruct (closed_forw k0 p G0) as (o' & G' & _). eauto.
  - intros n j o' P G C N. apply NEWs in P as [P|(BT & CO & ->)].
    + apply closed_back in G as [[-> ->]|[NK G]]; [|now apply (V7 n j o')]. cbn [set_closed ob_closed ob_class ob_name ob_begun] in *. destruct (Bool.bool_dec b true) as [BB|BB]; [left; now rewrite BB|]. apply Bool.not_true_is_false in BB. exfalso. destruct (OPEN BB) as (_ & NP & _). apply NP. now rewrite N.
    + apply closed_back in G as [[-> ->]|[NK G]]; [left; cbn [set_closed ob_closed]; now rewrite BT|]. exfalso. apply NK. now apply (h_sname _ _ _ _ HI j o' k o).
  - intros n j o' P G C N. apply NEWc in P as [P|(BT & CO & ->)].
    + apply closed_back in G as [[-> ->]|[NK G]]; [|now apply (V8 n j o')]. cbn [set_closed ob_closed ob_class ob_name ob_begun] in *. destruct (Bool.bool_dec b true) as [BB|BB]; [left; now rewrite BB|]. apply Bool.not_true_is_false in BB. exfalso. destruct (OPEN BB) as (CS & _). rewrite CS in C. destruct C; discriminate.
    + apply closed_back in G as [[-> ->]|[NK G]]; [left; cbn [set_closed ob_closed]; now rewrite BT|]. exfalso. pose proof (h_form _ _ _ _ HI k o GO) as F. pose proof (cur_name_ne _ _ _ _ HI j o' G C) as NM.
      destruct (ob_class o) eqn:CL; [contradiction| | | |].
      * rewrite F, NM in N. exact (ID_ne _ N).
      * apply NK. apply (cur_same _ _ _ _ HI j o' k o); auto. rewrite CL. now left.
      * apply NK. apply (cur_same _ _ _ _ HI j o' k o); auto. rewrite CL. now right.
      * rewrite NM in N. symmetry in N. now apply (ID_not_user (ob_addr o')) in F.
  - intros j o' q G C B Q. apply closed_same in G as (p & G & C' & _ & N' & Q' & _ & B'). rewrite N'. apply (V9 j p q G); congruence.
  - intros j o' q G C CL Q. apply closed_back in G as [[-> ->]|[NK G]]; [|now apply (V10 j o' q)]. cbn [set_closed ob_closed ob_class ob_name ob_query] in *. injection CL as CB. destruct (OPEN CB) as (_ & _ & D). now apply D.
  - intros j o' po G C B E. apply closed_same in G as (p & G & C' & _ & N' & _ & OF & B'). rewrite N' in E. rewrite C' in C. rewrite B' in B. destruct (V11 j p po G C B E) as [OW FR]. split; [exact OW|]. destruct FR as [FR|FR]; [now left|right]. rewrite OF. now apply (LINK p).
  - intros n q E M. destruct (V12 n q E M) as [(j & E0)|P]; [|right; auto]. destruct (RS _ _ E0) as [E1|E1]; [left; eauto|now right].
  - intros n po E M. destruct (V13 n po E M) as [(j & p & E0 & G0 & B0)|P]; [|right; auto]. destruct (RC _ _ E0) as [E1|E1]; [|now right]. left. destruct (closed_forw j p G0) as (o' & G' & _ & _ & _ & _ & _ & BB & _). exists j, o'. rewrite BB. auto.
  - intros n P. apply NEWs in P as [P|(_ & C & ->)]; [now apply V15|]. exact (stmt_name_ne _ _ _ _ HI k o GO C).
Qed.
End closed.
Lemma hset_absent k f h : hget k h = None -> hset k f h = h.
Proof.
  intros G. unfold hset. induction h as [|[j p] h IH]; [reflexivity|]. cbn [hget] in G. cbn [map fst snd]. destruct (Nat.eqb k j); [discriminate|]. f_equal. now apply IH.
Qed.
Lemma Inv_complete L s s' : Inv L s -> complete s = Some s' -> Inv L s'.
Proof.
  intros [IF IH IV IR IA] E. unfold complete in E. unfold at_ok in IA. destruct (at_ s) eqn:A; try discriminate. destruct (xact s) as [i|] eqn:X; [|discriminate]. destruct (in_msgs i) as [|? ?] eqn:M; [|discriminate].
  injection E as <-. pose proof (IA i eq_refl) as ON. destruct (in_owner i) as [k|] eqn:O; [|congruence]. clear ON.
  assert (IV' : VInv L (heap s) (reg_s s) (reg_c s) (psn s) (pcn s) None (sv s)) by (now apply (VInv_finish _ _ _ _ _ _ i)).
  match goal with |- Inv L ?S => set (s2 := S) end.
  assert (PSN : forall n, psn s n <-> psn s2 n) by (intros n; unfold psn, trash_msgs, s2; cbn [set_heap set_xact xact gar_s]; rewrite X, O; tauto).
  assert (PCN : forall n, pcn s n <-> pcn s2 n) by (intros n; unfold pcn, trash_msgs, s2; cbn [set_heap set_xact xact gar_c]; rewrite X, O; tauto).
  destruct (in_prepare i) eqn:P; [destruct (hget k (heap s)) as [o|] eqn:G|].
  - destruct (v_prep _ _ _ _ _ _ _ _ IV i k eq_refl O P) as (n & q & [X1 X2 X3 X4 X5 X6]). destruct (X2 o G) as (C & B & CN & NM & QQ).
    constructor; cbn [s2 set_heap set_xact heap fresh reg_s reg_c xact at_ sv].
    + exact IF.
    + apply (HInv_closed L (heap s) (reg_s s) (reg_c s) (reg_s s) (reg_c s) k o); auto. right. congruence.
    + apply (VInv_ext _ _ _ _ (psn s) (pcn s)); [exact PSN|exact PCN|].
      apply (VInv_closed L (heap s) (reg_s s) (reg_c s) (reg_s s) (reg_c s) k o (in_err i) IH G) with (PS := psn s) (PC := pcn s); auto; try discriminate.
      intros ER. split; [exact C|]. split.
      * intros PP. destruct (v_Ks _ _ _ _ _ _ _ _ IV _ k o PP G C eq_refl); congruence.
      * intros t Q. rewrite NM. rewrite Q in QQ. subst q. unfold pstate in X6. rewrite M in X6. destruct X6 as [(D & _)|[(D & _)|(_ & _ & D)]]; try discriminate. now apply D.
    + rewrite A. discriminate.
    + unfold at_ok. cbn [s2 set_heap set_xact xact at_]. rewrite A. discriminate.
  - assert (HE : hset k (set_closed (in_err i)) (heap s) = heap s) by (now apply hset_absent).
    constructor; cbn [s2 set_heap set_xact heap fresh reg_s reg_c xact at_ sv]; rewrite ?HE; auto.
    + apply (VInv_ext _ _ _ _ (psn s) (pcn s)); [exact PSN|exact PCN|exact IV'].
    + rewrite A. discriminate.
    + unfold at_ok. cbn [s2 set_heap set_xact xact at_]. rewrite A. discriminate.
  - constructor; cbn [s2 set_heap set_xact heap fresh reg_s reg_c xact at_ sv]; auto.
    + apply (VInv_ext _ _ _ _ (psn s) (pcn s)); [exact PSN|exact PCN|exact IV'].
    + rewrite A. discriminate.
    + unfold at_ok. cbn [s2 set_heap set_xact xact at_]. rewrite A. discriminate.
Qed.
Lemma Inv_close L s k o : Inv L s -> at_ s = Idle -> living s k o -> ob_closed o <> None -> Inv L (close k s).
Proof.
  intros [IF IH IV IR IA] A G CN. unfold living in G. unfold at_ok in IA. rewrite A in IA. unfold close. rewrite G.
  assert (BO : ob_class o = CStatement -> ob_begun o = true) by (intros C; now apply (h_closed _ _ _ _ IH k o)).
  assert (NOPREP : forall i, xact s = Some i -> in_owner i = Some k -> in_prepare i = false).
  { intros i X O. destruct (in_prepare i) eqn:P; [|reflexivity]. destruct (v_prep _ _ _ _ _ _ _ _ IV i k X O P) as (n & q & [_ X2 _ _ _ _]). destruct (X2 o G) as (_ & _ & C & _). contradiction. }
  destruct (ob_closed o) as [[|]|] eqn:CO; [| |contradiction].
  - constructor; cbn [set_heap heap fresh reg_s reg_c xact at_ sv]; auto.
    + apply (HInv_closed L (heap s) (reg_s s) (reg_c s) (reg_s s) (reg_c s) k o); auto.
    + apply (VInv_closed L (heap s) (reg_s s) (reg_c s) (reg_s s) (reg_c s) k o true IH G) with (PS := psn s) (PC := pcn s); auto; discriminate.
    + rewrite A. discriminate.
    + unfold at_ok. cbn [set_heap at_ xact]. rewrite A. exact IA.
  - assert (KS : forall n j, is_stmt (ob_class o) = true -> dget n (reg_s s) = Some j -> j <> k -> n <> ob_name o).
    { intros n j C E NK ->. destruct (h_regs _ _ _ _ IH _ _ E) as (p & GP & CP & NP & _). apply NK. apply (h_sname _ _ _ _ IH j p k o); auto. destruct (ob_class o); try discriminate. reflexivity. }
    assert (KC : forall n j, is_stmt (ob_class o) = false -> dget n (reg_c s) = Some j -> j <> k -> n <> ob_name o).
    { intros n j C E NK ->. destruct (h_regc _ _ _ _ IH _ _ E) as (p & GP & CP & NP). pose proof (h_form _ _ _ _ IH k o G) as F. pose proof (cur_name_ne _ _ _ _ IH j p GP CP) as NM.
      destruct (ob_class o) eqn:CL; [discriminate| | | |].
      * rewrite F, NM in NP. exact (ID_ne _ NP).
      * apply NK. apply (cur_same _ _ _ _ IH j p k o); auto. rewrite CL. now left.
      * apply NK. apply (cur_same _ _ _ _ IH j p k o); auto. rewrite CL. now right.
      * rewrite NM in NP. symmetry in NP. now apply (ID_not_user (ob_addr p)) in F. }
    unfold trash. destruct (is_stmt (ob_class o)) eqn:IS.
    + assert (C : ob_class o = CStatement) by (destruct (ob_class o); try discriminate; reflexivity).
      assert (SUB : forall n j, dget n (ddel (ob_name o) (reg_s s)) = Some j -> dget n (reg_s s) = Some j) by (intros n j; rewrite dget_del; destruct (seqb n (ob_name o)); [discriminate|auto]).
      assert (KEEP : forall n j, dget n (reg_s s) = Some j -> j <> k -> dget n (ddel (ob_name o) (reg_s s)) = Some j) by (intros n j E NK; rewrite dget_del, seqb_ne; [exact E|now apply (KS n j)]).
      constructor; cbn [set_heap heap fresh reg_s reg_c xact at_ sv].
      * exact IF.
      * apply (HInv_closed L (heap s) (reg_s s) (reg_c s) (ddel (ob_name o) (reg_s s)) (reg_c s) k o); auto.
      * apply (VInv_closed L (heap s) (reg_s s) (reg_c s) (ddel (ob_name o) (reg_s s)) (reg_c s) k o true IH G) with (PS := psn s) (PC := pcn s); auto; try discriminate; unfold psn, pcn, trash_msgs; cbn [set_heap xact gar_s gar_c].
        -- intros n [I|I]; [left; apply in_or_app; now left|now right].
        -- intros n [I|I]; [|left; now right]. apply in_app_or in I as [I|[<-|[]]]; [left; now left|right; auto].
        -- intros n E. right. left. apply in_or_app. right. left. destruct (h_regs _ _ _ _ IH _ _ E) as (p & GP & _ & NP & _). rewrite G in GP. injection GP as <-. exact NP.
      * rewrite A. discriminate.
      * unfold at_ok. cbn [set_heap at_ xact]. rewrite A. exact IA.
    + assert (C : ob_class o <> CStatement) by (intros C; rewrite C in IS; discriminate).
      assert (SUB : forall n j, dget n (ddel (ob_name o) (reg_c s)) = Some j -> dget n (reg_c s) = Some j) by (intros n j; rewrite dget_del; destruct (seqb n (ob_name o)); [discriminate|auto]).
      assert (KEEP : forall n j, dget n (reg_c s) = Some j -> j <> k -> dget n (ddel (ob_name o) (reg_c s)) = Some j) by (intros n j E NK; rewrite dget_del, seqb_ne; [exact E|now apply (KC n j)]).
      constructor; cbn [set_heap heap fresh reg_s reg_c xact at_ sv].
      * exact IF.
      * apply (HInv_closed L (heap s) (reg_s s) (reg_c s) (reg_s s) (ddel (ob_name o) (reg_c s)) k o); auto.
      * apply (VInv_closed L (heap s) (reg_s s) (reg_c s) (reg_s s) (ddel (ob_name o) (reg_c s)) k o true IH G) with (PS := psn s) (PC := pcn s); auto; try discriminate; unfold psn, pcn, trash_msgs; cbn [set_heap xact gar_s gar_c].
        -- intros n [I|I]; [left; apply in_or_app; now left|now right].
        -- intros n [I|I]; [|left; now right]. apply in_app_or in I as [I|[<-|[]]]; [left; now left|right; auto].
        -- intros n E. right. left. apply in_or_app. right. left. destruct (h_regc _ _ _ _ IH _ _ E) as (p & GP & _ & NP). rewrite G in GP. injection GP as <-. exact NP.
      * rewrite A. discriminate.
      * unfold at_ok. cbn [set_heap at_ xact]. rewrite A. exact IA.
Qed.
