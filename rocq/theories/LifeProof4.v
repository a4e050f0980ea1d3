(** LifeProof4.v: the invariant through the steps of the server and of the driver *)
From Coq Require Import Lia.
From Verif Require Import PyStr PyDict PyDictProof BaseProof LifeModel LifeSpec LifeProof LifeProof2 LifeProof3.

Lemma req_heap s s' x k o act : heap s' = heap s -> req s x k o act -> req s' x k o act.
Proof. intros E [R1 R2 R3 R4 R5 R6]. constructor; auto; unfold living in *; now rewrite ?E. Qed.
Lemma noskip L h rs rc PS PC x v : VInv L h rs rc PS PC x v -> (forall i, x = Some i -> in_owner i = None) -> sv_skip v = false.
Proof. intros V XN. destruct (sv_skip v) eqn:SK; [|reflexivity]. destruct (v_skip _ _ _ _ _ _ _ _ V SK) as (i & E & O & _). now rewrite (XN i E) in O. Qed.
Lemma Inv_serve L s ok s' : Inv L s -> served ok s = Some s' -> Inv L s'.
Proof.
  intros [IF IH IV IR IA] E. unfold served in E. destruct (xact s) as [i|] eqn:X; [|discriminate]. destruct (in_msgs i) as [|m r] eqn:M; [discriminate|]. destruct (sent (at_ s)) eqn:SE; [|discriminate].
  set (v' := serve ok (in_owner i) m (sv s)) in *. cbv zeta in E. injection E as <-. set (i' := {| in_owner := in_owner i; in_prepare := in_prepare i; in_msgs := r; in_err := in_err i || sv_skip v' |}).
  change (Inv L (set_sv (set_xact s (Some i')) v')). constructor; [exact IF|exact IH| | |].
  - cbn [heap reg_s reg_c xact sv set_sv set_xact]. destruct (in_owner i) as [k|] eqn:O.
    + assert (ES : forall n, psn s n <-> psn (set_sv (set_xact s (Some i')) v') n) by (intros n; unfold psn, trash_msgs; cbn [set_sv set_xact xact gar_s i' in_owner]; rewrite X, O; tauto).
      assert (EC : forall n, pcn s n <-> pcn (set_sv (set_xact s (Some i')) v') n) by (intros n; unfold pcn, trash_msgs; cbn [set_sv set_xact xact gar_c i' in_owner]; rewrite X, O; tauto).
      apply (VInv_ext L (heap s) (reg_s s) (reg_c s) (psn s) (pcn s)); [exact ES|exact EC|]. unfold i'. destruct (in_prepare i) eqn:P.
      * rewrite <- O, <- P. apply (VInv_prep L (heap s) (reg_s s) (reg_c s) IH _ _ i (sv s) m r ok k); assumption.
      * rewrite <- O, <- P. apply (VInv_use L (heap s) (reg_s s) (reg_c s) IH _ _ i (sv s) m r ok k); assumption.
    + assert (SK : sv_skip (sv s) = false) by (apply (noskip _ _ _ _ _ _ _ _ IV); intros j [= <-]; exact O).
      pose proof (v_trash _ _ _ _ _ _ _ _ IV i eq_refl O) as TR. rewrite M in TR. pose proof (Forall_inv TR) as TM. apply Forall_inv_tail in TR.
      assert (PSN : forall n, psn s n <-> In n (gar_s s) \/ In (MCloseS n) (m :: r)) by (intros n; unfold psn, trash_msgs; rewrite X, O, M; reflexivity).
      assert (PCN : forall n, pcn s n <-> In n (gar_c s) \/ In (MCloseP n) (m :: r)) by (intros n; unfold pcn, trash_msgs; rewrite X, O, M; reflexivity).
      assert (PSN' : forall n, psn (set_sv (set_xact s (Some i')) v') n <-> In n (gar_s s) \/ In (MCloseS n) r) by (intros n; unfold psn, trash_msgs; cbn [set_sv set_xact xact i' in_owner in_msgs gar_s]; rewrite ?O; reflexivity).
      assert (PCN' : forall n, pcn (set_sv (set_xact s (Some i')) v') n <-> In n (gar_c s) \/ In (MCloseP n) r) by (intros n; unfold pcn, trash_msgs; cbn [set_sv set_xact xact i' in_owner in_msgs gar_c]; rewrite ?O; reflexivity).
      pose proof (v_pkeys _ _ _ _ _ _ _ _ IV) as PK.
      assert (XN' : forall j, Some i' = Some j -> in_owner j = None /\ Forall trashy (in_msgs j)) by (intros j [= <-]; cbn [i' in_owner in_msgs]; auto).
      assert (XN : forall j, Some i = Some j -> in_owner j = None) by (intros j [= <-]; exact O).
      assert (S1 : forall n, psn (set_sv (set_xact s (Some i')) v') n -> psn s n) by (intros n; rewrite PSN', PSN; cbn [In]; tauto).
      assert (S2 : forall n, pcn (set_sv (set_xact s (Some i')) v') n -> pcn s n) by (intros n; rewrite PCN', PCN; cbn [In]; tauto).
      destruct m as [n0|n0|? ?| |? ?|?|]; try contradiction.
      * assert (VV : v' = {| sv_stmts := ddel n0 (sv_stmts (sv s)); sv_portals := filter (fun p => negb (seqb n0 (po_from (snd p)))) (sv_portals (sv s)); sv_skip := false; ran := ran (sv s) |}) by (unfold v', serve; now rewrite SK).
        apply (VInv_trash L (heap s) (reg_s s) (reg_c s) IH _ _ _ _ _ _ _ _ IV XN XN'); rewrite ?VV; auto; cbn [sv_stmts sv_portals ran].
        -- intros n q. rewrite dget_del. destruct (seqb_spec n n0) as [|NE]; [discriminate|]. intros G. split; [exact G|]. rewrite PSN, <- VV, PSN'. intros [I|[[= C]|I]]; [now left|congruence|now right].
        -- intros n q G. rewrite dget_del. destruct (seqb_spec n n0) as [->|NE]; [right; rewrite PSN; right; now left|now left].
        -- intros n po G. apply (dget_filter (fun po => negb (seqb n0 (po_from po)))) in G; [|exact PK]. split; [apply G|]. rewrite PCN, <- VV, PCN'. intros [I|[[= C]|I]]; [now left|now right].
        -- clear - PK. revert PK. generalize (sv_portals (sv s)). intros d. unfold dkeys. induction d as [|[j w] d IH]; intros ND; [exact ND|]. cbn [map fst] in ND. apply NoDup_cons_iff in ND as [NI ND]. cbn [filter snd].
           destruct (negb (seqb n0 (po_from w))); [|now apply IH]. cbn [map fst]. constructor; [|now apply IH]. intros C. apply NI. apply in_map_iff in C as (y & E & C). apply filter_In in C as [C _]. apply in_map_iff. now exists y.
      * assert (VV : v' = with_portals (sv s) (ddel n0 (sv_portals (sv s)))) by (unfold v', serve; now rewrite SK).
        apply (VInv_trash L (heap s) (reg_s s) (reg_c s) IH _ _ _ _ _ _ _ _ IV XN XN'); rewrite ?VV; auto; cbn [with_portals sv_stmts sv_portals ran].
        -- intros n q G. split; [exact G|]. rewrite PSN, <- VV, PSN'. intros [I|[[= C]|I]]; [now left|now right].
        -- intros n po. rewrite dget_del. destruct (seqb_spec n n0) as [|NE]; [discriminate|]. intros G. split; [exact G|]. rewrite PCN, <- VV, PCN'. intros [I|[[= C]|I]]; [now left|congruence|now right].
        -- now apply ddel_nodup.
      * assert (VV : v' = sv s) by (unfold v', serve; now rewrite SK).
        apply (VInv_trash L (heap s) (reg_s s) (reg_c s) IH _ _ _ _ _ _ _ _ IV XN XN'); rewrite ?VV; auto.
        -- intros n q G. split; [exact G|]. rewrite PSN, <- VV, PSN'. intros [I|[[= C]|I]]; [now left|now right].
        -- intros n po G. split; [exact G|]. rewrite PCN, <- VV, PCN'. intros [I|[[= C]|I]]; [now left|now right].
  - intros x RX. destruct (IR x RX) as (k & o & act & R). exists k, o, act. now apply (req_heap s).
  - unfold at_ok in *. cbn [set_sv set_xact at_ xact]. rewrite X in IA. destruct (at_ s); try discriminate SE.
    + intros t [= <-]. exact (IA i eq_refl).
    + intros t [= <-]. exact (IA i eq_refl).
    + destruct IA as [A1 A2]. split; [|exact A2]. intros t [= <-]. exact (A1 i eq_refl).
Qed.

(** a request becomes the current one *)
Lemma hset_begun k h : forall j, hget j (hset k set_begun h) = match hget j h with Some o => Some (if Nat.eqb j k then set_begun o else o) | None => None end.
Proof. intros j. rewrite hget_set. destruct (Nat.eqb j k), (hget j h); reflexivity. Qed.
Lemma HInv_begun L h rs rc k : HInv L h rs rc -> HInv L (hset k set_begun h) rs rc.
Proof.
  intros H.
  assert (B : forall j o', hget j (hset k set_begun h) = Some o' -> exists o, hget j h = Some o /\ ob_class o' = ob_class o /\ ob_addr o' = ob_addr o /\ ob_name o' = ob_name o /\ ob_query o' = ob_query o /\ ob_of o' = ob_of o /\ ob_closed o' = ob_closed o /\ (ob_begun o = true -> ob_begun o' = true)).
  { intros j o' G. rewrite hset_begun in G. destruct (hget j h) as [o|]; [|discriminate]. injection G as <-. exists o. split; [reflexivity|]. destruct (Nat.eqb j k); auto 10. }
  assert (F : forall j o, hget j h = Some o -> exists o', hget j (hset k set_begun h) = Some o' /\ ob_class o' = ob_class o /\ ob_addr o' = ob_addr o /\ ob_name o' = ob_name o /\ ob_query o' = ob_query o /\ ob_of o' = ob_of o /\ ob_closed o' = ob_closed o /\ (ob_begun o = true -> ob_begun o' = true)).
  { intros j o G. rewrite hset_begun, G. eexists. split; [reflexivity|]. destruct (Nat.eqb j k); auto 10. }
  destruct H as [H1 H2 H3 H4 H5 H6 H7 H8 H9 H10 H11 H12 H13]. constructor.
  - exact H1.
  - intros j o' G. apply B in G as (o & G & -> & _ & _ & -> & -> & _). now apply H2.
  - intros j o' G. apply B in G as (o & G & _ & -> & _). now apply (H3 j).
  - intros k1 o1 k2 o2 G1 G2. apply B in G1 as (p1 & G1 & _ & -> & _). apply B in G2 as (p2 & G2 & _ & -> & _). now apply (H4 k1 p1 k2 p2).
  - intros j o' G. apply B in G as (o & G & -> & -> & -> & _). now apply (H5 j).
  - intros k1 o1 k2 o2 G1 G2. apply B in G1 as (p1 & G1 & -> & _ & -> & _). apply B in G2 as (p2 & G2 & -> & _ & -> & _). now apply (H6 k1 p1 k2 p2).
  - intros j o' G. apply B in G as (o & G & -> & _ & _ & _ & -> & _). specialize (H7 j o G). destruct (ob_class o); auto;
      destruct H7 as (i & t & E & GT & CT & BT & CL & QT); destruct (F i t GT) as (t' & GT' & C' & _ & _ & Q' & _ & CL' & B'); exists i, t'; rewrite C', CL', Q'; auto 10.
  - intros j o' G. apply B in G as (o & G & -> & _ & _ & _ & _ & -> & BB). intros C N. apply BB. now apply (H8 j o).
  - intros j o' G. apply B in G as (o & G & -> & _ & _ & _ & _ & -> & _). now apply (H9 j o).
  - intros n j E. destruct (H10 n j E) as (o & G & C & N & A). destruct (F j o G) as (o' & G' & C' & A' & N' & _). exists o'. rewrite C', A', N'. auto.
  - intros j o' G. apply B in G as (o & G & -> & -> & -> & _ & _ & -> & _). now apply (H11 j o).
  - intros n j E. destruct (H12 n j E) as (o & G & C & N). destruct (F j o G) as (o' & G' & C' & A' & N' & _). exists o'. rewrite C', N'. auto.
  - intros j o' G. apply B in G as (o & G & -> & _ & -> & _ & _ & -> & _). now apply (H13 j o).
Qed.
Lemma typed_calls n cn cr own times : n <> [] -> forall u p, typed n cn cr own u p (concat (repeat [MBind [] n; MExec []] times) ++ [MSync]).
Proof. intros N. induction times as [|t IH]; intros u p; [constructor|]. cbn [repeat concat app]. apply T_bind_n; [exact N|]. apply T_exec_u. apply IH. Qed.
Lemma Inv_begin L s x k o act : Inv L s -> xact s = None -> req s x k o act -> rest_ok s x (gar_s s) (gar_c s) -> Inv L (begin x s).
Proof.
  intros [IF IH IV IR IA] X R RO. destruct R as [R1 R2 R3 R4 R5 R6]. unfold living in R2. unfold begin. rewrite R1.
  pose proof (HInv_begun L _ _ _ k IH) as IH'. pose proof IV as IV0. rewrite X in IV0. destruct IV0 as [V1 V2 V3 V4 V5 V6 V7 V8 V9 V10 V11 V12 V13 V14 V15].
  assert (SK : sv_skip (sv s) = false) by (apply (noskip _ _ _ _ _ _ _ _ IV); intros j C; congruence).
  assert (PS0 : forall n, psn s n <-> In n (gar_s s)) by (intros n; unfold psn, trash_msgs; rewrite X; cbn [In]; tauto).
  assert (PC0 : forall n, pcn s n <-> In n (gar_c s)) by (intros n; unfold pcn, trash_msgs; rewrite X; cbn [In]; tauto).
  destruct (RO k o R1 R2) as [ROs ROc].
  (** what is on the server under the names of the object and of its statement is its own *)
  assert (CURN : cursor_class (ob_class o) -> ~ pcn s (ob_name o)) by (intros C P; apply PC0 in P; now apply ROc).
  assert (CUR : cursor_class (ob_class o) -> forall po, dget (ob_name o) (sv_portals (sv s)) = Some po ->
    ownq L k (po_query po) /\ (po_from po = [] \/ exists j t, ob_of o = Some j /\ hget j (heap s) = Some t /\ ob_name t = po_from po)).
  { intros C po G. assert (MD : made_name (ob_name o)) by (exists (ob_addr o); split; [exact (h_pos _ _ _ _ IH _ _ R2)|exact (cur_name_ne _ _ _ _ IH _ _ R2 C)]).
    destruct (V13 _ po G MD) as [(k' & o' & E' & G' & B')|P]; [|now apply CURN in P]. destruct (h_regc _ _ _ _ IH _ _ E') as (o2 & G2 & C2 & N2). rewrite G' in G2. injection G2 as <-.
    assert (k' = k) by (apply (cur_same _ _ _ _ IH k' o' k o); auto). subst k'. rewrite R2 in G'. injection G' as <-. now apply (V11 k o po). }
  assert (STM : forall j t, hget j (heap s) = Some t -> ob_class t = CStatement -> ob_begun t = true -> forall q, dget (ob_name t) (sv_stmts (sv s)) = Some q -> match ob_query t with Some r => q = QUser r | None => exists r, q = QUser r end).
  { intros j t G C B q E. destruct (ob_query t) as [r|] eqn:Q; [|exact (V5 _ q (stmt_name_ne _ _ _ _ IH j t G C) E)].
    destruct (V9 j t r G C B Q) as [F|(i & r' & C' & _)]; [now apply F|discriminate]. }
  assert (LEN : (k < length L)%nat) by (apply nth_error_Some; rewrite (h_made _ _ _ _ IH k o R2); discriminate).
  constructor; cbn [set_heap set_at set_xact heap fresh reg_s reg_c xact at_ sv].
  - exact IF.
  - exact IH'.
  - assert (HB : forall j o', hget j (hset k set_begun (heap s)) = Some o' -> (j = k /\ o' = set_begun o) \/ (j <> k /\ hget j (heap s) = Some o')).
    { intros j o' G. rewrite hset_begun in G. destruct (hget j (heap s)) as [p|] eqn:GG; [|discriminate]. destruct (Nat.eqb_spec j k) as [->|N]; injection G as <-; [left; split; congruence|right; auto]. }
    assert (HS : hget k (hset k set_begun (heap s)) = Some (set_begun o)) by (rewrite hset_begun, R2, Nat.eqb_refl; reflexivity).
    assert (HF : forall j o', hget j (heap s) = Some o' -> exists o2, hget j (hset k set_begun (heap s)) = Some o2 /\ ob_name o2 = ob_name o' /\ (ob_begun o' = true -> ob_begun o2 = true)).
    { intros j o' G. rewrite hset_begun, G. eexists. split; [reflexivity|]. destruct (Nat.eqb j k); auto. }
    match goal with |- VInv _ _ _ _ (psn ?S) (pcn ?S) _ _ => set (s' := S) end.
    assert (PS1 : forall n, psn s n <-> psn s' n) by (intros n; rewrite PS0; unfold psn, trash_msgs, s'; cbn [set_heap set_at set_xact xact gar_s]; rewrite R1; cbn [In]; tauto).
    assert (PC1 : forall n, pcn s n <-> pcn s' n) by (intros n; rewrite PC0; unfold pcn, trash_msgs, s'; cbn [set_heap set_at set_xact xact gar_c]; rewrite R1; cbn [In]; tauto).
    apply (VInv_ext _ _ _ _ (psn s) (pcn s)); [exact PS1|exact PC1|]. clear s' PS1 PC1. constructor; auto.
    + congruence.
    + intros t [= <-] C. congruence.
    + intros i k0 [= <-] O P. assert (k0 = k) by congruence. subst k0. rewrite R5 in P. destruct act; try discriminate. destruct (ob_class o) eqn:CL; try (unfold asks in R3; rewrite CL in R3; contradiction).
      unfold asks in R3. rewrite CL in R3. exists (ob_name o), (ob_query o). constructor.
      * exact LEN.
      * intros o' G. rewrite HS in G. injection G as <-. cbn [set_begun ob_class ob_begun ob_closed ob_name ob_query]. auto.
      * exact (stmt_name_ne _ _ _ _ IH k o R2 CL).
      * intros k' o' G C N. left. apply HB in G as [[-> _]|[_ G]]; [reflexivity|]. apply (h_sname _ _ _ _ IH k' o' k o); auto.
      * intros (a & A & NM). left. pose proof (h_form _ _ _ _ IH k o R2) as F. rewrite CL in F. destruct F as [F|F]; [|now apply (ID_not_user a) in F].
        destruct (h_regs' _ _ _ _ IH k o R2 CL F) as [E|E]; [exact E|congruence].
      * unfold pstate. cbv zeta in R6. cbn [messages] in R6. destruct (ob_query o) as [q|]; cbn [app] in R6; [left; auto|left; exact R6].
    + intros i k0 [= <-] O P. assert (k0 = k) by congruence. subst k0. rewrite R5 in P. cbv zeta in R6. pose proof (h_of _ _ _ _ IH k o R2) as OF.
      pose proof (h_made _ _ _ _ IH k o R2) as MD.
      assert (CURSOR : cursor_class (ob_class o) -> forall j t, ob_of o = Some j -> hget j (heap s) = Some t -> ob_class t = CStatement -> ob_begun t = true -> ob_name t <> [] /\ ob_name o <> [] /\
        forall ms cr, typed (ob_name t) (ob_name o) cr (ownq L k) false false ms -> (cr = true -> ob_closed o = Some false) -> in_msgs x = ms -> exists n cn cr, xuse L (hset k set_begun (heap s)) (reg_c s) (pcn s) (sv s) x k n cn cr).
      { intros C j t OJ GT CT BT. assert (N : ob_name t <> []) by exact (stmt_name_ne _ _ _ _ IH j t GT CT). assert (NC : ob_name o <> []) by (rewrite (cur_name_ne _ _ _ _ IH _ _ R2 C); apply ID_ne).
        split; [exact N|]. split; [exact NC|]. intros ms cr TY CLO EM.
        assert (Q : qof L k = ob_query t) by (unfold qof; rewrite MD, OJ, (h_made _ _ _ _ IH j t GT); destruct C as [C|C]; rewrite C; reflexivity).
        destruct (HF j t GT) as (t' & GT' & NT' & _). exists (ob_name t), (ob_name o), cr. constructor.
        - exact LEN.
        - intros o' G. rewrite HS in G. injection G as <-. cbn [set_begun ob_begun ob_class ob_name ob_of]. split; [reflexivity|]. intros _. split; [reflexivity|]. exists j, t'. auto.
        - right. exists false, false. rewrite EM. split; [exact TY|]. constructor; try discriminate.
          + intros _ q E. unfold ownq. rewrite Q. now apply (STM j t).
          + intros _ po E. destruct (CUR C po E) as [OW FR]. split; [exact OW|]. destruct FR as [FR|(j' & t2 & E1 & E2 & E3)]; [now left|right]. assert (j' = j) by congruence. subst j'. rewrite GT in E2. injection E2 as <-. auto.
        - intros _ k' o' G C' EN. left. apply HB in G as [[-> _]|[_ G]]; [reflexivity|]. apply (cur_same _ _ _ _ IH k' o' k o); auto.
        - intros CR _ _. left. destruct (h_regc' _ _ _ _ IH k o R2 C) as [E|E]; [eauto|]. rewrite (CLO CR) in E. discriminate. }
      unfold asks in R3. destruct (ob_class o) eqn:CL.
      * (* a statement *)
        assert (N : ob_name o <> []) by exact (stmt_name_ne _ _ _ _ IH k o R2 CL).
        assert (Q : qof L k = ob_query o) by (unfold qof; now rewrite MD).
        assert (T : forall ms, typed (ob_name o) [] false (ownq L k) false false ms -> ob_closed o <> None -> in_msgs x = ms -> exists n cn cr, xuse L (hset k set_begun (heap s)) (reg_c s) (pcn s) (sv s) x k n cn cr).
        { intros ms TY NC EM. exists (ob_name o), [], false. constructor; try congruence.
          - intros o' G. rewrite HS in G. injection G as <-. cbn [set_begun ob_begun ob_class]. split; [reflexivity|]. rewrite CL. intros [C|C]; discriminate.
          - right. exists false, false. rewrite EM. split; [exact TY|]. constructor; try congruence; try discriminate.
            intros _ q E. unfold ownq. rewrite Q. apply (STM k o); auto. now apply (h_closed _ _ _ _ IH k o). }
        destruct act; try discriminate; try contradiction; cbn [messages] in R6; refine (T _ _ R3 R6).
        -- now apply typed_calls.
        -- apply T_bind_n; [exact N|]. apply T_exec_u. apply T_closep. constructor.
      * destruct OF as (j & t & OJ & GT & CT & BT & CLT & _). rewrite OJ, GT in R6. destruct act; try contradiction. cbn [messages] in R6.
        assert (N : ob_name t <> []) by exact (stmt_name_ne _ _ _ _ IH j t GT CT).
        assert (Q : qof L k = ob_query t) by (unfold qof; rewrite MD, OJ, (h_made _ _ _ _ IH j t GT); reflexivity).
        exists (ob_name t), [], false. constructor; try congruence.
        -- intros o' G. rewrite HS in G. injection G as <-. cbn [set_begun ob_begun ob_class]. split; [reflexivity|]. rewrite CL. intros [C|C]; discriminate.
        -- right. exists false, false. rewrite R6. split; [apply T_bind_n; [exact N|]; apply T_exec_u; constructor|]. constructor; try congruence; try discriminate.
           intros _ q E. unfold ownq. rewrite Q. now apply (STM j t).
      * assert (C : cursor_class CInside) by (now left). destruct OF as (j & t & OJ & GT & CT & BT & CLT & _).
        destruct (CURSOR C j t OJ GT CT BT) as (N & NC & T). rewrite OJ, GT in R6. destruct act; try contradiction; cbn [messages] in R6.
        -- refine (T _ true _ (fun _ => R3) R6). apply T_bind_c; [reflexivity|exact N|exact NC|]. apply T_exec_c; [exact NC|]. constructor.
        -- refine (T _ false _ _ R6); [|discriminate]. apply T_exec_c; [exact NC|]. constructor.
      * assert (C : cursor_class CDeclared) by (now right). destruct OF as (j & t & OJ & GT & CT & BT & CLT & QT).
        destruct (CURSOR C j t OJ GT CT BT) as (N & NC & T). rewrite OJ, GT in R6. 
        assert (Q : qof L k = ob_query t) by (unfold qof; rewrite MD, OJ, (h_made _ _ _ _ IH j t GT); reflexivity).
        destruct act; try contradiction; cbn [messages] in R6.
        -- refine (T _ true _ (fun _ => R3) R6). destruct (ob_query t) as [q|] eqn:QE; [|now destruct QT]. cbn [app].
           apply T_declare; [reflexivity|exact NC|unfold ownq; now rewrite Q|]. apply T_bind_u. apply T_exec_u. destruct fetch; cbn [app]; [|constructor]. apply T_fetch; [exact NC|]. apply T_bind_u. apply T_exec_u. constructor.
        -- refine (T _ false _ _ R6); [|discriminate]. apply T_fetch; [exact NC|]. apply T_bind_u. apply T_exec_u. constructor.
      * rewrite OF in R6. destruct act; try contradiction. cbn [messages] in R6. exists [], [], false. constructor; try congruence.
        -- intros o' G. rewrite HS in G. injection G as <-. cbn [set_begun ob_begun ob_class]. split; [reflexivity|]. rewrite CL. intros [C|C]; discriminate.
        -- right. exists false, false. rewrite R6. split; [|constructor; try congruence; try discriminate]. apply T_fetch_any; [|apply T_bind_u; apply T_exec_u; constructor].
           intros t. unfold ownq, qof. rewrite MD, OF. eauto.
    + intros n k0 o0 P G C NM. apply HB in G as [[-> ->]|[NK G]]; [|now apply (V7 n k0 o0)]. cbn [set_begun ob_class ob_name] in C, NM. exfalso. apply PS0 in P. apply (ROs C). now rewrite NM.
    + intros n k0 o0 P G C NM. apply HB in G as [[-> ->]|[NK G]]; [|now apply (V8 n k0 o0)]. cbn [set_begun ob_class ob_name] in C, NM. exfalso. apply PC0 in P. apply (ROc C). now rewrite NM.
    + intros k0 o0 q G C B Q. apply HB in G as [[-> ->]|[NK G]].
      * cbn [set_begun ob_class ob_name ob_query] in *. destruct (ob_closed o) as [b|] eqn:CO.
        -- left. intros qq E. assert (BO : ob_begun o = true) by (apply (h_closed _ _ _ _ IH k o R2 C); congruence). pose proof (STM k o R2 C BO qq E) as X'. now rewrite Q in X'.
        -- right. unfold asks in R3. rewrite C in R3. destruct act; try contradiction. cbv zeta in R6. cbn [messages] in R6. rewrite Q in R6. exists x. eexists. rewrite R5, R6. repeat split; auto.
      * destruct (V9 k0 o0 q G C B Q) as [F|(i & r & C' & _)]; [now left|discriminate].
    + intros k0 o0 q G C CL Q. apply HB in G as [[-> ->]|[NK G]]; [now apply (V10 k o q)|now apply (V10 k0 o0 q)].
    + intros k0 o0 po G C B E. assert (LINK : forall oo, (po_from po = [] \/ exists j t, ob_of oo = Some j /\ hget j (heap s) = Some t /\ ob_name t = po_from po) -> po_from po = [] \/ exists j t, ob_of oo = Some j /\ hget j (hset k set_begun (heap s)) = Some t /\ ob_name t = po_from po).
      { intros oo [F|(j & t & E1 & E2 & E3)]; [now left|right]. destruct (HF j t E2) as (t' & G' & N' & _). exists j, t'. rewrite N'. auto. }
      apply HB in G as [[-> ->]|[NK G]].
      * cbn [set_begun ob_class ob_name ob_of] in *. destruct (CUR C po E) as [OW FR]. split; [exact OW|]. now apply (LINK o).
      * destruct (V11 k0 o0 po G C B E) as [OW FR]. split; [exact OW|]. now apply (LINK o0).
    + intros n po E M. destruct (V13 n po E M) as [(k0 & o0 & E0 & G0 & B0)|P]; [|now right]. left. destruct (HF k0 o0 G0) as (o2 & G2 & _ & B2). exists k0, o2. auto.
  - discriminate.
  - unfold at_ok. cbn [at_ xact set_heap set_at set_xact]. intros t [= <-]. congruence.
Qed.
