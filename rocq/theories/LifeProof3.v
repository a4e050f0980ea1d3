(** LifeProof3.v: the invariant through the server's part of the steps *)
From Coq Require Import Lia.
From Verif Require Import PyStr PyDict PyDictProof BaseProof LifeModel LifeSpec LifeProof LifeProof2.

Section V.
Context (L : table) (h : list (nat * obj)) (rs rc : list (text * nat)).
Hypothesis HI : HInv L h rs rc.
(** nothing of an object is under way; what is pending may be closed *)
Lemma VInv_trash (PS PC : text -> Prop) x v (PS' PC' : text -> Prop) x' v' : VInv L h rs rc PS PC x v ->
  (forall i, x = Some i -> in_owner i = None) -> (forall i, x' = Some i -> in_owner i = None /\ Forall trashy (in_msgs i)) -> sv_skip v' = false ->
  (forall n, PS' n -> PS n) -> (forall n, PC' n -> PC n) ->
  (forall m q, dget m (sv_stmts v') = Some q -> dget m (sv_stmts v) = Some q /\ (PS m -> PS' m)) ->
  (forall m q, dget m (sv_stmts v) = Some q -> dget m (sv_stmts v') = Some q \/ PS m) ->
  (forall m po, dget m (sv_portals v') = Some po -> dget m (sv_portals v) = Some po /\ (PC m -> PC' m)) ->
  NoDup (dkeys (sv_portals v')) -> ran v' = ran v -> VInv L h rs rc PS' PC' x' v'.
Proof.
  intros [V1 V2 V3 V4 V5 V6 V7 V8 V9 V10 V11 V12 V13 V14 V15] XN XN' SK SP SC S1 S2 P1 PK R. constructor.
  - congruence.
  - intros t E _. exact (proj2 (XN' t E)).
  - intros i k E O. destruct (XN' i E). congruence.
  - intros i k E O. destruct (XN' i E). congruence.
  - intros m q N E. apply (V5 m q N). now apply S1.
  - exact PK.
  - intros n k o P. apply V7. now apply SP.
  - intros n k o P. apply V8. now apply SC.
  - intros k o q G C B Q. left. intros qq E. apply S1 in E as [E _]. destruct (V9 k o q G C B Q) as [F|(i & r & E1 & E2 & _)]; [now apply F|]. pose proof (XN i E1). congruence.
  - intros k o q G C CL Q. destruct (S2 _ _ (V10 k o q G C CL Q)) as [E|P]; [exact E|]. exfalso.
    destruct (V7 _ k o P G C eq_refl) as [E|E]; [congruence|]. rewrite (h_closed _ _ _ _ HI k o G C) in E; congruence.
  - intros k o po G C B E. apply P1 in E as [E _]. now apply (V11 k o po).
  - intros n q E M. apply S1 in E as [E T]. destruct (V12 n q E M) as [X|X]; [now left|right; auto].
  - intros n po E M. apply P1 in E as [E T]. destruct (V13 n po E M) as [X|X]; [now left|right; auto].
  - rewrite R. exact V14.
  - intros n P. apply V15. now apply SP.
Qed.
(** the current request of an object is complete *)
Lemma VInv_finish PS PC i v : VInv L h rs rc PS PC (Some i) v -> in_msgs i = [] -> VInv L h rs rc PS PC None v.
Proof.
  intros [V1 V2 V3 V4 V5 V6 V7 V8 V9 V10 V11 V12 V13 V14 V15] M. constructor; auto; try discriminate.
  - intros SK. destruct (V1 SK) as (j & [= <-] & _ & _ & C). contradiction.
  - intros k o q G C B Q. destruct (V9 k o q G C B Q) as [F|(j & r & [= <-] & _ & _ & C')]; [now left|]. congruence.
Qed.
Lemma VInv_ext (PS PC : text -> Prop) x v (PS' PC' : text -> Prop) : (forall n, PS n <-> PS' n) -> (forall n, PC n <-> PC' n) -> VInv L h rs rc PS PC x v -> VInv L h rs rc PS' PC' x v.
Proof.
  intros ES EC [V1 V2 V3 V4 V5 V6 V7 V8 V9 V10 V11 V12 V13 V14 V15]. constructor; auto.
  - intros i k E O P. destruct (V3 i k E O P) as (n & q & [X1 X2 X3 X4 X5 X6]). exists n, q. constructor; auto. intros M. destruct (X5 M); [now left|right; now apply ES].
  - intros i k E O P. destruct (V4 i k E O P) as (n & cn & cr & [X1 X2 X3 X4 X5]). exists n, cn, cr. constructor; auto. intros R N M. destruct (X5 R N M); [now left|right; now apply EC].
  - intros n k o P. apply V7. now apply ES.
  - intros n k o P. apply V8. now apply EC.
  - intros n q E M. destruct (V12 n q E M); [now left|right; now apply ES].
  - intros n po E M. destruct (V13 n po E M); [now left|right; now apply EC].
  - intros n P. apply V15. now apply ES.
Qed.
(** the server processes a message of a request *)
Lemma VInv_use PS PC i v m r ok k : VInv L h rs rc PS PC (Some i) v -> in_owner i = Some k -> in_prepare i = false -> in_msgs i = m :: r ->
  let v' := serve ok (Some k) m v in
  VInv L h rs rc PS PC (Some {| in_owner := in_owner i; in_prepare := in_prepare i; in_msgs := r; in_err := in_err i || sv_skip v' |}) v'.
Proof.
  intros [V1 V2 V3 V4 V5 V6 V7 V8 V9 V10 V11 V12 V13 V14 V15] O P M v'. destruct (V4 i k eq_refl O P) as (n & cn & cr & [X1 X2 X3 X4 X5]).
  destruct X3 as [[C _]|(u & p & T & F)]; [congruence|]. rewrite M in T. destruct (typed_serve n cn cr (ownq L k) (ownq_user L k) u p m r v ok (Some k) T F) as [[D1 D2 D3 D3' D4 D5] NEXT]. fold v' in D1, D2, D3, D3', D4, D5, NEXT.
  assert (DC : forall po, dget cn (sv_portals v') = Some po -> cn <> [] -> ownq L k (po_query po) /\ (po_from po = [] \/ po_from po = n)).
  { intros po E N. destruct (dget cn (sv_portals v)) as [po0|] eqn:G0.
    - rewrite (D3 N po0 eq_refl) in E. injection E as <-. exact (f_cur _ _ _ _ _ _ _ F N po0 G0).
    - destruct NEXT as [(ME & _ & _)|(u' & p' & _ & F')]; [|exact (f_cur _ _ _ _ _ _ _ F' N po E)].
      exfalso. unfold v', serve in E. rewrite ME in E. destruct (sv_skip v); cbn [with_stmts sv_portals] in E; congruence. }
  assert (ML : r <> [] \/ sv_skip v' = false) by (destruct NEXT as [(_ & _ & S)|(u' & p' & T' & _)]; [now right|left; inversion T'; discriminate]).
  constructor; cbn [in_owner in_prepare in_msgs in_err]; auto; try congruence.
  - intros SK. eexists. split; [reflexivity|]. cbn [in_owner in_prepare in_msgs in_err]. split; [congruence|]. split; [rewrite SK; apply orb_true_r|]. destruct ML; [assumption|congruence].
  - intros t E O'. injection E as <-. cbn [in_owner] in O'. congruence.
  - intros i0 k0 E O' P'. injection E as <-. cbn [in_prepare] in P'. congruence.
  - intros i0 k0 E O' P'. injection E as <-. cbn [in_owner in_prepare] in O', P'. assert (k0 = k) by congruence. subst k0. exists n, cn, cr. constructor; auto. cbn [in_msgs].
    destruct NEXT as [(_ & -> & S)|(u' & p' & T' & F')]; [left; auto|right; eauto].
  - intros m0 q N E. rewrite D1 in E by exact N. now apply (V5 m0 q).
  - intros k0 o q G C B Q. pose proof (stmt_name_ne _ _ _ _ HI k0 o G C) as N. rewrite (D1 _ N). destruct (V9 k0 o q G C B Q) as [H|(j & r' & [= <-] & O' & P' & _)]; [now left|congruence].
  - intros k0 o q G C CL Q. rewrite D1 by exact (stmt_name_ne _ _ _ _ HI k0 o G C). now apply (V10 k0 o q).
  - intros k0 o po G C B E. pose proof (cur_name_ne _ _ _ _ HI k0 o G C) as NM. assert (N : ob_name o <> []) by (rewrite NM; apply ID_ne).
    destruct (seqb_spec (ob_name o) cn) as [EN|NE]; [|rewrite D2 in E by assumption; now apply (V11 k0 o po)].
    rewrite EN in E, N. destruct (X4 N k0 o G C EN) as [->|B']; [|congruence]. destruct (DC po E N) as [OW FR]. split; [exact OW|]. destruct FR as [FR|FR]; [now left|]. right.
    destruct (X2 o G) as [_ HH]. destruct (HH C) as [_ (j & t & OF & GT & NT)]. exists j, t. rewrite FR. auto.
  - intros n0 q E MD. rewrite D1 in E by exact (made_ne _ MD). now apply (V12 n0 q).
  - intros n0 po E MD. destruct (seqb_spec n0 cn) as [->|NE]; [|rewrite D2 in E by (try exact (made_ne _ MD); exact NE); now apply (V13 n0 po)].
    destruct cr eqn:CR; [|apply (D3' eq_refl (made_ne _ MD)) in E; now apply (V13 cn po)].
    destruct (X5 eq_refl (made_ne _ MD) MD) as [(o & G1 & G2)|C]; [left; exists k, o; split; [exact G1|]; split; [exact G2|]; apply (X2 o G2)|now right].
  - intros ok0 t I. apply D4 in I as [I|(t' & [= -> ->] & OW)]; [now apply V14|]. exists k. auto.
Qed.
(** and of a preparation *)
Lemma VInv_prep PS PC i v m r ok k : VInv L h rs rc PS PC (Some i) v -> in_owner i = Some k -> in_prepare i = true -> in_msgs i = m :: r ->
  let v' := serve ok (Some k) m v in
  VInv L h rs rc PS PC (Some {| in_owner := in_owner i; in_prepare := in_prepare i; in_msgs := r; in_err := in_err i || sv_skip v' |}) v'.
Proof.
  intros V O P M v'. pose proof V as [V1 V2 V3 V4 V5 V6 V7 V8 V9 V10 V11 V12 V13 V14 V15]. destruct (V3 i k eq_refl O P) as (n & q & [X1 X2 X3 X4 X5 X6]).
  (** the message: either nothing changes but the state of skipping, or the statement is removed, or it is made *)
  assert (CASES : (tail (m :: r) /\ (sv_stmts v' = sv_stmts v /\ sv_portals v' = sv_portals v /\ ran v' = ran v /\ (sv_skip v' = true -> m <> MSync)) /\
                    match q with None => True | Some t => (forall qq, dget n (sv_stmts v) = Some qq -> qq = QUser t) /\ (in_err i = false -> dget n (sv_stmts v) = Some (QUser t)) end) \/
    (exists t, q = Some t /\ m = MCloseS n /\ r = [MParse n (QUser t); MDescribe; MSync] /\ sv_stmts v' = ddel n (sv_stmts v) /\ sv_portals v' = filter (fun p => negb (seqb n (po_from (snd p)))) (sv_portals v) /\ ran v' = ran v /\ sv_skip v' = false /\ in_err i = false) \/
    (exists t, q = Some t /\ m = MParse n (QUser t) /\ r = [MDescribe; MSync] /\ dget n (sv_stmts v) = None /\ sv_portals v' = sv_portals v /\ ran v' = ran v /\ in_err i = false /\
       ((sv_skip v' = false /\ sv_stmts v' = dset n (QUser t) (sv_stmts v)) \/ (sv_skip v' = true /\ sv_stmts v' = sv_stmts v)))).
  { assert (TL : tail (m :: r) -> (sv_stmts v' = sv_stmts v /\ sv_portals v' = sv_portals v /\ ran v' = ran v /\ (sv_skip v' = true -> m <> MSync))).
    { intros [T|[T|T]]; try discriminate; injection T as -> ->; unfold v', serve; destruct (sv_skip v) eqn:SK; cbn [with_stmts sv_stmts sv_portals sv_skip ran]; try (destruct ok; cbn [negb failed sv_stmts sv_portals sv_skip ran]); repeat split; try discriminate; congruence. }
    unfold pstate in X6. rewrite M in X6. destruct q as [t|]; [|left; auto]. destruct X6 as [(E & SK & ER)|[(E & G & SK & ER)|(T & A & B)]].
    - right. left. exists t. injection E as -> ->. unfold v', serve. rewrite SK. cbn. auto 10.
    - right. right. exists t. injection E as -> ->. unfold v', serve. rewrite SK. destruct ok; cbn [negb]; [|cbn; auto 15]. unfold dmem. rewrite G, andb_false_r. cbn. auto 15.
    - left. auto 10. }
  clear X6.
  assert (OTHER : forall k0 o, hget k0 h = Some o -> ob_class o = CStatement -> ob_begun o = true -> k0 <> k -> ob_name o <> n).
  { intros k0 o G C B N E. destruct (X4 k0 o G C E) as [->|B']; [contradiction|congruence]. }
  assert (SKR : sv_skip v' = true -> r <> []).
  { intros S. destruct CASES as [(T & (_ & _ & _ & NS) & _)|[(t & _ & _ & -> & _)|(t & _ & _ & -> & _)]]; try discriminate. destruct T as [T|[T|T]]; try discriminate; injection T as E1 E2; [rewrite E2; discriminate|exfalso; now apply NS]. }
  assert (STMT : forall j qq, j <> n -> j <> [] -> dget j (sv_stmts v') = Some qq <-> dget j (sv_stmts v) = Some qq).
  { intros j qq N NE. destruct CASES as [(_ & (-> & _) & _)|[(t & _ & _ & _ & -> & _)|(t & _ & _ & _ & _ & _ & _ & _ & [[_ ->]|[_ ->]])]]; try tauto; [rewrite dget_del, seqb_ne by exact N; tauto|now rewrite dget_set_other by exact N]. }
  assert (PORT : forall j po, dget j (sv_portals v') = Some po -> dget j (sv_portals v) = Some po).
  { intros j po. destruct CASES as [(_ & (_ & -> & _) & _)|[(t & _ & _ & _ & _ & -> & _)|(t & _ & _ & _ & _ & -> & _)]]; auto.
    intros E. apply (dget_filter (fun po => negb (seqb n (po_from po))) j (sv_portals v) po V6) in E. apply E. }
  assert (RAN : ran v' = ran v) by (destruct CASES as [(_ & (_ & _ & R & _) & _)|[(t & _ & _ & _ & _ & _ & R & _)|(t & _ & _ & _ & _ & _ & R & _)]]; exact R).
  assert (OWN : forall t, q = Some t -> m <> MCloseS n -> forall qq, dget n (sv_stmts v') = Some qq -> qq = QUser t).
  { intros t -> NM qq. destruct CASES as [(_ & (-> & _) & A & _)|[(t' & [= <-] & E & _)|(t' & [= <-] & _ & _ & G & _ & _ & _ & [[_ ->]|[_ ->]])]]; [apply A|contradiction|rewrite dget_set_same; now intros [= <-]|congruence]. }
  constructor; cbn [in_owner in_prepare in_msgs in_err]; auto; try congruence.
  - intros SK. eexists. split; [reflexivity|]. cbn [in_owner in_err in_msgs]. split; [congruence|]. split; [rewrite SK; apply orb_true_r|auto].
  - intros t E O'. injection E as <-. cbn [in_owner] in O'. congruence.
  - intros i0 k0 E O' P'. injection E as <-. cbn [in_owner] in O'. assert (k0 = k) by congruence. subst k0. exists n, q. constructor; auto. unfold pstate. cbn [in_msgs in_err].
    destruct CASES as [(T & (E1 & E2 & E3 & E4) & A)|[(t & -> & _ & -> & E1 & _ & _ & SK & ER)|(t & -> & _ & -> & G & E2 & _ & ER & ST)]].
    + assert (TR : tail r) by (destruct T as [T|[T|T]]; try discriminate; injection T as -> ->; [right; now left|right; now right]).
      destruct q as [t|]; [|exact TR]. right. right. rewrite E1. split; [exact TR|]. split; [apply A|]. intros ER. apply orb_false_elim in ER as [ER _]. now apply A.
    + right. left. rewrite E1, SK, ER, dget_del, seqb_refl. auto.
    + right. right. split; [now left|]. destruct ST as [[SK ->]|[SK ->]]; rewrite SK, ER; [rewrite dget_set_same|]; (split; [intros qq C; congruence|]); [reflexivity|discriminate].
  - intros i0 k0 E O' P'. injection E as <-. cbn [in_prepare] in P'. congruence.
  - intros j qq N E. destruct (seqb_spec j n) as [->|NE]; [|apply STMT in E; try assumption; now apply (V5 j qq)].
    destruct CASES as [(_ & (E1 & _) & _)|[(t & _ & _ & _ & E1 & _)|(t & -> & _ & _ & G & _ & _ & _ & [[_ E1]|[_ E1]])]]; rewrite E1 in E; [now apply (V5 n qq)|rewrite dget_del, seqb_refl in E; discriminate|rewrite dget_set_same in E; injection E as <-; eauto|congruence].
  - destruct CASES as [(_ & (_ & -> & _) & _)|[(t & _ & _ & _ & _ & -> & _)|(t & _ & _ & _ & _ & -> & _)]]; auto.
    clear - V6. revert V6. generalize (sv_portals v). intros d. unfold dkeys. induction d as [|[j w] d IH]; intros ND; [exact ND|]. cbn [map fst] in ND. apply NoDup_cons_iff in ND as [NI ND]. cbn [filter snd].
    destruct (negb (seqb n (po_from w))); [|now apply IH]. cbn [map fst]. constructor; [|now apply IH]. intros C. apply NI. apply in_map_iff in C as (y & E & C). apply filter_In in C as [C _]. apply in_map_iff. now exists y.
  - intros k0 o t G C B Q. left. intros qq E. pose proof (stmt_name_ne _ _ _ _ HI k0 o G C) as N. destruct (Nat.eq_dec k0 k) as [->|NK].
    + destruct (X2 o G) as (_ & _ & _ & NM & QQ). rewrite NM in E. rewrite Q in QQ. destruct CASES as [(TT & (E1 & _) & A)|[(t' & _ & _ & _ & E1 & _)|CP]].
      * apply (OWN t); [congruence| |exact E]. destruct TT as [TT|[TT|TT]]; try discriminate; injection TT as -> _; discriminate.
      * rewrite E1, dget_del, seqb_refl in E. discriminate.
      * destruct CP as (t' & -> & MM & _). apply (OWN t); [congruence|rewrite MM; discriminate|exact E].
    + rewrite STMT in E by (try exact N; now apply (OTHER k0)). destruct (V9 k0 o t G C B Q) as [F|(j & r' & [= <-] & O' & _)]; [now apply F|congruence].
  - intros k0 o t G C CL Q. assert (B : ob_begun o = true) by (apply (h_closed _ _ _ _ HI k0 o G C); congruence). assert (NK : k0 <> k) by (intros ->; destruct (X2 o G) as (_ & _ & CN & _); congruence).
    apply STMT; [now apply (OTHER k0)|exact (stmt_name_ne _ _ _ _ HI k0 o G C)|]. now apply (V10 k0 o t).
  - intros j qq E MD. destruct (seqb_spec j n) as [->|NE]; [|apply STMT in E; [now apply (V12 j qq)|exact NE|exact (made_ne _ MD)]].
    destruct (X5 MD) as [RS|PP]; [left; now exists k|now right].
  - intros j po E MD. apply PORT in E. now apply (V13 j po).
  - rewrite RAN. exact V14.
Qed.
End V.
