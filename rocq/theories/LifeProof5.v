(** LifeProof5.v: the invariant through the driver's steps and the ends of requests *)
From Coq Require Import Lia.
From Verif Require Import PyStr PyDict PyDictProof BaseProof LifeModel LifeSpec LifeProof LifeProof2 LifeProof3 LifeProof4.

Lemma rest_ok_heap s s' x gs gc : heap s' = heap s -> rest_ok s x gs gc -> rest_ok s' x gs gc.
Proof. intros E R k o O G. apply (R k o O). unfold living in *. now rewrite <- E. Qed.
(** only where the driver is changes *)
Lemma Inv_at L s p : Inv L s -> (forall x, running p = Some x -> exists k o act, req s x k o act) -> at_ok (set_at s p) -> Inv L (set_at s p).
Proof.
  intros [IF IH IV IR IA] R A. constructor; auto. intros x E. destruct (R x E) as (k & o & act & Q). exists k, o, act. now apply (req_heap s).
Qed.
Lemma nth_error_none_le {A} (l : list A) i : nth_error l i = None -> (i <= length l)%nat -> i = length l.
Proof. intros E H. apply nth_error_None in E. lia. Qed.
Lemma firstn_snoc {A} (l : list A) i x : nth_error l i = Some x -> firstn (S i) l = firstn i l ++ [x].
Proof. revert i. induction l as [|y l IH]; intros [|i] E; try discriminate; cbn in *; [congruence|]. f_equal. now apply IH. Qed.
Lemma Inv_driver L s s' : Inv L s -> driver s = Some s' -> Inv L s'.
Proof.
  intros I E. pose proof I as [IF IH IV IR IA]. unfold driver in E. unfold at_ok in IA. destruct (at_ s) as [|x|x xm i|x xm i j|x i j|x j|x|] eqn:A; try discriminate.
  - (* complete what is under way *)
    destruct (xact s) as [t|] eqn:X.
    + destruct (in_msgs t) as [|? ?] eqn:M; [|discriminate]. injection E as <-. pose proof (IA t eq_refl) as O. constructor; cbn [set_at set_xact heap fresh reg_s reg_c xact at_ sv].
      * exact IF.
      * exact IH.
      * apply (VInv_ext _ _ _ _ (psn s) (pcn s)); [intros n; unfold psn, trash_msgs; cbn; rewrite X; destruct (in_owner t); [tauto|contradiction]|intros n; unfold pcn, trash_msgs; cbn; rewrite X; destruct (in_owner t); [tauto|contradiction]|].
        now apply (VInv_finish _ _ _ _ _ _ t).
      * intros y RY. destruct (in_err t); [discriminate|]. destruct (IR y RY) as (k & o & act & Q). exists k, o, act. now apply (req_heap s).
      * unfold at_ok. cbn [set_at set_xact xact at_]. destruct (in_err t); discriminate.
    + destruct (IR x eq_refl) as (k & o & act & Q). destruct (gar_s s) as [|n1 g1] eqn:GS; [destruct (gar_c s) as [|n2 g2] eqn:GC|].
      * injection E as <-. apply (Inv_begin L s x k o act); auto. rewrite GS, GC. intros k' o' _ _. split; intros _ [].
      * injection E as <-. apply Inv_at; auto. unfold at_ok. cbn [set_at at_ xact gar_c]. split; [exact X|]. split; [lia|reflexivity].
      * injection E as <-. apply Inv_at; auto. unfold at_ok. cbn [set_at at_ xact gar_c]. split; [exact X|]. split; [lia|reflexivity].
  - (* the cursors *)
    destruct IA as (X & LE & EM). destruct (nth_error (gar_c s) i) as [n|] eqn:N; injection E as <-; apply Inv_at; auto; unfold at_ok; cbn [set_at at_ xact gar_c gar_s].
    + split; [exact X|]. split; [apply nth_error_Some; congruence|]. rewrite EM, (firstn_snoc _ _ _ N), map_app. reflexivity.
    + split; [exact X|]. split; [exact LE|]. split; [lia|]. split; [rewrite EM; cbn [firstn map]; now rewrite app_nil_r|].
      apply nth_error_none_le in N; [|exact LE]. rewrite N, skipn_all. intros k o _ _. split; intros _ [].
  - (* the statements *)
    destruct IA as (X & LE & LE2 & EM & RO). destruct (nth_error (gar_s s) j) as [n|] eqn:N; injection E as <-.
    + apply Inv_at; auto. unfold at_ok. cbn [set_at at_ xact gar_c gar_s]. split; [exact X|]. split; [exact LE|]. split; [apply nth_error_Some; congruence|]. split; [|exact RO].
      rewrite EM, (firstn_snoc _ _ _ N), map_app, app_assoc. reflexivity.
    + apply nth_error_none_le in N; [|exact LE2]. set (t := {| in_owner := None; in_prepare := false; in_msgs := xm ++ [MSync]; in_err := false |}).
      constructor; cbn [set_at set_xact heap fresh reg_s reg_c xact at_ sv].
      * exact IF.
      * exact IH.
      * assert (SK : sv_skip (sv s) = false) by (apply (noskip _ _ _ _ _ _ _ _ IV); intros z C; congruence).
        assert (IMS : forall n, In (MCloseS n) (xm ++ [MSync]) -> In n (gar_s s)).
        { intros n I'. rewrite EM in I'. rewrite !in_app_iff, !in_map_iff in I'. destruct I' as [[(y & C & _)|(y & [= <-] & I')]|[C|[]]]; try discriminate. rewrite <- (firstn_skipn j). apply in_or_app. now left. }
        assert (IMC : forall n, In (MCloseP n) (xm ++ [MSync]) -> In n (gar_c s)).
        { intros n I'. rewrite EM in I'. rewrite !in_app_iff, !in_map_iff in I'. destruct I' as [[(y & [= <-] & I')|(y & C & _)]|[C|[]]]; try discriminate. rewrite <- (firstn_skipn i). apply in_or_app. now left. }
        assert (PSN : forall n, psn s n <-> In n (gar_s s)) by (intros n; unfold psn, trash_msgs; rewrite X; cbn [In]; tauto).
        assert (PCN : forall n, pcn s n <-> In n (gar_c s)) by (intros n; unfold pcn, trash_msgs; rewrite X; cbn [In]; tauto).
        assert (PSN' : forall n, psn (set_at (set_xact s (Some t)) (PDelC x i j)) n <-> psn s n) by (intros n; rewrite PSN; unfold psn, trash_msgs; cbn [set_at set_xact xact t in_owner in_msgs gar_s]; specialize (IMS n); tauto).
        assert (PCN' : forall n, pcn (set_at (set_xact s (Some t)) (PDelC x i j)) n <-> pcn s n) by (intros n; rewrite PCN; unfold pcn, trash_msgs; cbn [set_at set_xact xact t in_owner in_msgs gar_c]; specialize (IMC n); tauto).
        apply (VInv_trash L (heap s) (reg_s s) (reg_c s) IH _ _ _ _ _ _ _ _ IV); auto; try (intros; now apply PSN'); try (intros; now apply PCN').
        -- intros z C. congruence.
        -- intros z [= <-]. split; [reflexivity|]. cbn [t in_msgs]. apply Forall_forall. intros m I'. destruct m as [n0|n0|? ?| |? ?|?|]; cbn [trashy]; auto.
           ++ apply (v_ps _ _ _ _ _ _ _ _ IV). apply PSN. now apply IMS.
           ++ rewrite EM, !in_app_iff, !in_map_iff in I'. destruct I' as [[(y & C & _)|(y & C & _)]|[C|[]]]; discriminate.
           ++ rewrite EM, !in_app_iff, !in_map_iff in I'. destruct I' as [[(y & C & _)|(y & C & _)]|[C|[]]]; discriminate.
           ++ rewrite EM, !in_app_iff, !in_map_iff in I'. destruct I' as [[(y & C & _)|(y & C & _)]|[C|[]]]; discriminate.
           ++ rewrite EM, !in_app_iff, !in_map_iff in I'. destruct I' as [[(y & C & _)|(y & C & _)]|[C|[]]]; discriminate.
        -- intros m q G. split; [exact G|]. apply PSN'.
        -- intros m q G. split; [exact G|]. apply PCN'.
        -- exact (v_pkeys _ _ _ _ _ _ _ _ IV).
      * intros y RY. destruct (IR y RY) as (k & o & act & Q). exists k, o, act. now apply (req_heap s).
      * unfold at_ok. cbn [set_at set_xact at_ xact gar_s gar_c]. split; [exact LE|]. split; [exact LE2|]. split.
        -- exists t. split; [reflexivity|]. split; [reflexivity|]. cbn [t in_msgs]. rewrite EM, app_assoc. reflexivity.
        -- intros k o O G. destruct (RO k o O G) as [_ RC]. split; [|exact RC]. rewrite N, skipn_all. intros _ [].
  - (* the closed cursors are forgotten *)
    injection E as <-. destruct IA as (LE & LE2 & (t & X & O & M) & RO). constructor; cbn [set_at set_garbage heap fresh reg_s reg_c xact at_ sv].
    + exact IF.
    + exact IH.
    + apply (VInv_ext _ _ _ _ (psn s) (pcn s)); [intros n; unfold psn, trash_msgs; reflexivity| |exact IV].
      intros n. unfold pcn, trash_msgs. cbn [set_at set_garbage xact gar_c]. rewrite X, O, M. rewrite <- (firstn_skipn i (gar_c s)) at 1. rewrite !in_app_iff, !in_map_iff.
      split; [intros [[I'|I']|I']; [|now left|now right]|intros [I'|I']; [left; now right|now right]]. right. left. now exists n.
    + intros y RY. destruct (IR y RY) as (k & o & act & Q). exists k, o, act. now apply (req_heap s).
    + unfold at_ok. cbn [set_at set_garbage at_ xact gar_s gar_c]. split; [exact LE2|]. split; [|exact RO]. exists t, (firstn i (gar_c s)). auto.
  - (* and the statements *)
    injection E as <-. destruct IA as (LE2 & (t & cl & X & O & M) & RO). constructor; cbn [set_at set_garbage heap fresh reg_s reg_c xact at_ sv].
    + exact IF.
    + exact IH.
    + apply (VInv_ext _ _ _ _ (psn s) (pcn s)); [|intros n; unfold pcn, trash_msgs; reflexivity|exact IV].
      intros n. unfold psn, trash_msgs. cbn [set_at set_garbage xact gar_s]. rewrite X, O, M. rewrite <- (firstn_skipn j (gar_s s)) at 1. rewrite !in_app_iff, !in_map_iff.
      split; [intros [[I'|I']|I']; [|now left|now right]|intros [I'|I']; [left; now right|now right]]. right. right. left. now exists n.
    + intros y RY. destruct (IR y RY) as (k & o & act & Q). exists k, o, act. now apply (req_heap s).
    + unfold at_ok. cbn [set_at set_garbage at_ xact gar_s gar_c]. split; [|exact RO]. intros z Z. congruence.
  - (* the closing is complete *)
    destruct IA as (XN & RO). destruct (xact s) as [t|] eqn:X.
    + destruct (in_msgs t) as [|? ?] eqn:M; [|discriminate]. injection E as <-. pose proof (XN t eq_refl) as O. constructor; cbn [set_xact heap fresh reg_s reg_c xact at_ sv].
      * exact IF.
      * exact IH.
      * apply (VInv_ext _ _ _ _ (psn s) (pcn s)); [intros n; unfold psn, trash_msgs; cbn; rewrite X, O, M; tauto|intros n; unfold pcn, trash_msgs; cbn; rewrite X, O, M; tauto|].
        now apply (VInv_finish _ _ _ _ _ _ t).
      * rewrite A. intros y RY. destruct (IR y RY) as (k & o & act & Q). exists k, o, act. now apply (req_heap s).
      * unfold at_ok. cbn [set_xact xact at_]. rewrite A. split; [discriminate|exact RO].
    + injection E as <-. destruct (IR x eq_refl) as (k & o & act & Q). now apply (Inv_begin L s x k o act).
Qed.
Lemma Inv_push L s act k x o : Inv L s -> at_ s = Idle -> living s k o -> asks o act -> request act k s = Some x -> Inv L (set_at s (PComplete x)).
Proof.
  intros I A G AS E. apply Inv_at; [exact I| |].
  - intros y [= <-]. unfold request in E. unfold living in G. rewrite G in E. exists k, o, act. injection E as <-. constructor; cbn [in_owner in_prepare in_err in_msgs]; auto.
  - pose proof (i_at _ _ I) as IA. unfold at_ok in *. rewrite A in IA. exact IA.
Qed.
Lemma Inv_dead L s : Inv L s -> Inv L (set_at s PDead).
Proof. intros I. apply Inv_at; [exact I|discriminate|exact Logic.I]. Qed.
Lemma Inv_gone L s p : Inv L s -> Inv L (set_sv s {| sv_stmts := sv_stmts (sv s); sv_portals := ddel p (sv_portals (sv s)); sv_skip := sv_skip (sv s); ran := ran (sv s) |}).
Proof.
  intros [IF IH IV IR IA]. set (v' := {| sv_stmts := sv_stmts (sv s); sv_portals := ddel p (sv_portals (sv s)); sv_skip := sv_skip (sv s); ran := ran (sv s) |}). constructor; cbn [set_sv heap fresh reg_s reg_c xact at_ sv]; auto.
  - change (VInv L (heap s) (reg_s s) (reg_c s) (psn s) (pcn s) (xact s) v').
    assert (P1 : forall m po, dget m (sv_portals v') = Some po -> dget m (sv_portals (sv s)) = Some po) by (intros m po; unfold v'; cbn [sv_portals]; rewrite dget_del; destruct (seqb m p); [discriminate|auto]).
    destruct IV as [V1 V2 V3 V4 V5 V6 V7 V8 V9 V10 V11 V12 V13 V14 V15]. constructor; auto.
    + intros i k E O P. destruct (V3 i k E O P) as (n & q & [X1 X2 X3 X4 X5 X6]). exists n, q. constructor; auto.
    + intros i k E O P. destruct (V4 i k E O P) as (n & cn & cr & [X1 X2 X3 X4 X5]). exists n, cn, cr. constructor; auto. destruct X3 as [X3|(u & q & T & F)]; [now left|right]. exists u, q. split; [exact T|]. now apply fits_gone.
    + now apply ddel_nodup.
    + intros n po E M. apply (V13 n po); auto.
  - intros x RX. destruct (IR x RX) as (k & o & act & Q). exists k, o, act. now apply (req_heap s).
Qed.
