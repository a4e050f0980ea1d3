From Verif Require Import PyStr PyStrProof PyStrProof2 PyListProof BaseProof PyDict PyDictProof RIProof2 ConfModel ConfProof ConfSpec.

(** ** list updates *)
Lemma set_nth_length i x l : length (set_nth i x l) = length l.
Proof. revert i. induction l as [|y l IH]; intros [|i]; cbn; auto. Qed.
Lemma line_at_set i j x l : (i < length l)%nat -> line_at j (set_nth i x l) = if Nat.eqb i j then x else line_at j l.
Proof.
  unfold line_at. revert i j. induction l as [|y l IH]; intros [|i] [|j] H; cbn [length] in H; try lia; cbn; auto. apply IH. lia.
Qed.
Lemma list_nth_ext (a b : list text) : length a = length b -> (forall i, (i < length a)%nat -> line_at i a = line_at i b) -> a = b.
Proof.
  unfold line_at. revert b. induction a as [|x a IH]; intros [|y b] L H; try discriminate; auto.
  pose proof (H O ltac:(cbn; lia)) as H0. cbn in H0. subst y. f_equal. apply IH; [cbn in L; lia|]. intros i Hi. apply (H (S i)). cbn. lia.
Qed.

Lemma nodup_app_l {A} (a b : list A) : NoDup (a ++ b) -> NoDup a.
Proof.
  induction a as [|x a IH]; intros H; [constructor|]. cbn in H. inversion_clear H as [|? ? N H']. constructor; auto.
  intros C. apply N, in_app_iff. auto.
Qed.
Section conf.
Context (U : unicode) (UO : unicode_ok U).
Local Notation sp := (u_space U).
Local Notation word := (is_word U).
Local Notation cand := (nat * extent * extent)%type.
Definition idx (cl : cand) : nat := fst (fst cl).

(** a candidate describes the line it names *)
Definition good (lines : list text) (cl : cand) (x : parts) : Prop :=
  shape U x /\ (idx cl < length lines)%nat /\ line_at (idx cl) lines = line_of x /\ snd (fst cl) = key_ext x /\ snd cl = val_ext x.
Definition hide (x : parts) : text := if memZ 35 (pre x) then line_of x else [35] ++ line_of x.
Lemma read_hide x : shape U x -> read_line U (hide x) = None.
Proof.
  intros S. unfold hide. destruct (memZ 35 (pre x)) eqn:M; [|now apply read_comment].
  unfold read_line. rewrite parse_shape by auto. unfold comment_in. now rewrite cut_pre, M.
Qed.
Definition uncommented (x : parts) (v : text) : parts :=
  {| pre := if memZ 35 (pre x) then [] else pre x; key := key x; ws := ws x; ws2 := ws2 x; val := quoted v; post := post_value U (post x) |}.

Lemma lstrip_forall p l : Forall (fun c => p c = true) (firstn (length l - length (lstrip_by p l)) l).
Proof.
  induction l as [|c l IH]; cbn [lstrip_by]; [constructor|]. destruct (p c) eqn:E.
  - assert (K : (length (lstrip_by p l) <= length l)%nat).
    { clear. induction l as [|c l IH]; cbn [lstrip_by length]; [lia|]. destruct (p c); cbn [length]; lia. }
    replace (length (c :: l) - length (lstrip_by p l))%nat with (S (length l - length (lstrip_by p l))) by (cbn [length]; lia).
    cbn [firstn]. constructor; auto.
  - replace (length (c :: l) - length (c :: l))%nat with O by lia. constructor.
Qed.
Lemma stop_post_value p : stop U p -> stop U (post_value U p).
Proof.
  intros H. unfold post_value. match goal with |- context [if ?b then _ else _] => destruct b eqn:E0 end; [|exact H].
  match goal with |- context [if ?b then _ else _] => destruct b eqn:E1 end; [|exact H].
  pose proof (lstrip_forall sp p) as F. destruct (firstn _ p) as [|c r]; cbn.
  - unfold sp35. apply orb_true_r.
  - inversion F; subst. unfold sp35. now rewrite H2.
Qed.
Lemma shape_uncommented x v : shape U x -> shape U (uncommented x v).
Proof.
  intros S. destruct S. constructor; cbn; auto.
  - destruct (memZ 35 (pre x)); [constructor|auto].
  - unfold sp2. rewrite (sp_ascii U UO) by lia. reflexivity.
  - now apply stop_post_value.
Qed.
Lemma read_uncommented x v : shape U x -> read_line U (line_of (uncommented x v)) = Some (key x, v).
Proof.
  intros S. pose proof (shape_uncommented x v S) as S'. rewrite (read_shape U UO).
  - cbn [uncommented pre key val]. rewrite unquote_quoted by exact UO. destruct (memZ 35 (pre x)) eqn:M; [reflexivity|now rewrite M].
  - exact S'.
  - cbn [uncommented val post]. apply scan_quoted; [exact UO|]. apply stop_post_value. apply S.
Qed.

(** ** one group of candidates: to None *)
Lemma comment_all_spec cls lines0 (xs : nat -> parts) : NoDup (map idx cls) ->
  (forall cl, In cl cls -> good lines0 cl (xs (idx cl))) ->
  let lines' := comment_all cls lines0 in
  length lines' = length lines0 /\ (forall i, ~ In i (map idx cls) -> line_at i lines' = line_at i lines0) /\
  (forall cl, In cl cls -> line_at (idx cl) lines' = hide (xs (idx cl))).
Proof.
  revert lines0. induction cls as [|[[n sk] sv] cls IH]; intros lines ND G lines'.
  - unfold lines'. cbn. tauto.
  - cbn [map] in ND. inversion_clear ND as [|? ? NI ND']. change (idx (n, sk, sv)) with n in *.
    destruct (G (n, sk, sv) (or_introl eq_refl)) as (S & L & E & EK & EV). change (idx (n, sk, sv)) with n in *. cbn [fst snd] in EK, EV.
    unfold lines', comment_all. cbn [fold_left].
    set (l1 := if comment_in (line_at n lines) sk then lines else set_nth n ([35] ++ line_at n lines) lines).
    assert (L1 : length l1 = length lines) by (unfold l1; destruct (comment_in _ _); [reflexivity|apply set_nth_length]).
    assert (A1 : line_at n l1 = hide (xs n)).
    { unfold l1. rewrite E, EK. unfold comment_in, hide. rewrite cut_pre. destruct (memZ 35 (pre (xs n))); [exact E|].
      rewrite line_at_set by exact L. now rewrite Nat.eqb_refl. }
    assert (A2 : forall j, j <> n -> line_at j l1 = line_at j lines).
    { intros j Hj. unfold l1. destruct (comment_in _ _); [reflexivity|]. rewrite line_at_set by exact L. destruct (Nat.eqb_spec n j); [congruence|reflexivity]. }
    destruct (IH l1 ND') as (B1 & B2 & B3).
    { intros cl I. destruct (G cl (or_intror I)) as (S' & L' & E' & EK' & EV'). split; [exact S'|]. split; [now rewrite L1|]. split; [|split; auto].
      rewrite A2; [exact E'|]. intros C. apply NI. rewrite <- C. now apply in_map. }
    fold (comment_all cls l1). split; [congruence|]. split.
    + intros i Hi. cbn [map] in Hi. change (idx (n, sk, sv)) with n in Hi. rewrite B2, A2; auto; intros H; apply Hi; [left; auto|right; auto].
    + intros cl [<-|I]; [change (idx (n, sk, sv)) with n; rewrite B2 by exact NI; exact A1|apply B3, I].
Qed.

(** ** to a value: the election *)
Definition elected (lines0 : list text) (xs : nat -> parts) (cls : list cand) (st : list text * option (Z * bool * cand)) : Prop :=
  let lines := fst st in
  length lines = length lines0 /\ (forall i, ~ In i (map idx cls) -> line_at i lines = line_at i lines0) /\
  match snd st with
  | None => cls = []
  | Some (_, com, w) => In w cls /\ com = memZ 35 (pre (xs (idx w))) /\ line_at (idx w) lines = line_of (xs (idx w)) /\
      forall cl, In cl cls -> idx cl <> idx w -> line_at (idx cl) lines = hide (xs (idx cl))
  end.
Lemma elect_spec v lines0 xs cls : forall don st, NoDup (map idx (don ++ cls)) ->
  (forall cl, In cl (don ++ cls) -> good lines0 cl (xs (idx cl))) ->
  elected lines0 xs don st -> elected lines0 xs (don ++ cls) (fold_left (elect_step U v) cls st).
Proof.
  induction cls as [|[[n sk] sv] cls IH]; intros don st ND G E.
  - rewrite app_nil_r. exact E.
  - cbn [fold_left]. replace (don ++ (n, sk, sv) :: cls) with ((don ++ [(n, sk, sv)]) ++ cls) in * by (rewrite <- app_assoc; reflexivity).
    apply IH; auto. clear IH.
    assert (NI : ~ In n (map idx don)).
    { rewrite !map_app in ND. apply nodup_app_l in ND. cbn [map] in ND. change (idx (n, sk, sv)) with n in ND. apply NoDup_remove_2 in ND. now rewrite app_nil_r in ND. }
    destruct (G (n, sk, sv)) as (S & L & EL & EK & EV); [rewrite !in_app_iff; cbn; auto|]. change (idx (n, sk, sv)) with n in *. cbn [fst snd] in EK, EV.
    destruct st as [lines w]. destruct E as (E1 & E2 & E3). cbn [fst snd] in E1, E2, E3.
    assert (CUR : line_at n lines = line_of (xs n)) by (rewrite E2 by exact NI; exact EL).
    assert (Cm : comment_in (line_at n lines) sk = memZ 35 (pre (xs n))) by (unfold comment_in; rewrite CUR, EK, cut_pre; reflexivity).
    assert (LW : forall cl, In cl don -> (idx cl < length lines)%nat).
    { intros cl I. rewrite E1. apply (G cl). rewrite !in_app_iff. auto. }
    assert (ND' : forall a b, In a (don ++ [(n, sk, sv)]) -> In b don -> idx a <> idx b -> a <> b) by congruence.
    assert (MI : forall i, ~ In i (map idx (don ++ [(n, sk, sv)])) -> ~ In i (map idx don) /\ i <> n).
    { intros i H. rewrite map_app, in_app_iff in H. cbn in H. split; intros C; apply H; auto. }
    assert (WN : forall cl, In cl don -> idx cl <> n) by (intros cl I C; apply NI; apply in_map_iff; eauto).
    unfold elect_step. rewrite Cm. set (score := _ + _).
    assert (CASE : forall s com wc, w = Some (s, com, wc) -> wc = (idx wc, snd (fst wc), snd wc)) by (intros s com [[a b] c] _; reflexivity).
    destruct w as [[[ws0 wcom] [[wn wsk] wsv]]|].
    + destruct E3 as (I & CW & LWn & HO). change (idx (wn, wsk, wsv)) with wn in *.
      assert (WNn : wn <> n) by (apply (WN _ I)). pose proof (LW _ I) as LWn'. change (idx (wn, wsk, wsv)) with wn in LWn'.
      destruct (ws0 <? score).
      * unfold elected. cbn [fst snd]. destruct wcom.
        -- split; [exact E1|]. split; [intros i Hi; apply E2, MI, Hi|]. split; [apply in_app_iff; cbn; auto|]. split; [reflexivity|]. split; [exact CUR|].
           intros cl Hi Hn. apply in_app_iff in Hi as [Hi|[<-|[]]]; [|change (idx (n, sk, sv)) with n in Hn; congruence].
           destruct (Nat.eq_dec (idx cl) wn) as [->|Hw]; [|apply HO; auto]. rewrite LWn. unfold hide. now rewrite <- CW.
        -- split; [now rewrite set_nth_length|]. split.
           { intros i Hi. apply MI in Hi as [Hi1 Hi2]. rewrite line_at_set by exact LWn'. destruct (Nat.eqb_spec wn i) as [<-|]; [|now apply E2].
             exfalso. apply Hi1. apply in_map_iff. exists (wn, wsk, wsv). auto. }
           split; [apply in_app_iff; cbn; auto|]. split; [reflexivity|]. change (idx (n, sk, sv)) with n. split.
           { rewrite line_at_set by exact LWn'. destruct (Nat.eqb_spec wn n); [contradiction|exact CUR]. }
           intros cl Hi Hn. apply in_app_iff in Hi as [Hi|[<-|[]]]; [|change (idx (n, sk, sv)) with n in Hn; congruence].
           rewrite line_at_set by exact LWn'. destruct (Nat.eqb_spec wn (idx cl)) as [<-|Hw]; [|apply HO; auto]. rewrite LWn. unfold hide. now rewrite <- CW.
      * destruct (memZ 35 (pre (xs n))) eqn:M; unfold elected; cbn [fst snd].
        -- split; [exact E1|]. split; [intros i Hi; apply E2, MI, Hi|]. split; [apply in_app_iff; auto|]. split; [exact CW|]. change (idx (wn, wsk, wsv)) with wn. split; [exact LWn|].
           intros cl Hi Hn. apply in_app_iff in Hi as [Hi|[<-|[]]]; [apply HO; auto|]. change (idx (n, sk, sv)) with n. rewrite CUR. unfold hide. now rewrite M.
        -- assert (Ln : (n < length lines)%nat) by (rewrite E1; exact L).
           split; [now rewrite set_nth_length|]. split.
           { intros i Hi. apply MI in Hi as [Hi1 Hi2]. rewrite line_at_set by exact Ln. destruct (Nat.eqb_spec n i) as [<-|]; [congruence|now apply E2]. }
           split; [apply in_app_iff; auto|]. split; [exact CW|]. change (idx (wn, wsk, wsv)) with wn. split.
           { rewrite line_at_set by exact Ln. destruct (Nat.eqb_spec n wn); [congruence|exact LWn]. }
           intros cl Hi Hn. apply in_app_iff in Hi as [Hi|[<-|[]]].
           ++ rewrite line_at_set by exact Ln. destruct (Nat.eqb_spec n (idx cl)) as [e|]; [|apply HO; auto]. exfalso. apply (WN cl Hi). auto.
           ++ change (idx (n, sk, sv)) with n. rewrite line_at_set by exact Ln. rewrite Nat.eqb_refl, CUR. unfold hide. now rewrite M.
    + subst don. assert (SC : (-1 <? score) = true).
      { apply Z.ltb_lt. unfold score. destruct (memZ _ _); destruct (seqb _ _); lia. }
      rewrite SC. unfold elected. cbn [fst snd app]. split; [exact E1|]. split; [intros i Hi; apply E2; cbn; auto|]. split; [cbn; auto|]. split; [reflexivity|]. split; [exact CUR|].
      intros cl [<-|[]] H. congruence.
Qed.
Lemma set_value_spec v cls lines0 (xs : nat -> parts) : cls <> [] -> NoDup (map idx cls) ->
  (forall cl, In cl cls -> good lines0 cl (xs (idx cl))) ->
  let lines' := set_value U v cls lines0 in
  length lines' = length lines0 /\ (forall i, ~ In i (map idx cls) -> line_at i lines' = line_at i lines0) /\
  exists w, In w cls /\ line_at (idx w) lines' = line_of (uncommented (xs (idx w)) v) /\
    forall cl, In cl cls -> idx cl <> idx w -> line_at (idx cl) lines' = hide (xs (idx cl)).
Proof.
  intros NE ND G lines'. pose proof (elect_spec v lines0 xs cls [] (lines0, None) ND G) as K.
  assert (K0 : elected lines0 xs [] (lines0, None)) by (unfold elected; cbn; auto). specialize (K K0). cbn [app] in K.
  unfold lines', set_value. destruct (fold_left (elect_step U v) cls (lines0, None)) as [lines w]. destruct K as (E1 & E2 & E3). cbn [fst snd] in *.
  destruct w as [[[s com] [[n sk] sv]]|]; [|contradiction]. destruct E3 as (I & CW & LW & HO). change (idx (n, sk, sv)) with n in *.
  destruct (G _ I) as (S & L & EL & EK & EV). change (idx (n, sk, sv)) with n in *. cbn [fst snd] in EK, EV.
  assert (Ln : (n < length lines)%nat) by (rewrite E1; exact L).
  unfold write_winner. split; [now rewrite set_nth_length|]. split.
  - intros i Hi. rewrite line_at_set by exact Ln. destruct (Nat.eqb_spec n i) as [<-|]; [|now apply E2].
    exfalso. apply Hi, in_map_iff. exists (n, sk, sv). auto.
  - exists (n, sk, sv). change (idx (n, sk, sv)) with n. split; [exact I|]. split.
    + rewrite line_at_set by exact Ln. rewrite Nat.eqb_refl, LW, EK, EV, cut_pre, cut_middle, skip_post, CW.
      unfold line_of, uncommented. cbn [pre key ws ws2 val post]. rewrite <- !app_assoc. reflexivity.
    + intros cl Hi Hn. rewrite line_at_set by exact Ln. destruct (Nat.eqb_spec n (idx cl)); [congruence|auto].
Qed.
End conf.
