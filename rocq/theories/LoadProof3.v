(** LoadProof3.v *)
From Verif Require Import Base BaseProof Element3Model IterModel IterProof LoadModel LoadSpec LoadProof LoadProof2.

Lemma firstn_sum {A} (a b : nat) (l : list A) : firstn (a + b) l = firstn a l ++ firstn b (skipn a l).
Proof. revert a. induction l as [|x l IH]; intros [|a]; cbn; try reflexivity; [now rewrite firstn_nil|]. now rewrite IH. Qed.
Lemma Forall2_firstn {A B} (P : A -> B -> Prop) l1 l2 n : Forall2 P l1 l2 -> Forall2 P (firstn n l1) (firstn n l2).
Proof. intros H. revert n. induction H; intros [|n]; cbn; constructor; auto. Qed.
Lemma Forall2_app_l {A B} (P : A -> B -> Prop) a b l : Forall2 P (a ++ b) l -> exists x y, l = x ++ y /\ Forall2 P a x /\ Forall2 P b y.
Proof. intros H. apply Forall2_app_inv_l in H as (x & y & A1 & A2 & A3). eauto. Qed.
Lemma firstn_S_nth {A} (l : list A) n x : nth_error l n = Some x -> firstn (S n) l = firstn n l ++ [x].
Proof. revert n. induction l as [|a l IH]; intros [|n] H; try discriminate; cbn in *; [injection H as ->; reflexivity|]. now rewrite <- (IH _ H). Qed.

Section R.
  Context {D S V : Type}.
  Context (exec : D -> bytes -> list (option bytes) -> Z -> option D).
  Context (serve : S -> list message -> S * answer) (view : S -> server D).
  Context (LAW : lawful exec serve view).
  Context (p : stmt V).
  Notation params := (list (option bytes)).
  Notation row := (list (option V)).
  Notation run := (LoadSpec.executed exec (st_id p)).

  Lemma bindings_err (l : list row) e : bindings p (of_list l) = Err e ->
    exists a r b, l = a ++ r :: b /\ (exists q, Forall2 (packs p) a q) /\ process_tuple (st_io p) r (st_err p) = Err e.
  Proof.
    induction l as [|t l IH]; cbn [of_list bindings]; [discriminate|]. unfold row_messages.
    destruct (process_tuple _ t _) as [ps|e'] eqn:E; cbn [bind].
    - destruct (bindings p (of_list l)) as [r|e'']; cbn [bind]; [discriminate|]. intros H.
      destruct (IH H) as (a & r & b & -> & (q & Q) & Z). exists (t :: a), r, b. split; [reflexivity|]. split; [|exact Z].
      exists (ps :: q). constructor; [apply packs_pt; exact E|exact Q].
    - intros H. injection H as <-. exists [], t, l. split; [reflexivity|]. split; [exists []; constructor|exact E].
  Qed.

  Lemma run_cut d (l : list params) a b d1 : run d (firstn (a + b) l) d1 ->
    exists d2, run d (firstn a l) d2 /\ run d2 (firstn b (skipn a l)) d1.
  Proof. intros H. rewrite firstn_sum in H. apply executed_app in H. exact H. Qed.

  Lemma now_has_after v0 qs v : sv_state v0 = TIdle \/ sv_state v0 = TBlock -> after exec p v0 qs v -> now_has v0 v (sv_now v).
  Proof.
    intros T (A & B & C & E). split; [reflexivity|]. split; [exact B|]. destruct (sv_state v0); auto; apply E; discriminate.
  Qed.

  (** everything about load_rows *)
  Lemma rows_inv c rows n c' r : ready view c -> 0 < n -> load_rows serve p c rows n = (c', r) ->
    let v0 := view (c_srv c) in let v' := view (c_srv c') in
    exists cl k qs, cut (Z.to_nat n) rows cl /\ (k <= length cl)%nat /\ Forall2 (fun l q => Forall2 (packs p) l q) (firstn k cl) qs /\
      Forall2 (packs p) (firstn (k * Z.to_nat n) (items rows)) (concat qs) /\
      final exec p v0 v' qs /\
      (c_xact c' = None \/ c_xact c' = Some ALost /\ sv_state v' = TDead) /\
      match r with
      | LDone => k = length cl /\ ending rows = None /\ c_xact c' = None /\ after exec p v0 qs v'
      | LRaise e =>
          ((k = length cl /\ ending rows = Some e) \/ exists ch, nth_error cl k = Some ch /\ bindings p (of_list ch) = Err e) /\
          (sv_state v' = TDead \/ after exec p v0 qs v' \/ exists q qs1 v1, qs = qs1 ++ [q] /\ after exec p v0 qs1 v1 /\ forall d, ~ run (sv_now v1) q d)
      | LServer a => (a = AError \/ a = ALost) /\
          (sv_state v' = TDead \/ exists q qs1 v1, qs = qs1 ++ [q] /\ after exec p v0 qs1 v1 /\ (forall d, ~ run (sv_now v1) q d) /\
             (sv_state v0 = TIdle -> sv_committed v' = sv_now v1 /\ sv_now v' = sv_now v1 /\ sv_state v' = TIdle) /\ (sv_state v0 = TBlock -> sv_state v' = TFailed))
      | LNever => False
      end.
  Proof.
    intros R N E. cbv zeta. unfold load_rows in E. rewrite (proj2 (Z.ltb_ge n 0)) in E by lia. rewrite (proj2 (Z.eqb_neq n 0)) in E by lia.
    destruct (cut_ex (Z.to_nat n) rows ltac:(lia)) as (cl & CU).
    destruct (chunks_inv exec serve view LAW p c _ c' r R E) as (k & qs & H1 & H2 & H3 & H4 & H5). cbv zeta in *.
    rewrite (cut_items _ _ _ CU), ?(cut_ending _ _ _ CU) in *. rewrite map_length in *. rewrite firstn_map in H2.
    exists cl, k, qs. split; [exact CU|]. split; [exact H1|].
    assert (F : Forall2 (fun l q => Forall2 (packs p) l q) (firstn k cl) qs).
    { clear - H2. remember (firstn k cl) as m. clear Heqm. revert qs H2. induction m as [|l m IH]; intros qs H; inversion H as [|? q ? qs' (A & B) C]; subst; constructor; auto. now rewrite items_of_list in B. }
    split; [exact F|]. split; [rewrite <- (cut_first _ _ _ CU k H1); apply chunk_packs_concat; exact H2|].
    split; [exact H3|]. split; [exact H4|]. destruct r as [|e|a|]; auto.
    destruct H5 as ([H5|(ch & H5 & H6)] & H7); split; auto. right. rewrite nth_error_map in H5. destruct (nth_error cl k) as [l|] eqn:Q; [|discriminate].
    injection H5 as <-. eauto.
  Qed.

  (** the chunks pushed are the packed rows, when these are known *)
  Lemma known_chunks before tail (pss : list params) n rows k (qs : list (list params)) :
    items rows = before ++ tail -> Forall2 (packs p) before pss -> (k * n <= length before)%nat ->
    Forall2 (packs p) (firstn (k * n) (items rows)) (concat qs) -> concat qs = firstn (k * n) pss.
  Proof.
    intros E F L H. rewrite E in H. rewrite firstn_app in H. replace (k * n - length before)%nat with O in H by lia. cbn [firstn] in H. rewrite app_nil_r in H.
    apply (packs_fun_list p (firstn (k * n) before)); [exact H|]. now apply Forall2_firstn.
  Qed.
  (** the last chunk *)
  Lemma last_chunk n rows cl k qs1 q : (0 < n)%nat -> cut n rows cl -> (k <= length cl)%nat ->
    Forall2 (fun l q => Forall2 (packs p) l q) (firstn k cl) (qs1 ++ [q]) -> (k * n <= length (items rows))%nat \/ ending rows = None ->
    exists j, k = Datatypes.S j /\ Forall2 (packs p) (firstn (j * n) (items rows)) (concat qs1) /\
      Forall2 (packs p) (firstn n (skipn (j * n) (items rows))) q.
  Proof.
    intros N CU K F W. assert (L := Forall2_len _ _ _ F). rewrite app_length, firstn_length_le in L by exact K. cbn in L.
    exists (length qs1). split; [lia|]. set (j := length qs1) in *. assert (Kj : k = Datatypes.S j) by lia.
    assert (J : (j <= length cl)%nat) by lia.
    assert (F1 : Forall2 (fun l q => Forall2 (packs p) l q) (firstn j cl) qs1).
    { apply (Forall2_firstn _ _ _ j) in F. rewrite firstn_firstn in F. replace (Nat.min j k) with j in F by lia.
      unfold j in F at 2. rewrite firstn_app, Nat.sub_diag, firstn_all in F. cbn in F. rewrite app_nil_r in F. exact F. }
    assert (CC : forall (m : list (list row)) z, Forall2 (fun l q => Forall2 (packs p) l q) m z -> Forall2 (packs p) (concat m) (concat z)).
    { clear. induction 1; cbn; [constructor|]. now apply Forall2_app. }
    split; [rewrite <- (cut_first _ _ _ CU j J); apply CC; exact F1|].
    pose proof (CC _ _ F) as Z. rewrite (cut_first _ _ _ CU k K) in Z. rewrite Kj in Z.
    replace (Datatypes.S j * n)%nat with (j * n + n)%nat in Z by lia. rewrite firstn_sum, concat_app in Z. cbn [concat] in Z. rewrite app_nil_r in Z.
    apply Forall2_app_inv_l in Z as (x & y & X & Y & E).
    pose proof (CC _ _ F1) as X'. rewrite (cut_first _ _ _ CU j J) in X'.
    pose proof (packs_fun_list p _ _ _ X X') as ->. apply app_inv_head in E. subst. exact Y.
  Qed.

  Lemma run_some d (l : list params) a d1 b : run d (firstn a l) d1 -> (b <= a)%nat -> exists d2, run d (firstn b l) d2.
  Proof. intros H L. replace a with (b + (a - b))%nat in H by lia. apply run_cut in H as (d2 & A & _). eauto. Qed.

  (** a chunk that failed is not among those that can be executed *)
  Lemma failed_chunk v0 v1 rows n cl k qs1 q before tail pss K d : (0 < n)%nat -> cut n rows cl -> (k <= length cl)%nat ->
    Forall2 (fun l q => Forall2 (packs p) l q) (firstn k cl) (qs1 ++ [q]) ->
    items rows = before ++ tail -> Forall2 (packs p) before pss -> after exec p v0 qs1 v1 -> (forall d, ~ run (sv_now v1) q d) ->
    run (sv_now v0) (firstn (K * n) pss) d -> (k <= K)%nat -> (k * n <= length before)%nat -> False.
  Proof.
    intros N CU Kl F E P A NE X KK KB. destruct (last_chunk n rows cl k qs1 q N CU Kl F) as (j & -> & Q1 & Q2).
    { left. rewrite E, app_length. lia. }
    rewrite E in Q1, Q2. rewrite firstn_app in Q1. replace (j * n - length before)%nat with O in Q1 by nia. cbn [firstn] in Q1. rewrite app_nil_r in Q1.
    pose proof (packs_fun_list p _ _ _ Q1 (Forall2_firstn _ _ _ (j * n) P)) as E1.
    assert (P2 : Forall2 (packs p) (firstn n (skipn (j * n) before)) (firstn n (skipn (j * n) pss))).
    { apply Forall2_firstn. clear - P. revert P. generalize (j * n)%nat. intros m P. revert m. induction P; intros [|m]; cbn; auto. }
    rewrite skipn_app in Q2. replace (j * n - length before)%nat with O in Q2 by nia. cbn [skipn] in Q2. rewrite firstn_app in Q2.
    rewrite skipn_length in Q2. replace (n - (length before - j * n))%nat with O in Q2 by nia. cbn [firstn] in Q2. rewrite app_nil_r in Q2.
    pose proof (packs_fun_list p _ _ _ Q2 P2) as E2.
    destruct (run_some _ _ _ _ (Datatypes.S j * n) X ltac:(nia)) as (d2 & Y). replace (Datatypes.S j * n)%nat with (j * n + n)%nat in Y by lia.
    apply run_cut in Y as (d3 & Y1 & Y2). destruct A as (A & _). rewrite E1 in A. pose proof (executed_det exec p _ _ _ _ A Y1) as E3. rewrite <- E3 in Y2.
    rewrite E2 in NE. exact (NE _ Y2).
  Qed.

  Lemma packs_not_err (r : row) e : process_tuple (st_io p) r (st_err p) = Err e -> forall ps, ~ packs p r ps.
  Proof. intros E ps H. apply packs_pt in H. congruence. Qed.
  Lemma first_bad (a : list row) r b a' r' b' e e' : a ++ r :: b = a' ++ r' :: b' ->
    (exists q, Forall2 (packs p) a q) -> (exists q, Forall2 (packs p) a' q) ->
    process_tuple (st_io p) r (st_err p) = Err e -> process_tuple (st_io p) r' (st_err p) = Err e' ->
    a = a' /\ r = r' /\ b = b'.
  Proof.
    intros E (q & F) (q' & F') B B'. revert a' q' F' E q F. induction a as [|x a IH]; intros a' q' F' E q F; (destruct a' as [|x' a']; cbn in E).
    - injection E as -> ->. auto.
    - injection E as Ex _. inversion F' as [|? y ? ? PY]; subst. exfalso. exact (packs_not_err _ _ B _ PY).
    - injection E as Ex _. inversion F as [|? y ? ? PY]; subst. exfalso. exact (packs_not_err _ _ B' _ PY).
    - injection E as -> E. inversion F as [|? ? ? q2 ? F2]; inversion F' as [|? ? ? q2' ? F2']; subst. destruct (IH _ _ F2' E _ F2) as (-> & -> & ->). auto.
  Qed.
End R.
