(** ConnProof.v *)
From Verif Require Import Base BaseProof PBufferModel PBufferSpec PBufferProof Element3Model NegModel NegSpec InstModel InstSpec InstProof InstProof3 ConnModel ConnSpec.
Require Import Verif.TypeIOProof2.

Lemma evs_app a b : evs (a ++ b) = evs a ++ evs b.
Proof. unfold evs. apply flat_map_app. Qed.
Lemma recvd_app a b : recvd (a ++ b) = recvd a ++ recvd b.
Proof. induction a as [|[l|x] a IH]; cbn; rewrite ?IH; reflexivity. Qed.
Lemma recvd_in l : recvd (map IIn l) = l.
Proof. induction l; cbn; congruence. Qed.

(** * what a transaction does with messages *)
Lemma put_loop_last l : forall s o st p c, i_last (fst (put_loop s o st p c l)) = i_last s.
Proof.
  induction l as [|x l IH]; intros s o st p c; cbn [put_loop]; [reflexivity|].
  destruct (nth_error _ _) as [cmd|]; [|reflexivity]. destruct (cmd_paths cmd) as [[ps|]|]; [|reflexivity|reflexivity].
  destruct (nth_error ps st) as [tb|]; [|reflexivity]. destruct (lookup _ _) as [[k [n|]]|].
  - destruct (parse _ _); [|reflexivity]. apply IH.
  - destruct (parse _ _) as [m|]; [|reflexivity].
    set (s1 := match m with MReady st0 => set_ready s st0 | _ => s end).
    assert (E : i_last s1 = i_last s) by (subst s1; destruct m; auto). clearbody s1.
    destruct (_ =? _)%nat; [exact E|]. rewrite IH. exact E.
  - destruct (_ =? _).
    + destruct (parse _ _) as [em|]; [|reflexivity]. destruct (err_fatal em) as [[|]|]; [reflexivity| |reflexivity].
      match goal with |- context [if ?b then _ else _] => destruct b end; [rewrite IH; reflexivity|]. destruct (find_sync _); [rewrite IH; reflexivity|reflexivity].
    + destruct (async_kind _); [|reflexivity]. destruct (mem_async _ _); [apply IH|]. destruct (parse _ _); [rewrite IH; reflexivity|reflexivity].
Qed.
Lemma put_loop_count l : forall s o st p c, match snd (put_loop s o st p c l) with
  | LErr _ => True | LRet n | LEnd _ _ _ n => c <= n <= c + len l end.
Proof.
  induction l as [|x l IH]; intros s o st p c; cbn [put_loop]; [cbn; unfold len; cbn; lia|].
  assert (G : forall s o st p, match snd (put_loop s o st p (c + 1) l) with LErr _ => True | LRet n | LEnd _ _ _ n => c <= n <= c + len (x :: l) end).
  { intros s1 o1 st1 p1. specialize (IH s1 o1 st1 p1 (c + 1)). rewrite len_cons. destruct (snd _); auto; lia. }
  assert (L : c <= c + 1 <= c + len (x :: l)) by (rewrite len_cons; pose proof (len_nonneg l); lia).
  destruct (nth_error _ _) as [cmd|]; [|exact I]. destruct (cmd_paths cmd) as [[ps|]|]; [|exact I|exact I].
  destruct (nth_error ps st) as [tb|]; [|exact I]. destruct (lookup _ _) as [[k [n|]]|].
  - destruct (parse _ _); [|exact I]. apply G.
  - destruct (parse _ _) as [m|]; [|exact I]. destruct (_ =? _)%nat; [exact L|]. apply G.
  - destruct (_ =? _).
    + destruct (parse _ _) as [em|]; [|exact I]. destruct (err_fatal em) as [[|]|]; [exact L| |exact I].
      match goal with |- context [if ?b then _ else _] => destruct b end; [apply G|]. destruct (find_sync _); [apply G|exact L].
    + destruct (async_kind _); [|exact L]. destruct (mem_async _ _); [apply G|]. destruct (parse _ _); [apply G|exact I].
Qed.
Lemma switch_more s o p : i_messages (switch s o p) = i_messages s /\ i_last (switch s o p) = i_last s.
Proof.
  unfold switch. destruct (nth_error _ _); [|auto]. destruct (ctype m); [|auto]. destruct (_ || _); [|auto].
  destruct (rev p) as [|x r]; [auto|]. destruct x; auto. destruct to; auto.
Qed.
Definition kept (s : inst) (id : Z) (l : list wmsg) (s' : inst) (r : res Z) : Prop :=
  i_cmds s' = i_cmds s /\ i_messages s' = i_messages s /\ (i_last s' = i_last s \/ i_last s' = id) /\
  forall n, r = Ok n -> 0 <= n <= len l.
Lemma standard_kept s id l s' r : standard_put s id l = (s', r) -> kept s id l s' r.
Proof.
  unfold standard_put, kept. destruct (if id =? i_last s then i_prev s else i_cur s) as [o st].
  set (s1 := if id =? i_last s then s else set_async s [] (i_delivered s)).
  assert (S1 : i_cmds s1 = i_cmds s /\ i_messages s1 = i_messages s /\ i_last s1 = i_last s) by (subst s1; destruct (_ =? _); auto).
  destruct S1 as (S1 & S2 & S3). clearbody s1.
  destruct (nth_error (i_cmds s1) o); [|intros E; injection E as <- <-; repeat split; auto; discriminate].
  destruct (cmd_paths m); [|intros E; injection E as <- <-; repeat split; auto; discriminate].
  pose proof (put_loop_frame l s1 o st [] 0) as F. cbv zeta in F. pose proof (put_loop_last l s1 o st [] 0) as F0. pose proof (put_loop_count l s1 o st [] 0) as C0.
  destruct (put_loop s1 o st [] 0 l) as [s2 [e|k|o' st' p k]]; cbn [fst snd] in *; destruct F as (F1 & F2 & F3 & F4); intros E.
  - injection E as <- <-. repeat split; try congruence. left. congruence.
  - injection E as <- <-. repeat split; try congruence; [left; congruence| |]; injection H as <-; lia.
  - cbn [i_cmds set_done] in E. destruct (_ =? _)%nat in E; injection E as <- <-.
    + cbn [i_cmds set_state set_done i_messages i_last]. repeat split; try congruence; auto; injection H as <-; lia.
    + rewrite (proj1 (switch_frame _ _ _)), (proj1 (switch_more _ _ _)), (proj2 (switch_more _ _ _)). cbn [i_cmds set_done i_messages i_last].
      repeat split; try congruence; auto; injection H as <-; lia.
Qed.
Lemma inst_put_kept s id l s' r : inst_put s id l = (s', r) -> kept s id l s' r.
Proof.
  assert (St : forall s0 s' r, standard_put (set_state s0 IPut) id l = (s', r) -> kept s0 id l s' r) by (intros s0 s1 r1 H; apply standard_kept in H; exact H).
  unfold inst_put. destruct (i_state s); try (intros H; injection H as <- <-; unfold kept; repeat split; auto; discriminate).
  - apply standard_kept.
  - unfold put_copydata. destruct (rev l) as [|lm rl]; [intros H; injection H as <- <-; unfold kept; repeat split; auto; discriminate|].
    destruct (negb _); [apply St|]. destruct (negb _); [apply St|]. intros H. injection H as <- <-. unfold kept. cbn.
    repeat split; auto; injection H as <-; [apply len_nonneg|lia].
  - unfold put_tupledata. destruct (rev l) as [|lm rl]; [intros H; injection H as <- <-; unfold kept; repeat split; auto; discriminate|].
    destruct (negb _); [apply St|]. destruct (mapM _ _); [|intros H; injection H as <- <-; unfold kept; repeat split; auto; discriminate].
    destruct (negb _); [apply St|]. intros H. injection H as <- <-. unfold kept. cbn.
    repeat split; auto; injection H as <-; [apply len_nonneg|lia].
Qed.
