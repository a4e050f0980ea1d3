(** FetchProof.v: removing the first of the completed batches does not change what follows *)
From Verif Require Import Base BaseProof PBufferModel Element3Model NegModel NegSpec InstModel InstSpec InstProof InstProof2 InstProof3.
From Verif Require Import InstProps FetchModel FetchSpec.

Definition withc (s : inst) (c : list (Z * list message)) : inst :=
  {| i_cmds := i_cmds s; i_completed := c; i_last := i_last s; i_prev := i_prev s; i_cur := i_cur s;
     i_state := i_state s; i_messages := i_messages s; i_tail := i_tail s; i_fatal := i_fatal s; i_error := i_error s;
     i_asyncs := i_asyncs s; i_delivered := i_delivered s; i_ready := i_ready s |}.
Definition cut (k : nat) (s : inst) : inst := withc s (skipn k (i_completed s)).

Lemma put_loop_withc d l : forall s o st p c,
  put_loop (withc s d) o st p c l = (let '(s', r) := put_loop s o st p c l in (withc s' d, r)) /\
  i_completed (fst (put_loop s o st p c l)) = i_completed s /\ i_last (fst (put_loop s o st p c l)) = i_last s.
Proof.
  induction l as [|x l IH]; intros s o st p c; cbn [put_loop]; [auto|].
  change (i_cmds (withc s d)) with (i_cmds s). change (i_asyncs (withc s d)) with (i_asyncs s).
  change (i_delivered (withc s d)) with (i_delivered s).
  destruct (nth_error _ _) as [cmd|]; [|auto]. destruct (cmd_paths cmd) as [[ps|]|]; try (auto; fail).
  destruct (nth_error ps st) as [tb|]; [|auto]. destruct (lookup _ _) as [[k [n|]]|].
  - destruct (parse _ _); [|auto]. apply IH.
  - destruct (parse _ _) as [m|]; [|auto].
    assert (E : (match m with MReady st0 => set_ready (withc s d) st0 | _ => withc s d end) =
                withc (match m with MReady st0 => set_ready s st0 | _ => s end) d) by (destruct m; reflexivity).
    rewrite E. clear E. set (s1 := match m with MReady st0 => set_ready s st0 | _ => s end).
    assert (E : i_completed s1 = i_completed s /\ i_last s1 = i_last s) by (subst s1; destruct m; auto). destruct E as (E1 & E2).
    clearbody s1. change (i_cmds (withc s1 d)) with (i_cmds s1).
    destruct (_ =? _)%nat; [auto|]. destruct (IH s1 (S o + skip_flush (skipn (S o) (i_cmds s1)))%nat 0%nat (p ++ [m]) (c + 1)) as (A & B & C).
    rewrite A, B, C. auto.
  - destruct (_ =? _).
    + destruct (parse _ _) as [em|]; [|auto]. destruct (err_fatal em) as [[|]|]; try (auto; fail).
      change (set_error (withc s d) false (IEServer em)) with (withc (set_error s false (IEServer em)) d).
      change (i_cmds (withc (set_error s false (IEServer em)) d)) with (i_cmds (set_error s false (IEServer em))).
      match goal with |- context [if ?b then _ else _] => destruct b end; [exact (IH (set_error s false (IEServer em)) _ _ _ _)|].
      destruct (find_sync _); [exact (IH (set_error s false (IEServer em)) _ _ _ _)|auto].
    + destruct (async_kind _) as [k|]; [|auto]. destruct (mem_async _ _); [apply IH|]. destruct (parse _ _) as [m|]; [|auto].
      change (set_async (withc s d) ?a ?b) with (withc (set_async s a b) d). exact (IH (set_async s (i_asyncs s ++ [x]) (i_delivered s ++ [m])) _ _ _ _).
Qed.

Lemma switch_withc s o p d : switch (withc s d) o p = withc (switch s o p) d /\ i_completed (switch s o p) = i_completed s.
Proof.
  unfold switch. change (i_cmds (withc s d)) with (i_cmds s). destruct (nth_error _ _) as [cmd|]; [|auto].
  destruct (ctype cmd) as [t|]; [|auto]. destruct ((t =? 69) || (t =? 81)); [|auto]. destruct (rev p) as [|m ?]; [auto|].
  destruct m; auto. destruct to; auto.
Qed.

(** what is added to the completed batches *)
Lemma add_last s id ms : lastid s -> id <> i_last s -> add_completed s id ms = i_completed s ++ [(id, ms)].
Proof.
  unfold lastid, add_completed. intros L N. destruct (rev (i_completed s)) as [|[i x] r]; [reflexivity|].
  destruct (Z.eqb_spec i id); [congruence|reflexivity].
Qed.

Lemma lastid_cut k s : lastid s -> lastid (cut k s).
Proof.
  unfold lastid, cut. cbn. intros L. destruct (rev (skipn k (i_completed s))) as [|[i x] r] eqn:E; auto.
  assert (E' : exists r', rev (i_completed s) = (i, x) :: r').
  { rewrite <- (firstn_skipn k (i_completed s)), rev_app_distr, E. cbn. eauto. }
  destruct E' as (r' & E'). rewrite E' in L. auto.
Qed.

Lemma standard_cut k s id l : (k <= length (i_completed s))%nat -> lastid s -> id <> i_last s ->
  standard_put (cut k s) id l = (let '(s', r) := standard_put s id l in (cut k s', r)) /\
  exists new, i_completed (fst (standard_put s id l)) = i_completed s ++ new.
Proof.
  intros K L N. unfold standard_put. change (i_last (cut k s)) with (i_last s).
  apply Z.eqb_neq in N as N'. rewrite N'. change (i_cur (cut k s)) with (i_cur s). destruct (i_cur s) as [o st].
  change (set_async (cut k s) [] (i_delivered (cut k s))) with (withc (set_async s [] (i_delivered s)) (skipn k (i_completed s))).
  set (s0 := set_async s [] (i_delivered s)). assert (C0 : i_completed s0 = i_completed s) by reflexivity.
  assert (L0 : i_last s0 = i_last s) by reflexivity. clearbody s0.
  change (i_cmds (withc s0 (skipn k (i_completed s)))) with (i_cmds s0).
  destruct (nth_error _ _) as [cmd|]; [|split; [unfold cut; now rewrite C0|exists []; cbn; now rewrite C0, app_nil_r]].
  destruct (cmd_paths cmd); [|split; [unfold cut; now rewrite C0|exists []; cbn; now rewrite C0, app_nil_r]].
  destruct (put_loop_withc (skipn k (i_completed s)) l s0 o st [] 0) as (A & B & C). rewrite A.
  destruct (put_loop s0 o st [] 0 l) as [s1 r] eqn:E. cbn [fst] in B, C.
  destruct r as [e|c|o' st' ps c].
  - split; [unfold cut; now rewrite B, C0|exists []; cbn; now rewrite B, C0, app_nil_r].
  - split; [unfold cut; now rewrite B, C0|exists []; cbn; now rewrite B, C0, app_nil_r].
  - assert (L1 : lastid s1) by (unfold lastid in *; now rewrite B, C, C0, L0).
    assert (N1 : id <> i_last s1) by (now rewrite C, L0).
    assert (L2 : lastid (cut k s1)) by (now apply lastid_cut).
    replace (withc s1 (skipn k (i_completed s))) with (cut k s1) by (unfold cut; now rewrite B, C0).
    rewrite (add_last s1), (add_last (cut k s1)) by auto.
    change (i_cur (cut k s1)) with (i_cur s1).
    set (s2 := set_done s1 (i_completed s1 ++ [(id, ps)]) id (i_cur s1) (o', st')).
    replace (set_done (cut k s1) (i_completed (cut k s1) ++ [(id, ps)]) id (i_cur s1) (o', st')) with (cut k s2).
    2:{ unfold cut, s2, set_done, withc. cbn. rewrite skipn_app. replace (k - length (i_completed s1))%nat with 0%nat by (rewrite B, C0; lia). reflexivity. }
    change (i_cmds (cut k s2)) with (i_cmds s2).
    assert (E2 : i_completed s2 = i_completed s ++ [(id, ps)]) by (unfold s2; cbn; now rewrite B, C0). clearbody s2.
    destruct (_ =? _)%nat.
    + split; [reflexivity|]. exists [(id, ps)]. cbn. auto.
    + destruct (switch_withc s2 o' ps (skipn k (i_completed s2))) as (S1 & S2).
      change (withc s2 (skipn k (i_completed s2))) with (cut k s2) in S1. rewrite S1. split.
      * unfold cut at 1. now rewrite S2.
      * exists [(id, ps)]. cbn. now rewrite S2.
Qed.

Lemma put_cut k s id l : (k <= length (i_completed s))%nat -> lastid s -> id <> i_last s ->
  inst_put (cut k s) id l = (let '(s', r) := inst_put s id l in (cut k s', r)) /\
  exists new, i_completed (fst (inst_put s id l)) = i_completed s ++ new.
Proof.
  intros K L N. unfold inst_put. change (i_state (cut k s)) with (i_state s).
  assert (F : forall ms, set_done (cut k s) (add_completed (cut k s) id ms) id (i_cur (cut k s)) (i_cur (cut k s)) =
              cut k (set_done s (add_completed s id ms) id (i_cur s) (i_cur s)) /\
              exists new, i_completed (set_done s (add_completed s id ms) id (i_cur s) (i_cur s)) = i_completed s ++ new).
  { intros ms. rewrite (add_last s), (add_last (cut k s)) by (auto using lastid_cut). split; [|exists [(id, ms)]; reflexivity].
    unfold cut, set_done, withc. cbn. rewrite skipn_app. replace (k - length (i_completed s))%nat with 0%nat by lia. reflexivity. }
  assert (G : standard_put (set_state (cut k s) IPut) id l = (let '(s', r) := standard_put (set_state s IPut) id l in (cut k s', r)) /\
              exists new, i_completed (fst (standard_put (set_state s IPut) id l)) = i_completed s ++ new)
    by (apply (standard_cut k (set_state s IPut) id l); auto).
  destruct (i_state s); try (split; [reflexivity|exists []; cbn; now rewrite app_nil_r]).
  - now apply standard_cut.
  - unfold put_copydata. destruct (rev l) as [|lm rl]; [split; [reflexivity|exists []; cbn; now rewrite app_nil_r]|].
    destruct (negb (fst lm =? 100)); [exact G|]. destruct (negb _); [exact G|].
    destruct (F (map (fun x => MCopyData (snd x)) (filter (fun x => fst x =? 100) l))) as (F1 & F2). rewrite F1. split; [reflexivity|exact F2].
  - unfold put_tupledata. destruct (rev l) as [|lm rl]; [split; [reflexivity|exists []; cbn; now rewrite app_nil_r]|].
    destruct (negb (fst lm =? 68)); [exact G|]. destruct (mapM _ _) as [ts|]; [|split; [reflexivity|exists []; cbn; now rewrite app_nil_r]].
    destruct (negb _); [exact G|]. destruct (F ts) as (F1 & F2). rewrite F1. split; [reflexivity|exact F2].
Qed.

Lemma cut_0 s : cut 0 s = s. Proof. destruct s; reflexivity. Qed.
Lemma del_cut k s : (k < length (i_completed s))%nat -> del_first (cut k s) = cut (S k) s.
Proof.
  intros K. unfold del_first, cut, withc. cbn. f_equal. revert K. generalize (i_completed s). intros l.
  revert k. induction l as [|x l IH]; intros [|k] K; cbn in *; auto; try lia. apply (IH k). lia.
Qed.
