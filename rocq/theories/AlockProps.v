(** AlockProps.v: C39, advisory locks *)
From Verif Require Import Base BaseProof AlockModel AlockSpec AlockProof.

(** After every history of acquire/release on the lock objects of a connection, in which no release is made while the
    object is acquired more than once (see C39_reentrant_refuted) and no blocking acquire is interrupted (see
    C39_interrupted_refuted), the session holds each lock as many times as locked objects name it. *)
Theorem C39_held_partial locks ops : uninterrupted ops -> flat (world_init locks) ops ->
  let w := fst (arun (world_init locks) ops) in
  forall k, w_held w k = if w_closed w then 0 else owned k (w_locks w).
Proof. intros U F. exact (proj2 (run_inv ops _ (inv_init locks) U F)). Qed.
Print Assumptions C39_held_partial.

(** ... so that a lock is held exactly if an object with that identifier is locked() *)
Theorem C39_locked_partial locks ops : uninterrupted ops -> flat (world_init locks) ops ->
  let w := fst (arun (world_init locks) ops) in
  forall k, 0 < w_held w k <-> exists a, In a (w_locks w) /\ In k (al_ids a) /\ locked (w_closed w) a = true.
Proof.
  intros U F w k. pose proof (C39_held_partial locks ops U F k) as H. cbv zeta in H. fold w in H. rewrite H. unfold locked. clear. destruct (w_closed w).
  - split; [lia|]. intros (a & _ & _ & L). rewrite andb_false_r in L. discriminate.
  - induction (w_locks w) as [|a l IH]; cbn [owned]; [split; [lia|intros (a & [] & _)]|].
    assert (O : 0 < occ k (al_ids a) <-> In k (al_ids a)) by (unfold occ; rewrite (count_occ_In lockid_dec); lia).
    pose proof (occ_nonneg k (al_ids a)). pose proof (owned_nonneg k l). destruct (0 <? al_count a) eqn:C.
    + split.
      * intros P. destruct (in_dec lockid_dec k (al_ids a)) as [I|I]; [exists a; split; [now left|split; [exact I|now rewrite C]]|].
        assert (Z0 : occ k (al_ids a) = 0) by (destruct (Z_lt_ge_dec 0 (occ k (al_ids a))); [exfalso; tauto|lia]).
        destruct (proj1 IH ltac:(lia)) as (b & B1 & B2). exists b. split; [now right|exact B2].
      * intros (b & [<-|B1] & B2 & B3); [apply O in B2; lia|]. assert (0 < owned k l) by (apply IH; eauto). lia.
    + split.
      * intros P. destruct (proj1 IH ltac:(lia)) as (b & B1 & B2). exists b. split; [now right|exact B2].
      * intros (b & [<-|B1] & B2 & B3); [rewrite C in B3; discriminate|]. assert (0 < owned k l) by (apply IH; eauto). lia.
Qed.
Print Assumptions C39_locked_partial.

(** acquire(blocking = False) of an unlocked object: it succeeds exactly if every identifier can be had; then all of them are
    held once more (once per occurrence); otherwise neither the server's locks nor the object have changed.
    For every state of the server. *)
Theorem C39_try ids h free int : (forall k, 0 <= h k) ->
  let all := forallb free ids in
  exists h' a', acquire false free int false h (alock_init ids) = (h', a', Ok all) /\
    locked false a' = all /\ (all = false -> a' = alock_init ids) /\
    forall k, h' k = h k + if all then occ k ids else 0.
Proof.
  intros N all. destruct (acquire_try (alock_init ids) h free int (wf_init ids) eq_refl N) as (h' & E & H). cbn [alock_init split_lock_identifiers al_ids] in *.
  fold all in E, H. clearbody all. exists h'. eexists. split; [exact E|]. split; [destruct all; reflexivity|]. split; [|exact H]. intros ->. reflexivity.
Qed.
Print Assumptions C39_try.
(** a blocking acquire that comes back has all of them *)
Theorem C39_blocking ids h free : exists h' a', acquire false free None true h (alock_init ids) = (h', a', Ok true) /\
    locked false a' = true /\ forall k, h' k = h k + occ k ids.
Proof.
  destruct (acquire_block (alock_init ids) h (wf_init ids) eq_refl free) as [E H]. eexists. eexists. split; [exact E|]. split; [reflexivity|exact H].
Qed.
Print Assumptions C39_blocking.

(** for every history whatsoever an object's count is that of its successful acquisitions less its releases; so locked() tells
    whether it was acquired more often than released *)
Lemma upd_nth {A} (l : list A) j i x a : nth_error l j = Some a -> nth_error (upd j x l) i = if (i =? j)%nat then Some x else nth_error l i.
Proof.
  revert l i. induction j as [|j IH]; intros [|y l] i H; try discriminate; destruct i as [|i]; try reflexivity.
  cbn in H. change (upd (S j) x (y :: l)) with (y :: upd j x l). cbn [nth_error]. now apply IH.
Qed.
Lemma step_count w o i a : nth_error (w_locks w) i = Some a -> exists a', nth_error (w_locks (fst (astep w o))) i = Some a' /\ al_count a' = al_count a + net i (o, snd (astep w o)) /\ al_ids a' = al_ids a.
Proof.
  intros N. destruct o as [j b free int|j|]; cbn [astep].
  - destruct (nth_error (w_locks w) j) as [c|] eqn:M; [|exists a; cbn; split; [exact N|split; [lia|reflexivity]]].
    assert (X : exists h r n, acquire (w_closed w) free int b (w_held w) c = (h, set_count c n, r) /\ n = al_count c + (match r with Ok true => 1 | _ => 0 end)).
    { unfold acquire. assert (SC : c = set_count c (al_count c)) by (destruct c; reflexivity).
      destruct (al_count c =? 0); [|eexists; eexists; eexists; split; reflexivity].
      destruct (w_closed w); [eexists; eexists; exists (al_count c); rewrite <- SC; split; [reflexivity|cbn; lia]|].
      destruct b; [destruct int; [eexists; eexists; exists (al_count c); rewrite <- SC; split; [reflexivity|cbn; lia]|eexists; eexists; eexists; split; reflexivity]|].
      destruct (sql_try _ _ _ _) as [h1 r1]. cbv zeta. destruct (negb _).
      - destruct (split_lock_identifiers _) as [p q]. exists (sql_release h1 p q), (Ok false), (al_count c). split; [rewrite <- SC; reflexivity|lia].
      - eexists; eexists; eexists; split; reflexivity. }
    destruct X as (h & r & n & X & ->). rewrite X. cbn [fst snd w_locks]. rewrite (upd_nth _ _ _ _ _ M). cbn [net]. destruct (Nat.eqb_spec i j) as [->|NE].
    + rewrite N in M. injection M as <-. eexists. split; [reflexivity|]. cbn. split; [destruct r as [[]|]; reflexivity|reflexivity].
    + exists a. split; [exact N|]. split; [destruct r as [[]|]; lia|reflexivity].
  - destruct (nth_error (w_locks w) j) as [c|] eqn:M.
    + unfold release. destruct (al_count c <? 1); cbn [fst snd w_locks]; rewrite (upd_nth _ _ _ _ _ M); cbn [net]; (destruct (Nat.eqb_spec i j) as [->|NE]; [rewrite N in M; injection M as <-|]).
      * exists a. split; [reflexivity|split; [lia|reflexivity]].
      * exists a. split; [exact N|split; [lia|reflexivity]].
      * eexists. split; [reflexivity|]. cbn. split; [lia|reflexivity].
      * exists a. split; [exact N|split; [lia|reflexivity]].
    + exists a. cbn [fst snd net]. split; [exact N|]. split; [|reflexivity]. destruct (Nat.eqb_spec i j) as [->|]; [rewrite N in M; discriminate|lia].
  - exists a. cbn. split; [exact N|split; [lia|reflexivity]].
Qed.
Theorem C39_count locks ops i ids : nth_error locks i = Some ids ->
  let (w, rets) := arun (world_init locks) ops in
  exists a, nth_error (w_locks w) i = Some a /\ al_ids a = ids /\ al_count a = balance i (combine ops rets) /\
    (locked (w_closed w) a = true <-> 0 < balance i (combine ops rets) /\ w_closed w = false).
Proof.
  intros N. assert (G : forall ops w a, nth_error (w_locks w) i = Some a -> let (w', rets) := arun w ops in
    exists a', nth_error (w_locks w') i = Some a' /\ al_ids a' = al_ids a /\ al_count a' = al_count a + balance i (combine ops rets)).
  { clear. induction ops as [|o ops IH]; intros w a N; cbn [arun]; [exists a; cbn; split; [exact N|split; [reflexivity|lia]]|].
    destruct (step_count w o i a N) as (a1 & N1 & C1 & I1). destruct (astep w o) as [w1 x]. cbn [fst snd] in *. specialize (IH w1 a1 N1). destruct (arun w1 ops) as [w2 xs].
    destruct IH as (a2 & N2 & I2 & C2). exists a2. split; [exact N2|]. split; [congruence|]. unfold balance. cbn [combine fold_right]. fold (balance i (combine ops xs)). lia. }
  specialize (G ops (world_init locks) (alock_init ids)). cbn [world_init w_locks] in G. specialize (G (map_nth_error alock_init i locks N)).
  destruct (arun (world_init locks) ops) as [w rets]. destruct G as (a & G1 & G2 & G3). exists a. split; [exact G1|]. split; [exact G2|]. cbn [alock_init split_lock_identifiers al_count] in G3.
  split; [lia|]. unfold locked. rewrite andb_true_iff, negb_true_iff, Z.ltb_lt. replace (al_count a) with (balance i (combine ops rets)) by lia. reflexivity.
Qed.
Print Assumptions C39_count.
(** releasing what is not acquired raises RuntimeError and changes nothing *)
Theorem C39_release_unacquired closed h a : al_count a <= 0 -> release closed h a = (h, a, Err RuntimeError).
Proof. intros H. unfold release. destruct (al_count a <? 1) eqn:E; [reflexivity|lia]. Qed.
Print Assumptions C39_release_unacquired.
(** on a closed connection nothing is locked *)
Theorem C39_closed ops : forall w, In CloseConn ops -> let w' := fst (arun w ops) in w_closed w' = true /\ forall a, locked (w_closed w') a = false.
Proof.
  assert (S : forall o w, w_closed w = true -> w_closed (fst (astep w o)) = true).
  { intros [j b f n|j|] w C; cbn [astep]; [| |reflexivity]; (destruct (nth_error (w_locks w) j); [|exact C]).
    - destruct (acquire _ _ _ _ _ _) as [[h c] r]. exact C.
    - destruct (release _ _ _) as [[h c] r]. exact C. }
  assert (R : forall ops w, w_closed w = true -> w_closed (fst (arun w ops)) = true).
  { clear ops. induction ops as [|o ops IH]; intros w C; [exact C|]. cbn [arun]. specialize (S o w C). destruct (astep w o) as [w1 x]. specialize (IH w1 S). destruct (arun w1 ops). exact IH. }
  intros w I w'. assert (C : w_closed w' = true).
  { unfold w'. clear w'. revert w. induction ops as [|o ops IH]; intros w; [destruct I|]. cbn [arun]. destruct I as [->|I].
    - cbn [astep]. specialize (R ops {| w_held := fun _ => 0; w_closed := true; w_locks := w_locks w |} eq_refl). destruct (arun _ ops). exact R.
    - destruct (astep w o) as [w1 x]. specialize (IH I w1). destruct (arun w1 ops). exact IH. }
  split; [exact C|]. intros a. rewrite C. unfold locked. apply andb_false_r.
Qed.
Print Assumptions C39_closed.

(** Refuted: "they must be released the same number of times for the lock to actually be released".  After two
    acquisitions and one release locked() is true and the server's lock is gone. *)
Theorem C39_reentrant_refuted : exists ops, uninterrupted ops /\ let (w, rets) := arun (world_init [[Int8 7]]) ops in
  (forall e, ~ In (RExn e) rets) /\ w_held w (Int8 7) = 0 /\ w_closed w = false /\ map (locked (w_closed w)) (w_locks w) = [true].
Proof.
  exists [Acquire 0 true (fun _ => true) None; Acquire 0 true (fun _ => true) None; Release 0]. split; [intros i b f n H; cbn in H; repeat destruct H as [H|H]; try discriminate; destruct H|].
  cbn. split; [intros e H; repeat destruct H as [H|H]; try discriminate; destruct H|]. repeat split.
Qed.
Print Assumptions C39_reentrant_refuted.
(** ... and the second release takes away the lock of another object for the same identifier. *)
Theorem C39_reentrant_other_refuted : exists ops, uninterrupted ops /\ let (w, rets) := arun (world_init [[Int8 7]; [Int8 7]]) ops in
  w_held w (Int8 7) = 0 /\ map (locked (w_closed w)) (w_locks w) = [false; true] /\ (forall o, In o ops -> match o with Release i => i = O | _ => True end).
Proof.
  exists [Acquire 0 true (fun _ => true) None; Acquire 0 true (fun _ => true) None; Acquire 1 true (fun _ => true) None; Release 0; Release 0].
  split; [intros i b f n H; cbn in H; repeat destruct H as [H|H]; try discriminate; destruct H|]. cbn. split; [reflexivity|]. split; [reflexivity|]. intros o H. repeat destruct H as [<-|H]; auto; destruct H.
Qed.
Print Assumptions C39_reentrant_other_refuted.
(** Refuted: a blocking acquire of several identifiers that is interrupted (a deadlock, a cancelled query) keeps those taken. *)
Theorem C39_interrupted_refuted : exists ops, flat (world_init [[Int8 1; Int4s 2 3]]) ops /\ let w := fst (arun (world_init [[Int8 1; Int4s 2 3]]) ops) in
  w_held w (Int8 1) = 1 /\ map (locked (w_closed w)) (w_locks w) = [false].
Proof. exists [Acquire 0 true (fun _ => true) (Some 1%nat)]. cbn. repeat split. Qed.
Print Assumptions C39_interrupted_refuted.

(** a history meeting the hypotheses: two objects sharing an identifier, a failed and a successful non-blocking acquire *)
Definition ex_free (k : lockid) : bool := match k with Int8 5 => false | _ => true end.
Definition ex_ops : list aop := [Acquire 0 true (fun _ => true) None; Acquire 1 false ex_free None; Acquire 1 false (fun _ => true) None; Acquire 1 true (fun _ => true) None; Release 0; Release 0].
Example C39_example : uninterrupted ex_ops /\ flat (world_init [[Int8 1; Int4s 2 3]; [Int8 1; Int8 5]]) ex_ops /\
  snd (arun (world_init [[Int8 1; Int4s 2 3]; [Int8 1; Int8 5]]) ex_ops) = [RBool true; RBool false; RBool true; RBool true; RNone; RExn RuntimeError] /\
  w_held (fst (arun (world_init [[Int8 1; Int4s 2 3]; [Int8 1; Int8 5]]) ex_ops)) (Int8 1) = 1.
Proof.
  split; [intros i b f n H; cbn in H; repeat destruct H as [H|H]; try discriminate; destruct H|]. split; [|split; reflexivity].
  cbn -[al_count]. repeat split; intros a H; injection H as <-; cbn; lia.
Qed.
