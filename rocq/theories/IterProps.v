(** IterProps.v: C44 (row transformation) and C46 (chunking iterators). *)
From Verif Require Import Base BaseProof IterModel IterSpec IterProof.

(** C46: chunk cuts any finite iterable into pieces of the given size, ending with
    a short one; there is exactly one such cut. *)
Theorem C46_chunk : forall A (l : list A) (n : Z) (fuel : nat),
  0 < n -> (length l < fuel)%nat ->
  exists cs last, chunk fuel l n = Ok (cs ++ [last]) /\
    chunks_of (Z.to_nat n) l cs last /\
    forall cs' last', chunks_of (Z.to_nat n) l cs' last' -> cs' = cs /\ last' = last.
Proof.
  intros A l n fuel Hn Hf. destruct (chunk_ok l n fuel Hn Hf) as (cs & last & H1 & H2).
  exists cs, last. split; [exact H1|]. split; [exact H2|].
  intros cs' last' H. exact (chunks_of_unique _ _ _ _ _ _ H H2).
Qed.
Print Assumptions C46_chunk.
Example C46_chunk_ex : chunk 10 [1;2;3;4;5] 2 = Ok [[1;2];[3;4];[5]] /\ chunk 10 [1;2;3;4] 2 = Ok [[1;2];[3;4];[]].
Proof. split; vm_compute; reflexivity. Qed.

(** C46, the size 0 is a size for which the documentation promises nothing; the
    iterator then never ends, whatever the input *)
Theorem C46_chunk_zero_never_ends : forall A (l : list A) fuel, chunk fuel l 0 = Err OutOfFuel.
Proof. exact @chunk_zero. Qed.
Print Assumptions C46_chunk_zero_never_ends.

(** C46: interlace gives the sources' items in round-robin order and stops at the
    first missing one. *)
Theorem C46_interlace : forall A (sources : list (list A)) (p : nat), sources <> [] ->
  (forall x, nth_error (interlace sources) p = Some x -> round_robin sources p = Some x) /\
  (nth_error (interlace sources) p = None -> exists p', (p' <= p)%nat /\ round_robin sources p' = None).
Proof. exact @interlace_spec. Qed.
Print Assumptions C46_interlace.
Example C46_interlace_ex : interlace [[1;2;3];[4;5];[6;7]] = [1;4;6;2;5;7;3].
Proof. reflexivity. Qed.

Theorem C46_find : forall A (sel : A -> bool) l,
  match find_first sel l with
  | Some x => exists a b, l = a ++ x :: b /\ sel x = true /\ Forall (fun y => sel y = false) a
  | None => Forall (fun y => sel y = false) l
  end.
Proof. exact @find_first_spec. Qed.
Print Assumptions C46_find.

(** C44: success means: same number of columns, NULL for NULL and only for it, the
    i-th routine applied to the i-th item; and that is sufficient. *)
Theorem C44_process_tuple_ok : forall A B (procs : list (A -> res B)) row h r,
  process_tuple procs row h = Ok r <->
  length procs = length row /\ length r = length row /\
  forall i p x y, nth_error procs i = Some p -> nth_error row i = Some x -> nth_error r i = Some y -> column_ok p x y.
Proof. exact @process_tuple_ok. Qed.
Print Assumptions C44_process_tuple_ok.

Theorem C44_process_tuple_mismatch : forall A B (procs : list (A -> res B)) row h,
  length procs <> length row -> process_tuple procs row h = Err TypeError.
Proof. exact @process_tuple_mismatch. Qed.
Print Assumptions C44_process_tuple_mismatch.

(** the handler is given the index and the exception of the first failing column,
    and what it raises is raised *)
Theorem C44_process_tuple_fail : forall A B (procs : list (A -> res B)) row h i e,
  length procs = length row -> fails_at procs row i e ->
  process_tuple procs row h = Err (match h e (Z.of_nat i) with Some e' => e' | None => RuntimeError end).
Proof. exact @process_tuple_fail. Qed.
Print Assumptions C44_process_tuple_fail.

(** no other outcome: when no row is returned some column failed *)
Theorem C44_process_tuple_total : forall A B (procs : list (A -> res B)) row h,
  length procs = length row -> (forall r, process_tuple procs row h <> Ok r) ->
  exists i e, fails_at procs row i e.
Proof. exact @process_tuple_total. Qed.
Print Assumptions C44_process_tuple_total.

Theorem C44_process_chunk_ok : forall A B (procs : list (A -> res B)) rows h rs,
  process_chunk procs rows h = Ok rs <-> Forall2 (fun row r => process_tuple procs row h = Ok r) rows rs.
Proof. exact @process_chunk_ok. Qed.
Print Assumptions C44_process_chunk_ok.
Theorem C44_process_chunk_fail : forall A B (procs : list (A -> res B)) rows1 row rows2 h rs e,
  Forall2 (fun row r => process_tuple procs row h = Ok r) rows1 rs -> process_tuple procs row h = Err e ->
  process_chunk procs (rows1 ++ row :: rows2) h = Err e.
Proof. exact @process_chunk_fail. Qed.
Print Assumptions C44_process_chunk_fail.

(** a composition gives what its functions give one after the other; the first error
    is the outcome *)
Theorem C44_composition : forall A (fs : list (A -> res A)) x y, compose fs x = Ok y <-> passes fs x y.
Proof.
  intros A fs. induction fs as [|f fs IH]; intros x y; cbn [compose].
  - split; [intros H; injection H as ->; constructor|intros H; inversion H; reflexivity].
  - split.
    + intros H. apply bind_Ok in H as (b & E & H). apply IH in H. econstructor; eauto.
    + intros H. inversion H as [|? ? ? b ? E P]; subst. rewrite E. cbn [bind]. now apply IH.
Qed.
Print Assumptions C44_composition.
Theorem C44_composition_fail : forall A (fs1 : list (A -> res A)) f fs2 x y e, passes fs1 x y -> f y = Err e ->
  compose (fs1 ++ f :: fs2) x = Err e.
Proof. intros A fs1 f fs2 x y e H E. induction H; cbn [app compose]; [now rewrite E|]. rewrite H. cbn [bind]. auto. Qed.
Print Assumptions C44_composition_fail.
Example C44_ex_compose : compose [fun x => Ok (x + 1); fun x => Ok (x * 2)] 3 = Ok 8. Proof. reflexivity. Qed.

Definition ex_procs : list (Z -> res Z) := [fun x => Ok (x + 1); fun x => if x <? 0 then Err ValueError else Ok x].
Example C44_ex_ok : process_tuple ex_procs [Some 1; None] (fun e _ => Some e) = Ok [Some 2; None].
Proof. reflexivity. Qed.
Example C44_ex_fail : process_tuple ex_procs [None; Some (-3)] (fun e i => Some (OtherError i)) = Err (OtherError 1)
  /\ fails_at ex_procs [None; Some (-3)] 1 ValueError.
Proof.
  split; [reflexivity|]. split.
  - eexists _, _. repeat split; reflexivity.
  - intros [|j] p a H; [|lia]. intros _ E. discriminate.
Qed.
