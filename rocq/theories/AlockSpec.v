(** AlockSpec.v: statement-level definitions for C39 *)
From Verif Require Import Base AlockModel.
(** how often k is among the identifiers *)
Definition occ (k : lockid) (ids : list lockid) : Z := Z.of_nat (count_occ lockid_dec ids k).
(** how often the lock objects that are locked name k *)
Fixpoint owned (k : lockid) (locks : list alock) : Z :=
  match locks with [] => 0 | a :: r => (if 0 <? al_count a then occ k (al_ids a) else 0) + owned k r end.
(** no blocking acquire of the history is interrupted *)
Definition uninterrupted (ops : list aop) : Prop := forall i b f n, In (Acquire i b f (Some n)) ops -> False.
(** no release while the object is acquired more than once *)
Fixpoint flat (w : world) (ops : list aop) : Prop :=
  match ops with
  | [] => True
  | o :: r =>
      (match o with Release i => forall a, nth_error (w_locks w) i = Some a -> al_count a <= 1 | _ => True end) /\
      flat (fst (astep w o)) r
  end.
(** successful acquisitions minus releases of object i in a history with its results *)
Definition net (i : nat) (q : aop * aret) : Z :=
  match q with
  | (Acquire j _ _ _, RBool true) => if (i =? j)%nat then 1 else 0
  | (Release j, RNone) => if (i =? j)%nat then -1 else 0
  | _ => 0
  end.
Definition balance (i : nat) (hist : list (aop * aret)) : Z := fold_right (fun q s => net i q + s) 0 hist.
