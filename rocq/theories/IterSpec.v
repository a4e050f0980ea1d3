(** IterSpec.v: what chunking, interlacing and tuple processing should do. *)
From Verif Require Import Base.

(** [cs] followed by [last] is a cut of [l] in pieces of n items, the last one
    short (this is how a consumer knows that it is the last). *)
Definition chunks_of {A} (n : nat) (l : list A) (cs : list (list A)) (last : list A) : Prop :=
  l = concat cs ++ last /\ Forall (fun c => length c = n) cs /\ (length last < n)%nat.

(** the item the round-robin order puts at position p: item p/m of source p mod m *)
Definition round_robin {A} (sources : list (list A)) (p : nat) : option A :=
  nth_error (nth (p mod length sources) sources []) (p / length sources).

(** item by item meaning of a row transformation: column [i] *)
Definition column_ok {A B} (p : A -> res B) (x : option A) (y : option B) : Prop :=
  match x, y with
  | None, None => True
  | Some a, Some b => p a = Ok b
  | _, _ => False
  end.
(** every column before [i] is processed without error, column i fails with e *)
Definition fails_at {A B} (procs : list (A -> res B)) (row : list (option A)) (i : nat) (e : exn) : Prop :=
  (exists p a, nth_error procs i = Some p /\ nth_error row i = Some (Some a) /\ p a = Err e) /\
  (forall j p a, (j < i)%nat -> nth_error procs j = Some p -> nth_error row j = Some (Some a) -> exists b, p a = Ok b).

(** [x] goes through the functions one after the other, first to last, giving [y] *)
Inductive passes {A} : list (A -> res A) -> A -> A -> Prop :=
| passes_end x : passes [] x x
| passes_step f fs x y z : f x = Ok y -> passes fs y z -> passes (f :: fs) x z.
