(** IterModel.v: /repo/postgresql/python/itertools.py and the tuple processors of
    /repo/postgresql/python/functools.py (pure Python definitions).
    An iterator is the list of the items it has left. *)
From Verif Require Import Base.

(** itertools.py:10-21 interlace: map(next, cycle([iter(x) for x in iters])).  The
    cycle is the queue of the iterators, the one to be advanced next first; the
    StopIteration of an exhausted one ends the map.  The fuel is the number of
    items asked for. *)
Fixpoint interlace_q {A} (fuel : nat) (q : list (list A)) : list A :=
  match fuel, q with
  | S fuel, (x :: l) :: rest => x :: interlace_q fuel (rest ++ [l])
  | _, _ => []
  end.
(** the whole output: at most as many items as there are in all the inputs *)
Definition interlace {A} (iters : list (list A)) : list A :=
  interlace_q (length (concat iters)) iters.

(** itertools.py:23-39 chunk, at most [fuel] rounds of `while lastsize == chunksize`
    (None: the loop is still running); islice refuses a negative size *)
Fixpoint chunk_loop {A} (fuel : nat) (n : nat) (l : list A) : option (list (list A)) :=
  match fuel with
  | O => None
  | S fuel =>
      let last := firstn n l in
      if (length last =? n)%nat
      then match chunk_loop fuel n (skipn n l) with Some r => Some (last :: r) | None => None end
      else Some [last]
  end.
Definition chunk {A} (fuel : nat) (l : list A) (chunksize : Z) : res (list (list A)) :=
  if chunksize <? 0 then Err ValueError
  else match chunk_loop fuel (Z.to_nat chunksize) l with
       | Some r => Ok r | None => Err OutOfFuel end.

(** itertools.py:41-48 find *)
Fixpoint find_first {A} (sel : A -> bool) (l : list A) : option A :=
  match l with [] => None | x :: l => if sel x then Some x else find_first sel l end.

(** ** functools.py:37-66 process_tuple.
    A processor is a function that returns or raises; None is the absent value.
    The exception handler gets the exception and the index and normally raises. *)
Section Process.
  Context {A B : Type}.
  (** functools.py:52-58: the loop; on an exception, the index reached and the exception *)
  Fixpoint process_loop (i : Z) (procs : list (A -> res B)) (tup : list (option A))
    : (list (option B)) + (Z * exn) :=
    match procs, tup with
    | p :: procs, ob :: tup =>
        match ob with
        | None => match process_loop (i + 1) procs tup with inl r => inl (None :: r) | inr e => inr e end
        | Some x =>
            match p x with
            | Err e => inr (i, e)
            | Ok y => match process_loop (i + 1) procs tup with inl r => inl (Some y :: r) | inr e => inr e end
            end
        end
    | _, _ => inl []
    end.
  (** what handler(cause, procs, tup, i) raises; None when it returns *)
  Definition handler := exn -> Z -> option exn.
  Definition process_tuple (procs : list (A -> res B)) (tup : list (option A)) (h : handler)
    : res (list (option B)) :=
    if negb (len tup =? len procs) then Err TypeError
    else match process_loop 0 procs tup with
         | inl r => Ok r
         | inr (i, e) => match h e i with Some e' => Err e' | None => Err RuntimeError end
         end.
  (** functools.py:68-69 process_chunk *)
  Definition process_chunk (procs : list (A -> res B)) (tupc : list (list (option A))) (h : handler)
    : res (list (list (option B))) := mapM (fun x => process_tuple procs x h) tupc.
End Process.
(** functools.py:22-26 Composition.__call__ *)
Fixpoint compose {A} (fs : list (A -> res A)) (r : A) : res A :=
  match fs with [] => Ok r | f :: fs => do r <- f r; compose fs r end.
