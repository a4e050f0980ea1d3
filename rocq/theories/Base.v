(** Base.v: Python values and exceptions shared by every model.

    - bytes are [list Z] whose items satisfy [is_byte];
    - a Python call that may raise returns [res A];
    - [be]/[unbe] are the big-endian integers of the [struct] module
      ("!" formats, /repo/postgresql/python/structlib.py:11-20). *)
From Coq Require Export List ZArith Lia Bool.
Export ListNotations.
Require Export Coq.micromega.ZifyBool Coq.micromega.ZifyNat.
Open Scope Z_scope.

(** Exceptions as values.  [OutOfFuel] is not a Python exception: it marks a
    loop which did not finish within the fuel given to the model. *)
Inductive exn : Type :=
| ValueError | StructError | TypeError | IndexError | KeyError
| RuntimeError | StopIteration | AttributeError | OverflowErr
| OtherError (n : Z) | OutOfFuel.

Inductive res (A : Type) : Type :=
| Ok (a : A)
| Err (e : exn).
Arguments Ok {A} a.
Arguments Err {A} e.

Definition bind {A B} (m : res A) (f : A -> res B) : res B :=
  match m with Ok a => f a | Err e => Err e end.
Notation "'do' x <- m ; k" := (bind m (fun x => k))
  (at level 200, x pattern, m at level 100, k at level 200, right associativity).

Definition is_ok {A} (r : res A) : bool := match r with Ok _ => true | Err _ => false end.

Definition is_byte (b : Z) : Prop := 0 <= b < 256.
Definition is_bytes (l : list Z) : Prop := Forall is_byte l.
Definition is_byteb (b : Z) : bool := (0 <=? b) && (b <? 256).
Definition is_bytesb (l : list Z) : bool := forallb is_byteb l.

(** len(x) as a Python int *)
Definition len {A} (l : list A) : Z := Z.of_nat (length l).

(** Map a failing function over a list, first failure wins (list
    comprehension / tuple(map(...)) evaluated left to right). *)
Fixpoint mapM {A B} (f : A -> res B) (l : list A) : res (list B) :=
  match l with
  | [] => Ok []
  | x :: xs => do y <- f x; do ys <- mapM f xs; Ok (y :: ys)
  end.

(** big-endian, [n] bytes *)
Fixpoint be (n : nat) (x : Z) : list Z :=
  match n with
  | O => []
  | S m => be m (x / 256) ++ [x mod 256]
  end.
Definition unbe (l : list Z) : Z := fold_left (fun a b => a * 256 + b) l 0.

(** struct.pack("!<unsigned, n bytes>"): out of range raises struct.error *)
Definition pack_u (n : nat) (x : Z) : res (list Z) :=
  if (0 <=? x) && (x <? 256 ^ Z.of_nat n) then Ok (be n x) else Err StructError.
(** struct.pack("!<signed, n bytes>") *)
Definition pack_s (n : nat) (x : Z) : res (list Z) :=
  if (- (256 ^ Z.of_nat n / 2) <=? x) && (x <? 256 ^ Z.of_nat n / 2)
  then Ok (be n (x mod 256 ^ Z.of_nat n)) else Err StructError.
(** struct.unpack_from: reads the first n bytes, raises when there are fewer *)
Definition unpack_u (n : nat) (d : list Z) : res Z :=
  if (length d <? n)%nat then Err StructError else Ok (unbe (firstn n d)).
Definition to_signed (n : nat) (x : Z) : Z :=
  if x <? 256 ^ Z.of_nat n / 2 then x else x - 256 ^ Z.of_nat n.
Definition unpack_s (n : nat) (d : list Z) : res Z :=
  do x <- unpack_u n d; Ok (to_signed n x).

(** byte/character sequence equality *)
Fixpoint seqb (a b : list Z) : bool :=
  match a, b with
  | [], [] => true
  | x :: xs, y :: ys => (x =? y) && seqb xs ys
  | _, _ => false
  end.

(** prefix test: l.startswith(p) *)
Fixpoint prefixb (p l : list Z) : bool :=
  match p, l with
  | [], _ => true
  | x :: xs, y :: ys => (x =? y) && prefixb xs ys
  | _ :: _, [] => false
  end.

Definition memZ (x : Z) (l : list Z) : bool := existsb (Z.eqb x) l.
