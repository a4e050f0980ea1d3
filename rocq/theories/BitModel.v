(** BitModel.v: /repo/postgresql/types/bitwise.py: the constructors from any text, comparison, slices, truth and iteration.
    An object is the pair (bits, data) as in TypeIOModel.v (139-202); it is one of the two Bit objects exactly if bits is 1
    (from_bits, 4-12). *)
From Verif Require Import Base PyStr PyInt ArrayModel ArraySpec TypeIOModel.
Local Notation bytes := (list Z).
Section bits.
Context (U : unicode) (dv : decimals).
(** bytes((int(s, 2),)) *)
Definition byte_of (s : text) : res Z := do n <- py_int U dv 2 s; if (0 <=? n) && (n <? 256) then Ok n else Err ValueError.
(** 20-24 *)
Fixpoint pack_text (fuel : nat) (s : text) : res bytes :=
  match s with
  | [] => Ok []
  | _ =>
    match fuel with
    | O => Err OutOfFuel
    | S fuel =>
        if (length s <? 8)%nat then do b <- byte_of (ljust8 s); Ok [b]
        else do b <- byte_of (firstn 8 s); do r <- pack_text fuel (skipn 8 s); Ok (b :: r)
    end
  end.
(** 14-25 __new__ for a str *)
Definition varbit_new (s : text) : res varbit := do d <- pack_text (length s) s; from_bits (len s) d.

(** what a bit string is compared with *)
Inductive other := OVar (v : varbit) | OStr (t : text) | OBytes (d : bytes) | OBool (b : bool) | OAny.
Definition is_bit (v : varbit) : bool := fst v =? 1.
(** 14-25 Varbit(ob); len() of what has no length is a TypeError *)
Definition to_varbit (o : other) : res varbit :=
  match o with OVar v => Ok v | OStr t => varbit_new t | OBytes d => varbit_of_bytes d | OBool _ => Err TypeError | OAny => Err TypeError end.
(** 84-90 Bit(ob) *)
Definition to_bit (o : other) : res varbit :=
  match o with
  | OVar v => if is_bit v then (if Z.testbit (nth 0 (snd v) 0) 7 then Ok OneBit else Ok ZeroBit) else Err ValueError
  | OStr t => if seqb t (str "0") then Ok ZeroBit else if seqb t (str "1") then Ok OneBit else Err ValueError
  | OBool b => Ok (if b then OneBit else ZeroBit)
  | _ => Err ValueError
  end.
Definition same (a b : varbit) : bool := (fst b =? fst a) && seqb (snd b) (snd a).
(** 43-46 __eq__ *)
Definition eq_method (v : varbit) (o : other) : res bool :=
  match o with
  | OVar w => if negb (is_bit v) || is_bit w then Ok (same v w) else do w <- to_bit o; Ok (same v w)
  | _ => do w <- (if is_bit v then to_bit o else to_varbit o); Ok (same v w)
  end.
(** v == o: the method of the right operand comes first if its class is a subclass of the left one's *)
Definition py_eq (v : varbit) (o : other) : res bool :=
  match o with
  | OVar w => if negb (is_bit v) && is_bit w then eq_method w (OVar v) else eq_method v o
  | _ => eq_method v o
  end.
(** 71-75 __getitem__ with a slice *)
Definition getslice (v : varbit) (start stop step : option Z) : res varbit :=
  do t <- varbit_str v;
  do t <- list_slice t start stop step;
  if is_bit v then to_bit (OStr t) else varbit_new t.
(** bool(v): __nonzero__ (77-81) means nothing to Python 3, so it is len(v) != 0 *)
Definition py_bool (v : varbit) : bool := negb (fst v =? 0).
(** list(v): __getitem__ with 0, 1, ... up to its IndexError *)
Fixpoint iterate (fuel : nat) (i : Z) (v : varbit) : res (list varbit) :=
  match fuel with
  | O => Err OutOfFuel
  | S fuel =>
      match getbit v i with
      | Err IndexError => Ok []
      | Err e => Err e
      | Ok b => do r <- iterate fuel (i + 1) v; Ok (b :: r)
      end
  end.
(** 51-52 v + text *)
Definition add_text (v : varbit) (t : text) : res varbit := do s <- varbit_str v; varbit_new (s ++ t).
End bits.
