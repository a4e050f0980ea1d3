(** ArraySpec.v: rectangular nested lists (statement-level definitions) *)
From Verif Require Import PyStr PyDict ArrayModel.
From Coq Require Export Permutation.

Section spec.
Context {A : Type}.
(** the nested list has the sizes [ds], from the outside to the inside *)
Fixpoint rect (ds : list Z) (l : list (nest A)) : Prop :=
  match ds with
  | [] => l = []
  | d :: ds' => len l = d /\ (ds' = [] \/ Forall (fun x => exists l', x = Node l' /\ rect ds' l') l)
  end.
(** its elements, in order *)
Fixpoint flat (ds : list Z) (l : list (nest A)) : list (nest A) :=
  match ds with
  | _ :: ((_ :: _) as ds') => flat_map (fun x => match x with Node l' => flat ds' l' | Leaf _ => [] end) l
  | _ => l
  end.
Definition product (ds : list Z) : Z := fold_right Z.mul 1 ds.
(** l[a0][a1]...: Python indexing, one level after the other *)
Fixpoint at_address (l : list (nest A)) (addr : list Z) : res (nest A) :=
  match addr with
  | [] => Err TypeError
  | [i] => pyindex l i
  | i :: addr => do x <- pyindex l i; match x with Node l' => at_address l' addr | Leaf _ => Err TypeError end
  end.
Definition is_leaf (n : nest A) : Prop := exists a, n = Leaf a.
(** the arrays a program can have: made from elements and bounds *)
Definition made (a : array A) : Prop := exists es lb ub, from_elements es lb ub = Ok a.
(** the size of an axis, from its bounds *)
Definition sizes (lower upper : list Z) : list Z := map (fun p => snd p - fst p + 1) (combine lower upper).
End spec.
(** l[start:stop:step] of a list: the items at the indices of slice.indices *)
Definition list_slice {B} (l : list B) (start stop step : option Z) : res (list B) :=
  do t <- slice_indices start stop step (len l);
  let '(s, e, st) := t in mapM (pyindex l) (range3 s e st).

(** a row whose keymap names every one of its positions once *)
Definition columns_ok {V} (r : row V) : Prop :=
  NoDup (dkeys (r_keymap r)) /\ Permutation (map snd (r_keymap r)) (py_range (len (r_values r))).
(** the value of a column after transform: the keyword, else the positional function, else unchanged; both are given the old value *)
Definition transformed {V} (args : list (option (V -> V))) (kw : list (text * option (V -> V))) (i : nat) (name : text) (v : V) : V :=
  match dget name kw with
  | Some (Some f) => f v
  | _ => match nth_error args i with Some (Some f) => f v | _ => v end
  end.
(** functions that do not raise *)
Definition pure {V} (f : option (V -> V)) : option (V -> res V) := option_map (fun f x => Ok (f x)) f.
