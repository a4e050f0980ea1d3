(** PyList.v: Python sequence indexing and slicing with negative indices. *)
From Verif Require Import Base.

(** normalise a slice bound against length n *)
Definition py_bound (n i : Z) : Z := if i <? 0 then Z.max 0 (i + n) else Z.min i n.
(** l[i:j] *)
Definition pyslice {A} (l : list A) (i j : Z) : list A :=
  let a := py_bound (len l) i in
  let b := py_bound (len l) j in
  firstn (Z.to_nat (b - a)) (skipn (Z.to_nat a) l).
(** l[i] *)
Definition pyindex {A} (l : list A) (i : Z) : res A :=
  let k := if i <? 0 then i + len l else i in
  if (0 <=? k) && (k <? len l) then
    match nth_error l (Z.to_nat k) with Some x => Ok x | None => Err IndexError end
  else Err IndexError.
(** range(n) *)
Definition py_range (n : Z) : list Z := map Z.of_nat (seq 0 (Z.to_nat n)).
