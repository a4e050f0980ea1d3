(** PyDict.v: Python dictionaries with str keys, as association lists in insertion
    order.  [d[k]], [d[k] = v], [k in d], [del d[k]], [d.update(e)]. *)
From Verif Require Import PyStr.

Section dict.
Context {V : Type}.
Fixpoint dget (k : text) (d : list (text * V)) : option V :=
  match d with [] => None | (j, v) :: r => if seqb k j then Some v else dget k r end.
Definition dmem (k : text) (d : list (text * V)) : bool := match dget k d with Some _ => true | None => false end.
Fixpoint dset (k : text) (v : V) (d : list (text * V)) : list (text * V) :=
  match d with
  | [] => [(k, v)]
  | (j, w) :: r => if seqb k j then (j, v) :: r else (j, w) :: dset k v r
  end.
Definition ddel (k : text) (d : list (text * V)) : list (text * V) := filter (fun p => negb (seqb k (fst p))) d.
Definition dupdate (d e : list (text * V)) : list (text * V) := fold_left (fun d p => dset (fst p) (snd p) d) e d.
Definition dkeys (d : list (text * V)) : list text := map fst d.
End dict.
