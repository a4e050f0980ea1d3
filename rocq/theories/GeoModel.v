(** GeoModel.v: geometric types.  /repo/postgresql/types/geometry.py:7-192, types/io/pg_geometry.py:13-44, types/io/lib.py:28-31.
    Coordinates are floats; float(x) of other numbers is not modelled. *)
From Verif Require Import Base FltModel.

(** x > y and x < y of Python floats *)
Definition fgt (x y : spec_float) : bool := SFltb y x.
Definition flt (x y : spec_float) : bool := SFltb x y.
Definition point := (spec_float * spec_float)%type.
(** geometry.py:124-139 Box.__new__ of a pair of points: the high point and the low point *)
Definition box_new (one two : point) : point * point :=
  let '(hx, lx) := if fgt (fst one) (fst two) then (fst one, fst two) else (fst two, fst one) in
  let '(hy, ly) := if fgt (snd one) (snd two) then (snd one, snd two) else (snd two, snd one) in
  ((hx, hy), (lx, ly)).
(** geometry.py:169-173 Circle.__new__ *)
Definition circle_new (center : point) (radius : spec_float) : res (point * spec_float) :=
  if flt radius (S754_zero false) then Err ValueError else Ok (center, radius).
(** pg_geometry.py:18-33 *)
Definition point_pack (p : point) : list Z := doubles_pack [fst p; snd p].
Definition box_pack (b : point * point) : list Z := doubles_pack [fst (fst b); snd (fst b); fst (snd b); snd (snd b)].
Definition lseg_pack (l : point * point) : list Z := doubles_pack [fst (fst l); snd (fst l); fst (snd l); snd (snd l)].
Definition circle_pack (c : point * spec_float) : list Z := doubles_pack [fst (fst c); snd (fst c); snd c].
Definition point_unpack (b : list Z) : res point :=
  do l <- doubles_unpack 2 b; match l with [x; y] => Ok (x, y) | _ => Err IndexError end.
Definition two_pair (l : list spec_float) : res (point * point) :=
  match l with a :: b :: c :: d :: _ => Ok ((a, b), (c, d)) | _ => Err IndexError end.
Definition box_unpack (b : list Z) : res (point * point) :=
  do l <- doubles_unpack 4 b; do p <- two_pair l; Ok (box_new (fst p) (snd p)).
Definition lseg_unpack (b : list Z) : res (point * point) := do l <- doubles_unpack 4 b; two_pair l.
Definition circle_unpack (b : list Z) : res (point * spec_float) :=
  do l <- doubles_unpack 3 b; match l with [x; y; r] => circle_new (x, y) r | _ => Err IndexError end.
(** geometry.py:27-41 Point: + - and * *)
Definition fadd := SFadd 53 1024.
Definition fsub := SFsub 53 1024.
Definition fmul := SFmul 53 1024.
Definition point_add (p q : point) : point := (fadd (fst p) (fst q), fadd (snd p) (snd q)).
Definition point_sub (p q : point) : point := (fsub (fst p) (fst q), fsub (snd p) (snd q)).
Definition point_mul (p q : point) : point :=
  (fsub (fmul (fst p) (fst q)) (fmul (snd p) (snd q)), fadd (fmul (fst p) (snd q)) (fmul (snd p) (fst q))).
