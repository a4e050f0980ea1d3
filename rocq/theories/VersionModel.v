(** VersionModel.v: /repo/postgresql/versionstring.py *)
From Verif Require Import PyStr PyInt.

(** the items of a version tuple: an int, None or a str *)
Inductive vitem := VI (n : Z) | VN | VS (s : text).

Section int.
Variable U : unicode.
Variable dv : decimals.
(** [int(x or '0')] *)
Definition int_or0 (x : text) : res vitem :=
  match x with [] => Ok (VI 0) | _ => do n <- py_int U dv 10 x; Ok (VI n) end.
(** versionstring.py:11-37 split *)
Definition version_split (vstr : text) : res (list vitem) :=
  let v := py_split [46] (py_strip U vstr) in
  let lastv := last v [] in
  let state_class := strip_by ascii_digit lastv in                    (* 19 *)
  match state_class with
  | [] =>                                                             (* 31-36 *)
      do vlist <- mapM int_or0 v;
      Ok (vlist ++ repeat VN (Z.to_nat (5 - len vlist)))
  | _ =>
      match py_split state_class lastv with                           (* 21 *)
      | [last_version; state_level] =>
          do level <- match state_level with [] => Ok VN | _ => do n <- py_int U dv 10 state_level; Ok (VI n) end;
          do vlist <- mapM int_or0 (removelast v);
          do vlist <- match last_version with
                      | [] => Ok vlist
                      | _ => do n <- py_int U dv 10 last_version; Ok (vlist ++ [VI n])
                      end;
          Ok (vlist ++ repeat VN (Z.to_nat (3 - len vlist)) ++ [VS state_class; level])
      | _ => Err ValueError
      end
  end.
End int.

(** str(x) *)
Definition vstr_of (x : vitem) : text :=
  match x with VI n => str_int n | VN => str "None" | VS s => s end.
Definition not_none (x : vitem) : bool := match x with VN => false | _ => true end.
(** versionstring.py:39-45 unsplit; int + str raises TypeError *)
Definition version_unsplit (vtup : list vitem) : res text :=
  let svtup := map vstr_of (filter not_none (pyslice vtup 0 (-2))) in
  match pyslice vtup (-2) (len vtup) with
  | [state_class; state_level] =>
      match state_class with
      | VN => Ok (py_join [46] svtup ++ [])
      | VS s => Ok (py_join [46] svtup ++ s ++ vstr_of state_level)
      | VI _ => Err TypeError
      end
  | _ => Err ValueError
  end.
(** versionstring.py:47-54 normalize; [x or y] keeps x when it is true *)
Definition truthy (x : vitem) : bool :=
  match x with VN => false | VI n => negb (n =? 0) | VS [] => false | VS _ => true end.
Definition v_or (x y : vitem) : vitem := if truthy x then x else y.
Definition none_to_0 (x : vitem) : vitem := match x with VN => VI 0 | _ => x end.
Definition version_normalize (v : list vitem) : res (list vitem) :=
  match rev v with
  | state_level :: state_class :: rhead =>
      Ok (map none_to_0 (rev rhead) ++ [v_or state_class (VS (str "final")); v_or state_level (VI 0)])
  | _ => Err ValueError
  end.

(** Python: comparison of two tuples, str by code points; comparing values of
    different types raises TypeError *)
Fixpoint text_cmp (a b : text) : comparison :=
  match a, b with
  | [], [] => Eq | [], _ => Lt | _, [] => Gt
  | x :: a, y :: b => match x ?= y with Eq => text_cmp a b | c => c end
  end.
Definition item_cmp (a b : vitem) : res comparison :=
  match a, b with
  | VI x, VI y => Ok (x ?= y)
  | VS x, VS y => Ok (text_cmp x y)
  | VN, VN => Ok Eq
  | _, _ => Err TypeError
  end.
Fixpoint tuple_cmp (a b : list vitem) : res comparison :=
  match a, b with
  | [], [] => Ok Eq | [], _ => Ok Lt | _, [] => Ok Gt
  | x :: a, y :: b => do c <- item_cmp x y; match c with Eq => tuple_cmp a b | c => Ok c end
  end.
