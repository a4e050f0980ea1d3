(** ExcModel.v: /repo/postgresql/exceptions.py, the lookup of an exception class by code *)
From Verif Require Import PyStr PyDict.

(** a class statement: its line (the identity of the class), name, bases, and the code and pg_code of its body *)
Record class := mk { c_id : Z; c_name : text; c_bases : list Z; c_code : option text; c_pg : option text }.

Section lookup.
(** all class objects *)
Context (tbl : list class).
Definition class_of (i : Z) : option class := find (fun c => c_id c =? i) tbl.
(** getattr(obj, 'code', None): the class's own, else the first base's that has one.  Python follows the method
    resolution order; they agree here because every class with several bases has its own code. *)
Fixpoint code_in (fuel : nat) (get : class -> option text) (i : Z) : option text :=
  match fuel with
  | O => None
  | S fuel =>
      match class_of i with
      | None => None
      | Some c =>
          match get c with
          | Some x => Some x
          | None => fold_right (fun b r => match code_in fuel get b with Some x => Some x | None => r end) None (c_bases c)
          end
      end
  end.
Definition attr (get : class -> option text) (c : class) : option text := code_in (length tbl) get (c_id c).
(** issubclass *)
Fixpoint sub_in (fuel : nat) (i j : Z) : bool :=
  (i =? j) ||
  match fuel with
  | O => false
  | S fuel => match class_of i with None => false | Some c => existsb (fun b => sub_in fuel b j) (c_bases c) end
  end.
Definition issubclass (c d : class) : bool := sub_in (length tbl) (c_id c) (c_id d).

(** exceptions.py:683-724 map_errors_and_warnings, for objects that are classes; [err] and [warn] are Error and Warning *)

Definition put (obj : class) (code : text) (d : list (text * class)) : list (text * class) :=
  if match dget code d with None => true | Some cur => issubclass cur obj end then
    let d := dset code obj d in
    match attr c_pg obj with Some p => dset p obj d | None => d end
  else d.
Definition map_one (err warn : class) (s : list (text * class) * list (text * class)) (obj : class) : list (text * class) * list (text * class) :=
  let '(errors, warnings) := s in
  match attr c_code obj with
  | None => s
  | Some code =>
      if issubclass obj err then (put obj code errors, warnings)
      else if issubclass obj warn then (errors, put obj code warnings)
      else s
  end.
Definition map_errors_and_warnings (err warn : class) (objs : list class) : list (text * class) * list (text * class) :=
  fold_left (map_one err warn) objs ([], []).
End lookup.
(** exceptions.py:726-734 code_lookup *)
Definition code_lookup (default : class) (container : list (text * class)) (code : text) : class :=
  match dget code container with
  | Some obj => obj
  | None => match dget (pyslice code 0 2 ++ str "000") container with Some obj => obj | None => default end
  end.
(** sys.modules[__name__].__dict__: a second statement with the same name replaces the class in its place *)
Definition module_dict (stmts : list class) : list (text * class) := fold_left (fun d c => dset (c_name c) c d) stmts [].
