(** NtModel.v: rows as namedtuples, /repo/postgresql/types/namedtuple.py:1-67, with Python's collections.namedtuple(..., rename=True).
    Values are of an abstract type.  A type made by namedtuple is its number, in the order of creation, and its fields. *)
From Verif Require Import Base PyStr PyInt PyDict ArrayModel.
From Coq Require Import String.
Local Notation str s := (PyStr.str s%string).
Local Notation length := List.length.

(** what Python knows of characters: the start and the continuation of an identifier, and NFKC, by which the parser normalizes names *)
Record pychars := { c_start : Z -> bool; c_cont : Z -> bool; c_nfkc : text -> text }.
Definition ascii_text (t : text) : Prop := Forall (fun c => 0 <= c < 128) t.
Record pychars_ok (P : pychars) : Prop := {
  co_start : forall c, 0 <= c < 128 -> c_start P c = ascii_alpha c;
  co_cont : forall c, 0 <= c < 128 -> c_cont P c = ascii_alpha c || ascii_digit c || (c =? 95);
  co_nfkc : forall t, ascii_text t -> c_nfkc P t = t }.
(** str.isidentifier *)
Definition isidentifier (P : pychars) (t : text) : bool :=
  match t with [] => false | c :: r => (c_start P c || (c =? 95)) && forallb (c_cont P) r end.
(** keyword.iskeyword *)
Definition keywords : list text := map PyStr.str
  ["False"; "None"; "True"; "and"; "as"; "assert"; "async"; "await"; "break"; "class"; "continue"; "def"; "del"; "elif"; "else"; "except";
   "finally"; "for"; "from"; "global"; "if"; "import"; "in"; "is"; "lambda"; "nonlocal"; "not"; "or"; "pass"; "raise"; "return"; "try";
   "while"; "with"; "yield"]%string.
Definition mem_text (t : text) (l : list text) : bool := existsb (seqb t) l.
Definition iskeyword (t : text) : bool := mem_text t keywords.
Definition startswith_underscore (t : text) : bool := match t with c :: _ => c =? 95 | [] => false end.

Record nt := { nt_id : nat; nt_fields : list text }.
(** the loop of namedtuple with rename: the names replaced, [seen] those given *)
Fixpoint rename_go (P : pychars) (i : Z) (seen : list text) (l : list text) : list text :=
  match l with
  | [] => []
  | x :: l =>
      (if negb (isidentifier P x) || iskeyword x || startswith_underscore x || mem_text x seen then 95 :: str_int i else x)
      :: rename_go P (i + 1) (x :: seen) l
  end.
Fixpoint has_repeat (l : list text) : bool := match l with [] => false | x :: l => mem_text x l || has_repeat l end.
(** namedtuple('row', names, rename = True): ValueError by its own checks, SyntaxError (OtherError 1) by the compilation of __new__, whose
    parameters are _cls and the fields *)
Definition py_namedtuple (P : pychars) (id : nat) (names : list text) : res nt :=
  let f := rename_go P 0 [] names in
  if negb (forallb (fun x => isidentifier P x && negb (iskeyword x)) (str "row" :: f)) then Err ValueError
  else if has_repeat f then Err ValueError
  else if has_repeat (map (c_nfkc P) (str "_cls" :: f)) then Err (OtherError 1)
  else Ok {| nt_id := id; nt_fields := f |}.

(** the cache: a dictionary whose keys are tuples of names *)
Fixpoint eq_names (a b : list text) : bool :=
  match a, b with [], [] => true | x :: a, y :: b => seqb x y && eq_names a b | _, _ => false end.
Definition cache := list (list text * nt).
Fixpoint cget (k : list text) (c : cache) : option nt := match c with [] => None | (j, v) :: c => if eq_names k j then Some v else cget k c end.
Fixpoint cset (k : list text) (v : nt) (c : cache) : cache :=
  match c with [] => [(k, v)] | (j, w) :: c => if eq_names k j then (j, v) :: c else (j, w) :: cset k v c end.
(** the state: the cache and how many types namedtuple has made *)
Record world := { w_cache : cache; w_made : nat }.
Definition empty_world : world := {| w_cache := []; w_made := 0 |}.
(** 12-25 _factory *)
Definition factory (P : pychars) (colnames : list text) (w : world) : world * res nt :=
  let k := map (py_replace [32] [95]) colnames in
  match cget k (w_cache w) with
  | Some t => (w, Ok t)
  | None =>
      match py_namedtuple P (w_made w) k with
      | Err e => (w, Err e)
      | Ok t => ({| w_cache := cset k t (w_cache w); w_made := S (w_made w) |}, Ok t)
      end
  end.

Section rows.
Context {V : Type}.
Record ntrow := { nr_type : nt; nr_values : list V }.
(** NT( *y) *)
Definition nt_make (t : nt) (y : list V) : res ntrow := if len y =? len (nt_fields t) then Ok {| nr_type := t; nr_values := y |} else Err TypeError.
(** getattr(row, name) for the fields *)
Fixpoint field_index (name : text) (l : list text) : option nat :=
  match l with [] => None | x :: l => if seqb name x then Some O else option_map S (field_index name l) end.
Definition nt_getattr (r : ntrow) (name : text) : res V :=
  match field_index name (nt_fields (nr_type r)) with
  | Some i => match nth_error (nr_values r) i with Some v => Ok v | None => Err IndexError end
  | None => Err AttributeError
  end.
(** 27-43 NamedTupleFactory(attribute_map), the function it returns, applied to a row *)
Definition factory_row (P : pychars) (attribute_map : list (text * Z)) (y : list V) (w : world) : world * res ntrow :=
  let '(w, r) := factory P (map fst (sort_cols attribute_map)) w in
  match r with Ok t => (w, nt_make t y) | Err e => (w, Err e) end.
(** 47-66 namedtuples(stmt): the type is made at once; None for a statement without columns, which is not iterable *)
Definition namedtuples (P : pychars) (column_names : option (list text)) (w : world) : world * res nt :=
  match column_names with None => (w, Err TypeError) | Some n => factory P n w end.
(** 64-65 of it, iterated to its end: starmap(NT, chain.from_iterable(chunks)), the chunks ending with [e], an exception or not *)
Fixpoint starmap_rows (t : nt) (rows : list (list V)) (e : option exn) : list ntrow * option exn :=
  match rows with
  | [] => ([], e)
  | y :: rows => match nt_make t y with Err x => ([], Some x) | Ok r => let '(l, x) := starmap_rows t rows e in (r :: l, x) end
  end.
Definition rows_as_namedtuples (t : nt) (chunks : list (list (list V))) (e : option exn) : list ntrow * option exn := starmap_rows t (List.concat chunks) e.
End rows.
Arguments ntrow V : clear implicits.
