(** ProcSpec.v: statement-level definitions for C78 *)
From Verif Require Import Base PyStr PyInt StrSpec LoadModel ProcModel.
From Coq Require Import String.
Local Notation str s := (PyStr.str s%string).

(** a type as the server reads its name: words of the SQL standard, or a name in a schema *)
Inductive tname := Sql (words : text) | Qualified (schema name : text).
(** what may come after a type in a list of arguments *)
Definition ends_type (rest : text) : Prop := exists r, rest = 44 :: r \/ rest = 41 :: r.
Inductive reads_type : text -> tname -> text -> Prop :=
| rt_sql s rest : s <> [] -> Forall (fun c => 65 <= c <= 90 \/ c = 32) s -> ends_type rest -> reads_type (s ++ rest) (Sql s) rest
| rt_plain a b rest : plain_ident a = true -> plain_ident b = true -> map ascii_lower a = a -> map ascii_lower b = b -> ends_type rest ->
    reads_type (a ++ [46] ++ b ++ rest) (Qualified a b) rest
| rt_quoted t t' a b rest : quoted 34 t a (46 :: t') -> quoted 34 t' b rest -> ends_type rest -> reads_type t (Qualified a b) rest.
(** a list of parameters with casts, up to the parenthesis that ends it: "$n::type, ..." *)
Inductive reads_args : text -> list (Z * tname) -> text -> Prop :=
| ra_none rest : reads_args (41 :: rest) [] rest
| ra_last n t ty rest : all_digits n -> reads_type t ty (41 :: rest) -> reads_args (36 :: n ++ 58 :: 58 :: t) [(digits_value n, ty)] rest
| ra_more n t ty t' l rest : all_digits n -> reads_type t ty (44 :: 32 :: t') -> l <> [] -> reads_args t' l rest ->
    reads_args (36 :: n ++ 58 :: 58 :: t) ((digits_value n, ty) :: l) rest.
(** a query of the rows of one function call *)
Definition reads_call (t f : text) (args : list (Z * tname)) (description : text) : Prop :=
  exists r, t = str "SELECT * FROM " ++ f ++ [40] ++ r /\ reads_args r args (str " AS func" ++ description).
(** the type with an oid: the word the SQL standard has for it, else the name found in the catalog, else the one known beforehand *)
Inductive type_named (typinfo : Z -> option (text * text)) : Z -> tname -> Prop :=
| tn_sql oid s : In (oid, s) oid_to_sql_name -> type_named typinfo oid (Sql s)
| tn_found oid a b : (forall s, ~ In (oid, s) oid_to_sql_name) -> typinfo oid = Some (a, b) -> type_named typinfo oid (Qualified a b)
| tn_known oid s : (forall s, ~ In (oid, s) oid_to_sql_name) -> typinfo oid = None -> In (oid, s) oid_to_name -> type_named typinfo oid (Qualified (str "pg_catalog") s).
(** the numbers 1, 2, 3, ... *)
Fixpoint numbered {B} (n : Z) (l : list B) : list (Z * B) := match l with [] => [] | x :: r => (n, x) :: numbered (n + 1) r end.
(** the length a value is cut to when it is cast to the type: for CHARACTER without a length it is 1 (SQL:2011 6.1, and PostgreSQL 8.3) *)
Definition cut_to (ty : tname) : option Z := match ty with Sql w => if list_eq_dec Z.eq_dec w (str "CHARACTER") then Some 1 else None | _ => None end.

(** the first value of each row, as far as the rows come *)
Fixpoint firsts {V} (s : src (list V)) (t : src V) : Prop :=
  match s, t with
  | SNil, SNil => True
  | SRaise e, SRaise e' => e = e'
  | SCons (v :: _) s, SCons w t => v = w /\ firsts s t
  | SCons [] _, SRaise e => e = IndexError
  | _, _ => False
  end.
