(** ExcSpec.v: statement-level definitions for C45 *)
From Verif Require Import PyStr PyDict ExcModel ExcTable.

(** c is d or derives from it *)
Inductive subclass (tbl : list class) : class -> class -> Prop :=
| sub_same c : subclass tbl c c
| sub_base c b d : In b tbl -> In (c_id b) (c_bases c) -> subclass tbl b d -> subclass tbl c d.
(** the class has the code: its own, or the first of its bases' *)
Inductive has_code (tbl : list class) : class -> text -> Prop :=
| own_code c k : c_code c = Some k -> has_code tbl c k
| base_code c b bs k : c_code c = None -> In b tbl -> c_bases c = c_id b :: bs -> has_code tbl b k -> has_code tbl c k.

(** the classes a program can import from postgresql.exceptions *)
Definition exported : list class := map snd (module_dict statements).
Definition class_named (n : text) : class :=
  match dget n (module_dict statements) with Some c => c | None => mk 0 [] [] None None end.
Definition Error : class := class_named (str "Error").
Definition Warning : class := class_named (str "Warning").
Definition lookups := map_errors_and_warnings statements Error Warning exported.
Definition ErrorLookup (code : text) : class := code_lookup Error (fst lookups) code.
Definition WarningLookup (code : text) : class := code_lookup Warning (snd lookups) code.
(** the code of the class of codes it belongs to *)
Definition general (code : text) : text := firstn 2 code ++ str "000".
