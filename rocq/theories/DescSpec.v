(** DescSpec.v: statement-level definitions for C92. *)
From Verif Require Import Base PyStr DbapiModel DescModel.
(** the PostgreSQL types, by the name the server gives them, and what the DB-API module calls them *)
Inductive code_of : Z -> type_code -> Prop :=
| k_char : code_of 18 TStr            (* "char" *)
| k_name : code_of 19 TStr
| k_text : code_of 25 TStr
| k_varchar : code_of 1043 TStr
| k_cstring : code_of 2275 TStr
| k_bytea : code_of 17 TBytes
| k_int8 : code_of 20 TInt
| k_int2 : code_of 21 TInt
| k_int4 : code_of 23 TInt
| k_oid : code_of 26 TInt
| k_timestamp : code_of 1114 TDatetime
| k_timestamptz : code_of 1184 TDatetime
| k_other n : ~ In n [18; 19; 25; 1043; 2275; 17; 20; 21; 23; 26; 1114; 1184] -> code_of n TNone.
Section rows.
Context {A : Type} (decode : list Z -> res text).
(** the columns of a statement as the description tells them *)
Definition columns (output : list (list Z * Z)) (l : list (text * type_code)) : Prop :=
  Forall2 (fun o c => decode (fst o) = Ok (fst c) /\ code_of (snd o) (snd c)) output l.
(** the operations on a cursor, newest first: what its description and row count are *)
Inductive described : list (dop A) -> descr -> Z -> Prop :=
| d_new : described [] DEmpty (-1)
| d_rows output rows n h l d k : described h d k -> output <> [] -> columns output l -> described (DExec output rows n :: h) (DCols l) (-1)
| d_undecodable output rows n h d k o : described h d k -> In o output -> (forall t, decode (fst o) <> Ok t) -> described (DExec output rows n :: h) d (-1)
| d_count rows n h d k : described h d k -> described (DExec [] rows n :: h) DNone (match n with Some n => n | None => -1 end)
| d_many h d k : described h d k -> described (DMany None :: h) d (-1)
| d_close h d k : described h d k -> described (DOp Close :: h) DNone k
| d_same o h d k : described h d k -> match o with DExec _ _ _ | DMany None | DOp Close => False | _ => True end -> described (o :: h) d k.
(** no close among the operations *)
Definition open_history (l : list (dop A)) : Prop := ~ In (DOp Close) l.
End rows.
