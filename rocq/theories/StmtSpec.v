(** StmtSpec.v: statement-level definitions for C81 *)
From Verif Require Import Base PyStr PyInt Element3Model StmtModel.
From Coq Require Import String.
Local Notation str s := (PyStr.str s%string).
Local Notation length := List.length.

Section Spec.
Context {V T : Type}.
Notation typio := (@typio V T).
(** a value of a type is sent by the type's function, as text if there is none *)
Definition packs (ti : typio) (oid : Z) (v : V) (r : res (list Z)) : Prop :=
  (exists p, ti_pack ti oid = Some p /\ p v = r) \/ (ti_pack ti oid = None /\ ti_encode_value ti v = r).
Definition unpacks (ti : typio) (oid : Z) (d : option (list Z)) (r : res V) : Prop :=
  (exists p, ti_unpack ti oid = Some p /\ p d = r) \/ (ti_unpack ti oid = None /\ ti_decode_value ti d = r).
(** None is NULL *)
Definition sent (ti : typio) (oid : Z) (v : option V) (r : option (list Z)) : Prop :=
  match v, r with None, None => True | Some v, Some b => packs ti oid v (Ok b) | _, _ => False end.
Definition received (ti : typio) (a : attdesc) (d : option (list Z)) (r : option V) : Prop :=
  match d, r with None, None => True | Some d, Some v => unpacks ti (atyp a) (Some d) (Ok v) | _, _ => False end.
(** three lists, item by item *)
Inductive Forall3 {A B C} (P : A -> B -> C -> Prop) : list A -> list B -> list C -> Prop :=
| F3_nil : Forall3 P [] [] []
| F3_cons a b c la lb lc : P a b c -> Forall3 P la lb lc -> Forall3 P (a :: la) (b :: lb) (c :: lc).
(** the first item that cannot be converted, and why *)
Definition bad_parameter (ti : typio) (types : list Z) (params : list (option V)) (i : nat) (oid : Z) (v : V) (e : exn) : Prop :=
  nth_error types i = Some oid /\ nth_error params i = Some (Some v) /\ packs ti oid v (Err e) /\
  forall j o w, (j < i)%nat -> nth_error types j = Some o -> nth_error params j = Some (Some w) -> exists b, packs ti o w (Ok b).
Definition bad_column (ti : typio) (cols : list attdesc) (row : list (option (list Z))) (i : nat) (a : attdesc) (d : list Z) (e : exn) : Prop :=
  nth_error cols i = Some a /\ nth_error row i = Some (Some d) /\ unpacks ti (atyp a) (Some d) (Err e) /\
  forall j o w, (j < i)%nat -> nth_error cols j = Some o -> nth_error row j = Some (Some w) -> exists b, unpacks ti (atyp o) (Some w) (Ok b).
(** what is shown of a value: all of it, or the first 75 characters *)
Definition shown (t t' : text) : Prop :=
  (len t <= 80 /\ t' = t) \/ (80 < len t /\ exists a b, t = a ++ b /\ len a = 75 /\ t' = a ++ str " ...").
(** the name of the type, if there is one *)
Definition type_name (ti : typio) (oid : Z) (t : text) : Prop :=
  ti_sql ti oid = Some t /\ t <> [] \/ (ti_sql ti oid = None \/ ti_sql ti oid = Some []) /\ t = str "<unknown>".
Definition parameter_error (ti : typio) (i : nat) (oid : Z) (v : V) (e : exn) (c : clienterr) : Prop :=
  ce_code c = str "--PIO" /\ ce_cause c = e /\ ce_position c = str_int (Z.of_nat i) /\ shown (ti_repr ti v) (ce_detail c) /\
  exists t, type_name ti oid t /\ ce_message c = str "could not pack parameter $" ++ str_int (Z.of_nat i + 1) ++ str "::" ++ t ++ str " for transfer".
Definition column_error (ti : typio) (verb : text) (i : nat) (a : attdesc) (d : list Z) (e : exn) (c : clienterr) : Prop :=
  ce_code c = str "--CIO" /\ ce_cause c = e /\ ce_position c = str_int (Z.of_nat i) /\ shown (ti_repr_bytes ti (Some d)) (ce_detail c) /\
  exists n t, ti_decode ti (an a) = Ok n /\ type_name ti (atyp a) t /\
    ce_message c = verb ++ str " unpack column " ++ str_int (Z.of_nat i) ++ str ", " ++ n ++ str "::" ++ t ++ str ", from wire data".
(** a row that is converted *)
Definition row_ok (ti : typio) (cols : list attdesc) (row : list (option (list Z))) (r : list (option V)) : Prop := Forall3 (received ti) cols row r.
End Spec.
