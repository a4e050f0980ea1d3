(** ConfSpec.v: what a configuration file says (statement-level definitions) *)
From Verif Require Import PyStr PyDict ConfModel.

Section spec.
Context (U : unicode).
(** a setting name of letters, digits and underscores *)
Definition name_char (c : Z) : bool := ascii_alpha c || ascii_digit c || (c =? 95).
Definition setting_name (k : text) : Prop := k <> [] /\ Forall (fun c => name_char c = true) k.
(** names are compared ignoring case *)
Definition same_name (a b : text) : Prop := py_lower U a = py_lower U b.
(** the settings to alter: proper names, pairwise different ignoring case *)
Definition proper_map (m : list (text * option text)) : Prop :=
  Forall setting_name (map fst m) /\ NoDup (map (fun p => py_lower U (fst p)) m).
(** the line [l] is [# name = ...], possibly without the comment sign *)
Definition mentions (name l : text) : Prop :=
  exists pre key ws rest, l = pre ++ key ++ ws ++ [61] ++ rest /\
    Forall (fun c => u_space U c = true \/ c = 35) pre /\
    Forall (fun c => u_alpha U c = true \/ u_digit U c = true \/ c = 95) key /\
    Forall (fun c => u_space U c = true) ws /\ same_name key name.
(** the spelling of the name in such a line *)
Definition spells (name l : text) : Prop :=
  exists pre ws rest, l = pre ++ name ++ ws ++ [61] ++ rest /\
    Forall (fun c => u_space U c = true \/ c = 35) pre /\ Forall (fun c => u_space U c = true) ws.
(** the whole configuration *)
Definition everything (_ : text) : bool := true.
(** a line may get its missing line feed *)
Definition line_kept (l l' : text) : Prop := l' = l \/ (py_endswith [10] l = false /\ l' = l ++ [10]).
(** the quotes of the line are closed before its comment or its end *)
Definition count39 (l : text) : nat := count_occ Z.eq_dec l 39.
Definition quotes_closed (l : text) : Prop :=
  exists body tail, l = body ++ tail /\ In 61 body /\ Nat.even (count39 body) = true /\
    match tail with [] => True | c :: _ => c = 35 \/ c = 10 end.
End spec.
