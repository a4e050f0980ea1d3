(** NtSpec.v: what the fields of a row are *)
From Verif Require Import Base PyStr PyInt PyDict ArrayModel NtModel.
From Coq Require Import String.
Local Notation length := List.length.
(** the name of a column with its blanks as underscores *)
Definition underscored (t : text) : text := map (fun c => if c =? 32 then 95 else c) t.
(** the words that Python reserves (Python 3.7 and later) *)
Definition python_keywords : list text := py_split [32] (PyStr.str
  "and or not is in if elif else for while break continue pass return yield def class lambda del global nonlocal import from as try except finally raise assert with async await None True False").
(** a Python identifier, no keyword, not beginning with an underscore *)
Definition plain (P : pychars) (t : text) : Prop :=
  (exists c r, t = c :: r /\ c <> 95 /\ c_start P c = true /\ Forall (fun d => c_cont P d = true) r) /\ ~ In t python_keywords.
(** it names column i of the columns: it is plain and no column before has the same *)
Definition names_column (P : pychars) (cols : list text) (i : nat) (t : text) : Prop :=
  plain P t /\ option_map underscored (nth_error cols i) = Some t /\ forall j, (j < i)%nat -> option_map underscored (nth_error cols j) <> Some t.
(** the fields: one for each column, its name, or else its number after an underscore *)
Definition fields_of (P : pychars) (cols f : list text) : Prop :=
  length f = length cols /\
  forall i col, nth_error cols i = Some col ->
    (names_column P cols i (underscored col) -> nth_error f i = Some (underscored col)) /\
    (~ names_column P cols i (underscored col) -> nth_error f i = Some (95 :: str_int (Z.of_nat i))).
(** states of the program: any number of types were asked for before *)
Inductive reached (P : pychars) : world -> Prop :=
  | r_start : reached P empty_world
  | r_more w cols : reached P w -> reached P (fst (factory P cols w)).
