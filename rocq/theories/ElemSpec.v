(** ElemSpec.v: statement-level definitions for C85 *)
From Verif Require Import Base PyStr MarkModel MarkSpec ElemModel.

(** ** the objects behind an object *)
Definition edge (heap : list obj) (a b : nat) : Prop := exists label fs metas name, look heap a = OElem label fs metas /\ In (name, Some b) fs.
Inductive path (heap : list obj) : list nat -> Prop :=
| path_one o : path heap [o]
| path_cons a b l : edge heap a b -> path heap (b :: l) -> path heap (a :: b :: l).
(** going from factor to factor, an object that compares equal to an earlier one is met *)
Definition recursive (heap : list obj) (same : nat -> nat -> bool) (o : nat) : Prop :=
  exists l x y, path heap (o :: l ++ [y]) /\ In x (o :: l) /\ same y x = true.
(** every attribute that is named as a factor exists *)
Definition complete (heap : list obj) : Prop := forall o label fs metas name p, look heap o = OElem label fs metas -> In (name, p) fs -> p <> None.

(** ** how an element is shown, line by line *)
(** a value: None is shown as None *)
Definition shown_value (v : option text) : text := match v with Some v => v | None => [78; 111; 110; 101] end.
Section layout.
Context (U : unicode).
(** a line, two columns to the right; blanks at its end are dropped *)
Definition shifted (l : text) : text := rstrip U (str "  " ++ l).
(** without the empty lines at the end *)
Fixpoint chop (ls : list text) : list text :=
  match ls with [] => [] | l :: ls => match l, chop ls with [], [] => [] | l, ls => l :: ls end end.
(** more than 70 characters, or several lines *)
Definition long (s : text) : Prop := 70 < len s \/ In 10 s.
(** the lines for a name and a value: on the line of the name if the value is short, else under it *)
Definition meta_lines (k v : text) : list text :=
  if is_long v then (k ++ str ":") :: chop (map shifted (splitlines v)) else [k ++ str ": " ++ rstrip U v].
(** the same for a factor: an empty line follows a long one *)
Definition factor_lines (k v : text) : list text :=
  if is_long v then (k ++ str ":") :: map shifted (splitlines v) ++ [[]] else [k ++ str ": " ++ v].
(** the lines of the object itself.  A first meta without a key stands behind the label *)
Definition own_lines (label : text) (metas : list (option text * option text)) (factors : list (text * text)) : list text :=
  let rest := concat (map (fun kv => match fst kv with Some k => meta_lines k (shown_value (snd kv)) | None => [] end) metas)
              ++ concat (map (fun f => factor_lines (fst f) (snd f)) factors) in
  match metas with
  | (None, v) :: _ => (label ++ str ": " ++ rstrip U (shown_value v)) :: chop (map shifted rest)
  | _ => (label ++ str ":") :: chop (map shifted rest)
  end.
(** the text of the lines *)
Definition text_of (ls : list text) : text := py_join [10] ls.
(** what follows the object itself: its prime factor, without its name if it is an Element *)
Inductive prime_shown (shows : nat -> text -> Prop) (labelled : nat -> bool) : list (text * option nat) -> text -> Prop :=
| ps_nothing : prime_shown shows labelled [] []
| ps_missing name fs : prime_shown shows labelled ((name, None) :: fs) ([10] ++ name ++ str ": None")
| ps_element name p fs s : labelled p = true -> shows p s -> prime_shown shows labelled ((name, Some p) :: fs) ([10] ++ s)
| ps_short name p fs s : labelled p = false -> shows p s -> is_long s = false -> prime_shown shows labelled ((name, Some p) :: fs) ([10] ++ name ++ str ": " ++ s)
| ps_long name p fs s : labelled p = false -> shows p s -> is_long s = true ->
    prime_shown shows labelled ((name, Some p) :: fs) ([10] ++ text_of ((name ++ str ":") :: map shifted (splitlines s) ++ [[]])).
Inductive shows (heap : list obj) : nat -> text -> Prop :=
| sh_none o : look heap o = ONone -> shows heap o (str "None")
| sh_plain o s : look heap o = OPlain s -> shows heap o s
| sh_elem o label fs metas svals tail : look heap o = OElem label fs metas ->
    Forall2 (fun f s => exists p, snd f = Some p /\ shows heap p s) (List.tl fs) svals ->
    prime_shown (shows heap) (labelled heap) fs tail ->
    shows heap o (text_of (own_lines label metas (combine (map fst (List.tl fs)) svals)) ++ tail).
(** names and labels of one line; short values of one line; long ones not blank; a meta without a key, if any, is the first one and not blank *)
Definition value_ok (v : text) : Prop := long v \/ no_break v.
Definition keyed (kv : option text * option text) : Prop :=
  exists k, fst kv = Some k /\ no_break k /\ value_ok (shown_value (snd kv)) /\
    (long (shown_value (snd kv)) -> exists l, In l (splitlines (shown_value (snd kv))) /\ shifted l <> []).
Definition metas_ok (metas : list (option text * option text)) : Prop :=
  Forall keyed metas \/
  exists v c r rest, metas = (None, v) :: rest /\ shown_value v = c :: r /\ u_space U c = false /\ no_break (shown_value v) /\ Forall keyed rest.
Definition obj_ok (x : obj) : Prop :=
  match x with
  | ONone => True
  | OPlain s => value_ok s
  | OElem label fs metas => no_break label /\ Forall (fun f => no_break (fst f)) fs /\ metas_ok metas
  end.
End layout.
(** b is the prime factor of a, and both are Elements *)
Definition prime (heap : list obj) (a b : nat) : Prop := exists label name fs metas, look heap a = OElem label ((name, Some b) :: fs) metas /\ labelled heap b = true.
Inductive primes (heap : list obj) : list nat -> Prop :=
| primes_one o : primes heap [o]
| primes_cons a b l : prime heap a b -> primes heap (b :: l) -> primes heap (a :: b :: l).
