(** ElemModel.v: element tracebacks: /repo/postgresql/python/element.py:97-230 (prime_factor, prime_factors, format_element), python/string.py:6-11
    (indent).  Objects are numbers; what the attributes of an object are is a parameter.  os.linesep is a line feed.  Not modelled: ElementSet (its
    metas format further elements), _e_metas that raise, and objects whose attributes change while they are read. *)
From Verif Require Import Base PyStr MarkModel.

Inductive obj :=
| ONone                                             (* None *)
| OPlain (shown : text)                             (* no Element: str() of it *)
| OElem (label : text)                              (* _e_label *)
        (factors : list (text * option nat))        (* _e_factors, and the attribute of each name; None: there is no such attribute *)
        (metas : list (option text * option text)). (* _e_metas(): the key, and str() of the value, or None if it is None *)
Definition RecursiveFactor : exn := OtherError 85.

Section elem.
Context (U : unicode).
Definition rstrip (l : text) : text := rstrip_by (u_space U) l.
Definition lstrip (l : text) : text := lstrip_by (u_space U) l.
(** string.py:6-11 *)
Definition indent (s : text) : text := concat (map (fun x => rstrip (spaces 2 ++ x) ++ [10]) (splitlines s)).
(** len(sval) > 70 or os.linesep in sval *)
Definition is_long (s : text) : bool := (70 <? len s) || memZ 10 s.
Definition sval_of (v : option text) : text := match v with None => str "None" | Some v => v end.
(** 163-178: one meta *)
Definition meta_text (kv : option text * option text) : text :=
  let sval := sval_of (snd kv) in
  match fst kv with
  | None => [] ++ rstrip sval
  | Some key => if is_long sval then key ++ [58] ++ [10] ++ rstrip (indent sval) else key ++ [58] ++ [32] ++ rstrip sval
  end.
(** 180-191: one factor, formatted as [sval] *)
Definition factor_text (att sval : text) : text :=
  if is_long sval then (att ++ [58]) ++ [10] ++ indent sval else (att ++ [58]) ++ [32] ++ sval.
Definition indent_some (t : text) : text := match t with [] => [] | _ => indent t end.
(** 193-206: the object itself *)
Definition own_text (label : text) (metas : list (option text * option text)) (factors : list text) : text :=
  let mtxt := indent_some (py_join [10] (map meta_text metas)) in
  let ftxt := indent_some (py_join [10] factors) in
  let s := mtxt ++ ftxt in
  let nolead := existsb (fun kv => match fst kv with None => true | _ => false end) metas in
  let s := if nolead then [32] ++ lstrip s else [10] ++ s in
  label ++ [58] ++ rstrip s.

(** the heap, and whether two objects compare equal *)
Context (heap : list obj) (same : nat -> nat -> bool).
Definition look (o : nat) : obj := nth o heap ONone.
Definition labelled (o : nat) : bool := match look o with OElem _ _ _ => true | _ => false end.
(** 209-223: the prime factor, formatted as [factor] *)
Definition prime_text (has_label : bool) (name factor : text) : text :=
  if has_label then [10] ++ [] ++ factor
  else let name := name ++ [58] in
       if is_long factor then [10] ++ name ++ [10] ++ indent factor else [10] ++ (name ++ [32]) ++ factor.
(** 143-224 format_element *)
Fixpoint format (fuel : nat) (coverage : list nat) (o : nat) : res text :=
  match fuel with
  | O => Err OutOfFuel
  | S fuel =>
      if existsb (same o) coverage then Err RecursiveFactor else
      let coverage := coverage ++ [o] in
      match look o with
      | ONone => Ok (str "None")
      | OPlain s => Ok s
      | OElem label fs metas =>
          do factors <- mapM (fun f => match snd f with
                                       | None => Err AttributeError
                                       | Some p => do sval <- format fuel coverage p; Ok (factor_text (fst f) sval)
                                       end) (tl fs);
          let s := own_text label metas factors in
          match fs with
          | [] => Ok s
          | (name, None) :: _ => Ok (s ++ prime_text false name (str "None"))
          | (name, Some p) :: _ => do factor <- format fuel coverage p; Ok (s ++ prime_text (labelled p) name factor)
          end
      end
  end.
Definition format_element (o : nat) : res text := format (S (length heap)) [] o.

(** 107-133 prime_factors: what is given before it ends, and how it ends; [attr o name] is getattr(o, name, None), None being None.
    (visited is a set: here a list) *)
Fixpoint pf_loop (attr : nat -> text -> option nat) (fuel : nat) (fn : text) (e : option nat) (visited : list (option nat)) : list (text * option nat) * option exn :=
  match e with
  | None => ([], None)
  | Some e' =>
      match fuel with
      | O => ([], Some OutOfFuel)
      | S fuel =>
          let e := attr e' fn in
          if existsb (fun v => match v, e with Some a, Some b => Nat.eqb a b | None, None => true | _, _ => false end) visited then ([], Some RecursiveFactor)
          else let (l, x) := pf_loop attr fuel fn e (e :: visited) in ((fn, e) :: l, x)
      end
  end.
Definition prime_factors (attr : nat -> text -> option nat) (fuel : nat) (o : nat) : list (text * option nat) * option exn :=
  match look o with
  | OElem _ ((fn, _) :: _) _ =>
      let e := attr o fn in
      if match e with Some b => Nat.eqb o b | None => false end then ([], Some RecursiveFactor)
      else let (l, x) := pf_loop attr fuel fn e [e; Some o] in ((fn, e) :: l, x)
  | _ => ([], None)
  end.
End elem.
