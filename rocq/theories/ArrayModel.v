(** ArrayModel.v: Array and Row of /repo/postgresql/types/__init__.py *)
From Verif Require Import PyStr PyDict.

(** ** Python's slice.indices and range *)
Definition adjust_index (o : option Z) (dflt lower upper length : Z) : Z :=
  match o with
  | None => dflt
  | Some s => if s <? 0 then Z.max (s + length) lower else Z.min s upper
  end.
Definition slice_indices (start stop step : option Z) (length : Z) : res (Z * Z * Z) :=
  let st := match step with Some s => s | None => 1 end in
  if st =? 0 then Err ValueError
  else
    let lower := if st <? 0 then -1 else 0 in
    let upper := if st <? 0 then length - 1 else length in
    Ok (adjust_index start (if st <? 0 then upper else lower) lower upper length,
        adjust_index stop (if st <? 0 then lower else upper) lower upper length, st).
(** list(range(start, stop, step)) *)
Definition range3 (start stop step : Z) : list Z :=
  let n := if 0 <? step then (stop - start + step - 1) / step else (start - stop - step - 1) / (- step) in
  map (fun k => start + k * step) (py_range n).

Section array.
Context {A : Type}.
(** what [len] and iteration make of a value that is not a list: None when the value is no sequence *)
Context (chars : A -> option (list A)).
(** nested lists; tuples and other objects are leaves *)
Inductive nest := Leaf (a : A) | Node (l : list nest).

(** types/__init__.py:272-285 detect_dimensions, below the top *)
Fixpoint detect_in (n : nest) : res (list Z) :=
  match n with
  | Leaf _ => Ok []
  | Node [] => Err ValueError
  | Node ((x :: _) as l) => do r <- detect_in x; Ok (len l :: r)
  end.
Definition detect_dimensions (hier : list nest) : res (list Z) :=
  match hier with [] => Ok [] | x :: _ => do r <- detect_in x; Ok (len hier :: r) end.
(** the items of a value that is given to len() and iterated *)
Definition items_of (n : nest) : res (list nest) :=
  match n with
  | Node l => Ok l
  | Leaf a => match chars a with Some l => Ok (map Leaf l) | None => Err TypeError end
  end.
(** types/__init__.py:255-269 unroll_nest; [ds] is dimensions[depth:] *)
Fixpoint unroll_nest (ds : list Z) (hier : nest) : res (list nest) :=
  do items <- items_of hier;
  let dsize := match ds with [] => 0 | d :: _ => d end in
  if negb (len items =? dsize) then Err ValueError
  else match ds with
       | [] => Ok []
       | [_] => Ok items
       | _ :: ds' => do rs <- mapM (unroll_nest ds') items; Ok (concat rs)
       end.

Record array := { a_elements : list nest; a_lower : list Z; a_upper : list Z; a_dims : list Z }.
Definition a_ndims (a : array) : nat := length (a_dims a).
(** types/__init__.py:370 _weight *)
Definition a_weight (a : array) : Z :=
  len (a_elements a) / (match a_dims a with [] => 1 | d :: _ => if d =? 0 then 1 else d end).
(** types/__init__.py:331-345: the loop over the bounds; None: broken off for an empty array *)
Fixpoint check_bounds (nelements : Z) (bs : list (Z * Z)) (elcount : Z) (dims : list Z) : res (option (Z * list Z)) :=
  match bs with
  | [] => Ok (Some (elcount, dims))
  | (lb, ub) :: r =>
      let x := ub - lb + 1 in
      if x <? 1 then (if nelements =? 0 then Ok None else Err ValueError)
      else check_bounds nelements r (x * elcount) (dims ++ [x])
  end.
(** types/__init__.py:287-371 from_elements *)
Definition from_elements (elements : list nest) (lowerbounds upperbounds : option (list Z)) : res array :=
  let nelements := len elements in
  let lower := match lowerbounds with
               | Some l => l
               | None => match upperbounds with
                         | Some ((_ :: _) as u) => repeat 1 (length u)
                         | _ => if nelements =? 0 then [] else [1]
                         end
               end in
  do t <- match upperbounds with
          | Some upper =>
              match upper with
              | [] => if negb (nelements =? 0) then Err ValueError else Ok (lower, upper, [])
              | _ =>
                  do c <- check_bounds nelements (combine lower upper) 1 [];
                  let '(lower, upper, elcount, dims) := match c with
                    | None => ([], [], 0, [])
                    | Some (elcount, dims) => (lower, upper, elcount, dims)
                    end in
                  if negb (nelements =? elcount) then Err ValueError else Ok (lower, upper, dims)
              end
          | None => if nelements =? 0 then Ok (lower, [], []) else Ok (lower, [nelements], [nelements])
          end;
  let '(lower, upper, dims) := t in
  if negb (len lower =? len upper) then Err ValueError
  else Ok {| a_elements := elements; a_lower := lower; a_upper := upper; a_dims := dims |}.
(** types/__init__.py:374-397 from_nest and __new__ of a nested list *)
Definition from_nest (n : list nest) : res array :=
  do dims <- detect_dimensions n;
  do elements <- unroll_nest dims (Node n);
  from_elements elements None (Some dims).
(** types/__init__.py:485-486 __len__ *)
Definition a_len (a : array) : Z := match a_dims a with [] => 0 | d :: _ => d end.

(** what indexing gives: an element or an array *)
Inductive item := IElem (n : nest) | IArr (a : array).
(** types/__init__.py:506-539 __getitem__ of an integer *)
Definition getitem (a : array) (i : Z) : res item :=
  if (a_ndims a <? 2)%nat then do e <- pyindex (a_elements a) i; Ok (IElem e)
  else if a_len a <? i then Err IndexError
  else
    let w := a_weight a in
    do s <- from_elements (pyslice (a_elements a) (w * i) (w * (i + 1))) (Some (tl (a_lower a))) (Some (tl (a_upper a)));
    Ok (IArr s).
(** types/__init__.py:510-529 __getitem__ of a slice, of an array of several dimensions *)
Definition getslice (a : array) (start stop step : option Z) : res array :=
  do t <- slice_indices start stop step (a_len a);
  let '(s, e, st) := t in
  let xs := range3 s e st in
  let w := a_weight a in
  match xs with
  | [] => from_elements [] None None
  | _ => from_elements (concat (map (fun x => pyslice (a_elements a) (w * x) (w * (x + 1))) xs))
           (Some (1 :: tl (a_lower a))) (Some (len xs :: tl (a_upper a)))
  end.
(** types/__init__.py:409-422 nest, 541-545 __iter__; [fuel]: at least the number of dimensions *)
Fixpoint nest_go (fuel : nat) (a : array) : res (list nest) :=
  if (a_ndims a <? 2)%nat then Ok (a_elements a)
  else match fuel with
       | O => Err OutOfFuel
       | S fuel =>
           mapM (fun i => do x <- getitem a i;
                          match x with
                          | IArr s => do l <- nest_go fuel s; Ok (Node l)
                          | IElem _ => Err AttributeError
                          end) (py_range (a_len a))
       end.
Definition a_nest (a : array) : res (list nest) := nest_go (a_ndims a) a.

(** types/__init__.py:449-460: the position of an address *)
Fixpoint element_pos (addr dims : list Z) (nelements cur : Z) : res Z :=
  match addr, dims with
  | x :: addr, dim :: dims =>
      let k := if x <? 0 then x + dim else x in
      if (k <? 0) || (negb (x <? 0) && (dim <=? k)) then Err IndexError
      else let n := nelements / dim in element_pos addr dims n (cur + k * n)
  | _, _ => Ok cur
  end.
(** types/__init__.py:424-461 get_element *)
Definition get_element (a : array) (addr : list Z) : res nest :=
  match a_dims a with
  | [] => Err IndexError
  | _ => if negb (len addr =? len (a_dims a)) then Err ValueError
         else do cur <- element_pos addr (a_dims a) (len (a_elements a)) 0; pyindex (a_elements a) cur
  end.
(** types/__init__.py:463-476 sql_get_element *)
Definition sql_get_element (a : array) (addr : list Z) : res (option nest) :=
  let k := map (fun p => fst p - snd p) (combine addr (a_lower a)) in
  if existsb (fun x => x <? 0) k then Ok None
  else match get_element a k with
       | Ok e => Ok (Some e)
       | Err IndexError => Ok None
       | Err e => Err e
       end.
End array.
Arguments nest : clear implicits.
Arguments array : clear implicits.
Arguments item : clear implicits.

(** ** Row *)
Section row.
Context {V : Type}.
(** a tuple with the dictionary from column names to positions *)
Record row := { r_values : list V; r_keymap : list (text * Z) }.
(** sorted(keymap.items(), key = get1): a stable sort *)
Fixpoint insert_col (p : text * Z) (l : list (text * Z)) : list (text * Z) :=
  match l with [] => [p] | q :: r => if snd p <=? snd q then p :: l else q :: insert_col p r end.
Definition sort_cols (l : list (text * Z)) : list (text * Z) := fold_right insert_col [] l.
(** types/__init__.py:554-561 from_mapping; None for the missing keys *)
Definition from_mapping (keymap : list (text * Z)) (m : list (text * V)) (none : V) : row :=
  {| r_values := map (fun p => match dget (fst p) m with Some v => v | None => none end) (sort_cols keymap); r_keymap := keymap |}.
(** types/__init__.py:563-567 from_sequence *)
Definition from_sequence (keymap : list (text * Z)) (seq : list V) : row := {| r_values := seq; r_keymap := keymap |}.
(** types/__init__.py:569-573 __getitem__ of an int or a name *)
Definition row_getint (r : row) (i : Z) : res V := pyindex (r_values r) i.
Definition row_getname (r : row) (k : text) : res V :=
  match dget k (r_keymap r) with Some i => pyindex (r_values r) i | None => Err KeyError end.
(** types/__init__.py:575-584 get; Ok None is Python's None *)
Definition row_get_int (r : row) (i : Z) : res (option V) :=
  let l := len (r_values r) in
  if (- l <? i) && (i <? l) then do v <- pyindex (r_values r) i; Ok (Some v) else Ok None.
Definition row_get_name (r : row) (k : text) : res (option V) :=
  match dget k (r_keymap r) with Some i => do v <- pyindex (r_values r) i; Ok (Some v) | None => Ok None end.
(** types/__init__.py:586-608 *)
Definition row_keys (r : row) : list text := dkeys (r_keymap r).
Definition column_names (r : row) : list text := map fst (sort_cols (r_keymap r)).
Definition row_items (r : row) : list (text * V) := combine (column_names r) (r_values r).
Definition index_from_key (r : row) (k : text) : option Z := dget k (r_keymap r).
Fixpoint key_of_index (km : list (text * Z)) (i : Z) : option text :=
  match km with [] => None | (k, v) :: r => if v =? i then Some k else key_of_index r i end.
Definition key_from_index (r : row) (i : Z) : option text := key_of_index (r_keymap r) i.
(** r[i] = v on a list *)
Definition list_set (i : Z) (v : V) (l : list V) : res (list V) :=
  let k := if i <? 0 then i + len l else i in
  if (0 <=? k) && (k <? len l) then Ok (firstn (Z.to_nat k) l ++ [v] ++ skipn (S (Z.to_nat k)) l) else Err IndexError.
(** types/__init__.py:631-643 transform *)
Fixpoint transform_args (r : row) (i : Z) (args : list (option (V -> res V))) (acc : list V) : res (list V) :=
  match args with
  | [] => Ok acc
  | None :: args => transform_args r (i + 1) args acc
  | Some f :: args =>
      do x <- pyindex (r_values r) i; do y <- f x; do acc <- list_set i y acc; transform_args r (i + 1) args acc
  end.
Fixpoint transform_kw (r : row) (kw : list (text * option (V -> res V))) (acc : list V) : res (list V) :=
  match kw with
  | [] => Ok acc
  | (_, None) :: kw => transform_kw r kw acc
  | (k, Some f) :: kw =>
      match index_from_key r k with
      | None => Err KeyError
      | Some i => do x <- row_getname r k; do y <- f x; do acc <- list_set i y acc; transform_kw r kw acc
      end
  end.
Definition transform (r : row) (args : list (option (V -> res V))) (kw : list (text * option (V -> res V))) : res row :=
  do acc <- transform_args r 0 args (r_values r);
  do acc <- transform_kw r kw acc;
  Ok (from_sequence (r_keymap r) acc).
(** driver/pq3.py:200-201 attribute_map and 1536-1539: dict(zip(names, count())) *)
Definition attribute_map (names : list text) : list (text * Z) := dupdate [] (combine names (py_range (len names))).
End row.
Arguments row : clear implicits.
