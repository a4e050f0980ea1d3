(** StmtModel.v: the description of a prepared statement, and the conversion of its parameters and columns.
    /repo/postgresql/driver/pq3.py:1353-1410, 1416-1480, 1515-1562 (Statement), 751-840 (Output), 1564-1590 (Statement.__call__),
    188-192, 200-201, 220-226, 402-403 (TypeIO), 501-516 (raise_client_error).
    Python values are of an abstract type.  The resolution of the I/O functions (which may need further queries) is C56: here it is a
    function of the oid.  repr() of a value is taken to return. *)
From Verif Require Import Base PyStr PyDict PyInt Element3Model IterModel.
From Coq Require Import String.
Local Notation str s := (PyStr.str s%string).
Local Notation length := List.length.

Section Stmt.
Context {V T : Type}.
(** TypeIO *)
Record typio := {
  ti_decode : list Z -> res text;                            (* _decode, one item *)
  ti_decode_value : option (list Z) -> res V;                (* decode, as the conversion of a column: of None it raises *)
  ti_encode_value : V -> res (list Z);                       (* encode, as the conversion of a parameter *)
  ti_pack : Z -> option (V -> res (list Z));                 (* resolve(oid)[0] *)
  ti_unpack : Z -> option (option (list Z) -> res V);        (* resolve(oid)[1] *)
  ti_sql : Z -> option text;                                 (* sql_type_from_oid *)
  ti_type : Z -> T;                                          (* type_from_oid *)
  ti_repr : V -> text; ti_repr_bytes : option (list Z) -> text }.
(** what Python code does: gives a value, raises ParameterError or ColumnError, or anything else *)
Record clienterr := { ce_code : text; ce_message : text; ce_detail : text; ce_hint : text; ce_position : text; ce_cause : exn }.
Inductive out (A : Type) := Got (a : A) | Client (e : clienterr) | Raised (e : exn).
Arguments Got {A} a. Arguments Client {A} e. Arguments Raised {A} e.
Definition obind {A B} (x : out A) (f : A -> out B) : out B := match x with Got a => f a | Client e => Client e | Raised e => Raised e end.
Definition lift {A} (x : res A) : out A := match x with Ok a => Got a | Err e => Raised e end.
Fixpoint omapM {A B} (f : A -> out B) (l : list A) : out (list B) :=
  match l with [] => Got [] | x :: l => obind (f x) (fun y => obind (omapM f l) (fun r => Got (y :: r))) end.

(** the attributes of a statement after _fini *)
Inductive fmt := FString | FBinary.
Record stmt := {
  s_output : option (list attdesc); s_attmap : list (text * Z); s_output_io : list (option (list Z) -> res V); s_output_formats : list fmt;
  s_input : list Z; s_input_io : list (V -> res (list Z)); s_input_formats : list fmt }.
(** 188-192 decodes; element3.py TupleDescriptor.keys *)
Definition decoded_names (ti : typio) (d : list attdesc) : res (list text) := mapM (fun a => ti_decode ti (an a)) d.
Fixpoint count_from {A} (i : Z) (l : list A) : list (A * Z) := match l with [] => [] | x :: l => (x, i) :: count_from (i + 1) l end.
(** 200-201 attribute_map and dict() of it *)
Definition attribute_map (ti : typio) (d : list attdesc) : res (list (text * Z)) :=
  do n <- decoded_names ti d; Ok (dupdate [] (count_from 0 n)).
(** 1515-1562: [argtypes] and [tupdesc], None for NoData *)
Definition fini (ti : typio) (argtypes : list Z) (tupdesc : option (list attdesc)) : res stmt :=
  let io := map (fun x => match ti_pack ti x with Some p => p | None => ti_encode_value ti end) argtypes in
  let formats := map (fun x => FBinary) argtypes in        (* strfmt if x is None: x is the oid *)
  match tupdesc with
  | None => Ok {| s_output := None; s_attmap := []; s_output_io := []; s_output_formats := []; s_input := argtypes; s_input_io := io; s_input_formats := formats |}
  | Some d =>
      do m <- attribute_map ti d;
      let u := map (fun a => ti_unpack ti (atyp a)) d in
      Ok {| s_output := Some d; s_attmap := m; s_output_io := map (fun x => match x with Some f => f | None => ti_decode_value ti end) u;
            s_output_formats := map (fun x => match x with None => FString | Some _ => FBinary end) u;
            s_input := argtypes; s_input_io := io; s_input_formats := formats |}
  end.
(** 1427-1480 and 815-840; None of a statement without rows *)
Definition column_names (ti : typio) (s : stmt) : res (option (list text)) :=
  match s_output s with None => Ok None | Some d => do n <- decoded_names ti d; Ok (Some n) end.
Definition pg_column_types (s : stmt) : option (list Z) := match s_output s with None => None | Some d => Some (map atyp d) end.
Definition column_types (ti : typio) (s : stmt) : option (list T) := match s_output s with None => None | Some d => Some (map (fun a => ti_type ti (atyp a)) d) end.
Definition sql_column_types (ti : typio) (s : stmt) : option (list (option text)) := match pg_column_types s with None => None | Some l => Some (map (ti_sql ti) l) end.
Definition pg_parameter_types (s : stmt) : list Z := s_input s.
Definition parameter_types (ti : typio) (s : stmt) : list T := map (ti_type ti) (s_input s).
Definition sql_parameter_types (ti : typio) (s : stmt) : list (option text) := map (ti_sql ti) (pg_parameter_types s).

(** Python: l[i] for 0 <= i *)
Definition at_ {A} (l : list A) (i : Z) : res A := match nth_error l (Z.to_nat i) with Some x => Ok x | None => Err IndexError end.
Definition unknown : text := str "<unknown>".
(** typ or '<unknown>' *)
Definition or_unknown (t : option text) : text := match t with Some (c :: t) => c :: t | _ => unknown end.
(** 1374-1378: data[:75] + ' ...' *)
Definition shorten (t : text) : text := if 80 <? len t then firstn 75 t ++ str " ..." else t.
(** 1363-1388 _raise_parameter_tuple_error *)
Definition raise_parameter {A} (ti : typio) (s : stmt) (cause : exn) (tup : list (option V)) (i : Z) : out A :=
  obind (lift (at_ (pg_parameter_types s) i)) (fun oid =>
  obind (lift (at_ tup i)) (fun v =>
  Client {| ce_code := str "--PIO";
            ce_message := str "could not pack parameter $" ++ str_int (i + 1) ++ str "::" ++ or_unknown (ti_sql ti oid) ++ str " for transfer";
            ce_detail := shorten (match v with Some v => ti_repr ti v | None => str "None" end);
            ce_hint := str "Try casting the parameter to 'text', then to the target type."; ce_position := str_int i; ce_cause := cause |})).
(** 1390-1410 Statement's and 782-806 Output's _raise_column_tuple_error; they differ in the verb, and Output looks for the type in its
    statement, which a cursor made by cursor_from_id does not have *)
Definition raise_column {A} (ti : typio) (output : bool) (has_statement : bool) (s : stmt) (cause : exn) (tup : list (option (list Z))) (i : Z) : out A :=
  obind (lift (at_ tup i)) (fun d =>
  obind (lift (column_names ti s)) (fun names =>
  match names, pg_column_types s with
  | Some names, Some types =>
      obind (lift (at_ names i)) (fun name =>
      if output && negb has_statement then Raised AttributeError else
      obind (lift (at_ types i)) (fun oid =>
      Client {| ce_code := str "--CIO";
                ce_message := str (if output then "failed to" else "could not") ++ str " unpack column " ++ str_int i ++ str ", " ++ name ++ str "::" ++ or_unknown (ti_sql ti oid) ++ str ", from wire data";
                ce_detail := shorten (ti_repr_bytes ti d); ce_hint := str "Try casting the column to 'text'."; ce_position := str_int i; ce_cause := cause |}))
  | _, _ => Raised TypeError                                  (* None[itemnum] *)
  end)).
(** functools.py:37-66 process_tuple, with a handler that raises *)
Definition process_tuple {A B} (procs : list (A -> res B)) (tup : list (option A)) (handler : exn -> Z -> out (list (option B))) : out (list (option B)) :=
  if negb (len tup =? len procs) then Raised TypeError
  else match process_loop 0 procs tup with inl r => Got r | inr (i, e) => handler e i end.
(** 1353-1357 _pq_parameters *)
Definition pq_parameters (ti : typio) (s : stmt) (params : list (option V)) : out (list (option (list Z))) :=
  process_tuple (s_input_io s) params (fun e i => raise_parameter ti s e params i).
(** the columns of a row that are not NULL *)
Definition row_procs (s : stmt) : list (list Z -> res V) := map (fun f x => f (Some x)) (s_output_io s).
(** 779-780 _process_tuple_chunk, for chunks() *)
Definition chunk_of (ti : typio) (has : bool) (s : stmt) (x : list (list (option (list Z)))) : out (list (list (option V))) :=
  omapM (fun y => process_tuple (row_procs s) y (fun e i => raise_column ti true has s e y i)) x.
(** 769-776 _process_tuple_chunk_Row, for rows(); a Row is the attribute map and the values (402-403; C15) *)
Definition chunk_of_rows (ti : typio) (has : bool) (s : stmt) (x : list (list (option (list Z)))) : out (list (list (text * Z) * list (option V))) :=
  obind (chunk_of ti has s x) (fun l => Got (map (fun y => (s_attmap s, y)) l)).
(** 751-766 _process_tuple_chunk_Column, for column(): the first column, NULL is not treated.  After a failure next() is called with a
    range, which is no iterator: TypeError *)
Definition chunk_of_column (s : stmt) (x : list (list (option (list Z)))) : out (list V) :=
  match s_output_io s with
  | [] => Raised IndexError
  | unpack :: _ =>
      obind (lift (mapM (fun y => at_ y 0) x)) (fun l =>
      match mapM unpack l with Ok r => Got r | Err _ => Raised TypeError end)
  end.
(** 1564-1590 __call__.  [command] is what SingleXactCopy's command() and count() give, [copied] its chunks; [chunks] those of SingleXactFetch *)
Inductive called := CRows (l : list (list (text * Z) * list (option V))) | CCommand (c : text) (n : option Z) | CCopy (l : list (list Z)).
Record answer := { a_command : option (text * option Z); a_copied : list (list (list Z)); a_chunks : list (list (list (option (list Z)))) }.
Definition call (ti : typio) (s : stmt) (params : list (option V)) (execute : list (option (list Z)) -> out answer) : out called :=
  if negb (len params =? len (s_input s)) then Raised TypeError else
  obind (pq_parameters ti s params) (fun p =>
  obind (execute p) (fun a =>
  match s_output s with
  | None => match a_command a with Some (c, n) => Got (CCommand c n) | None => Got (CCopy (List.concat (a_copied a))) end
  | Some _ => obind (omapM (chunk_of_rows ti true s) (a_chunks a)) (fun r => Got (CRows (List.concat r)))
  end)).
End Stmt.
Arguments out : clear implicits.
Arguments Got {A} a. Arguments Client {A} e. Arguments Raised {A} e.
