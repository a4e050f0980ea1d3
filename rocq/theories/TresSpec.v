(** TresSpec.v: types as trees, and what values of them look like on the wire and when read back *)
From Verif Require Import PyStr PyDict TypeIOModel TypeIOSpec ArrayModel ArraySpec TresModel.

Section Spec.
Context {B : Type}.
Notation pv := (pv B). Notation io := (io B).
Context (encode : pv -> res (list Z)) (decode : list Z -> res pv).

(** ** types.  An atom is a type with an I/O pair of its own (C06 to C13, C19), or one transferred as encoded text *)
Inductive ty := TAtom (i : io) | TArr (elem_oid : Z) (t : ty) | TRow (cols : list (Z * text * ty)).
Definition col_oid (c : Z * text * ty) : Z := fst (fst c).
Definition col_name (c : Z * text * ty) : text := snd (fst c).
Definition col_type (c : Z * text * ty) : ty := snd c.

(** ** values *)
(** an array: its elements in order, lower bounds and sizes of the axes.  It is given as an Array, or as nested lists of the same
    lengths, in which case the lower bounds are 1 *)
Inductive array_value : pv -> list pv -> list Z -> list Z -> Prop :=
| AV_empty : array_value (VArr [] [] [] []) [] [] []
| AV_array es lo up ds : up <> [] -> length lo = length up -> ds = sizes lo up -> Forall (fun d => 1 <= d) ds -> len es = product ds ->
    array_value (VArr es lo up ds) es lo ds
| AV_nested l ds : Forall (fun d => 1 <= d) ds -> rect ds (map to_nest l) -> Forall is_leaf (flat ds (map to_nest l)) ->
    array_value (VList l) (map of_nest (flat ds (map to_nest l))) (repeat 1 (length ds)) ds.
(** a composite: the values of its columns, by position or by name *)
Inductive row_value (names : list text) : pv -> list pv -> Prop :=
| RV_tuple vs : row_value names (VTuple vs) vs
| RV_list vs : row_value names (VList vs) vs
| RV_row km vs : row_value names (VRow km vs) vs
| RV_dict d : row_value names (VDict d) (map (fun n => match dget n d with Some v => v | None => VNone end) names).
Definition upper (lo ds : list Z) : list Z := map (fun p => fst p + snd p - 1) (combine ds lo).
(** NULL is None, and has no data *)
Inductive nullable (w : pv -> pv -> list Z -> Prop) : pv -> pv -> option (list Z) -> Prop :=
| Null : nullable w VNone VNone None
| Value v v' b : v <> VNone -> w v v' b -> nullable w v v' (Some b).
Inductive each (w : pv -> pv -> list Z -> Prop) : list pv -> list pv -> list (option (list Z)) -> Prop :=
| each_nil : each w [] [] []
| each_cons x x' y l l' bs : nullable w x x' y -> each w l l' bs -> each w (x :: l) (x' :: l') (y :: bs).

(** one value for each column *)
Definition each_column (w : ty -> pv -> pv -> list Z -> Prop) : list (Z * text * ty) -> list pv -> list pv -> list (option (list Z)) -> Prop :=
  fix go cols vs vs' bs :=
    match cols, vs, vs', bs with
    | [], [], [], [] => True
    | (_, _, t) :: cols, v :: vs, v' :: vs', b :: bs => nullable (w t) v v' b /\ go cols vs vs' bs
    | _, _, _, _ => False
    end.

(** [wire t v v' b]: the object v is a value of type t, it is sent as the bytes b, in the format of the server (TypeIOSpec.v) with the
    type oids of the catalog, and the bytes b are read as v' *)
Fixpoint wire (t : ty) (v v' : pv) (b : list Z) {struct t} : Prop :=
  match t with
  | TAtom i => pack_of encode i v = Ok b /\ unpack_of decode i b = Ok v'
  | TArr eo t =>
      exists es lo ds es' bs, array_value v es lo ds /\ each (wire t) es es' bs /\ v' = VArr es' lo (upper lo ds) ds /\
        wf_array 0 eo (combine ds lo) bs /\ b = array_wire 0 eo (combine ds lo) bs
  | TRow cols =>
      exists vs vs' bs, row_value (map col_name cols) v vs /\
        each_column wire cols vs vs' bs /\
        v' = VRow (combine (map col_name cols) (py_range (len cols))) vs' /\
        wf_record (combine (map col_oid cols) bs) /\ b = record_wire (combine (map col_oid cols) bs)
  end.

(** ** the types of a catalog *)
Context (builtins : Z -> option io) (known : Z -> option io) (cat : catalog).
(** the base type of a domain: the end of the chain of domains *)
Inductive domain_base : Z -> Z -> Prop :=
| DB_end o b : o <> 0 -> lookup_base cat o = Ok b -> b <> 0 -> lookup_base cat b = Ok 0 -> domain_base o b
| DB_more o o' b : o <> 0 -> lookup_base cat o = Ok o' -> o' <> 0 -> domain_base o' b -> domain_base o b.
(** [known]: the pairs assigned to types beforehand.  A type is found by its oid: *)
Inductive is_type : Z -> ty -> Prop :=
| T_known o i : known o = Some i -> is_type o (TAtom i)
| T_builtin o i : known o = None -> builtins o = Some i -> is_type o (TAtom i)
| T_missing o : known o = None -> builtins o = None -> lookup_type cat o = Ok None -> is_type o (TAtom strio)
| T_row o ti atts cols : known o = None -> builtins o = None -> lookup_type cat o = Ok (Some ti) -> t_relid ti <> 0 ->
    lookup_composite cat (t_relid ti) = Ok atts -> NoDup (map att_name atts) -> columns atts cols -> is_type o (TRow cols)
| T_array o ti t : known o = None -> builtins o = None -> lookup_type cat o = Ok (Some ti) -> t_relid ti = 0 ->
    t_ae ti = Some (true, true) -> is_type (t_elem ti) t -> is_type o (TArr (t_elem ti) t)
| T_text_array o ti t : known o = None -> builtins o = None -> lookup_type cat o = Ok (Some ti) -> t_relid ti = 0 ->
    t_ae ti = Some (false, false) -> is_type (t_elem ti) t -> is_type o (TAtom strio)
| T_domain o ti b t : known o = None -> builtins o = None -> lookup_type cat o = Ok (Some ti) -> t_relid ti = 0 ->
    t_ae ti = None -> t_type ti = 100 -> domain_base o b -> is_type b t -> is_type o t
| T_other o ti : known o = None -> builtins o = None -> lookup_type cat o = Ok (Some ti) -> t_relid ti = 0 ->
    t_ae ti = None -> t_type ti <> 100 -> ~ (t_type ti = 112 /\ t_namespace ti = str "pg_catalog" /\ t_name ti = str "record") ->
    is_type o (TAtom strio)
with columns : list (Z * text * bool) -> list (Z * text * ty) -> Prop :=
| C_nil : columns [] []
| C_cons o n t atts cols : is_type o t -> columns atts cols -> columns ((o, n, false) :: atts) ((o, n, t) :: cols)
| C_domain o b n t atts cols : domain_base o b -> is_type b t -> columns atts cols -> columns ((o, n, true) :: atts) ((o, n, t) :: cols).
(** the anonymous record type *)
Definition anonymous (o : Z) : Prop := known o = None /\ builtins o = None /\ exists ti, lookup_type cat o = Ok (Some ti) /\ t_relid ti = 0 /\
  t_ae ti = None /\ t_type ti = 112 /\ t_namespace ti = str "pg_catalog" /\ t_name ti = str "record".
(** data received for type o and what it is read as; anonymous records carry the types of their columns, and may be nested n times *)
Inductive received : nat -> Z -> pv -> list Z -> Prop :=
| R_typed n o t v v' b : is_type o t -> wire t v v' b -> received n o v' b
| R_anonymous n o cols vs : anonymous o -> wf_record cols -> received_columns n cols vs -> received (S n) o (VTuple vs) (record_wire cols)
with received_columns : nat -> list (Z * option (list Z)) -> list pv -> Prop :=
| RC_nil n : received_columns n [] []
| RC_null n o t cols vs : (is_type o t \/ anonymous o) -> received_columns n cols vs -> received_columns n ((o, None) :: cols) (VNone :: vs)
| RC_cons n o b v cols vs : received n o v b -> received_columns n cols vs -> received_columns n ((o, Some b) :: cols) (v :: vs).

(** the answer to the recursive query is the base type; before 8.4, the chain of domains is followed *)
Definition bases_ok : Prop := forall o b, domain_base o b -> lookup_base_recursive cat o = Ok b.
(** no type contains itself: the parts of a type come before it *)
Definition acyclic : Prop := exists rank : Z -> nat,
  forall o ti, known o = None -> builtins o = None -> lookup_type cat o = Ok (Some ti) ->
    (t_relid ti <> 0 -> forall atts x, lookup_composite cat (t_relid ti) = Ok atts -> In x atts ->
       forall b, (if att_domain x then domain_base (att_type x) b else b = att_type x) -> (rank b < rank o)%nat) /\
    (t_relid ti = 0 -> t_ae ti <> None -> (rank (t_elem ti) < rank o)%nat) /\
    (t_relid ti = 0 -> t_ae ti = None -> t_type ti = 100 -> forall b, domain_base o b -> (rank b < rank o)%nat).
End Spec.
(** a finite catalog: the parts of its types are of its types; the queries do not run forever *)
Definition finite_catalog (cat : catalog) (types : list Z) : Prop :=
  since_84 cat = true /\ (forall o, lookup_type cat o <> Err OutOfFuel) /\ (forall o, lookup_composite cat o <> Err OutOfFuel) /\ (forall o, lookup_base_recursive cat o <> Err OutOfFuel) /\
  forall o ti, In o types -> lookup_type cat o = Ok (Some ti) ->
    (forall atts x, lookup_composite cat (t_relid ti) = Ok atts -> In x atts -> if att_domain x then forall b, lookup_base_recursive cat (att_type x) = Ok b -> In b types else In (att_type x) types) /\
    (t_ae ti <> None -> In (t_elem ti) types) /\
    (forall b, lookup_base_recursive cat o = Ok b -> In b types).
