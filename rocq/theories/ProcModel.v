(** ProcModel.v: stored procedures.  /repo/postgresql/driver/pq3.py:1847-1932 (StoredProcedure), 203-213 (TypeIO.sql_type_from_oid),
    types/__init__.py:100-133 (oid_to_sql_name), 136-225 (oid_to_name).
    The prepared statement is given by two functions: what calling it gives, and what its rows() gives (an iterator, as a [src]). *)
From Verif Require Import Base PyStr PyDict PyInt StrModel LoadModel.
From Coq Require Import String.
Local Notation str s := (PyStr.str s%string).
Local Notation length := List.length.

(** types/__init__.py:100-133; the oids are those of lines 11-98 *)
Definition oid_to_sql_name : list (Z * text) :=
  [(1042, str "CHARACTER"); (1043, str "CHARACTER VARYING"); (16, str "BOOLEAN"); (21, str "SMALLINT"); (23, str "INTEGER"); (20, str "BIGINT");
   (1700, str "NUMERIC"); (700, str "REAL"); (701, str "DOUBLE PRECISION"); (1083, str "TIME WITHOUT TIME ZONE"); (1266, str "TIME WITH TIME ZONE");
   (1114, str "TIMESTAMP WITHOUT TIME ZONE"); (1184, str "TIMESTAMP WITH TIME ZONE"); (1082, str "DATE"); (1186, str "INTERVAL"); (142, str "XML")].
(** types/__init__.py:136-225 *)
Definition oid_to_name : list (Z * text) :=
  [(2249, str "record"); (16, str "bool"); (1560, str "bit"); (1562, str "varbit"); (1033, str "aclitem"); (18, str "char"); (19, str
   "name"); (25, str "text"); (17, str "bytea"); (1042, str "bpchar"); (1043, str "varchar"); (2275, str "cstring"); (705, str
   "unknown"); (1790, str "refcursor"); (2950, str "uuid"); (3614, str "tsvector"); (3642, str "gtsvector"); (3615, str "tsquery");
   (3734, str "regconfig"); (3769, str "regdictionary"); (142, str "xml"); (114, str "json"); (3802, str "jsonb"); (829, str
   "macaddr"); (869, str "inet"); (650, str "cidr"); (71, str "type"); (81, str "proc"); (83, str "class"); (75, str "attribute");
   (1082, str "date"); (1083, str "time"); (1114, str "timestamp"); (1184, str "timestamptz"); (1186, str "interval"); (1266, str
   "timetz"); (702, str "abstime"); (703, str "reltime"); (704, str "tinterval"); (20, str "int8"); (21, str "int2"); (23, str
   "int4"); (26, str "oid"); (27, str "tid"); (28, str "xid"); (29, str "cid"); (790, str "cash"); (700, str "float4"); (701, str
   "float8"); (1700, str "numeric"); (600, str "point"); (628, str "line"); (601, str "lseg"); (602, str "path"); (603, str "box");
   (604, str "polygon"); (718, str "circle"); (30, str "oidvector"); (22, str "int2vector"); (1007, str "int4array"); (24, str
   "regproc"); (2202, str "regprocedure"); (2203, str "regoper"); (2204, str "regoperator"); (2205, str "regclass"); (2206, str
   "regtype"); (2211, str "regtypearray"); (2279, str "trigger"); (2280, str "language_handler"); (2281, str "internal"); (2282, str
   "opaque"); (2278, str "void"); (2277, str "anyarray"); (2283, str "anyelement"); (2276, str "any"); (2776, str "anynonarray");
   (3500, str "anyenum")].
Fixpoint zget {V} (k : Z) (l : list (Z * V)) : option V := match l with [] => None | (j, v) :: r => if k =? j then Some v else zget k r end.

Section proc.
(** TypeIO.typinfo: the namespace and the name of the types looked up so far *)
Context (typinfo : Z -> option (text * text)).
(** pq3.py:203-213 *)
Definition sql_type_from_oid (oid : Z) : option text :=
  match zget oid oid_to_sql_name with
  | Some n => Some n
  | None =>
      match typinfo oid with
      | Some (nsp, name) => Some (quote_ident nsp ++ [46] ++ quote_ident name)
      | None => match zget oid oid_to_name with Some ((_ :: _) as n) => Some (str "pg_catalog." ++ n) | _ => None end
      end
  end.
(** a row of lookup_procedure_oid or lookup_procedure_rp (lib/libsys.sql:80-100) *)
Record proctup := {
  pt_oid : Z;
  pt_name : text;
  pt_argnames : option (list (option text));
  pt_argtypes : list Z;
  pt_proid : text;        (* regproc: the name, qualified and quoted by the server as needed *)
  pt_retset : bool;
  pt_composite : bool
}.
Record proc := {
  p_oid : Z;
  p_name : text;
  p_attmap : list (text * nat);
  p_string : text;        (* the text that is prepared *)
  p_srf : bool;
  p_composite : bool
}.
(** '%d' % (x + 1) + '::' + '%s' % type *)
Definition argument (x : Z) (oid : Z) : text :=
  str "$" ++ str_nat (x + 1) ++ str "::" ++ match sql_type_from_oid oid with Some t => t | None => str "None" end.
Fixpoint arguments (x : Z) (oids : list Z) : list text :=
  match oids with [] => [] | o :: r => argument x o :: arguments (x + 1) r end.
(** 1905-1911 *)
Fixpoint attmap (x : nat) (names : list (option text)) (d : list (text * nat)) : list (text * nat) :=
  match names with
  | [] => d
  | Some n :: r => attmap (S x) r (dset n x d)
  | None :: r => attmap (S x) r d
  end.
(** 1918-1930 *)
Definition call_text (proid : text) (oids : list Z) (description : list text) : text :=
  str "SELECT * FROM " ++ proid ++ str "(" ++ py_join (str ", ") (arguments 0 oids) ++ str ") AS func" ++
  match description with [] => [] | _ => str "(" ++ py_join (str ",") description ++ str ")" end.
Inductive pident := ByOid (oid : Z) | ByName (s : text).
(** 1895-1932; LookupError is [OtherError 40] *)
Definition new_proc (lookup : pident -> res (option proctup)) (ident : pident) (description : list text) : res proc :=
  do r <- lookup ident;
  match r with
  | None => Err (OtherError 40)
  | Some t =>
      Ok {| p_oid := pt_oid t; p_name := pt_name t; p_attmap := attmap 0 (match pt_argnames t with Some l => l | None => [] end) [];
            p_string := call_text (pt_proid t) (pt_argtypes t) description; p_srf := pt_retset t; p_composite := pt_composite t |}
  end.

Context {A V : Type}.
Inductive outcome := ORow (r : list V) | OValue (v : V) | ORows (s : src (list V)) | OValues (s : src V).
(** map(get0, rows) *)
Fixpoint map_get0 (s : src (list V)) : src V :=
  match s with
  | SNil => SNil
  | SRaise e => SRaise e
  | SCons r s => match r with v :: _ => SCons v (map_get0 s) | [] => SRaise IndexError end
  end.
(** 1859-1893 __call__.  With keywords: an unknown one raises in the handler (KeyError has no attribute message), and with known ones
    the name argc does not exist (NameError, [OtherError 41]). *)
Definition call (p : proc) (stmt_call : list A -> res (list (list V))) (stmt_rows : list A -> res (src (list V)))
    (args : list A) (kw : list (text * A)) : res outcome :=
  match kw with
  | _ :: _ =>
      if forallb (fun k => dmem (fst k) (p_attmap p)) kw then Err (OtherError 41) else Err AttributeError
  | [] =>
      if p_srf p then
        do s <- stmt_rows args; Ok (if p_composite p then ORows s else OValues (map_get0 s))
      else
        do l <- stmt_call args;
        match l with
        | [] => Err IndexError
        | r :: _ => if p_composite p then Ok (ORow r) else match r with v :: _ => Ok (OValue v) | [] => Err IndexError end
        end
  end.
End proc.
Arguments outcome : clear implicits.
