(** LifeSpec.v: the histories of the use of statements and cursors, for C57 *)
From Verif Require Import PyStr PyDict LifeModel.

(** the names the driver makes begin with py: *)
Definition made_name (n : text) : Prop := exists a, 0 <= a /\ n = ID a.
Definition user_name (n : text) : Prop := n <> [] /\ forall r, n <> str "py:" ++ r.
(** the living objects *)
Definition living (s : st) (k : nat) (o : obj) : Prop := hget k (heap s) = Some o.
(** the object a running method works for *)
Definition running (p : pc) : option instr :=
  match p with PComplete x | PCursors x _ _ | PStmts x _ _ _ | PDelC x _ _ | PDelS x _ | PWait x => Some x | Idle | PDead => None end.
(** which requests an object makes; cursors are opened by their constructors *)
Definition asks (o : obj) (act : action) : Prop :=
  match ob_class o, act with
  | CStatement, APrepare => ob_closed o = None
  | CStatement, (ACall _ | AFirst) => ob_closed o <> None
  | CFetchAll, AFetchAll => True
  | CInside, AOpen | CDeclared, ADeclare _ => ob_closed o = Some false
  | CInside, AExecute | CDeclared, AFetch => True
  | CFromId, AFetch => True
  | _, _ => False
  end.
(** what the users of the API, the server and Python's memory management can do:
    - a new object is at an address where no living object is; a statement has a made name, or a name given by the user that does
      not begin with py: and that no living statement has; a statement is given to the user when its preparation is over;
    - a method is only called on a living object, and an object lives while its method runs or a living cursor is of it *)
Definition allowed (s : st) (e : ev) : Prop :=
  match e with
  | ECreate c a name q of =>
      0 <= a /\ (forall k o, living s k o -> ob_addr o <> a) /\
      match c with
      | CStatement => of = None /\ (name = [] /\ q <> None \/ user_name name /\ forall k o, living s k o -> ob_class o = CStatement -> ob_name o <> name)
      | CFromId => of = None /\ q = None /\ user_name name
      | _ => name = [] /\ q = None /\ exists j o, of = Some j /\ living s j o /\ ob_class o = CStatement /\ ob_closed o <> None /\ (c = CDeclared -> ob_query o <> None)
      end
  | EPush act k => exists o, living s k o /\ asks o act
  | EClose k => exists o, living s k o /\ ob_closed o <> None
  | EDrop k => (exists o, living s k o) /\ (forall x, running (at_ s) = Some x -> in_owner x <> Some k) /\ (forall j o, living s j o -> ob_of o <> Some k)
  | _ => True
  end.
Inductive history : list ev -> st -> Prop :=
| H_init : history [] init
| H_step h s e s' : history h s -> allowed s e -> step e s = Some s' -> history (h ++ [e]) s'.
(** the objects in the order of their creation; the query an object is for: a statement's own, and that of its statement for a cursor *)
Definition creation (e : ev) : list (class * option text * option nat) := match e with ECreate c _ _ q of => [(c, q, of)] | _ => [] end.
Definition object_query (h : list ev) (k : nat) : option text :=
  match nth_error (flat_map creation h) k with
  | Some (CStatement, q, _) => q
  | Some (_, _, Some j) => match nth_error (flat_map creation h) j with Some (_, q, _) => q | None => None end
  | _ => None
  end.
(** what can happen while a push is under way *)
Definition meanwhile (e : ev) : Prop := match e with EDriver | EServe _ | EDrop _ | EGone _ => True | _ => False end.
Inductive goes_on : st -> list ev -> st -> Prop :=
| G_now s : goes_on s [] s
| G_step s e s1 h s2 : allowed s e -> meanwhile e -> step e s = Some s1 -> goes_on s1 h s2 -> goes_on s (e :: h) s2.
(** a name is to be closed: it is in the garbage, or in an instruction of the driver that closes names *)
Definition closing_stmt (s : st) (n : text) : Prop := In n (gar_s s) \/ exists i, xact s = Some i /\ in_owner i = None /\ In (MCloseS n) (in_msgs i).
Definition closing_portal (s : st) (n : text) : Prop := In n (gar_c s) \/ exists i, xact s = Some i /\ in_owner i = None /\ In (MCloseP n) (in_msgs i).
(** the end of a push: the request becomes the current one *)
Definition pushed (s s' : st) (x : instr) : Prop := running (at_ s) = Some x /\ step EDriver s = Some s' /\ at_ s' = Idle /\ xact s' = Some x.
