(** DbapiModel.v: the fetching interface of /repo/postgresql/driver/dbapi20.py *)
From Verif Require Import Base PyList.

Section rows.
Context {A : Type}.
(** a chunks iterator: what it will give; an error is raised when it is reached *)
Notation source := (list (res (list A))).
(** dbapi20.py:84-91 Portal.__init__ *)
Record portal := { p_buf : list A; p_pos : nat; p_src : source }.
Definition portal_init (s : source) : portal := {| p_buf := []; p_pos := O; p_src := s |}.
(** dbapi20.py:93-105 Portal.__next__.  The recursion is on the chunks. *)
Fixpoint portal_next_go (buf : list A) (pos : nat) (src : source) : portal * res A :=
  match nth_error buf pos with
  | Some r => ({| p_buf := buf; p_pos := S pos; p_src := src |}, Ok r)
  | None =>
      match src with
      | [] => ({| p_buf := buf; p_pos := pos; p_src := [] |}, Err StopIteration)
      | Err e :: s => ({| p_buf := buf; p_pos := pos; p_src := s |}, Err e)
      | Ok c :: s => portal_next_go c O s
      end
  end.
Definition portal_next (p : portal) : portal * res A := portal_next_go (p_buf p) (p_pos p) (p_src p).
(** dbapi20.py:107-114 Portal.readall *)
Fixpoint readall_go (buf : list A) (src : source) : portal * res (list A) :=
  match src with
  | [] => ({| p_buf := []; p_pos := O; p_src := [] |}, Ok buf)
  | Err e :: s => ({| p_buf := buf; p_pos := O; p_src := s |}, Err e)
  | Ok c :: s => readall_go (buf ++ c) s
  end.
Definition portal_readall (p : portal) : portal * res (list A) := readall_go (skipn (p_pos p) (p_buf p)) (p_src p).
(** dbapi20.py:116-128 Portal.read *)
Definition del_to (l : list A) (e : Z) : list A := skipn (Z.to_nat (py_bound (len l) e)) l.
Fixpoint read_go (amount : Z) (buf : list A) (pos : nat) (src : source) : portal * res (list A) :=
  let finish buf e src := ({| p_buf := del_to buf e; p_pos := O; p_src := src |}, Ok (pyslice buf (Z.of_nat pos) e)) in
  if len buf - Z.of_nat pos <? amount then
    match src with
    | [] => finish buf (len buf) []
    | Err e :: s => ({| p_buf := buf; p_pos := pos; p_src := s |}, Err e)
    | Ok c :: s => read_go amount (buf ++ c) pos s
    end
  else finish buf (Z.of_nat pos + amount) src.
Definition portal_read (amount : Z) (p : portal) : portal * res (list A) := read_go amount (p_buf p) (p_pos p) (p_src p).

(** dbapi20.py:130-190, 258-296 Cursor: the portals, None when closed, and its arraysize.  OtherError 1 is Error("cursor is
    closed"), OtherError 2 InterfaceError("no portal on stack"). *)
Record cursor := { c_portals : option (list portal); c_arraysize : Z }.
Definition cursor_init : cursor := {| c_portals := Some []; c_arraysize := 1 |}.
Inductive cop :=
| Execute (rows : source)      (* a statement with output; also callproc *)
| ExecuteNone                  (* a statement without *)
| FetchOne | Next | FetchMany (arraysize : option Z) | FetchAll | NextSet | SetArraysize (n : Z) | Close.
Inductive cret := RRow (a : A) | RNoRow | RRows (l : list A) | RDone | RCount (n : option Z) | RExn (e : exn).
(** dbapi20.py:142-162 _portal *)
Definition with_portal (c : cursor) (f : portal -> portal * cret) : cursor * cret :=
  match c_portals c with
  | None => (c, RExn (OtherError 1))
  | Some [] => (c, RExn (OtherError 2))
  | Some (p :: r) => let (p', x) := f p in ({| c_portals := Some (p' :: r); c_arraysize := c_arraysize c |}, x)
  end.
(** x or y *)
Definition or_size (a : option Z) (d : Z) : Z := match a with Some n => if n =? 0 then (if d =? 0 then 1 else d) else n | None => if d =? 0 then 1 else d end.
Definition cstep (c : cursor) (o : cop) : cursor * cret :=
  match o with
  | Execute s =>
      match c_portals c with
      | None => (c, RExn (OtherError 1))
      | Some ps => ({| c_portals := Some (portal_init s :: ps); c_arraysize := c_arraysize c |}, RDone)
      end
  | ExecuteNone =>
      match c_portals c with
      | None => (c, RExn (OtherError 1))
      | Some [] => (c, RDone)
      | Some (_ :: ps) => ({| c_portals := Some ps; c_arraysize := c_arraysize c |}, RDone)
      end
  | FetchOne => with_portal c (fun p => let (p, r) := portal_next p in (p, match r with Ok a => RRow a | Err StopIteration => RNoRow | Err e => RExn e end))
  | Next => with_portal c (fun p => let (p, r) := portal_next p in (p, match r with Ok a => RRow a | Err e => RExn e end))
  | FetchMany n => with_portal c (fun p => let (p, r) := portal_read (or_size n (c_arraysize c)) p in (p, match r with Ok l => RRows l | Err e => RExn e end))
  | FetchAll => with_portal c (fun p => let (p, r) := portal_readall p in (p, match r with Ok l => RRows l | Err e => RExn e end))
  | NextSet =>
      match c_portals c with
      | None => (c, RExn (OtherError 1))
      | Some [] => (c, RExn (OtherError 2))
      | Some (_ :: ps) => ({| c_portals := Some ps; c_arraysize := c_arraysize c |}, RCount (match ps with [] => None | _ => Some (len ps) end))
      end
  | SetArraysize n => ({| c_portals := c_portals c; c_arraysize := n |}, RDone)
  | Close =>
      match c_portals c with
      | None => (c, RExn (OtherError 1))
      | Some _ => ({| c_portals := None; c_arraysize := c_arraysize c |}, RDone)
      end
  end.
Fixpoint crun (c : cursor) (ops : list cop) : cursor * list cret :=
  match ops with [] => (c, []) | o :: r => let (c, x) := cstep c o in let (c, xs) := crun c r in (c, x :: xs) end.
End rows.
Arguments portal : clear implicits.
Arguments cursor : clear implicits.
Arguments cop : clear implicits.
Arguments cret : clear implicits.
