(** CursModel.v: /repo/postgresql/driver/pq3.py:98-113, 715-740, 1065-1224 Cursor: read, next,
    seek, direction; api.py:223-229 the map of whence.
    The server side is a scrollable cursor over a fixed list of rows (declare() makes it INSENSITIVE
    SCROLL ... WITH HOLD), by the documented behaviour of FETCH and MOVE.  Not modelled: errors of the
    server (a failed transaction, a closed cursor), the conversion of rows, the count seek() returns. *)
From Verif Require Import Base PyStr.

(** ** the server.  Position 0 is before the first row, [n + 1] after the last. *)
Inductive amount := Count (k : Z) | All.
Inductive motion := Forward (a : amount) | Backward (a : amount) | Absolute (k : Z) | Relative (k : Z) | Last | Next.
Definition clamp (n p : Z) : Z := Z.max 0 (Z.min p (n + 1)).
Definition target (n p : Z) (m : motion) : Z :=
  match m with
  | Forward (Count k) => clamp n (p + k)          (* a negative count goes the other way *)
  | Backward (Count k) => clamp n (p - k)
  | Forward All => n + 1
  | Backward All => 0
  | Absolute k => if k <? 0 then clamp n (n + 1 + k) else clamp n k
  | Relative k => clamp n (p + k)
  | Last => clamp n n                             (* ABSOLUTE -1 *)
  | Next => clamp n (p + 1)
  end.
(** the rows passed from position [p] to position [q], in the order they are passed; the row at the start is
    not among them *)
Definition passed {R} (rows : list R) (p q : Z) : list R :=
  if p <=? q then firstn (Z.to_nat (q - p)) (skipn (Z.to_nat p) rows)
  else rev (skipn (Z.to_nat (q - 1)) (firstn (Z.to_nat (p - 1)) rows)).
(** FETCH: the rows, the new position.  FETCH FORWARD 0 and BACKWARD 0 give the row at the position again *)
Definition at_position {R} (rows : list R) (p : Z) : list R := if p <? 1 then [] else firstn 1 (skipn (Z.to_nat (p - 1)) rows).
Definition fetch {R} (rows : list R) (p : Z) (m : motion) : list R * Z :=
  match m with
  | Forward (Count k) | Backward (Count k) =>
      if k =? 0 then (at_position rows p, p) else let q := target (len rows) p m in (passed rows p q, q)
  | _ => let q := target (len rows) p m in (passed rows p q, q)
  end.

(** ** the client *)
Inductive dirarg := DTrue | DFalse | DStr (s : text) | DOther.
Definition upper (s : text) : text := map (fun c => if ascii_lowerc c then c - 32 else c) s.
(** 98-113 direction_str_to_bool, direction_to_bool *)
Definition direction_to_bool (d : dirarg) : res bool :=
  match d with
  | DTrue => Ok true
  | DFalse => Ok false
  | DStr s => if seqb (upper s) (str "FORWARD") then Ok true else if seqb (upper s) (str "BACKWARD") then Ok false else Err ValueError
  | DOther => Err TypeError
  end.
(** [c_pos]: the position on the server *)
Record cursor := { c_direction : bool; c_pos : Z }.
(** 1093-1099 _which_way *)
Definition which_way (c : cursor) (d : option dirarg) : res bool :=
  match d with
  | None => Ok (c_direction c)
  | Some d => do b <- direction_to_bool d; Ok (negb (xorb (negb (c_direction c)) (negb b)))
  end.
(** 1149-1158 _fetch and 715-729 _pq_xp_fetch *)
Definition cfetch {R} (rows : list R) (dir : bool) (q : option Z) (c : cursor) : list R * cursor :=
  let a := match q with None => All | Some k => Count k end in
  let (l, p) := fetch rows (c_pos c) (if dir then Forward a else Backward a) in
  (l, {| c_direction := c_direction c; c_pos := p |}).
(** 1143-1147 read *)
Definition read {R} (rows : list R) (q : option Z) (d : option dirarg) (c : cursor) : cursor * res (list R) :=
  match q with
  | Some 0 => (c, Ok [])
  | _ =>
      match which_way c d with
      | Err e => (c, Err e)
      | Ok dir => let (l, c) := cfetch rows dir q c in (c, Ok l)
      end
  end.
(** 1136-1141 __next__ *)
Definition next {R} (rows : list R) (c : cursor) : cursor * res R :=
  let (l, c) := cfetch rows (c_direction c) (Some 1) c in
  (c, match l with [] => Err StopIteration | r :: _ => Ok r end).
(** api.py:223-229, 1161-1167 *)
Inductive whence := WInt (k : Z) | WStr (s : text).
Inductive rwhence := ABSOLUTE | RELATIVE | FROM_END | FORWARD | BACKWARD.
Definition whence_of (w : whence) : res rwhence :=
  match w with
  | WInt k => if k =? 0 then Ok ABSOLUTE else if k =? 1 then Ok RELATIVE else if k =? 2 then Ok FROM_END else if k =? 3 then Ok FORWARD else if k =? 4 then Ok BACKWARD else Err AttributeError
  | WStr s =>
      let u := upper s in
      if seqb u (str "ABSOLUTE") then Ok ABSOLUTE else if seqb u (str "RELATIVE") then Ok RELATIVE else if seqb u (str "FROM_END") then Ok FROM_END
      else if seqb u (str "FORWARD") then Ok FORWARD else if seqb u (str "BACKWARD") then Ok BACKWARD else Err TypeError
  end.
(** 1160-1211 seek: the commands *)
Definition seek_commands (dir : bool) (offset : amount) (w : rwhence) : list motion :=
  match offset with
  | All =>
      let w := match w with BACKWARD | FORWARD => w | _ => if dir then FORWARD else BACKWARD end in
      match w with BACKWARD => [Backward All] | _ => [Forward All] end
  | Count k =>
      let '(k, w) := match w with BACKWARD => if k <? 0 then (- k, FORWARD) else (k, w) | _ => (k, w) end in
      let '(k, w) := if dir then (k, w) else match w with RELATIVE => (- k, w) | ABSOLUTE => (k, FROM_END) | _ => (k, ABSOLUTE) end in
      match w with
      | RELATIVE => if k <? 0 then [Backward (Count (- k))] else [Relative k]
      | BACKWARD => if k <? 0 then [Backward (Count (- k))] else [Backward (Count k)]
      | FORWARD => if k <? 0 then [Backward (Count (- k))] else [Forward (Count k)]
      | ABSOLUTE => [Absolute k]
      | FROM_END => [Last; Next; Backward (Count k)]
      end
  end.
Definition move (n : Z) (ms : list motion) (p : Z) : Z := fold_left (target n) ms p.
Definition seek {R} (rows : list R) (offset : amount) (w : whence) (c : cursor) : cursor * res unit :=
  match whence_of w with
  | Err e => (c, Err e)
  | Ok w => ({| c_direction := c_direction c; c_pos := move (len rows) (seek_commands (c_direction c) offset w) (c_pos c) |}, Ok tt)
  end.
(** 1083-1091 direction *)
Definition set_direction (d : dirarg) (c : cursor) : cursor * res unit :=
  match direction_to_bool d with
  | Err e => (c, Err e)
  | Ok b => ({| c_direction := b; c_pos := c_pos c |}, Ok tt)
  end.
(** 1065-1081: declared *)
Definition new_cursor : cursor := {| c_direction := true; c_pos := 0 |}.
Inductive cop := CRead (q : option Z) (d : option dirarg) | CNext | CSeek (offset : amount) (w : whence) | CDirection (d : dirarg).
Inductive cans (R : Type) := ARows (r : res (list R)) | ARow (r : res R) | AUnit (r : res unit).
Arguments ARows {R}. Arguments ARow {R}. Arguments AUnit {R}.
Definition cstep {R} (rows : list R) (o : cop) (c : cursor) : cursor * cans R :=
  match o with
  | CRead q d => let (c, r) := read rows q d c in (c, ARows r)
  | CNext => let (c, r) := next rows c in (c, ARow r)
  | CSeek a w => let (c, r) := seek rows a w c in (c, AUnit r)
  | CDirection d => let (c, r) := set_direction d c in (c, AUnit r)
  end.
Fixpoint csteps {R} (rows : list R) (os : list cop) (c : cursor) : cursor * list (cans R) :=
  match os with
  | [] => (c, [])
  | o :: os => let (c, a) := cstep rows o c in let (c, l) := csteps rows os c in (c, a :: l)
  end.
