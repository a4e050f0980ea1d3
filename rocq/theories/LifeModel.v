(** LifeModel.v: the life of prepared statements and cursors: the names given to them, their registration, close(), their
    collection by Python, and the closing of what is no longer used on the server.
    driver/pq3.py: ID 75-77, Output 616-665, 672-750, Chunks and Cursor 986-1060, 1074-1130, Statement 1331-1345, 1482-1512,
    1545-1560, 1577-1600, 1660-1680; protocol/client3.py: take_out_trash 365-383, push 385-406, register and trash 487-507.

    The driver is cut into steps so that the collection of an object (and the callback of its weak reference) can come
    between any two of them.  The messages of an instruction are given to the server in their order, once, and the
    instruction is complete when all were processed: C25 and C48 are about that part.  Query texts composed by the driver
    (DECLARE .. WITH HOLD FOR .., FETCH ..) are represented by what they say.  User statements that manage names themselves
    (DEALLOCATE, DISCARD, PREPARE, CLOSE) are left out. *)
From Verif Require Import PyStr PyDict.

(** hex() of a non-negative integer, without 0x *)
Definition hexc (d : Z) : Z := if d <? 10 then 48 + d else 87 + d.
Fixpoint hexn (fuel : nat) (z : Z) : text :=
  match fuel with O => [] | S f => (if z <? 16 then [] else hexn f (z / 16)) ++ [hexc (z mod 16)] end.
Definition hex (z : Z) : text := str "0x" ++ hexn (S (Z.to_nat (Z.log2 z))) z.
(** pq3.py 75-77: the name of an object is made of its address *)
Definition ID (addr : Z) : text := str "py:" ++ hex addr.

(** ** the server: named statements and portals *)
Inductive query := QUser (q : text) | QDeclare (cursor : text) (q : text) | QFetch (cursor : text).
Inductive msg := MCloseS (n : text) | MCloseP (n : text) | MParse (n : text) (q : query) | MDescribe | MBind (portal stmt : text) | MExec (portal : text) | MSync.
Record portal := { po_query : query; po_from : text }.
(** [ran]: the user queries that were executed (or whose cursor was read), with the object for which it was done *)
Record server := { sv_stmts : list (text * query); sv_portals : list (text * portal); sv_skip : bool; ran : list (option nat * text) }.
Definition failed (s : server) : server := {| sv_stmts := sv_stmts s; sv_portals := sv_portals s; sv_skip := true; ran := ran s |}.
Definition with_stmts (s : server) d := {| sv_stmts := d; sv_portals := sv_portals s; sv_skip := false; ran := ran s |}.
Definition with_portals (s : server) d := {| sv_stmts := sv_stmts s; sv_portals := d; sv_skip := false; ran := ran s |}.
Definition log (s : server) (o : option nat) (q : text) := {| sv_stmts := sv_stmts s; sv_portals := sv_portals s; sv_skip := false; ran := ran s ++ [(o, q)] |}.
(** one message, for the object [o]; [ok = false]: the server refuses it.  After an error the messages up to Sync are skipped.
    Closing what does not exist is no error; a named statement or portal is not replaced; closing a statement closes the portals
    made of it. *)
Definition serve (ok : bool) (o : option nat) (m : msg) (s : server) : server :=
  if sv_skip s then match m with MSync => with_stmts s (sv_stmts s) | _ => s end else
  match m with
  | MSync => s
  | MCloseS n => {| sv_stmts := ddel n (sv_stmts s); sv_portals := filter (fun p => negb (seqb n (po_from (snd p)))) (sv_portals s); sv_skip := false; ran := ran s |}
  | MCloseP n => with_portals s (ddel n (sv_portals s))
  | _ => if negb ok then failed s else
    match m with
    | MParse n q => if negb (seqb n []) && dmem n (sv_stmts s) then failed s else with_stmts s (dset n q (sv_stmts s))
    | MBind p n =>
        match dget n (sv_stmts s) with
        | None => failed s
        | Some q => if negb (seqb p []) && dmem p (sv_portals s) then failed s else with_portals s (dset p {| po_query := q; po_from := n |} (sv_portals s))
        end
    | MExec p =>
        match dget p (sv_portals s) with
        | None => failed s
        | Some po =>
            match po_query po with
            | QUser q => log s o q
            | QDeclare c q => if dmem c (sv_portals s) then failed s else log (with_portals s (dset c {| po_query := QUser q; po_from := [] |} (sv_portals s))) o q
            | QFetch c =>
                match dget c (sv_portals s) with
                | Some po => match po_query po with QUser q => log s o q | _ => failed s end
                | None => failed s
                end
            end
        end
    | _ => s
    end
  end.

(** ** the driver's objects.  [ob_begun] is not of the program: a message was sent for the object. *)
Inductive class := CStatement | CFetchAll | CInside | CDeclared | CFromId.
Record obj := { ob_class : class; ob_addr : Z; ob_name : text; ob_query : option text; ob_of : option nat; ob_closed : option bool; ob_begun : bool }.
Record instr := { in_owner : option nat; in_prepare : bool; in_msgs : list msg; in_err : bool }.
(** where the driver is, in push() *)
Inductive pc := Idle | PComplete (x : instr) | PCursors (x : instr) (xm : list msg) (i : nat) | PStmts (x : instr) (xm : list msg) (i j : nat)
  | PDelC (x : instr) (i j : nat) | PDelS (x : instr) (j : nat) | PWait (x : instr) | PDead.
Record st := { heap : list (nat * obj); fresh : nat; reg_s : list (text * nat); reg_c : list (text * nat); gar_s : list text; gar_c : list text;
               xact : option instr; at_ : pc; sv : server }.
Definition init : st := {| heap := []; fresh := 0; reg_s := []; reg_c := []; gar_s := []; gar_c := []; xact := None; at_ := Idle;
  sv := {| sv_stmts := []; sv_portals := []; sv_skip := false; ran := [] |} |}.
Fixpoint hget (k : nat) (h : list (nat * obj)) : option obj := match h with [] => None | (j, o) :: r => if Nat.eqb k j then Some o else hget k r end.
Definition hset (k : nat) (f : obj -> obj) (h : list (nat * obj)) : list (nat * obj) := map (fun p => if Nat.eqb k (fst p) then (fst p, f (snd p)) else p) h.
Definition hdel (k : nat) (h : list (nat * obj)) : list (nat * obj) := filter (fun p => negb (Nat.eqb k (fst p))) h.
Definition set_heap (s : st) h := {| heap := h; fresh := fresh s; reg_s := reg_s s; reg_c := reg_c s; gar_s := gar_s s; gar_c := gar_c s; xact := xact s; at_ := at_ s; sv := sv s |}.
Definition set_at (s : st) p := {| heap := heap s; fresh := fresh s; reg_s := reg_s s; reg_c := reg_c s; gar_s := gar_s s; gar_c := gar_c s; xact := xact s; at_ := p; sv := sv s |}.
Definition set_xact (s : st) x := {| heap := heap s; fresh := fresh s; reg_s := reg_s s; reg_c := reg_c s; gar_s := gar_s s; gar_c := gar_c s; xact := x; at_ := at_ s; sv := sv s |}.
Definition set_sv (s : st) v := {| heap := heap s; fresh := fresh s; reg_s := reg_s s; reg_c := reg_c s; gar_s := gar_s s; gar_c := gar_c s; xact := xact s; at_ := at_ s; sv := v |}.
Definition set_garbage (s : st) gs gc := {| heap := heap s; fresh := fresh s; reg_s := reg_s s; reg_c := reg_c s; gar_s := gs; gar_c := gc; xact := xact s; at_ := at_ s; sv := sv s |}.
Definition is_stmt (c : class) : bool := match c with CStatement => true | _ => false end.
Definition set_closed (b : bool) (o : obj) : obj :=
  {| ob_class := ob_class o; ob_addr := ob_addr o; ob_name := ob_name o; ob_query := ob_query o; ob_of := ob_of o; ob_closed := Some b; ob_begun := ob_begun o |}.
Definition set_begun (o : obj) : obj :=
  {| ob_class := ob_class o; ob_addr := ob_addr o; ob_name := ob_name o; ob_query := ob_query o; ob_of := ob_of o; ob_closed := ob_closed o; ob_begun := true |}.
(** client3.py 491-496, 502-507: trash_cursor, trash_statement: the weak reference is removed, the name is to be closed *)
Definition trash (stmt : bool) (n : text) (s : st) : st :=
  if stmt then {| heap := heap s; fresh := fresh s; reg_s := ddel n (reg_s s); reg_c := reg_c s; gar_s := gar_s s ++ [n]; gar_c := gar_c s; xact := xact s; at_ := at_ s; sv := sv s |}
  else {| heap := heap s; fresh := fresh s; reg_s := reg_s s; reg_c := ddel n (reg_c s); gar_s := gar_s s; gar_c := gar_c s ++ [n]; xact := xact s; at_ := at_ s; sv := sv s |}.
(** client3.py 487-489, 498-500: register_cursor, register_statement: a weak reference to the object under its name *)
Definition register (stmt : bool) (n : text) (k : nat) (s : st) : st :=
  if stmt then {| heap := heap s; fresh := fresh s; reg_s := dset n k (reg_s s); reg_c := reg_c s; gar_s := gar_s s; gar_c := gar_c s; xact := xact s; at_ := at_ s; sv := sv s |}
  else {| heap := heap s; fresh := fresh s; reg_s := reg_s s; reg_c := dset n k (reg_c s); gar_s := gar_s s; gar_c := gar_c s; xact := xact s; at_ := at_ s; sv := sv s |}.
(** Statement.__init__ 1331-1343 and Output.__init__ 640-654, with the names given by their subclasses (866-872: '', 986-990 and
    1074-1081: cursor_id or ID(self)): the object at the address [a] under the name [name] if it is not empty, of the statement [of].
    Registered if the name was made (statements 1341: if not statement_id; cursors 652: if cursor_id == ID(self)). *)
Definition create (c : class) (a : Z) (name : text) (q : option text) (of : option nat) (s : st) : st :=
  let n := match c with CFetchAll => [] | _ => if seqb name [] then ID a else name end in
  let k := fresh s in
  let o := {| ob_class := c; ob_addr := a; ob_name := n; ob_query := q; ob_of := of; ob_closed := if is_stmt c then None else Some false; ob_begun := false |} in
  let s1 := {| heap := heap s ++ [(k, o)]; fresh := S k; reg_s := reg_s s; reg_c := reg_c s; gar_s := gar_s s; gar_c := gar_c s; xact := xact s; at_ := at_ s; sv := sv s |} in
  if (if is_stmt c then seqb name [] else seqb n (ID a)) then register (is_stmt c) n k s1 else s1.
(** Statement.close 1482-1485, Output.close 660-663 *)
Definition close (k : nat) (s : st) : st :=
  match hget k (heap s) with
  | None => s
  | Some o => set_heap (match ob_closed o with Some false => trash (is_stmt (ob_class o)) (ob_name o) s | _ => s end) (hset k (set_closed true) (heap s))
  end.
(** Python frees an object: the callback of its weak reference, if there still is one *)
Definition drop (k : nat) (s : st) : st :=
  match hget k (heap s) with
  | None => s
  | Some o =>
      let s1 := set_heap s (hdel k (heap s)) in
      match dget (ob_name o) (if is_stmt (ob_class o) then reg_s s else reg_c s) with
      | Some j => if Nat.eqb j k then trash (is_stmt (ob_class o)) (ob_name o) s1 else s1
      | None => s1
      end
  end.
(** what an object asks for: its messages *)
Inductive action := APrepare | ACall (times : nat) | AFirst | AFetchAll | AOpen | AExecute | ADeclare (fetch : bool) | AFetch.
Definition messages (act : action) (name : text) (q : option text) (sname : text) (sq : option text) : list msg :=
  match act with
  | APrepare => match q with Some q => [MCloseS name; MParse name (QUser q)] | None => [] end ++ [MDescribe; MSync]
  | ACall times => concat (repeat [MBind [] name; MExec []] times) ++ [MSync]
  | AFirst => [MBind [] name; MExec []; MCloseP []; MSync]
  | AFetchAll => [MBind [] sname; MExec []; MSync]
  | AOpen => [MBind name sname; MExec name; MSync]
  | AExecute => [MExec name; MSync]
  | ADeclare fetch => match sq with Some q => [MParse [] (QDeclare name q); MBind [] []; MExec []] | None => [] end ++ (if fetch then [MParse [] (QFetch name); MBind [] []; MExec []] else []) ++ [MSync]
  | AFetch => [MParse [] (QFetch name); MBind [] []; MExec []; MSync]
  end.
Definition request (act : action) (k : nat) (s : st) : option instr :=
  match hget k (heap s) with
  | None => None
  | Some o =>
      let so := match ob_of o with Some j => hget j (heap s) | None => None end in
      Some {| in_owner := Some k; in_prepare := match act with APrepare => true | _ => false end;
              in_msgs := messages act (ob_name o) (ob_query o) (match so with Some t => ob_name t | None => [] end) (match so with Some t => ob_query t | None => None end);
              in_err := false |}
  end.
(** the instruction becomes the current one *)
Definition begin (x : instr) (s : st) : st :=
  set_heap (set_at (set_xact s (Some x)) Idle) (match in_owner x with Some k => hset k set_begun (heap s) | None => heap s end).
(** the steps of _pq_push (pq3.py 2603-2611), push (client3.py 385-406) and take_out_trash (365-383) *)
Definition driver (s : st) : option st :=
  match at_ s with
  | PComplete x =>
      match xact s with
      | Some i => match in_msgs i with [] => Some (set_at (set_xact s None) (if in_err i then Idle else PComplete x)) | _ => None end
      | None => match gar_s s, gar_c s with [], [] => Some (begin x s) | _, _ => Some (set_at s (PCursors x [] 0)) end
      end
  | PCursors x xm i => match nth_error (gar_c s) i with Some n => Some (set_at s (PCursors x (xm ++ [MCloseP n]) (S i))) | None => Some (set_at s (PStmts x xm i 0)) end
  | PStmts x xm i j =>
      match nth_error (gar_s s) j with
      | Some n => Some (set_at s (PStmts x (xm ++ [MCloseS n]) i (S j)))
      | None => Some (set_at (set_xact s (Some {| in_owner := None; in_prepare := false; in_msgs := xm ++ [MSync]; in_err := false |})) (PDelC x i j))
      end
  | PDelC x i j => Some (set_at (set_garbage s (gar_s s) (skipn i (gar_c s))) (PDelS x j))
  | PDelS x j => Some (set_at (set_garbage s (skipn j (gar_s s)) (gar_c s)) (PWait x))
  | PWait x =>
      match xact s with
      | Some i => match in_msgs i with [] => Some (set_xact s None) | _ => None end
      | None => Some (begin x s)
      end
  | Idle | PDead => None
  end.
(** _pq_complete by the caller (pq3.py 2614-2623) and Statement._fini (1509-1560): the statement is prepared, or closed if it failed *)
Definition complete (s : st) : option st :=
  match at_ s, xact s with
  | Idle, Some i =>
      match in_msgs i with
      | [] => Some (set_heap (set_xact s None) (match in_owner i with Some k => if in_prepare i then hset k (set_closed (in_err i)) (heap s) else heap s | None => heap s end))
      | _ => None
      end
  | _, _ => None
  end.
(** the server processes the next message of the current instruction, if it has been sent *)
Definition sent (p : pc) : bool := match p with Idle | PComplete _ | PWait _ => true | _ => false end.
Definition served (ok : bool) (s : st) : option st :=
  match xact s with
  | Some i =>
      match in_msgs i with
      | m :: r => if sent (at_ s) then
          let v := serve ok (in_owner i) m (sv s) in
          Some (set_sv (set_xact s (Some {| in_owner := in_owner i; in_prepare := in_prepare i; in_msgs := r; in_err := in_err i || sv_skip v |})) v) else None
      | [] => None
      end
  | None => None
  end.
(** what can happen *)
Inductive ev :=
| ECreate (c : class) (a : Z) (name : text) (q : option text) (of : option nat)
| EPush (act : action) (k : nat)
| EClose (k : nat)
| EDrop (k : nat)
| EDriver
| EComplete
| EServe (ok : bool)
| EGone (p : text)   (* the server drops a portal: its transaction ended *)
| EDead.             (* the connection is lost *)
Definition idle (s : st) : bool := match at_ s with Idle => true | _ => false end.
Definition step (e : ev) (s : st) : option st :=
  match e with
  | ECreate c a name q of => if idle s then Some (create c a name q of s) else None
  | EPush act k => if idle s then match request act k s with Some x => Some (set_at s (PComplete x)) | None => None end else None
  | EClose k => if idle s then Some (close k s) else None
  | EDrop k => Some (drop k s)
  | EDriver => driver s
  | EComplete => complete s
  | EServe ok => served ok s
  | EGone p => match at_ s with PDead => None | _ => Some (set_sv s {| sv_stmts := sv_stmts (sv s); sv_portals := ddel p (sv_portals (sv s)); sv_skip := sv_skip (sv s); ran := ran (sv s) |}) end
  | EDead => Some (set_at s PDead)
  end.
