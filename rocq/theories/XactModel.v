(** XactModel.v: /repo/postgresql/driver/pq3.py:2098-2262 Transaction; its use by with-blocks; and
    driver/dbapi20.py:331-404, the transaction of a DB-API connection.
    The server is modelled by the documented behaviour of the transaction commands of
    PostgreSQL.  Not modelled: two-phase commit ("prepared" is a state the object never has);
    transaction commands the user sends himself. *)
From Verif Require Import Base PyStr.

(** ** the commands, and the server.  A savepoint is named by the number of the transaction
    object (hex(id(self)), 2170-2172, 2212, 2231-2234). *)
Inductive cmd := CStart | CCommit | CAbort | CSave (n : nat) | CRelease (n : nat) | CRollbackTo (n : nat) | CDo (x : Z).
(** the changes since the last savepoint are in front; a failed block accepts nothing but its end *)
Record txn := { x_saves : list (nat * list Z); x_base : list Z; x_failed : bool }.
Record server := { v_store : list Z; v_xact : option txn }.
Definition all_changes (x : txn) : list Z := x_base x ++ concat (map snd (rev (x_saves x))).
Definition fail_txn (s : server) : server :=
  match v_xact s with
  | None => s
  | Some x => {| v_store := v_store s; v_xact := Some {| x_saves := x_saves x; x_base := x_base x; x_failed := true |} |}
  end.
Definition in_txn (s : server) (x : txn) : server := {| v_store := v_store s; v_xact := Some x |}.
Definition idle (st : list Z) : server := {| v_store := st; v_xact := None |}.
(** the changes [l] go to what is now the innermost level *)
Definition add_changes (l : list Z) (saves : list (nat * list Z)) (base : list Z) (f : bool) : txn :=
  match saves with
  | [] => {| x_saves := []; x_base := base ++ l; x_failed := f |}
  | (n, c) :: saves => {| x_saves := (n, c ++ l) :: saves; x_base := base; x_failed := f |}
  end.
(** the innermost savepoint [n]: the changes since, and the savepoints outside of it *)
Fixpoint find_save (n : nat) (saves : list (nat * list Z)) : option (list Z * list (nat * list Z)) :=
  match saves with
  | [] => None
  | (m, c) :: saves =>
      if (m =? n)%nat then Some (c, saves)
      else match find_save n saves with Some (c', o) => Some (c' ++ c, o) | None => None end
  end.
(** one command; [ok]: the server itself has no objection (a constraint, a syntax error...).
    The result: whether it was accepted *)
Definition srv_exec (ok : bool) (c : cmd) (s : server) : server * bool :=
  match v_xact s, c with
  | None, CStart => if ok then (in_txn s {| x_saves := []; x_base := []; x_failed := false |}, true) else (s, false)
  | None, (CCommit | CAbort) => (s, true)                       (* a warning *)
  | None, (CSave _ | CRelease _ | CRollbackTo _) => (s, false)
  | None, CDo x => if ok then (idle (v_store s ++ [x]), true) else (s, false)
  | Some x, CAbort => (idle (v_store s), true)
  | Some x, CCommit =>
      if x_failed x then (idle (v_store s), true)               (* it is a ROLLBACK *)
      else if ok then (idle (v_store s ++ all_changes x), true)
      else (idle (v_store s), false)
  | Some x, CRollbackTo n =>
      match find_save n (x_saves x) with
      | None => (fail_txn s, false)
      | Some (_, o) => (in_txn s {| x_saves := (n, []) :: o; x_base := x_base x; x_failed := false |}, true)
      end
  | Some x, c =>
      if x_failed x then (s, false)
      else match c with
      | CSave n => (in_txn s {| x_saves := (n, []) :: x_saves x; x_base := x_base x; x_failed := false |}, true)
      | CRelease n =>
          match find_save n (x_saves x) with
          | None => (fail_txn s, false)
          | Some (l, o) => (in_txn s (add_changes l o (x_base x) false), true)
          end
      | CDo y => if ok then (in_txn s (add_changes [y] (x_saves x) (x_base x) false), true) else (fail_txn s, false)
      | _ => (s, true)                                          (* START in a block: a warning *)
      end
  end.
(** the state in ReadyForQuery *)
Inductive pqstate := QI | QT | QE | QOther.
Definition ready (s : server) : pqstate :=
  match v_xact s with None => QI | Some x => if x_failed x then QE else QT end.

(** ** the connection: the server, pq.state, whether the connection is lost (database.closed),
    and the commands sent *)
Record conn := { c_srv : server; c_state : pqstate; c_closed : bool; c_log : list cmd }.
(** exceptions: Active: ActiveTransactionError; Client: a client error; Other; Base: not an Exception *)
Inductive pexn := Active | Client | Other | Interrupted.
(** database.execute(q): the commands one after the other, up to the first error; a query is
    not sent on a closed connection *)
Fixpoint execute (e : pexn) (cs : list (bool * cmd)) (w : conn) : conn * option pexn :=
  if c_closed w then (w, Some Other)
  else match cs with
  | [] => (w, None)
  | (ok, c) :: cs =>
      let (s, good) := srv_exec ok c (c_srv w) in
      let w := {| c_srv := s; c_state := ready s; c_closed := false; c_log := c_log w ++ [c] |} in
      if good then execute e cs w else (w, Some e)
  end.

(** ** 2098-2262 Transaction *)
Inductive tstate := Initialized | Open | Committed | Aborted.
Inductive ttype := TBlock | TSavepoint | TNone.
Record xact := { t_state : tstate; t_type : ttype; t_id : nat; t_iso : option text; t_mode : option text }.
(** 2112-2117 *)
Definition new_xact (id : nat) (iso mode : option text) : xact := {| t_state := Initialized; t_type := TNone; t_id := id; t_iso := iso; t_mode := mode |}.
Definition set_state (t : xact) (s : tstate) : xact := {| t_state := s; t_type := t_type t; t_id := t_id t; t_iso := t_iso t; t_mode := t_mode t |}.
Definition set_type (t : xact) (s : ttype) : xact := {| t_state := t_state t; t_type := s; t_id := t_id t; t_iso := t_iso t; t_mode := t_mode t |}.
(** 2155-2166 _start_xact_string: a semicolon is refused *)
Definition semicolon (o : option text) : bool := match o with Some s => existsb (Z.eqb 59) s | None => false end.
(** 2174-2205 start *)
Definition start (ok : bool) (t : xact) (w : conn) : conn * xact * option pexn :=
  match t_state t with
  | Open => (w, t, None)
  | Initialized =>
      match c_state w with
      | QI =>
          let t := set_type t TBlock in
          if semicolon (t_iso t) || semicolon (t_mode t) then (w, t, Some Client)     (* ValueError *)
          else match execute Other [(ok, CStart)] w with
               | (w, None) => (w, set_state t Open, None)
               | (w, Some e) => (w, t, Some e)
               end
      | _ =>
          let t := set_type t TSavepoint in
          match t_iso t, t_mode t with
          | None, None =>
              match execute Other [(true, CSave (t_id t))] w with
              | (w, None) => (w, set_state t Open, None)
              | (w, Some e) => (w, t, Some e)
              end
          | _, _ => (w, t, Some Client)
          end
      end
  | _ => (w, t, Some Client)
  end.
(** 2212-2227 commit; [r]: whether the server commits, or the error *)
Definition commit (r : option pexn) (t : xact) (w : conn) : conn * xact * option pexn :=
  match t_state t with
  | Committed => (w, t, None)
  | Open =>
      let cs := match t_type t with TBlock => [(match r with None => true | Some _ => false end, CCommit)] | _ => [(true, CRelease (t_id t))] end in
      match execute (match r with Some e => e | None => Other end) cs w with
      | (w, None) => (w, set_state t Committed, None)
      | (w, Some e) => (w, t, Some e)
      end
  | _ => (w, t, Some Client)
  end.
(** 2233-2254 rollback *)
Definition rollback (t : xact) (w : conn) : conn * xact * option pexn :=
  match t_state t with
  | Aborted => (w, t, None)
  | Open =>
      match t_type t with
      | TNone => (w, t, Some Client)              (* RuntimeError *)
      | TBlock =>
          match execute Other [(true, CAbort)] w with
          | (w, None) => (w, set_state t Aborted, None)
          | (w, Some e) => (w, t, Some e)
          end
      | TSavepoint =>
          match execute Other [(true, CRollbackTo (t_id t)); (true, CRelease (t_id t))] w with
          | (w, None) => (w, set_state t Aborted, None)
          | (w, Some e) => (w, t, Some e)
          end
      end
  | _ => (w, t, Some Client)
  end.
(** 2123-2152 __exit__: the exception it raises (None: it returns, and the exception of the block goes on) *)
Definition exit (typ : option pexn) (r : option pexn) (t : xact) (w : conn) : conn * xact * option pexn :=
  match typ with
  | None =>
      match c_state w with
      | QE =>
          if c_closed w then (w, t, Some Client)
          else match rollback t w with
               | (w, t, Some e) => (w, t, Some e)
               | (w, t, None) => (w, t, Some Client)
               end
      | _ =>
          match commit r t w with
          | (w, t, Some Active) =>
              if c_closed w then (w, t, Some Active)
              else match rollback (set_state t Open) w with
                   | (w, t, Some e) => (w, t, Some e)
                   | (w, t, None) => (w, t, Some Active)
                   end
          | r => r
          end
      end
  | Some Interrupted => (w, t, None)
  | Some _ => if c_closed w then (w, t, None) else rollback t w
  end.

(** ** programs: nothing more; a change (accepted by the server or not), then; an exception; an
    operation during which the connection is lost (pq.state is then something); try: ... except
    Exception: pass; then; a with-block: with db.xact(isolation, mode): body; then *)
Inductive prog :=
| PDone
| PDo (x : Z) (ok : bool) (k : prog)
| PRaise (e : pexn)
| PDie (st : pqstate)
| PTry (b k : prog)
| PBlock (id : nat) (iso mode : option text) (start_ok : bool) (commit_r : option pexn) (b k : prog).
Definition lose (st : pqstate) (w : conn) : conn :=
  {| c_srv := idle (v_store (c_srv w)); c_state := st; c_closed := true; c_log := c_log w |}.
Fixpoint run (p : prog) (w : conn) : conn * option pexn :=
  match p with
  | PDone => (w, None)
  | PDo x ok k =>
      match execute Other [(ok, CDo x)] w with
      | (w, None) => run k w
      | (w, Some e) => (w, Some e)
      end
  | PRaise e => (w, Some e)
  | PDie st => (if c_closed w then w else lose st w, Some Other)
  | PTry b k =>
      match run b w with
      | (w, Some Interrupted) => (w, Some Interrupted)
      | (w, _) => run k w
      end
  | PBlock id iso mode sok cr b k =>
      match start sok (new_xact id iso mode) w with
      | (w, _, Some e) => (w, Some e)
      | (w, t, None) =>
          let (w, typ) := run b w in
          match exit typ cr t w with
          | (w, _, Some e) => (w, Some e)
          | (w, _, None) => match typ with Some e => (w, Some e) | None => run k w end
          end
      end
  end.

(** ** dbapi20.py: the connection has a transaction object, or None: autocommit *)
Record dbapi := { d_conn : conn; d_xact : option xact; d_next : nat }.
Definition fresh (d : dbapi) : xact := new_xact (d_next d) None None.
Definition begin_new (d : dbapi) (w : conn) : dbapi * option pexn :=
  let '(w, t, r) := start true (fresh d) w in
  ({| d_conn := w; d_xact := Some t; d_next := S (d_next d) |}, r).
(** 358-362 connect: after the connection is made *)
Definition dbapi_init (w : conn) : dbapi * option pexn := begin_new {| d_conn := w; d_xact := None; d_next := 0 |} w.
Inductive dop := DDo (x : Z) (ok : bool) | DCommit (r : option pexn) | DRollback | DAutocommit (v : bool).
(** 331-348, 377-404 *)
Definition dbapi_step (o : dop) (d : dbapi) : dbapi * option pexn :=
  match o with
  | DDo x ok =>
      let (w, r) := execute Other [(ok, CDo x)] (d_conn d) in ({| d_conn := w; d_xact := d_xact d; d_next := d_next d |}, r)
  | DCommit cr =>
      match d_xact d with
      | None => (d, Some Client)
      | Some t =>
          match commit cr t (d_conn d) with
          | (w, t, Some e) => ({| d_conn := w; d_xact := Some t; d_next := d_next d |}, Some e)
          | (w, t, None) => begin_new d w
          end
      end
  | DRollback =>
      match d_xact d with
      | None => (d, Some Client)
      | Some t =>
          match rollback t (d_conn d) with
          | (w, t, Some e) => ({| d_conn := w; d_xact := Some t; d_next := d_next d |}, Some e)
          | (w, t, None) => begin_new d w
          end
      end
  | DAutocommit true =>
      match d_xact d with
      | None => (d, None)
      | Some t =>
          match rollback t (d_conn d) with
          | (w, t, Some e) => ({| d_conn := w; d_xact := Some t; d_next := d_next d |}, Some e)
          | (w, t, None) => ({| d_conn := w; d_xact := None; d_next := d_next d |}, None)
          end
      end
  | DAutocommit false =>
      match d_xact d with
      | Some _ => (d, None)
      | None => begin_new d (d_conn d)
      end
  end.
