(** XactSpec.v: what transactions have to do. *)
From Verif Require Import Base PyStr XactModel.

(** What a program does, without transaction commands: at each level, the changes which are kept;
    [r_doomed]: a statement failed at this level (inside a block, PostgreSQL then refuses
    everything); [r_top]: outside of any block; [r_dead]: the connection is lost. *)
Record rstate := { r_kept : list Z; r_doomed : bool; r_top : bool; r_dead : bool }.
Definition keep (r : rstate) (l : list Z) : rstate := {| r_kept := r_kept r ++ l; r_doomed := r_doomed r; r_top := r_top r; r_dead := r_dead r |}.
Definition doom (r : rstate) : rstate := {| r_kept := r_kept r; r_doomed := negb (r_top r); r_top := r_top r; r_dead := r_dead r |}.
Definition die (r : rstate) (d : bool) : rstate := {| r_kept := r_kept r; r_doomed := r_doomed r; r_top := r_top r; r_dead := d |}.
Definition inner : rstate := {| r_kept := []; r_doomed := false; r_top := false; r_dead := false |}.
Definition configured (iso mode : option text) : bool := match iso, mode with None, None => false | _, _ => true end.
(** whether an exception comes out *)
Fixpoint ref (p : prog) (r : rstate) : rstate * bool :=
  match p with
  | PDone => (r, false)
  | PDo x ok k => if r_dead r || r_doomed r then (r, true) else if ok then ref k (keep r [x]) else (doom r, true)
  | PRaise _ => (r, true)
  | PDie _ => (die r true, true)
  | PTry b k => ref k (fst (ref b r))
  | PBlock _ iso mode sok cr b k =>
      (* the block does not begin: no connection; in a failed block; options which are not possible here *)
      if r_dead r || r_doomed r || (if r_top r then semicolon iso || semicolon mode || negb sok else configured iso mode) then (r, true)
      else
        let (i, raised) := ref b inner in
        if r_dead i then (die r true, true)                    (* the connection was lost in it *)
        else if raised || r_doomed i then (r, true)            (* nothing of it is kept *)
        else match cr, r_top r with
             | Some _, true => (r, true)                       (* the server refused to commit *)
             | _, _ => ref k (keep r (r_kept i))               (* everything of it is kept *)
             end
  end.
Fixpoint no_interrupt (p : prog) : Prop :=
  match p with
  | PDone | PDie _ => True
  | PDo _ _ k => no_interrupt k
  | PRaise e => e <> Interrupted
  | PTry b k => no_interrupt b /\ no_interrupt k
  | PBlock _ _ _ _ cr b k => cr <> Some Interrupted /\ no_interrupt b /\ no_interrupt k
  end.
(** a connection outside of any block *)
Definition idle_conn (w : conn) (store : list Z) : Prop := c_srv w = idle store /\ c_state w = QI /\ c_closed w = false.
(** a connection in a block: the savepoints which are open, and the changes at each level *)
Definition block_conn (w : conn) (store : list Z) (x : txn) : Prop := c_srv w = {| v_store := store; v_xact := Some x |} /\ c_state w = ready (c_srv w) /\ c_closed w = false.
(** the server side of a lost connection *)
Definition lost_conn (w : conn) (store : list Z) : Prop := c_srv w = idle store /\ c_closed w = true.

(** ** the transaction of a DB-API connection: the changes made durable by each operation, and
    those which wait; [a]: in autocommit mode; [f]: the transaction failed *)
Record astate := { a_store : list Z; a_pending : list Z; a_auto : bool; a_failed : bool }.
Definition aref (o : dop) (a : astate) : astate * bool :=
  match o with
  | DDo x ok =>
      if a_auto a then if ok then ({| a_store := a_store a ++ [x]; a_pending := []; a_auto := true; a_failed := false |}, false) else (a, true)
      else if a_failed a then (a, true)
      else if ok then ({| a_store := a_store a; a_pending := a_pending a ++ [x]; a_auto := false; a_failed := false |}, false)
      else ({| a_store := a_store a; a_pending := a_pending a; a_auto := false; a_failed := true |}, true)
  | DCommit _ =>
      if a_auto a then (a, true)
      else if a_failed a then ({| a_store := a_store a; a_pending := []; a_auto := false; a_failed := false |}, false)
      else ({| a_store := a_store a ++ a_pending a; a_pending := []; a_auto := false; a_failed := false |}, false)
  | DRollback => if a_auto a then (a, true) else ({| a_store := a_store a; a_pending := []; a_auto := false; a_failed := false |}, false)
  | DAutocommit v => if Bool.eqb v (a_auto a) then (a, false) else ({| a_store := a_store a; a_pending := []; a_auto := v; a_failed := false |}, false)
  end.
Fixpoint runs {A O R} (step : O -> A -> A * R) (os : list O) (a : A) : A * list R :=
  match os with
  | [] => (a, [])
  | o :: os => let (a, r) := step o a in let (a, rs) := runs step os a in (a, r :: rs)
  end.
Definition raised (r : option pexn) : bool := match r with Some _ => true | None => false end.

(** outside of any block, nothing done yet *)
Definition top : rstate := {| r_kept := []; r_doomed := false; r_top := true; r_dead := false |}.
(** a new connection *)
Definition w0 : conn := {| c_srv := idle []; c_state := QI; c_closed := false; c_log := [] |}.
(** operations in which the server does not refuse a COMMIT *)
Definition plain (o : dop) : Prop := match o with DCommit (Some _) => False | _ => True end.
