(** FetchModel.v: /repo/postgresql/driver/pq3.py:837-1045, the results of statements:
    FetchAll (SingleXactFetch, SingleXactCopy), MultiXactStream (MultiXactInsideBlock,
    MultiXactOutsideBlock), and the choice between them in Statement (1565-1640).
    The protocol transactions are those of InstModel.v.  Not modelled: the conversion of
    the rows (_process_chunk; see C44, C14, C15), the registration of cursors for closing
    (C32), the element tracebacks. *)
From Verif Require Import Base PBufferModel Element3Model NegModel InstModel.

(** What the connection reads: batches of messages (a list object each, with its identity),
    until it may be lost. *)
Inductive wire := WBatch (id : Z) (l : list wmsg) | WLost.

(** how a call ends: a value; an exception; still waiting for the server; out of fuel *)
Inductive fres (A : Type) := FDone (a : A) | FRaise | FBlocked | FNoFuel.
Arguments FDone {A}. Arguments FRaise {A}. Arguments FBlocked {A}. Arguments FNoFuel {A}.

(** the end of the connection: client3.py:237-263 (ConnModel.v) *)
Definition kill (s : inst) : inst := set_state (set_error s true (IEProto [] 0)) IComplete.

(** client3.py:407-440 step() of the transaction: send, or read a batch and give it.
    None: waiting. *)
Definition conn_step (s : inst) (e : list wire) : option (inst * list wire * bool) :=
  match i_state s with
  | ISend | ISendStdin => Some (inst_sent s, e, false)
  | IComplete => Some (s, e, false)
  | _ =>
      match e with
      | [] => None
      | WLost :: e => Some (kill s, e, false)
      | WBatch id l :: e =>
          match inst_put s id l with
          | (s, Ok _) => Some (s, e, false)
          | (s, Err _) => Some (s, e, true)
          end
      end
  end.
Definition complete (s : inst) : bool := match i_state s with IComplete => true | _ => false end.
Definition faulted (s : inst) : bool := match i_fatal s with None => false | Some _ => true end.
(** pq3.py:2644-2654 _pq_step: an error of the transaction is raised when it becomes complete *)
Definition pq_step (s : inst) (e : list wire) : inst * list wire * fres unit :=
  match conn_step s e with
  | None => (s, e, FBlocked)
  | Some (s, e, true) => (s, e, FRaise)
  | Some (s, e, false) => (s, e, if complete s && faulted s then FRaise else FDone tt)
  end.
(** client3.py:442-480 complete() and pq3.py:2631-2642 _pq_complete *)
Fixpoint run_complete (fuel : nat) (s : inst) (e : list wire) : inst * list wire * fres unit :=
  if complete s then (s, e, FDone tt)
  else match fuel with
  | O => (s, e, FNoFuel)
  | S fuel =>
      match conn_step s e with
      | None => (s, e, FBlocked)
      | Some (s, e, true) => (s, e, FRaise)
      | Some (s, e, false) => run_complete fuel s e
      end
  end.
Definition pq_complete (fuel : nat) (s : inst) (e : list wire) : inst * list wire * fres unit :=
  match run_complete fuel s e with
  | (s, e, FDone _) => (s, e, if faulted s then FRaise else FDone tt)
  | r => r
  end.

(** ** FetchAll *)
(** 683-694 _pq_xp_fetchall + (SynchronizeMessage,): all the rows of the unnamed portal *)
Definition fetchall_cmds (stmt : bytes) (afmts : list bytes) (args : list (option bytes)) (rfmts : list bytes) : list message :=
  [MBind [] stmt afmts args rfmts; MExecute [] 4294967295; MEmpty ESynchronize].

(** 891-931: what the scan of the messages received says *)
Inductive scan := ScReturn | ScEmpty | ScRaise | ScGoOn.
(** the noise: BindComplete and ParseComplete *)
Fixpoint scan_init (expect : Z) (l : list message) : scan :=
  match l with
  | [] => ScGoOn
  | MTuple _ :: _ => ScReturn
  | MCopyData _ :: _ => ScRaise                      (* bytes have no attribute type *)
  | m :: l =>
      match ctype m with
      | None => ScRaise
      | Some t =>
          if expect =? t then ScReturn
          else if t =? 73 then ScEmpty               (* Null *)
          else if t =? 67 then ScEmpty               (* Complete *)
          else if (t =? 50) || (t =? 49) then scan_init expect l
          else ScRaise
      end
  end.
(** 890-931: while self._xact.state != xact.Complete.  The result: None when self._xact is set
    to None (the cursor is exhausted) *)
Fixpoint init_loop (fuel : nat) (expect : Z) (s : inst) (e : list wire) : inst * list wire * fres (option inst) :=
  if complete s then (s, e, FDone (Some s))
  else match fuel with
  | O => (s, e, FNoFuel)
  | S fuel =>
      match pq_step s e with
      | (s, e, FDone _) =>
          match scan_init expect (messages_received s) with
          | ScReturn => (s, e, FDone (Some s))
          | ScRaise => (s, e, FRaise)
          | ScEmpty =>
              match pq_complete fuel s e with
              | (s, e, FDone _) => (s, e, FDone None)
              | (s, e, FRaise) => (s, e, FRaise)
              | (s, e, FBlocked) => (s, e, FBlocked)
              | (s, e, FNoFuel) => (s, e, FNoFuel)
              end
          | ScGoOn => init_loop fuel expect s e
          end
      | (s, e, FRaise) => (s, e, FRaise)
      | (s, e, FBlocked) => (s, e, FBlocked)
      | (s, e, FNoFuel) => (s, e, FNoFuel)
      end
  end.
(** a FetchAll: self._xact, and what the connection will read *)
Record fetchall := { f_x : option inst; f_in : list wire }.
(** 876-931: _init, called by the constructor *)
Definition fetch_init (fuel : nat) (expect : Z) (cmds : list message) (e : list wire) : fres fetchall :=
  match inst_init cmds with
  | Err _ => FRaise
  | Ok s =>
      match init_loop fuel expect s e with
      | (_, e, FDone x) => FDone {| f_x := x; f_in := e |}
      | (_, _, FRaise) => FRaise
      | (_, _, FBlocked) => FBlocked
      | (_, _, FNoFuel) => FNoFuel
      end
  end.

(** y.__class__ in (tuple, bytes) *)
Definition is_data (m : message) : bool := match m with MTuple _ | MCopyData _ => true | _ => false end.
(** del x.completed[0] *)
Definition del_first (s : inst) : inst :=
  {| i_cmds := i_cmds s; i_completed := tl (i_completed s); i_last := i_last s; i_prev := i_prev s; i_cur := i_cur s;
     i_state := i_state s; i_messages := i_messages s; i_tail := i_tail s; i_fatal := i_fatal s; i_error := i_error s;
     i_asyncs := i_asyncs s; i_delivered := i_delivered s; i_ready := i_ready s |}.

(** 943-947: while x.state is not Complete and not x.completed *)
Fixpoint next_loop (fuel : nat) (s : inst) (e : list wire) : inst * list wire * fres unit :=
  if complete s || negb (length (i_completed s) =? 0)%nat then (s, e, FDone tt)
  else match fuel with
  | O => (s, e, FNoFuel)
  | S fuel =>
      match pq_step s e with
      | (s, e, FDone _) => next_loop fuel s e
      | r => r
      end
  end.
(** 933-984 __next__: Some chunk, or None for StopIteration *)
Definition fetch_next (fuel : nat) (f : fetchall) : fetchall * fres (option (list message)) :=
  match f_x f with
  | None => (f, FDone None)
  | Some s =>
      match next_loop fuel s (f_in f) with
      | (s, e, FDone _) =>
          let f := {| f_x := Some s; f_in := e |} in
          if faulted s then (f, FRaise)
          else match i_completed s with
               | [] => ({| f_x := None; f_in := e |}, FDone None)
               | (_, ms) :: _ => ({| f_x := Some (del_first s); f_in := e |}, FDone (Some (filter is_data ms)))
               end
      | (s, e, FRaise) => ({| f_x := Some s; f_in := e |}, FRaise)
      | (s, e, FBlocked) => ({| f_x := Some s; f_in := e |}, FBlocked)
      | (s, e, FNoFuel) => ({| f_x := Some s; f_in := e |}, FNoFuel)
      end
  end.
(** another use of the connection, 2619-2628 _pq_push: the transaction is completed first.  An
    error of it is raised there. *)
Definition other_use (fuel : nat) (f : fetchall) : fetchall * fres unit :=
  match f_x f with
  | None => (f, FDone tt)
  | Some s => match pq_complete fuel s (f_in f) with (s, e, r) => ({| f_x := Some s; f_in := e |}, r) end
  end.
(** for x in c: r.extend(x), 1590-1594 and chain.from_iterable of rows(), 1613 *)
Fixpoint drain (fuel n : nat) (f : fetchall) (r : list message) : fres (list message) :=
  match n with
  | O => FNoFuel
  | S n =>
      match fetch_next fuel f with
      | (f, FDone (Some c)) => drain fuel n f (r ++ c)
      | (_, FDone None) => FDone r
      | (_, FRaise) => FRaise
      | (_, FBlocked) => FBlocked
      | (_, FNoFuel) => FNoFuel
      end
  end.

(** ** MultiXactStream.
    A request is the instruction that fetches the next chunk; its reply is what the completed
    transaction received: the rows (y.__class__ is tuple of messages_received()), and whether
    an error was met. *)
Record reply (R : Type) := { rp_rows : list R; rp_failed : bool }.
Arguments rp_rows {R}. Arguments rp_failed {R}.
(** self._xact as the number of the request; whether it still is database.pq.xact; the number
    of requests pushed *)
Record mstream := { m_x : option nat; m_current : bool; m_pushed : nat }.
(** 1003-1006 _init *)
Definition stream_init : mstream := {| m_x := Some O; m_current := true; m_pushed := 1 |}.
(** 1008-1032 __next__ *)
Definition stream_next {R} (chunksize : Z) (rp : nat -> reply R) (m : mstream) : mstream * fres (option (list R)) :=
  match m_x m with
  | None => (m, FDone None)
  | Some i =>
      if m_current m && rp_failed (rp i)
      then ({| m_x := Some i; m_current := false; m_pushed := m_pushed m |}, FRaise)
      else
        let chunk := rp_rows (rp i) in
        if len chunk =? chunksize
        then ({| m_x := Some (m_pushed m); m_current := true; m_pushed := S (m_pushed m) |}, FDone (Some chunk))
        else ({| m_x := None; m_current := m_current m; m_pushed := m_pushed m |},
              FDone (match chunk with [] => None | _ => Some chunk end))
  end.
(** for x in stream: r.extend(x) *)
Fixpoint stream_drain {R} (n : nat) (chunksize : Z) (rp : nat -> reply R) (m : mstream) (r : list R) : fres (list R) :=
  match n with
  | O => FNoFuel
  | S n =>
      match stream_next chunksize rp m with
      | (m, FDone (Some c)) => stream_drain n chunksize rp m (r ++ c)
      | (_, FDone None) => FDone r
      | (_, FRaise) => FRaise
      | (_, FBlocked) => FBlocked
      | (_, FNoFuel) => FNoFuel
      end
  end.
(** another use of the connection: the request in flight is completed by it, and its error raised there *)
Definition stream_other {R} (rp : nat -> reply R) (m : mstream) : mstream * fres unit :=
  match m_x m with
  | Some i => if m_current m
              then ({| m_x := Some i; m_current := false; m_pushed := m_pushed m |}, if rp_failed (rp i) then FRaise else FDone tt)
              else (m, FDone tt)
  | None => (m, FDone tt)
  end.

(** ** Statement.chunks (1616-1640) and __call__ (1565-1594): which of them *)
Inductive strategy := StCopy | StFetch | StOutside | StInside.
(** [output]: the statement returns rows; [idle]: pq.state == b'I'; [source]: the string is known *)
Definition chunks_strategy (output idle source : bool) : strategy :=
  if negb output then StCopy else if idle then if source then StOutside else StFetch else StInside.
Definition call_strategy (output : bool) : strategy := if negb output then StCopy else StFetch.
(** _expect *)
Definition expects (s : strategy) : Z := match s with StCopy => 72 | _ => 68 end.
