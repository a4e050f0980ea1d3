(** LcopyModel.v: /repo/postgresql/driver/pq3.py:1729-1779, Statement._load_copy_chunks: a COPY ...
    FROM STDIN fed from an iterable.  The protocol transaction is that of InstModel.v; what the
    connection reads is given as in FetchModel.v; the sending number i is taken as a whole, or
    only the first messages of it and the connection is lost.
    Not modelled: what was pending on the connection before, the closing of discarded statements,
    the synchronize() at the end (1779, see LoadModel.v), a line that is not bytes. *)
From Verif Require Import Base PBufferModel Element3Model NegModel InstModel FetchModel LoadModel.

Section Copy.
  Context (lose : nat -> option nat).
  Record cst := { k_x : inst; k_e : list wire; k_out : list (list item) }.
  Definition with_x (s : cst) (x : inst) : cst := {| k_x := x; k_e := k_e s; k_out := k_out s |}.

  (** client3.py:312-330 write_messages and the operation after it, in step() (406-441): when the
      sending fails the transaction is made fatal and complete, then its operation goes on *)
  Definition send_step (s : cst) : cst :=
    let x' := inst_sent (k_x s) in
    match lose (length (k_out s)) with
    | None => {| k_x := x'; k_e := k_e s; k_out := k_out s ++ [outgoing (k_x s)] |}
    | Some n =>
        {| k_x := match i_state x' with
                  | ISendStdin => set_state (set_error x' true (IEProto [] 0)) IComplete
                  | _ => set_error x' true (IEProto [] 0)
                  end;
           k_e := k_e s; k_out := k_out s ++ [firstn n (outgoing (k_x s))] |}
    end.
  Definition is_sending (x : inst) : bool := match i_state x with ISend | ISendStdin => true | _ => false end.
  (** client3.py:406-441 step().  None: it waits for the server *)
  Definition copy_step (s : cst) : cst * option (res unit) :=
    match i_state (k_x s) with
    | ISend | ISendStdin => (send_step s, Some (Ok tt))
    | IComplete => (s, Some (Err RuntimeError))
    | _ =>
        match k_e s with
        | [] => (s, None)
        | WLost :: e => ({| k_x := kill (k_x s); k_e := e; k_out := k_out s |}, Some (Ok tt))
        | WBatch id l :: e =>
            match inst_put (k_x s) id l with
            | (x, Ok _) => ({| k_x := x; k_e := e; k_out := k_out s |}, Some (Ok tt))
            | (x, Err er) => ({| k_x := x; k_e := e; k_out := k_out s |}, Some (Err er))
            end
        end
    end.

  (** how a call ends: returned; the exception of the iterable; an error of the server or of the
      connection; not a COPY; another exception; it waits *)
  Inductive cpres := CpDone | CpIter (e : exn) | CpServer | CpNotCopy | CpExn (e : exn) | CpWait | CpFuel.
  (** pq3.py:2626-2636 _pq_step; None: go on *)
  Definition pq_step1 (s : cst) : cst * option cpres :=
    match copy_step s with
    | (s, None) => (s, Some CpWait)
    | (s, Some (Err e)) => (s, Some (CpExn e))
    | (s, Some (Ok _)) => (s, if complete (k_x s) && faulted (k_x s) then Some CpServer else None)
    end.
  (** x.messages is x.CopyFailSequence *)
  Definition at_fail (x : inst) : bool := match i_messages x with PFail => true | _ => false end.

  (** 1752-1767: get the COPY started; None: it has *)
  Fixpoint start_copy (fuel : nat) (s : cst) : cst * option cpres :=
    if complete (k_x s) then (s, Some CpNotCopy)
    else match fuel with
    | O => (s, Some CpFuel)
    | S fuel =>
        match pq_step1 s with
        | (s, Some r) => (s, Some r)
        | (s, None) => if at_fail (k_x s) then (s, None) else start_copy fuel s
        end
    end.
  (** 1771-1776: step until the messages are sent *)
  Fixpoint send_lines (fuel : nat) (s : cst) : cst * option cpres :=
    if at_fail (k_x s) then (s, None)
    else match fuel with
    | O => (s, Some CpFuel)
    | S fuel => match pq_step1 s with (s, Some r) => (s, Some r) | (s, None) => send_lines fuel s end
    end.
  (** list(chunk) *)
  Fixpoint lines_of (c : src bytes) : res (list bytes) :=
    match c with SNil => Ok [] | SRaise e => Err e | SCons a c => do l <- lines_of c; Ok (a :: l) end.
  (** 1769-1776: the for statement *)
  Fixpoint copy_chunks (fuel : nat) (s : cst) (chunks : src (src bytes)) : cst * option cpres :=
    match chunks with
    | SNil => (s, None)
    | SRaise e => (s, Some (CpIter e))
    | SCons c chunks =>
        match lines_of c with
        | Err e => (s, Some (CpIter e))
        | Ok lines =>
            match send_lines fuel (with_x s (set_messages (k_x s) (PList (map IRaw lines)))) with
            | (s, Some r) => (s, Some r)
            | (s, None) => copy_chunks fuel s chunks
            end
        end
    end.
  (** client3.py:443-480 complete(): a failed sending or reading ends it *)
  Fixpoint finish_copy (fuel : nat) (s : cst) : cst * option cpres :=
    match i_state (k_x s) with
    | IComplete => (s, None)
    | _ =>
        match fuel with
        | O => (s, Some CpFuel)
        | S fuel =>
            match i_state (k_x s) with
            | ISend | ISendStdin =>
                match lose (length (k_out s)) with
                | None => finish_copy fuel (send_step s)
                | Some n => finish_copy fuel {| k_x := kill (k_x s); k_e := k_e s; k_out := k_out s ++ [firstn n (outgoing (k_x s))] |}
                end
            | _ =>
                match copy_step s with
                | (s, None) => (s, Some CpWait)
                | (s, Some (Ok _)) => finish_copy fuel s
                | (s, Some (Err e)) => finish_copy fuel (with_x s (kill (k_x s)))
                end
            end
        end
    end.
  (** pq3.py:2614-2623 _pq_complete *)
  Definition pq_complete1 (fuel : nat) (s : cst) : cst * cpres :=
    match finish_copy fuel s with
    | (s, Some r) => (s, r)
    | (s, None) => (s, if faulted (k_x s) then CpServer else CpDone)
    end.

  (** 1735-1747: the transaction *)
  Definition copy_cmds (stmt : bytes) : list message := [MBind [] stmt [] [] []; MExecute [] 1; MEmpty ESynchronize].
  (** 1729-1778 _load_copy_chunks *)
  Definition load_copy (fuel : nat) (stmt : bytes) (e : list wire) (chunks : src (src bytes)) : res (cst * cpres) :=
    do x <- inst_init (copy_cmds stmt);
    let s := send_step {| k_x := x; k_e := e; k_out := [] |} in        (* push() takes a step *)
    Ok (match start_copy fuel s with
        | (s, Some r) => (s, r)
        | (s, None) =>
            match copy_chunks fuel s chunks with
            | (s, Some r) => (s, r)
            | (s, None) => pq_complete1 fuel (with_x s (set_messages (k_x s) PDone))     (* 1777-1778 *)
            end
        end).
  (** pq3.py:2603-2611 _pq_push of the next operation: it completes the transaction, and raises its
      error *)
  Definition next_operation (fuel : nat) (s : cst) : cst * cpres := pq_complete1 fuel s.
End Copy.
