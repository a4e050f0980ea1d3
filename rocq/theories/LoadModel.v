(** LoadModel.v: /repo/postgresql/driver/pq3.py:1781-1846, the loading of rows with a prepared
    statement: Statement.load_rows, load_chunks and _load_tuple_chunks, with _pq_push and
    _pq_complete (2603-2624) of the connection and PQ.synchronize (client3.py:93-104).
    _load_copy_chunks is in LcopyModel.v.

    Requests are lists of protocol messages.  How a request and its answer travel, and how the
    answer makes the attributes fatal and error_message of its protocol transaction, is C25-C32;
    here a request gets an answer: done, an ERROR of the server, or the loss of the connection
    (FATAL errors included).  Not modelled: the closing of discarded statements and cursors that
    push() does in between (C57), the type resolution, a row that is not a sequence. *)
From Verif Require Import Base Element3Model IterModel.

(** a Python iterable: what next() gives, one after the other *)
Inductive src (A : Type) := SNil | SRaise (e : exn) | SCons (a : A) (s : src A).
Arguments SNil {A}. Arguments SRaise {A}. Arguments SCons {A}.

(** fatal of a completed protocol transaction: None, False, True *)
Inductive answer := AOk | AError | ALost.
(** how a call ends *)
Inductive lres := LDone | LRaise (e : exn) | LServer (a : answer) | LNever.

Section Load.
  (** the server with the network; [serve s req]: the whole request is sent *)
  Context {S : Type} (serve : S -> list message -> S * answer).

  (** the connection: pq.xact is None, or a transaction whose answer will be read as said *)
  Record conn := { c_srv : S; c_xact : option answer }.

  (** client3.py:443-480 complete(): xact becomes None unless the connection is lost *)
  Definition pq_finish (c : conn) : conn :=
    {| c_srv := c_srv c; c_xact := match c_xact c with Some ALost => Some ALost | _ => None end |}.
  (** client3.py:385-404 push() when xact is None *)
  Definition pq_send (c : conn) (req : list message) : conn :=
    let '(s, a) := serve (c_srv c) req in {| c_srv := s; c_xact := Some a |}.
  (** pq3.py:2603-2611 _pq_push *)
  Definition pq_push (c : conn) (req : list message) : conn * option answer :=
    match c_xact c with
    | Some AError => (pq_finish c, Some AError)
    | Some ALost => (pq_finish c, Some ALost)
    | _ => (pq_send (pq_finish c) req, None)
    end.
  (** pq3.py:2614-2623 _pq_complete *)
  Definition pq_complete (c : conn) : conn * option answer :=
    match c_xact c with
    | Some AError => (pq_finish c, Some AError)
    | Some ALost => (pq_finish c, Some ALost)
    | _ => (pq_finish c, None)
    end.
  (** client3.py:93-104 synchronize(): nothing is raised *)
  Definition pq_synchronize (c : conn) : conn :=
    pq_finish (pq_send (pq_finish c) [MEmpty ESynchronize]).

  (** the statement: _pq_statement_id, _input_formats, _input_io (_input has as many items) *)
  Context {V : Type}.
  Record stmt := { st_id : bytes; st_formats : list bytes; st_io : list (V -> res bytes); st_err : @handler }.

  (** 1790-1801: Bind and Execute of one row *)
  Definition row_messages (p : stmt) (row : list (option V)) : res (list message) :=
    do ps <- process_tuple (st_io p) row (st_err p);
    Ok [MBind [] (st_id p) (st_formats p) ps []; MExecute [] 1].
  (** 1789-1803: bindings, flattened (1809) *)
  Fixpoint bindings (p : stmt) (chunk : src (list (option V))) : res (list message) :=
    match chunk with
    | SNil => Ok [MEmpty ESynchronize]
    | SRaise e => Err e
    | SCons t chunk => do m <- row_messages p t; do r <- bindings p chunk; Ok (m ++ r)
    end.
  (** 1787-1814: the try block *)
  Fixpoint load_loop (p : stmt) (c : conn) (chunks : src (src (list (option V)))) : conn * lres :=
    match chunks with
    | SNil => match pq_complete c with (c, Some a) => (c, LServer a) | (c, None) => (c, LDone) end
    | SRaise e => (c, LRaise e)
    | SCons chunk chunks =>
        match bindings p chunk with
        | Err e => (c, LRaise e)
        | Ok req =>
            match pq_push c req with
            | (c, Some a) => (c, LServer a)
            | (c, None) => load_loop p c chunks
            end
        end
    end.
  (** 1781-1829 _load_tuple_chunks *)
  Definition load_tuple_chunks (p : stmt) (c : conn) (chunks : src (src (list (option V)))) : conn * lres :=
    match load_loop p c chunks with
    | (c, LDone) => (c, LDone)
    | (c, r) => (pq_synchronize c, r)
    end.
End Load.
Arguments conn : clear implicits.
Arguments stmt : clear implicits.

(** a list read by a for statement *)
Fixpoint of_list {A} (l : list A) : src A := match l with [] => SNil | x :: l => SCons x (of_list l) end.
(** itertools.py:23-39 chunk(rows, n), n > 0: the rows of the chunk under construction are in
    [acc], [k] more are wanted; an exception of the rows is an exception of the chunks *)
Fixpoint chunk_src {A} (n : nat) (acc : list A) (k : nat) (s : src A) : src (src A) :=
  match s with
  | SNil => SCons (of_list acc) SNil
  | SRaise e => SRaise e
  | SCons a s =>
      match k with
      | O | S O => SCons (of_list (acc ++ [a])) (chunk_src n [] n s)
      | S k => chunk_src n (acc ++ [a]) k s
      end
  end.
(** 1845-1846 load_rows of a statement with parameters: load_chunks(chunk(rows, chunksize)).
    With a chunk size of 0 the empty chunks go on forever (C46). *)
Definition load_rows {S V} (serve : S -> list message -> S * answer) (p : stmt V) (c : conn S)
    (rows : src (list (option V))) (chunksize : Z) : conn S * lres :=
  if chunksize <? 0 then load_tuple_chunks serve p c (SRaise ValueError)
  else if chunksize =? 0 then (c, LNever)
  else load_tuple_chunks serve p c (chunk_src (Z.to_nat chunksize) [] (Z.to_nat chunksize) rows).

(** 1838-1843 load_chunks: is it the COPY path *)
Definition copy_path (parameters_of_statement parameters_given : nat) : bool :=
  ((parameters_of_statement =? 0)%nat || negb (parameters_given =? 0)%nat).
