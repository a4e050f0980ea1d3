(** FirstModel.v: /repo/postgresql/driver/pq3.py:1641-1727, Statement.first.  The protocol
    transaction is that of InstModel.v, the connection that of FetchModel.v.
    Not modelled: the _fini() of a statement that was interrupted while it was prepared (C57), what
    was pending on the connection before (C31).  The row constructor (RowTypeFactory, C15) is left
    out: a Row is the list of its values. *)
From Verif Require Import Base PBufferModel Element3Model NegModel InstModel IterModel FetchModel.

Section First.
  Context {V : Type}.
  (** None; a Row; the value of the only column; a count; a command *)
  Inductive fval := FvNone | FvRow (l : list (option V)) | FvOne (v : V) | FvCount (n : Z) | FvCommand (c : bytes).
  (** returned; raised; raised by _pq_push or _pq_complete; waits; out of fuel *)
  Inductive fout := FoVal (v : fval) | FoRaise (e : exn) | FoServer | FoWait | FoFuel.
  (** the attributes of a prepared statement *)
  Record pstmt := {
    ps_id : bytes; ps_iformats : list bytes; ps_oformats : list bytes;
    ps_input : list (V -> res bytes);                 (* _input_io; _input has as many items *)
    ps_output : list (bytes -> res V);                (* _output_io, [] when there are no rows *)
    ps_perr : @handler; ps_cerr : @handler }.         (* _raise_parameter_tuple_error, _raise_column_tuple_error *)

  (** 1664-1674 *)
  Definition first_cmds (p : pstmt) (params : list (option bytes)) : list message :=
    [MBind [] (ps_id p) (ps_iformats p) params (ps_oformats p); MExecute [] 4294967295; MClose false []; MEmpty ESynchronize].
  (** 1687-1691: the first message whose class is tuple *)
  Fixpoint first_tuple (l : list message) : option (list (option bytes)) :=
    match l with [] => None | MTuple t :: _ => Some t | _ :: l => first_tuple l end.
  (** 1712-1719: the first message of type Complete *)
  Fixpoint first_complete (l : list message) : option bytes :=
    match l with [] => None | MComplete d :: _ => Some d | _ :: l => first_complete l end.
  (** bytes.decode('ascii') *)
  Definition ascii_decode (b : bytes) : res bytes := if forallb (fun c => c <? 128) b then Ok b else Err ValueError.
  (** 1683-1727 *)
  Definition first_result (p : pstmt) (received : list message) : fout :=
    match ps_output p with
    | [] =>
        match first_complete received with
        | None => FoVal FvNone
        | Some tag =>
            match extract_count tag with
            | Some n => FoVal (FvCount n)
            | None =>
                match extract_command tag with
                | Some c => match ascii_decode c with Ok c => FoVal (FvCommand c) | Err e => FoRaise e end
                | None => FoVal FvNone
                end
            end
        end
    | [io] =>
        match first_tuple received with
        | None => FoVal FvNone
        | Some [] => FoRaise IndexError
        | Some (None :: _) => FoVal FvNone
        | Some (Some d :: _) => match io d with Ok v => FoVal (FvOne v) | Err e => FoRaise e end
        end
    | ios =>
        match first_tuple received with
        | None => FoVal FvNone
        | Some t => match process_tuple ios t (ps_cerr p) with Ok l => FoVal (FvRow l) | Err e => FoRaise e end
        end
    end.
  (** 1641-1727; what the connection has not read, and the outcome *)
  Definition first (fuel : nat) (p : pstmt) (parameters : list (option V)) (e : list wire) : list wire * fout :=
    if negb (len parameters =? len (ps_input p)) then (e, FoRaise TypeError)
    else match process_tuple (ps_input p) parameters (ps_perr p) with
    | Err er => (e, FoRaise er)
    | Ok params =>
        match inst_init (first_cmds p params) with
        | Err er => (e, FoRaise er)
        | Ok x =>
            match pq_complete fuel x e with
            | (x, e, FDone _) => (e, first_result p (messages_received x))
            | (x, e, FRaise) => (e, FoServer)
            | (x, e, FBlocked) => (e, FoWait)
            | (x, e, FNoFuel) => (e, FoFuel)
            end
        end
    end.
End First.
Arguments fval : clear implicits.
Arguments fout : clear implicits.
Arguments pstmt : clear implicits.
