(** ConnModel.v: /repo/postgresql/protocol/client3.py, class Connection: reading, writing,
    push, step, complete, synchronize and the closing of garbage.  The transactions are the
    Instructions of InstModel.v, the message buffer is that of PBufferModel.v.  The model
    starts where connect() has succeeded.  Not modelled: tracing (75-90, 333-363), interrupt
    (106-112), __str__, the messages of the errors.

    The socket is given by what send() and recv() will do, one outcome per call.  When no
    outcome is left the call is interrupted (KeyboardInterrupt while waiting): the exception
    is none of those caught and it leaves the connection as it is.  An interruption between
    the return of send()/recv() and the assignment of its result is not modelled. *)
From Verif Require Import Base PBufferModel Element3Model NegModel InstModel.

(** python/socket.py:23-48: a socket error is fatal when it has a message and is not one to try again *)
Inductive sout := SAccept (n : nat) | SFatal | SAgain | SError.
Inductive rout := RData (d : bytes) | REof | RFatal | RAgain | RError.
(** what ends a call *)
Inductive cexn := XAgain | XSocket | XInterrupt | XProto (e : exn).
Inductive cres (A : Type) := CRet (a : A) | CExn (e : cexn).
Arguments CRet {A}. Arguments CExn {A}.

(** a messages object: its identity and its contents.  (The empty tuple is one object in
    CPython; here each assignment of one is a new object.  It serialises to nothing, so being
    written once or twice is the same.) *)
Definition mobj : Type := Z * list item.

(** records of what happened (not read by the code): what a transaction sent and took *)
Inductive cev := EOut (l : list item) | EIn (l : list wmsg).
(** who made it: the user, take_out_trash(), synchronize() *)
Inductive who := WUser | WTrash | WSync.
Record tlog := {
  t_who : who; t_inst : inst; t_evs : list cev;
  t_tail : list (list item);            (* messages handed to the socket, not acknowledged by the transaction *)
  t_bad : bool; t_down : bool }.

Record conn := {
  c_xact : option inst;                 (* xact; x.messages has the identity c_mid *)
  c_mid : Z;
  c_down : bool;                        (* x.fatal was set to True by the connection *)
  c_over : bool;                        (* x.state was set to Complete by the connection *)
  c_curs : list bytes; c_stms : list bytes;   (* garbage_cursors, garbage_statements *)
  c_buf : pbuf;                         (* message_buffer *)
  c_rdata : option bytes;               (* read_data *)
  c_read : Z * list wmsg;               (* read, with its identity *)
  c_data : bytes;                       (* message_data *)
  c_writing : option mobj; c_written : option Z;  (* written: its identity is enough *)
  c_next : Z;                           (* identities from here on are not in use *)
  c_sends : list sout; c_recvs : list rout;   (* what the socket will do *)
  (* observed, not read by the code: *)
  c_wire : bytes;                       (* bytes taken by send() *)
  c_in : bytes;                         (* bytes given by recv() *)
  c_tr : list cev;                      (* what the transaction sent and took *)
  c_bad : bool;                         (* the transaction raised an exception while taking messages *)
  c_who : who;                          (* who made it *)
  c_done : list tlog }.                 (* the former transactions *)

(** 523-560 __init__; identity 0 is the empty tuple *)
Definition conn_init (sends : list sout) (recvs : list rout) : conn :=
  {| c_xact := None; c_mid := 0; c_down := false; c_over := false; c_curs := []; c_stms := []; c_buf := pb_init; c_rdata := None;
     c_read := (0, []); c_data := []; c_writing := None; c_written := None; c_next := 1; c_sends := sends; c_recvs := recvs;
     c_wire := []; c_in := []; c_tr := []; c_bad := false; c_who := WUser; c_done := [] |}.

(** assignments *)
Definition with_out (c : conn) (data : bytes) (w : option mobj) (wr : option Z) (ss : list sout) (wire : bytes) : conn :=
  {| c_xact := c_xact c; c_mid := c_mid c; c_down := c_down c; c_over := c_over c; c_curs := c_curs c; c_stms := c_stms c;
     c_buf := c_buf c; c_rdata := c_rdata c; c_read := c_read c; c_data := data; c_writing := w; c_written := wr;
     c_next := c_next c; c_sends := ss; c_recvs := c_recvs c; c_wire := wire; c_in := c_in c; c_tr := c_tr c; c_bad := c_bad c; c_who := c_who c; c_done := c_done c |}.
Definition with_in (c : conn) (b : pbuf) (rd : option bytes) (rr : list rout) (input : bytes) : conn :=
  {| c_xact := c_xact c; c_mid := c_mid c; c_down := c_down c; c_over := c_over c; c_curs := c_curs c; c_stms := c_stms c;
     c_buf := b; c_rdata := rd; c_read := c_read c; c_data := c_data c; c_writing := c_writing c; c_written := c_written c;
     c_next := c_next c; c_sends := c_sends c; c_recvs := rr; c_wire := c_wire c; c_in := input; c_tr := c_tr c; c_bad := c_bad c; c_who := c_who c; c_done := c_done c |}.
(** a new object is assigned to self.read *)
Definition with_read (c : conn) (l : list wmsg) : conn :=
  {| c_xact := c_xact c; c_mid := c_mid c; c_down := c_down c; c_over := c_over c; c_curs := c_curs c; c_stms := c_stms c;
     c_buf := c_buf c; c_rdata := c_rdata c; c_read := (c_next c, l); c_data := c_data c; c_writing := c_writing c; c_written := c_written c;
     c_next := c_next c + 1; c_sends := c_sends c; c_recvs := c_recvs c; c_wire := c_wire c; c_in := c_in c; c_tr := c_tr c; c_bad := c_bad c; c_who := c_who c; c_done := c_done c |}.
(** the transaction made a transition; [fresh]: it has a new messages object *)
Definition with_xact (c : conn) (x : inst) (fresh : bool) (e : list cev) : conn :=
  {| c_xact := Some x; c_mid := if fresh then c_next c else c_mid c; c_down := c_down c; c_over := c_over c; c_curs := c_curs c; c_stms := c_stms c;
     c_buf := c_buf c; c_rdata := c_rdata c; c_read := c_read c; c_data := c_data c; c_writing := c_writing c; c_written := c_written c;
     c_next := if fresh then c_next c + 1 else c_next c; c_sends := c_sends c; c_recvs := c_recvs c; c_wire := c_wire c; c_in := c_in c;
     c_tr := c_tr c ++ e; c_bad := c_bad c; c_who := c_who c; c_done := c_done c |}.
Definition with_bad (c : conn) : conn :=
  {| c_xact := c_xact c; c_mid := c_mid c; c_down := c_down c; c_over := c_over c; c_curs := c_curs c; c_stms := c_stms c;
     c_buf := c_buf c; c_rdata := c_rdata c; c_read := c_read c; c_data := c_data c; c_writing := c_writing c; c_written := c_written c;
     c_next := c_next c; c_sends := c_sends c; c_recvs := c_recvs c; c_wire := c_wire c; c_in := c_in c; c_tr := c_tr c; c_bad := true; c_who := c_who c; c_done := c_done c |}.
(** x.fatal = True; x.state = Complete (then [over]) or what its own operation made of it *)
Definition with_down (c : conn) (over : bool) : conn :=
  {| c_xact := c_xact c; c_mid := c_mid c; c_down := true; c_over := over; c_curs := c_curs c; c_stms := c_stms c;
     c_buf := c_buf c; c_rdata := c_rdata c; c_read := c_read c; c_data := c_data c; c_writing := c_writing c; c_written := c_written c;
     c_next := c_next c; c_sends := c_sends c; c_recvs := c_recvs c; c_wire := c_wire c; c_in := c_in c; c_tr := c_tr c; c_bad := c_bad c; c_who := c_who c; c_done := c_done c |}.
Definition with_trash (c : conn) (cs ss : list bytes) : conn :=
  {| c_xact := c_xact c; c_mid := c_mid c; c_down := c_down c; c_over := c_over c; c_curs := cs; c_stms := ss;
     c_buf := c_buf c; c_rdata := c_rdata c; c_read := c_read c; c_data := c_data c; c_writing := c_writing c; c_written := c_written c;
     c_next := c_next c; c_sends := c_sends c; c_recvs := c_recvs c; c_wire := c_wire c; c_in := c_in c; c_tr := c_tr c; c_bad := c_bad c; c_who := c_who c; c_done := c_done c |}.
(** the messages of the transaction are those being written and they have been serialised *)
Definition handed (c : conn) : bool :=
  match c_writing c, c_written c with
  | Some (w, _), Some v => (w =? v) && (w =? c_mid c)
  | _, _ => false
  end.
(** self.xact = x (or None), what was there is recorded *)
Definition record (c : conn) : list tlog :=
  match c_xact c with
  | None => c_done c
  | Some x => c_done c ++ [{| t_who := c_who c; t_inst := x; t_evs := c_tr c; t_tail := if handed c then [outgoing x] else []; t_bad := c_bad c; t_down := c_down c |}]
  end.
Definition set_xact (c : conn) (x : option inst) (w : who) : conn :=
  {| c_xact := x; c_mid := c_next c; c_down := false; c_over := false; c_curs := c_curs c; c_stms := c_stms c;
     c_buf := c_buf c; c_rdata := c_rdata c; c_read := c_read c; c_data := c_data c; c_writing := c_writing c; c_written := c_written c;
     c_next := c_next c + 1; c_sends := c_sends c; c_recvs := c_recvs c; c_wire := c_wire c; c_in := c_in c; c_tr := []; c_bad := false; c_who := w; c_done := record c |}.

(** x.state *)
Definition x_state (c : conn) (x : inst) : istate := if c_over c then IComplete else i_state x.
(** x.fatal is True.  (Simplified: when the sending of a step failed, an error response taken
    afterwards would replace the flag.) *)
Definition x_fatal (c : conn) (x : inst) : bool := c_down c || match i_fatal x with Some true => true | _ => false end.

(** 284-297 send_message_data: the loop *)
Fixpoint send_loop (data : bytes) (ss : list sout) (wire : bytes) : bytes * list sout * bytes * cres bool :=
  match data with
  | [] => ([], ss, wire, CRet true)
  | _ :: _ =>
      match ss with
      | [] => (data, [], wire, CExn XInterrupt)
      | SAccept n :: ss => send_loop (skipn n data) ss (wire ++ firstn n data)
      | SFatal :: ss => (data, ss, wire, CRet false)
      | SAgain :: ss => (data, ss, wire, CExn XAgain)
      | SError :: ss => (data, ss, wire, CExn XSocket)
      end
  end.
(** CRet false: the transaction is to be marked as fatal and complete, 298-313 *)
Definition send_message_data (c : conn) : conn * cres bool :=
  let '(data, ss, wire, r) := send_loop (c_data c) (c_sends c) (c_wire c) in
  (with_out c data (c_writing c) (c_written c) ss wire, r).
(** 316-330 standard_write_messages *)
Definition same_obj (a : option mobj) (b : option Z) : bool :=
  match a, b with None, None => true | Some (i, _), Some j => i =? j | _, _ => false end.
Definition write_messages (c : conn) (m : mobj) : conn * cres bool :=
  let r1 := if same_obj (c_writing c) (c_written c) then Ok c
            else match c_writing c with
                 | Some (i, l) => bind (cat_messages l) (fun b => Ok (with_out c (c_data c ++ b) (c_writing c) (Some i) (c_sends c) (c_wire c)))
                 | None => Err TypeError
                 end in
  match r1 with
  | Err e => (c, CExn (XProto e))
  | Ok c =>
      if same_obj (c_writing c) (Some (fst m)) then send_message_data c
      else
        let c := with_out c (c_data c) (Some m) (c_written c) (c_sends c) (c_wire c) in
        match cat_messages (snd m) with
        | Err e => (c, CExn (XProto e))
        | Ok b => send_message_data (with_out c (c_data c ++ b) (Some m) (Some (fst m)) (c_sends c) (c_wire c))
        end
  end.

(** 224-269 read_into: the loop, when read_data is None *)
Fixpoint recv_loop (b : pbuf) (rr : list rout) (input : bytes) : pbuf * option bytes * list rout * bytes * cres bool :=
  match pb_has_message b with
  | (Err e, b) => (b, None, rr, input, CExn (XProto e))
  | (Ok true, b) => (b, None, rr, input, CRet true)
  | (Ok false, b) =>
      match rr with
      | [] => (b, None, [], input, CExn XInterrupt)
      | RData d :: rr =>
          match d with
          | [] => (b, Some [], rr, input, CRet false)                (* 258-264 *)
          | _ => recv_loop (pb_write d b) rr (input ++ d)            (* 268 *)
          end
      | REof :: rr => (b, Some [], rr, input, CRet false)
      | RFatal :: rr => (b, None, rr, input, CRet false)             (* 240-251 *)
      | RAgain :: rr => (b, None, rr, input, CExn XAgain)
      | RError :: rr => (b, None, rr, input, CExn XSocket)
      end
  end.
Definition read_into (c : conn) : conn * cres bool :=
  match pb_has_message (c_buf c) with
  | (Err e, b) => (with_in c b (c_rdata c) (c_recvs c) (c_in c), CExn (XProto e))
  | (Ok true, b) => (with_in c b (c_rdata c) (c_recvs c) (c_in c), CRet true)
  | (Ok false, b) =>
      let b := match c_rdata c with Some d => pb_write d b | None => b end in      (* 233-238 *)
      let '(b, rd, rr, input, r) := recv_loop b (c_recvs c) (c_in c) in
      (with_in c b rd rr input, r)
  end.
(** 271-281 standard_read_messages; 0xFFFFFFFF messages at most.  CRet false: as for sending *)
Definition read_messages (c : conn) : conn * cres bool :=
  match snd (c_read c) with
  | _ :: _ => (c, CRet true)
  | [] =>
      match read_into c with
      | (c, CExn e) => (c, CExn e)
      | (c, CRet r) =>
          match pb_read 4294967295 (c_buf c) with
          | (Err e, b) => (with_in c b (c_rdata c) (c_recvs c) (c_in c), CExn (XProto e))
          | (Ok l, b) => (with_read (with_in c b (c_rdata c) (c_recvs c) (c_in c)) l, CRet r)
          end
      end
  end.
(** self.read = self.read[op(self.read):] *)
Definition take_messages (c : conn) (x : inst) : conn * cres unit :=
  match inst_put x (fst (c_read c)) (snd (c_read c)) with
  | (x', Ok n) => (with_read (with_xact c x' false [EIn (firstn (Z.to_nat n) (snd (c_read c)))]) (skipn (Z.to_nat n) (snd (c_read c))), CRet tt)
  | (x', Err e) => (with_bad (with_xact c x' false []), CExn (XProto e))
  end.
(** state[1]() *)
Definition sent (c : conn) (x : inst) : conn := with_xact c (inst_sent x) true [EOut (outgoing x)].

(** 406-441 step; the state attribute of the connection is not modelled *)
Definition is_complete (s : istate) : bool := match s with IComplete => true | _ => false end.
Definition finish_step (c : conn) : conn :=
  match c_xact c with
  | Some x => if is_complete (x_state c x) && negb (x_fatal c x) then set_xact c None WUser else c
  | None => c
  end.
Definition step (c : conn) : conn * cres unit :=
  match c_xact c with
  | None => (c, CExn (XProto AttributeError))
  | Some x =>
      match x_state c x with
      | IComplete => (c, CExn (XProto RuntimeError))                     (* 425-428 *)
      | ISend | ISendStdin =>
          match write_messages c (c_mid c, outgoing x) with
          | (c, CExn XAgain) => (c, CRet tt)
          | (c, CExn e) => (c, CExn e)
          | (c, CRet true) => (finish_step (sent c x), CRet tt)
          | (c, CRet false) => (finish_step (with_down (sent c x) false), CRet tt)   (* op() replaces the state *)
          end
      | IPut | IPutCopy | IPutTuple =>
          match read_messages c with
          | (c, CExn XAgain) => (c, CRet tt)
          | (c, CExn e) => (c, CExn e)
          | (c, CRet r) =>
              match take_messages (if r then c else with_down c true) x with
              | (c, CExn e) => (c, CExn e)
              | (c, CRet _) => (finish_step c, CRet tt)
              end
          end
      end
  end.

(** 443-485 complete; [fuel] bounds the number of turns, more are an interruption *)
Definition complete1 (c : conn) (x : inst) : conn * cres unit :=
  match x_state c x with
  | IComplete => (c, CRet tt)
  | ISend | ISendStdin =>
      match write_messages c (c_mid c, outgoing x) with
      | (c, CExn e) => (c, CExn e)
      | (c, CRet true) => (sent c x, CRet tt)
      | (c, CRet false) => (with_down c true, CRet tt)
      end
  | IPut | IPutCopy | IPutTuple =>
      match read_messages c with
      | (c, CExn e) => (c, CExn e)
      | (c, CRet true) => take_messages c x
      | (c, CRet false) => (with_down c true, CRet tt)
      end
  end.
Fixpoint complete_loop (fuel : nat) (c : conn) : conn * cres unit :=
  match c_xact c with
  | None => (c, CExn (XProto AttributeError))
  | Some x =>
      match x_state c x with
      | IComplete => (finish_step c, CRet tt)
      | _ =>
          match fuel with
          | O => (c, CExn XInterrupt)
          | S n =>
              match complete1 c x with
              | (c, CRet _) => complete_loop n c
              | (c, CExn XAgain) => complete_loop n c
              | (c, CExn (XProto _)) => (with_down c true, CRet tt)       (* 470-479 *)
              | (c, CExn e) => (c, CExn e)
              end
          end
      end
  end.

(** 93-104 synchronize *)
Definition sync_cmds : list message := [MEmpty ESynchronize].
Definition synchronize (fuel : nat) (c : conn) : conn * cres unit :=
  match (match c_xact c with None => (c, CRet tt) | Some _ => complete_loop fuel c end) with
  | (c, CExn e) => (c, CExn e)
  | (c, CRet _) =>
      match inst_init sync_cmds with
      | Ok x => complete_loop fuel (set_xact c (Some x) WSync)
      | Err e => (c, CExn (XProto e))
      end
  end.
(** 365-383 take_out_trash.  Cursors and statements can be trashed at any time: [a1] while
    the first loop runs (it sees the cursors appended), [a2] during the second, [a3] after
    it and before the two deletions.  (Those which come later are as if they came between two calls.) *)
Definition arrivals : Type := list bytes * list bytes.
Definition take_out_trash (fuel : nat) (c : conn) (a1 a2 a3 : arrivals) : conn * cres unit :=
  let cursors := c_curs c ++ fst a1 in
  let statements := c_stms c ++ snd a1 ++ snd a2 in
  let xm := map (MClose false) cursors ++ map (MClose true) statements ++ [MEmpty ESynchronize] in
  match inst_init xm with
  | Err e => (with_trash c (cursors ++ fst a2 ++ fst a3) (statements ++ snd a3), CExn (XProto e))
  | Ok x =>
      let c := set_xact c (Some x) WTrash in
      let c := with_trash c (skipn (length cursors) (cursors ++ fst a2 ++ fst a3))
                            (skipn (length statements) (statements ++ snd a3)) in
      complete_loop fuel c
  end.
(** 385-404 push *)
Definition arrive (c : conn) (a1 a2 a3 : arrivals) : conn :=
  with_trash c (c_curs c ++ fst a1 ++ fst a2 ++ fst a3) (c_stms c ++ snd a1 ++ snd a2 ++ snd a3).
Definition nonempty {A} (l : list A) : bool := match l with [] => false | _ => true end.
Definition push (fuel : nat) (c : conn) (cmds : list message) (a1 a2 a3 : arrivals) : conn * cres unit :=
  match inst_init cmds with
  | Err e => (arrive c a1 a2 a3, CExn (XProto e))
  | Ok x =>
  match (match c_xact c with None => (c, CRet tt) | Some _ => complete_loop fuel c end) with
  | (c, CExn e) => (arrive c a1 a2 a3, CExn e)
  | (c, CRet _) =>
      match c_xact c with
      | Some _ => (arrive c a1 a2 a3, CRet tt)
      | None =>
          match (if nonempty (c_stms c) || nonempty (c_curs c) then take_out_trash fuel c a1 a2 a3 else (arrive c a1 a2 a3, CRet tt)) with
          | (c, CExn e) => (c, CExn e)
          | (c, CRet _) =>
              match c_xact c with
              | Some _ => (c, CRet tt)
              | None => step (set_xact c (Some x) WUser)
              end
          end
      end
  end
  end.

(** what the user of the connection does.  OCopy/OCopyDone: pq3.py:1768-1778, the messages of
    a COPY are replaced when the transaction is at CopyFailSequence and has not begun to send it *)
Inductive cop :=
| OPush (fuel : nat) (cmds : list message) (a1 a2 a3 : arrivals)
| OStep | OComplete (fuel : nat) | OSync (fuel : nat)
| OTrash (a : arrivals)                                                   (* 487-507 trash_cursor, trash_statement *)
| OCopy (lines : list bytes) | OCopyDone.
Definition copy_messages (c : conn) (p : pending) : conn :=
  match c_xact c with
  | Some x =>
      match x_state c x, i_messages x with
      | ISendStdin, PFail => if handed c || negb (same_obj (c_writing c) (c_written c)) then c else with_xact c (set_messages x p) true []
      | _, _ => c
      end
  | None => c
  end.
Definition cstep (c : conn) (o : cop) : conn * cres unit :=
  match o with
  | OPush fuel cmds a1 a2 a3 => push fuel c cmds a1 a2 a3
  | OStep => step c
  | OComplete fuel => complete_loop fuel c
  | OSync fuel => synchronize fuel c
  | OTrash a => (with_trash c (c_curs c ++ fst a) (c_stms c ++ snd a), CRet tt)
  | OCopy lines => (copy_messages c (PList (map IRaw lines)), CRet tt)
  | OCopyDone => (copy_messages c PDone, CRet tt)
  end.
Fixpoint crun (c : conn) (ops : list cop) : conn :=
  match ops with [] => c | o :: r => crun (fst (cstep c o)) r end.
