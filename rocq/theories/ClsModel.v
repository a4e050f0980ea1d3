(** ClsModel.v: /repo/postgresql/driver/pq3.py:2362-2445 (closed, close, state, connect of the
    driver's Connection), 2603-2636 (_pq_push, _pq_complete, _pq_step) and
    /repo/postgresql/protocol/xact3.py:57-83 (Closing), over the protocol connection of
    ConnModel.v.  What _establish does until self.pq is assigned is modelled in SslModel.v and
    is here an outcome; the queries it makes afterwards (2561-2601) are operations like any
    other, and when one raises, connect() calls close() (2440-2444).  Not modelled: the fileno
    attribute, the texts of the errors. *)
From Verif Require Import Base PyStr PBufferModel Element3Model NegModel InstModel ConnModel.

(** xact3.py:57-83 Closing: messages (its identity), and whether sent() was called or its
    sending failed: state is Complete and fatal is True *)
Record closing := { k_id : Z; k_over : bool }.
Definition disconnect : list item := [IMsg (MEmpty EDisconnect)].

(** the protocol connection: xact is [p_closing] when there is one, otherwise c_xact of
    [p_conn]; [p_sock]: socket is not None *)
Record pq := { p_conn : conn; p_closing : option closing; p_sock : bool }.
Definition with_conn (p : pq) (c : conn) : pq := {| p_conn := c; p_closing := p_closing p; p_sock := p_sock p |}.

(** the driver's attribute pq: none, None, or a protocol connection *)
Inductive pqattr := PqAbsent | PqNone | PqIs (p : pq).
(** hasattr(self, 'failures'); and, not read by the code, how often socket.close() was called *)
Record drv := { v_pq : pqattr; v_failures : bool; v_closes : nat }.
Definition drv_init : drv := {| v_pq := PqAbsent; v_failures := false; v_closes := 0 |}.
Definition set_pq (v : drv) (p : pq) : drv := {| v_pq := PqIs p; v_failures := v_failures v; v_closes := v_closes v |}.

(** what an operation ends with: it returns, it raises the error of the protocol transaction
    (of an Instruction or of Closing), another exception *)
Inductive vres := VRet | VRaise | VExn (e : cexn) | VFailed | VAttribute.

(** *** the protocol connection once its socket is None *)
(** client3.py:288: self.socket.send *)
Definition no_write (c : conn) (m : mobj) : conn * cres bool :=
  match write_messages (with_out c (c_data c) (c_writing c) (c_written c) [] (c_wire c)) m with
  | (c', CExn (XProto e)) => (with_out c' (c_data c') (c_writing c') (c_written c') (c_sends c) (c_wire c'), CExn (XProto e))
  | (c', _) => (with_out c' (c_data c') (c_writing c') (c_written c') (c_sends c) (c_wire c'), CExn (XProto AttributeError))
  end.
(** client3.py:230: self.socket.recv, when there is nothing left of what was read *)
Definition no_read (c : conn) : conn * cres bool :=
  match snd (c_read c) with
  | _ :: _ => (c, CRet true)
  | [] => (c, CExn (XProto AttributeError))
  end.
(** client3.py:406-485 step and complete as in ConnModel.v, with the reading and writing that
    the socket allows *)
Section Sock.
Variable sock : bool.
Definition wr (c : conn) (m : mobj) := if sock then write_messages c m else no_write c m.
Definition rd (c : conn) := if sock then read_messages c else no_read c.
Definition step_s (c : conn) : conn * cres unit :=
  match c_xact c with
  | None => (c, CExn (XProto AttributeError))
  | Some x =>
      match x_state c x with
      | IComplete => (c, CExn (XProto RuntimeError))
      | ISend | ISendStdin =>
          match wr c (c_mid c, outgoing x) with
          | (c, CExn XAgain) => (c, CRet tt)
          | (c, CExn e) => (c, CExn e)
          | (c, CRet true) => (finish_step (sent c x), CRet tt)
          | (c, CRet false) => (finish_step (with_down (sent c x) false), CRet tt)
          end
      | IPut | IPutCopy | IPutTuple =>
          match rd c with
          | (c, CExn XAgain) => (c, CRet tt)
          | (c, CExn e) => (c, CExn e)
          | (c, CRet r) =>
              match take_messages (if r then c else with_down c true) x with
              | (c, CExn e) => (c, CExn e)
              | (c, CRet _) => (finish_step c, CRet tt)
              end
          end
      end
  end.
Definition complete1_s (c : conn) (x : inst) : conn * cres unit :=
  match x_state c x with
  | IComplete => (c, CRet tt)
  | ISend | ISendStdin =>
      match wr c (c_mid c, outgoing x) with
      | (c, CExn e) => (c, CExn e)
      | (c, CRet true) => (sent c x, CRet tt)
      | (c, CRet false) => (with_down c true, CRet tt)
      end
  | IPut | IPutCopy | IPutTuple =>
      match rd c with
      | (c, CExn e) => (c, CExn e)
      | (c, CRet true) => take_messages c x
      | (c, CRet false) => (with_down c true, CRet tt)
      end
  end.
Fixpoint complete_s (fuel : nat) (c : conn) : conn * cres unit :=
  match c_xact c with
  | None => (c, CExn (XProto AttributeError))
  | Some x =>
      match x_state c x with
      | IComplete => (finish_step c, CRet tt)
      | _ =>
          match fuel with
          | O => (c, CExn XInterrupt)
          | S n =>
              match complete1_s c x with
              | (c, CRet _) => complete_s n c
              | (c, CExn XAgain) => complete_s n c
              | (c, CExn (XProto _)) => (with_down c true, CRet tt)
              | (c, CExn e) => (c, CExn e)
              end
          end
      end
  end.
(** client3.py:365-383 *)
Definition trash_s (fuel : nat) (c : conn) (a1 a2 a3 : arrivals) : conn * cres unit :=
  let cursors := c_curs c ++ fst a1 in
  let statements := c_stms c ++ snd a1 ++ snd a2 in
  let xm := map (MClose false) cursors ++ map (MClose true) statements ++ [MEmpty ESynchronize] in
  match inst_init xm with
  | Err e => (with_trash c (cursors ++ fst a2 ++ fst a3) (statements ++ snd a3), CExn (XProto e))
  | Ok x =>
      let c := set_xact c (Some x) WTrash in
      let c := with_trash c (skipn (length cursors) (cursors ++ fst a2 ++ fst a3))
                            (skipn (length statements) (statements ++ snd a3)) in
      complete_s fuel c
  end.

(** client3.py:406-441 step of a Closing *)
Definition closing_step (c : conn) (k : closing) : conn * closing * cres unit :=
  if k_over k then (c, k, CExn (XProto RuntimeError))
  else match wr c (k_id k, disconnect) with
       | (c, CExn XAgain) => (c, k, CRet tt)
       | (c, CExn e) => (c, k, CExn e)
       | (c, CRet _) => (c, {| k_id := k_id k; k_over := true |}, CRet tt)
       end.
(** client3.py:443-485 complete of a Closing *)
Fixpoint closing_complete (fuel : nat) (c : conn) (k : closing) : conn * closing * cres unit :=
  if k_over k then (c, k, CRet tt)
  else match fuel with
  | O => (c, k, CExn XInterrupt)
  | S n =>
      match wr c (k_id k, disconnect) with
      | (c, CRet _) | (c, CExn (XProto _)) => closing_complete n c {| k_id := k_id k; k_over := true |}
      | (c, CExn XAgain) => closing_complete n c k
      | (c, CExn e) => (c, k, CExn e)
      end
  end.
End Sock.

(** pq.xact is None *)
Definition idle (p : pq) : bool :=
  match p_closing p, c_xact (p_conn p) with None, None => true | _, _ => false end.
(** pq.xact is not None and pq.xact.fatal is True *)
Definition lost (p : pq) : bool :=
  match p_closing p with
  | Some k => k_over k
  | None => match c_xact (p_conn p) with Some x => x_fatal (p_conn p) x | None => false end
  end.
Definition with_k (p : pq) (ck : conn * closing * cres unit) : pq * cres unit :=
  let '(c, k, r) := ck in ({| p_conn := c; p_closing := Some k; p_sock := p_sock p |}, r).
Definition with_c (p : pq) (cr : conn * cres unit) : pq * cres unit := (with_conn p (fst cr), snd cr).
(** pq.complete(), pq.step() *)
Definition pq_complete (fuel : nat) (p : pq) : pq * cres unit :=
  match p_closing p with
  | Some k => with_k p (closing_complete (p_sock p) fuel (p_conn p) k)
  | None => with_c p (complete_s (p_sock p) fuel (p_conn p))
  end.
Definition pq_step (p : pq) : pq * cres unit :=
  match p_closing p with
  | Some k => with_k p (closing_step (p_sock p) (p_conn p) k)
  | None => with_c p (step_s (p_sock p) (p_conn p))
  end.
(** client3.py:385-404 push; [start] assigns the transaction and takes the first step *)
Definition pq_push (fuel : nat) (p : pq) (a1 a2 a3 : arrivals) (start : pq -> pq * cres unit) : pq * cres unit :=
  match (if idle p then (p, CRet tt) else pq_complete fuel p) with
  | (p, CExn e) => (with_conn p (arrive (p_conn p) a1 a2 a3), CExn e)
  | (p, CRet _) =>
      if idle p then
        let c := p_conn p in
        match (if nonempty (c_stms c) || nonempty (c_curs c) then trash_s (p_sock p) fuel c a1 a2 a3 else (arrive c a1 a2 a3, CRet tt)) with
        | (c, CExn e) => (with_conn p c, CExn e)
        | (c, CRet _) => if idle (with_conn p c) then start (with_conn p c) else (with_conn p c, CRet tt)
        end
      else (with_conn p (arrive (p_conn p) a1 a2 a3), CRet tt)
  end.
Definition start_inst (x : inst) (p : pq) : pq * cres unit :=
  pq_step (with_conn p (set_xact (p_conn p) (Some x) WUser)).
Definition start_closing (p : pq) : pq * cres unit :=
  pq_step {| p_conn := set_xact (p_conn p) None WUser; p_closing := Some {| k_id := c_next (p_conn p); k_over := false |}; p_sock := p_sock p |}.
(** client3.py:93-104 synchronize: whatever the transaction became, it is replaced *)
Definition pq_sync (fuel : nat) (p : pq) : pq * cres unit :=
  match (if idle p then (p, CRet tt) else pq_complete fuel p) with
  | (p, CExn e) => (p, CExn e)
  | (p, CRet _) =>
      match inst_init sync_cmds with
      | Ok x => pq_complete fuel {| p_conn := set_xact (p_conn p) (Some x) WSync; p_closing := None; p_sock := p_sock p |}
      | Err e => (p, CExn (XProto e))
      end
  end.

(** the fatal attribute of the transaction that was running is not None, now that it was
    completed: it is still there, or it is the last one that ended *)
Definition faulted (p : pq) : bool :=
  if idle p then match rev (c_done (p_conn p)) with t :: _ => match i_fatal (t_inst t) with Some _ => true | None => false end | [] => false end
  else true.
Definition finish (v : drv) (p : pq) (r : cres unit) : drv * vres :=
  (set_pq v p, match r with CRet _ => VRet | CExn e => VExn e end).

(** what is done with a Connection of the driver *)
Inductive vop :=
| VConnect (o : option (list sout * list rout)) (failures : bool)
    (* the outcome of _establish: a connection; or not, with the attribute failures (2563-2567) or another exception *)
| VPush (fuel : nat) (cmds : list message) (a1 a2 a3 : arrivals)     (* _pq_push, 2603-2611 *)
| VComplete (fuel : nat)                                             (* _pq_complete, 2614-2623 *)
| VStep                                                              (* _pq_step, 2626-2636 *)
| VTrash (a : arrivals)                                              (* cursors and statements given up *)
| VCopy (lines : list bytes) | VCopyDone                             (* 1768-1778 *)
| VSync (fuel : nat)                                                 (* 1779, 1826: pq.synchronize() *)
| VClose (fuel : nat) (a1 a2 a3 : arrivals).                         (* close, also __exit__ *)

(** 2363-2369 closed *)
Definition is_closed (v : drv) : bool :=
  match v_pq v with PqIs p => lost p | _ => true end.

(** 2371-2395 close *)
Definition shut (v : drv) (p : pq) : drv :=
  {| v_pq := PqIs {| p_conn := p_conn p; p_closing := p_closing p; p_sock := false |}; v_failures := v_failures v; v_closes := S (v_closes v) |}.
Definition close (fuel : nat) (a1 a2 a3 : arrivals) (v : drv) : drv * vres :=
  match v_pq v with
  | PqIs p =>
      if p_sock p then
        match (if negb (idle p) && negb (lost p) then pq_complete fuel p else (p, CRet tt)) with
        | (p, CExn e) => (set_pq v p, VExn e)
        | (p, CRet _) =>
            match (if idle p then
                     match pq_push fuel p a1 a2 a3 start_closing with
                     | (p, CExn e) => (p, CExn e)
                     | (p, CRet _) =>
                         match pq_complete fuel p with
                         | (p, CExn e) => (p, CExn e)
                         | (p, CRet _) => pq_complete fuel p                 (* 2389-2390 *)
                         end
                     end
                   else (p, CRet tt)) with
            | (p, CExn e) => (set_pq v p, VExn e)
            | (p, CRet _) => (shut v p, VRet)
            end
        end
      else (v, VRet)
  | _ => (v, VRet)
  end.

(** 2426-2444 connect *)
Definition connect (o : option (list sout * list rout)) (failures : bool) (v : drv) : drv * vres :=
  if is_closed v then
    match v_pq v with
    | PqNone => (v, VAttribute)                                    (* self.pq.xact *)
    | PqIs _ => (v, VRaise)
    | PqAbsent =>
        match o with
        | Some (sends, recvs) => (set_pq v {| p_conn := conn_init sends recvs; p_closing := None; p_sock := true |}, VRet)
        | None => ({| v_pq := PqNone; v_failures := failures; v_closes := v_closes v |}, VFailed)
        end
    end
  else (v, VRet).

Definition vstep (v : drv) (o : vop) : drv * vres :=
  match o with
  | VConnect o f => connect o f v
  | VClose fuel a1 a2 a3 => close fuel a1 a2 a3 v
  | _ =>
      match v_pq v with
      | PqIs p =>
          match o with
          | VPush fuel cmds a1 a2 a3 =>
              match inst_init cmds with
              | Err e => (set_pq v (with_conn p (arrive (p_conn p) a1 a2 a3)), VExn (XProto e))
              | Ok x =>
                  if idle p then let '(p, r) := pq_push fuel p a1 a2 a3 (start_inst x) in finish v p r
                  else
                    match pq_complete fuel p with
                    | (p, CExn e) => (set_pq v (with_conn p (arrive (p_conn p) a1 a2 a3)), VExn e)
                    | (p, CRet _) =>
                        if faulted p then (set_pq v (with_conn p (arrive (p_conn p) a1 a2 a3)), VRaise)
                        else let '(p, r) := pq_push fuel p a1 a2 a3 (start_inst x) in finish v p r
                    end
              end
          | VComplete fuel =>
              if idle p then (v, VRet)
              else match pq_complete fuel p with
                   | (p, CExn e) => (set_pq v p, VExn e)
                   | (p, CRet _) => (set_pq v p, if faulted p then VRaise else VRet)
                   end
          | VStep =>
              if idle p then (v, VRet)
              else match pq_step p with
                   | (p, CExn e) => (set_pq v p, VExn e)
                   | (p, CRet _) =>
                       let over := match p_closing p with
                                   | Some k => k_over k
                                   | None => match c_xact (p_conn p) with Some x => is_complete (x_state (p_conn p) x) | None => true end
                                   end in
                       (set_pq v p, if over && faulted p then VRaise else VRet)
                   end
          | VTrash a => (set_pq v (with_conn p (with_trash (p_conn p) (c_curs (p_conn p) ++ fst a) (c_stms (p_conn p) ++ snd a))), VRet)
          | VCopy lines => (set_pq v (with_conn p (copy_messages (p_conn p) (PList (map IRaw lines)))), VRet)
          | VCopyDone => (set_pq v (with_conn p (copy_messages (p_conn p) PDone)), VRet)
          | VSync fuel => let '(p, r) := pq_sync fuel p in finish v p r
          | _ => (v, VRet)
          end
      | _ => (v, VAttribute)
      end
  end.
Fixpoint vrun (v : drv) (ops : list vop) : drv :=
  match ops with [] => v | o :: r => vrun (fst (vstep v o)) r end.

(** 2397-2413 state; [st]: pq.state, the status of the last ReadyForQuery *)
Definition state_of (v : drv) (st : bytes) : text :=
  match v_pq v with
  | PqAbsent => str "initialized"
  | _ =>
      if v_failures v then str "failed"
      else if is_closed v then str "closed"
      else match v_pq v with
           | PqIs p =>
               if idle p then
                 if seqb st [69] then str "failed block"
                 else str "idle" ++ (if seqb st [73] then [] else str " in block")
               else str "busy"
           | _ => []
           end
  end.
