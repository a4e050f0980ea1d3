(** InstModel.v: protocol transactions, /repo/postgresql/protocol/xact3.py:266-716
    (class Instruction).  The pure Python put_tupledata (657-679) is modelled.

    A server message is a pair (type byte, body).  The identity of a batch of messages
    ([messages is self.last[0]], [id(messages)]) is an integer naming the object; 0 names
    the empty tuple.  CopyData results (bytes) are [MCopyData], row results (tuple) are
    [MTuple].  asynchook is represented by the list of the messages it was called with;
    an exception it raises is swallowed by the code (528-533).
    repr() and reverse() are not modelled. *)
From Verif Require Import Base PBufferModel Element3Model NegModel.

(** one step of a path: message type -> parser and next step ([None]: command complete) *)
Notation table := (list (Z * (kind * option nat))).

(** Instruction.hook, xact3.py:293-389: [None]: type not in hook; [Some None]: Flush *)
Definition hook (t : Z) : option (option (list table)) :=
  if t =? 81 then Some (Some [                                       (* Query *)
    [(84, (KTupleDescriptor, Some 3%nat)); (73, (KEmpty ENull, Some 0%nat)); (67, (KComplete, Some 0%nat));
     (72, (KCopyBegin true, Some 2%nat)); (71, (KCopyBegin false, Some 1%nat)); (90, (KReady, None))];
    [(67, (KComplete, Some 0%nat))];
    [(100, (KCopyData, Some 2%nat)); (99, (KEmpty ECopyDone, Some 1%nat))];
    [(68, (KTuple, Some 3%nat)); (67, (KComplete, Some 0%nat)); (90, (KReady, None))]])
  else if t =? 70 then Some (Some [                                  (* Function *)
    [(86, (KFunctionResult, Some 1%nat))]; [(90, (KReady, None))]])
  else if t =? 80 then Some (Some [[(49, (KEmpty EParseComplete, None))]])   (* Parse *)
  else if t =? 66 then Some (Some [[(50, (KEmpty EBindComplete, None))]])    (* Bind *)
  else if t =? 68 then Some (Some [                                  (* Describe *)
    [(116, (KAttributeTypes, Some 1%nat)); (84, (KTupleDescriptor, None))];
    [(110, (KEmpty ENoData, None)); (84, (KTupleDescriptor, None))]])
  else if t =? 67 then Some (Some [[(51, (KEmpty ECloseComplete, None))]])   (* Close *)
  else if t =? 69 then Some (Some [                                  (* Execute *)
    [(68, (KTuple, Some 1%nat)); (72, (KCopyBegin true, Some 2%nat)); (71, (KCopyBegin false, Some 3%nat));
     (73, (KEmpty ENull, None)); (67, (KComplete, None))];
    [(68, (KTuple, Some 1%nat)); (115, (KEmpty ESuspension, None)); (67, (KComplete, None))];
    [(100, (KCopyData, Some 2%nat)); (99, (KEmpty ECopyDone, Some 3%nat))];
    [(67, (KComplete, None))]])
  else if t =? 83 then Some (Some [[(90, (KReady, None))]])          (* Synchronize *)
  else if t =? 72 then Some None                                     (* Flush *)
  else None.

(** cmd.type *)
Definition ctype (c : message) : option Z := type_of (kind_of c).
(** HOOK[cmd.type] *)
Definition cmd_paths (c : message) : option (option (list table)) :=
  match ctype c with Some t => hook t | None => None end.
(** dict.get *)
Fixpoint lookup (t : Z) (l : table) : option (kind * option nat) :=
  match l with [] => None | (k, v) :: r => if k =? t then Some v else lookup t r end.

(** the state attribute: Sending with standard_sent / sent_from_stdin, Receiving with
    standard_put / put_copydata / put_tupledata, Complete *)
Inductive istate := ISend | ISendStdin | IPut | IPutCopy | IPutTuple | IComplete.
(** the messages attribute; CopyFailSequence and CopyDoneSequence are compared by identity *)
Inductive pending := PList (l : list item) | PFail | PDone.
(** the error_message attribute *)
Inductive ierror := IEServer (m : message) | IEProto (expected : list Z) (got : Z).

Record inst := {
  i_cmds : list message;
  i_completed : list (Z * list message);   (* (id(messages), processed) *)
  i_last : Z;                              (* identity of last[0] *)
  i_prev : nat * nat; i_cur : nat * nat;   (* last[1], last[2] *)
  i_state : istate;
  i_messages : pending;
  i_tail : list message;                   (* commands[offset+1:] in the COPY sequences *)
  i_fatal : option bool; i_error : option ierror;
  i_asyncs : list wmsg;                    (* _asyncs *)
  i_delivered : list message;              (* the calls of asynchook *)
  i_ready : option bytes }.                (* last_ready *)

Definition all_ok (l : list message) : bool :=
  forallb (fun c => match cmd_paths c with Some _ => true | None => false end) l.
(** xact3.py:397-426 __init__ *)
Definition inst_init (cmds : list message) : res inst :=
  if all_ok cmds then Ok
    {| i_cmds := cmds; i_completed := []; i_last := 0; i_prev := (0, 0)%nat; i_cur := (0, 0)%nat; i_state := ISend;
       i_messages := PList (map IMsg cmds); i_tail := []; i_fatal := None; i_error := None; i_asyncs := [];
       i_delivered := []; i_ready := None |}
  else Err TypeError.

(** attribute assignments *)
Definition set_state (s : inst) (st : istate) : inst :=
  {| i_cmds := i_cmds s; i_completed := i_completed s; i_last := i_last s; i_prev := i_prev s; i_cur := i_cur s;
     i_state := st; i_messages := i_messages s; i_tail := i_tail s; i_fatal := i_fatal s; i_error := i_error s;
     i_asyncs := i_asyncs s; i_delivered := i_delivered s; i_ready := i_ready s |}.
Definition set_error (s : inst) (f : bool) (e : ierror) : inst :=
  {| i_cmds := i_cmds s; i_completed := i_completed s; i_last := i_last s; i_prev := i_prev s; i_cur := i_cur s;
     i_state := i_state s; i_messages := i_messages s; i_tail := i_tail s; i_fatal := Some f; i_error := Some e;
     i_asyncs := i_asyncs s; i_delivered := i_delivered s; i_ready := i_ready s |}.
Definition set_async (s : inst) (a : list wmsg) (d : list message) : inst :=
  {| i_cmds := i_cmds s; i_completed := i_completed s; i_last := i_last s; i_prev := i_prev s; i_cur := i_cur s;
     i_state := i_state s; i_messages := i_messages s; i_tail := i_tail s; i_fatal := i_fatal s; i_error := i_error s;
     i_asyncs := a; i_delivered := d; i_ready := i_ready s |}.
Definition set_ready (s : inst) (r : bytes) : inst :=
  {| i_cmds := i_cmds s; i_completed := i_completed s; i_last := i_last s; i_prev := i_prev s; i_cur := i_cur s;
     i_state := i_state s; i_messages := i_messages s; i_tail := i_tail s; i_fatal := i_fatal s; i_error := i_error s;
     i_asyncs := i_asyncs s; i_delivered := i_delivered s; i_ready := Some r |}.
Definition set_done (s : inst) (c : list (Z * list message)) (id : Z) (prev cur : nat * nat) : inst :=
  {| i_cmds := i_cmds s; i_completed := c; i_last := id; i_prev := prev; i_cur := cur;
     i_state := i_state s; i_messages := i_messages s; i_tail := i_tail s; i_fatal := i_fatal s; i_error := i_error s;
     i_asyncs := i_asyncs s; i_delivered := i_delivered s; i_ready := i_ready s |}.
Definition set_messages (s : inst) (m : pending) : inst :=
  {| i_cmds := i_cmds s; i_completed := i_completed s; i_last := i_last s; i_prev := i_prev s; i_cur := i_cur s;
     i_state := i_state s; i_messages := m; i_tail := i_tail s; i_fatal := i_fatal s; i_error := i_error s;
     i_asyncs := i_asyncs s; i_delivered := i_delivered s; i_ready := i_ready s |}.
Definition set_tail (s : inst) (t : list message) : inst :=
  {| i_cmds := i_cmds s; i_completed := i_completed s; i_last := i_last s; i_prev := i_prev s; i_cur := i_cur s;
     i_state := i_state s; i_messages := i_messages s; i_tail := t; i_fatal := i_fatal s; i_error := i_error s;
     i_asyncs := i_asyncs s; i_delivered := i_delivered s; i_ready := i_ready s |}.

(** bytes.upper() *)
Definition upper (l : bytes) : bytes := map (fun c => if (97 <=? c) && (c <=? 122) then c - 32 else c) l.
Definition error_word : bytes := [69; 82; 82; 79; 82].
(** em[b'S'].upper() != b'ERROR', xact3.py:496 *)
Definition err_fatal (em : message) : res bool :=
  match em with
  | MNotice _ d => match assoc [83] d with Some s => Ok (negb (seqb (upper s) error_word)) | None => Err KeyError end
  | _ => Err TypeError
  end.

(** commands[offset] is SynchronizeMessage *)
Definition is_sync (c : message) : bool := match c with MEmpty ESynchronize => true | _ => false end.
(** for offset in range(offset, NCOMMANDS): ... 509-516 *)
Fixpoint find_sync (l : list message) : option nat :=
  match l with
  | [] => None
  | c :: r => if is_sync c then Some O else match find_sync r with Some n => Some (S n) | None => None end
  end.
(** the while loop 564-574: how many commands with no path are next *)
Fixpoint skip_flush (l : list message) : nat :=
  match l with
  | [] => O
  | c :: r => match cmd_paths c with Some None => S (skip_flush r) | _ => O end
  end.

(** x not in self._asyncs *)
Definition wmsg_eqb (a b : wmsg) : bool := (fst a =? fst b) && seqb (snd a) (snd b).
Definition mem_async (x : wmsg) (l : list wmsg) : bool := existsb (wmsg_eqb x) l.

(** what the loop of standard_put comes to: an exception, a return, or its end with
    (offset, current_step), processed and count *)
Inductive loopres := LErr (e : exn) | LRet (count : Z) | LEnd (offset step : nat) (processed : list message) (count : Z).

(** the loop, xact3.py:485-580 *)
Fixpoint put_loop (s : inst) (offset step : nat) (processed : list message) (count : Z) (l : list wmsg) : inst * loopres :=
  match l with
  | [] => (s, LEnd offset step processed count)
  | x :: r =>
      let count := count + 1 in
      match nth_error (i_cmds s) offset with
      | None => (s, LErr IndexError)
      | Some cmd =>
      match cmd_paths cmd with
      | None => (s, LErr KeyError)
      | Some None => (s, LErr TypeError)
      | Some (Some paths) =>
      match nth_error paths step with
      | None => (s, LErr IndexError)
      | Some tb =>
      match lookup (fst x) tb with
      | None =>
          if fst x =? 69 then
            match parse (KNotice true) (snd x) with
            | Err e => (s, LErr e)
            | Ok em =>
            match err_fatal em with
            | Err e => (s, LErr e)
            | Ok fatal =>
                let s := set_error s fatal (IEServer em) in
                if fatal then (set_state s IComplete, LRet count)
                else if match ctype cmd with Some t => (t =? 70) || (t =? 81) | None => false end
                then put_loop s offset 0 processed count r
                else match find_sync (skipn offset (i_cmds s)) with
                     | Some n => put_loop s (offset + n) 0 processed count r
                     | None => (set_state s IComplete, LRet count)
                     end
            end
            end
          else match async_kind (fst x) with
          | Some k =>
              if mem_async x (i_asyncs s) then put_loop s offset step processed count r
              else match parse k (snd x) with
                   | Err e => (s, LErr e)
                   | Ok m => put_loop (set_async s (i_asyncs s ++ [x]) (i_delivered s ++ [m])) offset step processed count r
                   end
          | None =>
              (set_state (set_error s true (IEProto (map fst tb) (fst x))) IComplete, LRet count)
          end
      | Some (k, next) =>
          match parse k (snd x) with
          | Err e => (s, LErr e)
          | Ok m =>
              let processed := processed ++ [m] in
              match next with
              | Some st => put_loop s offset st processed count r
              | None =>
                  let s := match m with MReady st => set_ready s st | _ => s end in
                  let offset := (S offset + skip_flush (skipn (S offset) (i_cmds s)))%nat in
                  if (offset =? length (i_cmds s))%nat then (s, LEnd offset 0 processed count)
                  else put_loop s offset 0 processed count r
              end
          end
      end end end end
  end.

(** self.completed.append unless the last entry is of the same batch, 584-585 *)
Definition add_completed (s : inst) (id : Z) (processed : list message) : list (Z * list message) :=
  match rev (i_completed s) with
  | (i, _) :: _ => if i =? id then i_completed s else i_completed s ++ [(id, processed)]
  | [] => i_completed s ++ [(id, processed)]
  end.

(** processed[-1] selects a faster handler, 593-614 *)
Definition switch (s : inst) (offset : nat) (processed : list message) : inst :=
  match nth_error (i_cmds s) offset with
  | None => s
  | Some cmd =>
      match ctype cmd with
      | Some t =>
          if (t =? 69) || (t =? 81) then
            match rev processed with
            | [] => s
            | last :: _ =>
                match last with
                | MCopyData _ => set_state s IPutCopy
                | MTuple _ => set_state s IPutTuple
                | MCopyBegin false _ _ => set_state (set_tail s (skipn (S offset) (i_cmds s))) ISendStdin
                | MCopyBegin true _ _ => set_state s IPutCopy
                | _ => s
                end
            end
          else s
      | None => s
      end
  end.

(** xact3.py:454-615 standard_put *)
Definition standard_put (s : inst) (id : Z) (messages : list wmsg) : inst * res Z :=
  let again := id =? i_last s in
  let '(offset, step) := if again then i_prev s else i_cur s in
  let s := if again then s else set_async s [] (i_delivered s) in
  match nth_error (i_cmds s) offset with
  | None => (s, Err IndexError)
  | Some cmd =>
  match cmd_paths cmd with
  | None => (s, Err KeyError)
  | Some _ =>
      match put_loop s offset step [] 0 messages with
      | (s, LErr e) => (s, Err e)
      | (s, LRet count) => (s, Ok count)
      | (s, LEnd offset step processed count) =>
          let s := set_done s (add_completed s id processed) id (i_cur s) (offset, step) in
          if (offset =? length (i_cmds s))%nat then (set_state s IComplete, Ok count)
          else (switch s offset processed, Ok count)
      end
  end
  end.

(** xact3.py:617-638 put_copydata *)
Definition put_copydata (s : inst) (id : Z) (messages : list wmsg) : inst * res Z :=
  match rev messages with
  | [] => (s, Err IndexError)
  | lastm :: _ =>
      let fall := standard_put (set_state s IPut) id messages in
      if negb (fst lastm =? 100) then fall
      else
        let lines := map (fun x => MCopyData (snd x)) (filter (fun x => fst x =? 100) messages) in
        if negb (length lines =? length messages)%nat then fall
        else (set_done s (add_completed s id lines) id (i_cur s) (i_cur s), Ok (len messages))
  end.
(** xact3.py:657-679 put_tupledata *)
Definition put_tupledata (s : inst) (id : Z) (messages : list wmsg) : inst * res Z :=
  match rev messages with
  | [] => (s, Err IndexError)
  | lastm :: _ =>
      let fall := standard_put (set_state s IPut) id messages in
      if negb (fst lastm =? 68) then fall
      else match mapM (fun x => parse KTuple (snd x)) (filter (fun x => fst x =? 68) messages) with
           | Err e => (s, Err e)
           | Ok tuples =>
               if negb (length tuples =? length messages)%nat then fall
               else (set_done s (add_completed s id tuples) id (i_cur s) (i_cur s), Ok (len messages))
           end
  end.
(** state[1](messages) when state[0] is Receiving *)
Definition inst_put (s : inst) (id : Z) (messages : list wmsg) : inst * res Z :=
  match i_state s with
  | IPut => standard_put s id messages
  | IPutCopy => put_copydata s id messages
  | IPutTuple => put_tupledata s id messages
  | _ => (s, Err TypeError)
  end.
(** state[1]() when state[0] is Sending: 681-690 standard_sent, 692-716 sent_from_stdin *)
Definition inst_sent (s : inst) : inst :=
  match i_state s with
  | ISend => set_state (set_messages s (PList [])) IPut
  | ISendStdin =>
      match i_messages s with
      | PFail | PDone => set_state (set_messages s (PList [])) IPut
      | PList _ => set_messages s PFail
      end
  | _ => s
  end.
(** what the messages attribute holds, 607-610 *)
Definition copy_fail_message : message := MString SCopyFail
  [105; 110; 118; 97; 108; 105; 100; 32; 116; 101; 114; 109; 105; 110; 97; 116; 105; 111; 110].
Definition outgoing (s : inst) : list item :=
  match i_messages s with
  | PList l => l
  | PFail => IMsg copy_fail_message :: map IMsg (i_tail s)
  | PDone => IMsg (MEmpty ECopyDone) :: map IMsg (i_tail s)
  end.
(** xact3.py:436-440 messages_received *)
Definition messages_received (s : inst) : list message := concat (map snd (i_completed s)).
