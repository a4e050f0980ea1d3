(** InstSpec.v: the conversations of the PostgreSQL protocol a transaction may have. *)
From Verif Require Import Base PBufferModel Element3Model NegModel NegSpec InstModel.

Inductive ievent := IOut (l : list item) | IIn (x : wmsg).

(** Every way of driving a transaction made of [cmds]: send what it wants sent when it is
    sending (during COPY FROM STDIN the messages may beforehand be replaced by any lines of
    data, or by CopyDoneSequence), give it any
    batch of messages when it is receiving; it says how many it took.  A batch is not the
    same object as the batch before it. *)
Inductive irun (cmds : list message) : inst -> list ievent -> Prop :=
| ir_init s : inst_init cmds = Ok s -> irun cmds s []
| ir_send s tr : irun cmds s tr -> i_state s = ISend \/ i_state s = ISendStdin ->
    irun cmds (inst_sent s) (tr ++ [IOut (outgoing s)])
| ir_data s tr p : irun cmds s tr -> i_state s = ISendStdin -> p = PDone \/ (exists lines, p = PList (map IRaw lines)) ->
    irun cmds (set_messages s p) tr
| ir_put s tr id l s' c : irun cmds s tr -> id <> i_last s -> inst_put s id l = (s', Ok c) ->
    irun cmds s' (tr ++ map IIn (firstn (Z.to_nat c) l)).

(** the messages received *)
Fixpoint recvd (tr : list ievent) : list wmsg :=
  match tr with [] => [] | IIn x :: r => x :: recvd r | IOut _ :: r => recvd r end.
(** those which are not asynchronous; those which are *)
Definition sync_part (l : list wmsg) : list wmsg := filter (fun x => negb (is_asyncb x)) l.
Definition async_part (l : list wmsg) : list wmsg := filter is_asyncb l.

(** the answers to one command, as sequences of message types (protocol-flow in the
    PostgreSQL documentation): 'T' row description, 'D' row, 'C' complete, 'I' empty query,
    's' portal suspended, 'H' copy out, 'd' copy data, 'c' copy done, 'G' copy in,
    'Z' ready, '1' '2' '3' parse/bind/close complete, 't' parameter description, 'n' no
    data, 'V' function result *)
Inductive query_part : list Z -> Prop :=
| qp_null : query_part [73]
| qp_done : query_part [67]
| qp_copy_in : query_part [71; 67]
| qp_copy_out n : query_part (72 :: repeat 100 n ++ [99; 67])
| qp_rows n : query_part (84 :: repeat 68 n ++ [67]).
Inductive answer : Z -> list Z -> Prop :=
| an_parse : answer 80 [49]
| an_bind : answer 66 [50]
| an_close : answer 67 [51]
| an_sync : answer 83 [90]
| an_describe_portal : answer 68 [84]
| an_describe_statement : answer 68 [116; 84]
| an_describe_nodata : answer 68 [116; 110]
| an_function : answer 70 [86; 90]
| an_execute_null : answer 69 [73]
| an_execute_done : answer 69 [67]
| an_execute_rows n : answer 69 (repeat 68 (S n) ++ [67])
| an_execute_suspended n : answer 69 (repeat 68 (S n) ++ [115])
| an_execute_copy_out n : answer 69 (72 :: repeat 100 n ++ [99; 67])
| an_execute_copy_in : answer 69 [71; 67]
| an_query parts : Forall query_part parts -> answer 81 (concat parts ++ [90])
| an_query_rows parts n : Forall query_part parts -> answer 81 (concat parts ++ 84 :: repeat 68 n ++ [90]).

(** [seg] is the beginning of an answer to [t], more is to come *)
Definition begins (t : Z) (seg : list Z) : Prop := exists w, w <> [] /\ answer t (seg ++ w).

(** the severity of an error response: is it worse than ERROR? *)
Definition severity (body : bytes) (fatal : bool) : Prop :=
  exists d s, parse (KNotice true) body = Ok (MNotice true d) /\ assoc [83] d = Some s /\
    (fatal = false <-> upper s = [69; 82; 82; 79; 82]).
(** what remains of the commands at the next Sync *)
Definition resume (cs cs' : list message) : Prop :=
  exists skipped r, cs = skipped ++ MEmpty ESynchronize :: r /\ cs' = MEmpty ESynchronize :: r /\
    ~ List.In (MEmpty ESynchronize) skipped.
Definition after_error (f : option bool) : option bool := match f with None => Some false | Some b => Some b end.

(** [conv cs l f]: [l] is a whole conversation (asynchronous messages left out) for the
    commands [cs]; [f] is None when no error was reported, Some true when it was ended by
    a fatal error, otherwise Some false *)
Inductive conv : list message -> list wmsg -> option bool -> Prop :=
| cv_end : conv [] [] None
| cv_flush c cs l f : ctype c = Some 72 -> conv cs l f -> conv (c :: cs) l f
| cv_answer c t cs seg l f : ctype c = Some t -> answer t (map fst seg) -> conv cs l f ->
    conv (c :: cs) (seg ++ l) f
| cv_error c t cs cs' seg body l f : ctype c = Some t -> t <> 81 -> t <> 70 -> begins t (map fst seg) ->
    severity body false -> resume (c :: cs) cs' -> conv cs' l f ->
    conv (c :: cs) (seg ++ (69, body) :: l) (after_error f)
| cv_error_end c t cs seg body : ctype c = Some t -> t <> 81 -> t <> 70 -> begins t (map fst seg) ->
    severity body false -> ~ List.In (MEmpty ESynchronize) (c :: cs) ->
    conv (c :: cs) (seg ++ [(69, body)]) (Some false)
| cv_error_query c t cs seg body l f : ctype c = Some t -> t = 81 \/ t = 70 -> begins t (map fst seg) ->
    severity body false -> conv (c :: cs) l f ->
    conv (c :: cs) (seg ++ (69, body) :: l) (after_error f)
| cv_fatal c t cs seg body : ctype c = Some t -> begins t (map fst seg) -> severity body true ->
    conv (c :: cs) (seg ++ [(69, body)]) (Some true).

(** the messages of the server *)
Definition srv_kind (t : Z) : option kind :=
  if t =? 84 then Some KTupleDescriptor else if t =? 68 then Some KTuple else if t =? 67 then Some KComplete
  else if t =? 73 then Some (KEmpty ENull) else if t =? 115 then Some (KEmpty ESuspension)
  else if t =? 72 then Some (KCopyBegin true) else if t =? 71 then Some (KCopyBegin false)
  else if t =? 100 then Some KCopyData else if t =? 99 then Some (KEmpty ECopyDone)
  else if t =? 90 then Some KReady else if t =? 49 then Some (KEmpty EParseComplete)
  else if t =? 50 then Some (KEmpty EBindComplete) else if t =? 51 then Some (KEmpty ECloseComplete)
  else if t =? 116 then Some KAttributeTypes else if t =? 110 then Some (KEmpty ENoData)
  else if t =? 86 then Some KFunctionResult else None.
Definition msg_is (x : wmsg) (m : message) : Prop := exists k, srv_kind (fst x) = Some k /\ parse k (snd x) = Ok m.
(** all but the error responses *)
Definition no_errors (l : list wmsg) : list wmsg := filter (fun x => negb (fst x =? 69)) l.
(** [a] is [l] with some elements left out *)
Inductive subseq {A} : list A -> list A -> Prop :=
| sq_nil : subseq [] []
| sq_skip x a l : subseq a l -> subseq a (x :: l)
| sq_take x a l : subseq a l -> subseq (x :: a) (x :: l).

(** [l] may be the beginning of a conversation for [cmds] (or a whole one) *)
Definition conforms (cmds : list message) (l : list wmsg) : Prop :=
  exists c cs l' g, cmds = c :: cs /\ ctype c <> Some 72 /\ conv cmds (sync_part l ++ l') g.

(** what was sent *)
Fixpoint sends (tr : list ievent) : list (list item) :=
  match tr with [] => [] | IOut l :: r => l :: sends r | IIn _ :: r => sends r end.
(** a COPY FROM STDIN: batches of lines, then one CopyDone or CopyFail with the commands
    which follow the one that started the COPY *)
Definition data_batch (l : list item) : Prop := exists lines, l = map IRaw lines.
Definition copy_end (cmds : list message) (l : list item) : Prop :=
  exists before c after, cmds = before ++ c :: after /\ (ctype c = Some 69 \/ ctype c = Some 81) /\
    (l = IMsg (MEmpty ECopyDone) :: map IMsg after \/ l = IMsg copy_fail_message :: map IMsg after).
Inductive copies (cmds : list message) : list (list item) -> Prop :=
| cp_none : copies cmds []
| cp_one batches e r : Forall data_batch batches -> copy_end cmds e -> copies cmds r -> copies cmds (batches ++ e :: r).

(** messages with a readable body; any type, in any order *)
Definition well_formed (x : wmsg) : Prop :=
  (forall k, srv_kind (fst x) = Some k -> exists m, parse k (snd x) = Ok m) /\
  (is_async x -> exists m, async_is x m) /\
  (fst x = 69 -> exists f, severity (snd x) f).
(** the commands whose answers are awaited: not empty and not begun by a Flush *)
Definition starts (cmds : list message) : Prop := exists c cs, cmds = c :: cs /\ ctype c <> Some 72.
(** [body] is that of the last error response of [l] *)
Definition last_reported (l : list wmsg) (body : bytes) : Prop :=
  exists l1 l2, l = l1 ++ (69, body) :: l2 /\ forall b, ~ List.In (69, b) l2.
(** in the state in which messages are received *)
Definition receiving (s : inst) : Prop := i_state s = IPut \/ i_state s = IPutCopy \/ i_state s = IPutTuple.
