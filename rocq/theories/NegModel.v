(** NegModel.v: connection negotiation, /repo/postgresql/protocol/xact3.py:85-264
    (class Negotiation) and Closing (57-83).

    A server message is a pair (type byte, body).  Object identity of a batch of
    messages ([messages is self.received[-1]]) is an integer naming the object; 0
    names the empty tuple.  The MD5 and crypt functions are parameters: [md5hex b]
    is md5(b).hexdigest().encode('ascii'). *)
From Verif Require Import Base PBufferModel Element3Model.

Notation wmsg := (Z * list Z)%type.

(** xact3.py:27-29: the first item of [state] *)
Inductive xstate := Sending | Receiving | Complete.

(** the error_message attribute: sent by the server, or made by the client *)
Inductive nerror :=
| NServer (m : message)            (* 145 *)
| NExpected (code : Z) (got : Z)   (* 187-194, 241-248, 255-262: 08P01, expected/received types *)
| NUnsupported (req : Z)           (* 169-176: --AUT *)
| NNotOk (req : Z).                (* 221-232: 08P01 *)

(** where the generator state_machine is suspended *)
Inductive mstate :=
| WaitAuth      (* 183 *)
| WaitOk        (* 216 *)
| WaitKill      (* 238 *)
| WaitReady     (* 252 *)
| Finished.

Record neg := {
  n_startup : list (bytes * bytes); n_password : bytes;
  n_last : Z;                       (* identity of received[-1] *)
  n_asyncs : list message;
  n_authtype : option message; n_authok : option message;
  n_killinfo : option message; n_ready : option bytes;
  n_machine : mstate; n_messages : list message; n_state : xstate;
  n_fatal : bool; n_error : option nerror }.

(** AsynchronousMap, xact3.py:31-35 *)
Definition async_kind (t : Z) : option kind :=
  if t =? 78 then Some (KNotice false) else if t =? 65 then Some KNotify
  else if t =? 83 then Some KShowOption else None.

(** xact3.py:99-110 *)
Definition neg_init (startup : list (bytes * bytes)) (password : bytes) : neg :=
  {| n_startup := startup; n_password := password; n_last := 0; n_asyncs := [];
     n_authtype := None; n_authok := None; n_killinfo := None; n_ready := None;
     n_machine := WaitAuth; n_messages := [MStartup startup]; n_state := Sending;
     n_fatal := false; n_error := None |}.

(** xact3.py:120-128 *)
Definition neg_sent (n : neg) : neg :=
  {| n_startup := n_startup n; n_password := n_password n; n_last := n_last n; n_asyncs := n_asyncs n;
     n_authtype := n_authtype n; n_authok := n_authok n; n_killinfo := n_killinfo n; n_ready := n_ready n;
     n_machine := n_machine n; n_messages := []; n_state := Receiving;
     n_fatal := n_fatal n; n_error := n_error n |}.

(** update of the attributes written by the generator *)
Definition neg_upd (n : neg) (at_ ok ki : option message) (rd : option bytes) (m : mstate) (st : xstate)
    (f : bool) (e : option nerror) : neg :=
  {| n_startup := n_startup n; n_password := n_password n; n_last := n_last n; n_asyncs := n_asyncs n;
     n_authtype := at_; n_authok := ok; n_killinfo := ki; n_ready := rd;
     n_machine := m; n_messages := n_messages n; n_state := st; n_fatal := f; n_error := e |}.

Section hash.
Variable md5hex : bytes -> bytes.
Variable crypt : bytes -> bytes -> bytes.

(** startup_message[b'user'] *)
Fixpoint assoc (k : bytes) (l : list (bytes * bytes)) : option bytes :=
  match l with [] => None | (a, b) :: r => if seqb a k then Some b else assoc k r end.
Definition user_key : bytes := [117; 115; 101; 114].
Definition md5_prefix : bytes := [109; 100; 53].

(** one machine.send(x): the new state, what was yielded ([None]: nothing to send)
    and whether the generator ended.  xact3.py:179-264 *)
Definition machine_send (n : neg) (x : wmsg) : res (neg * list message * bool) :=
  let stop n := Ok (n, [], true) in
  let set := neg_upd n in
  match n_machine n with
  | WaitAuth =>
      if negb (fst x =? 82) then
        stop (set (n_authtype n) (n_authok n) (n_killinfo n) (n_ready n) Finished (n_state n) true (Some (NExpected 82 (fst x))))
      else
        do a <- parse KAuthentication (snd x);
        match a with
        | MAuthentication req salt =>
            if req =? 0 then
              Ok (set (Some a) (Some a) (n_killinfo n) (n_ready n) WaitKill (n_state n) (n_fatal n) (n_error n), [], false)
            else
              let answer pw :=
                Ok (set (Some a) (n_authok n) (n_killinfo n) (n_ready n) WaitOk (n_state n) (n_fatal n) (n_error n),
                    [MString SPassword pw], false) in
              if req =? 3 then answer (n_password n)
              else if req =? 4 then answer (crypt (n_password n) salt)
              else if req =? 5 then
                match assoc user_key (n_startup n) with
                | None => Err KeyError
                | Some user =>
                    let pw := md5hex (n_password n ++ user) in
                    answer (md5_prefix ++ md5hex (pw ++ salt))
                end
              else
                stop (set (Some a) (n_authok n) (n_killinfo n) (n_ready n) Finished Complete true (Some (NUnsupported req)))
        | _ => Err TypeError
        end
  | WaitOk =>
      do a <- parse KAuthentication (snd x);
      match a with
      | MAuthentication req _ =>
          if req =? 0 then
            Ok (set (n_authtype n) (Some a) (n_killinfo n) (n_ready n) WaitKill (n_state n) (n_fatal n) (n_error n), [], false)
          else
            stop (set (n_authtype n) (Some a) (n_killinfo n) (n_ready n) Finished (n_state n) true (Some (NNotOk req)))
      | _ => Err TypeError
      end
  | WaitKill =>
      if negb (fst x =? 75) then
        stop (set (n_authtype n) (n_authok n) (n_killinfo n) (n_ready n) Finished (n_state n) true (Some (NExpected 75 (fst x))))
      else
        do k <- parse KKillInformation (snd x);
        Ok (set (n_authtype n) (n_authok n) (Some k) (n_ready n) WaitReady (n_state n) (n_fatal n) (n_error n), [], false)
  | WaitReady =>
      if negb (fst x =? 90) then
        stop (set (n_authtype n) (n_authok n) (n_killinfo n) (n_ready n) Finished (n_state n) true (Some (NExpected 90 (fst x))))
      else
        do r <- parse KReady (snd x);
        stop (set (n_authtype n) (n_authok n) (n_killinfo n) (match r with MReady s => Some s | _ => None end)
                  Finished (n_state n) (n_fatal n) (n_error n))
  | Finished => stop n
  end.

Definition neg_async (n : neg) (m : message) : neg :=
  {| n_startup := n_startup n; n_password := n_password n; n_last := n_last n; n_asyncs := n_asyncs n ++ [m];
     n_authtype := n_authtype n; n_authok := n_authok n; n_killinfo := n_killinfo n; n_ready := n_ready n;
     n_machine := n_machine n; n_messages := n_messages n; n_state := n_state n;
     n_fatal := n_fatal n; n_error := n_error n |}.
Definition neg_state (n : neg) (st : xstate) (msgs : list message) : neg :=
  {| n_startup := n_startup n; n_password := n_password n; n_last := n_last n; n_asyncs := n_asyncs n;
     n_authtype := n_authtype n; n_authok := n_authok n; n_killinfo := n_killinfo n; n_ready := n_ready n;
     n_machine := n_machine n; n_messages := msgs; n_state := st;
     n_fatal := n_fatal n; n_error := n_error n |}.
Definition neg_fail (n : neg) (e : nerror) : neg :=
  {| n_startup := n_startup n; n_password := n_password n; n_last := n_last n; n_asyncs := n_asyncs n;
     n_authtype := n_authtype n; n_authok := n_authok n; n_killinfo := n_killinfo n; n_ready := n_ready n;
     n_machine := n_machine n; n_messages := n_messages n; n_state := Complete;
     n_fatal := true; n_error := if n_fatal n then n_error n else Some e |}.

(** the loop of put_messages, xact3.py:139-165; the result is (new state, count) *)
Fixpoint neg_loop (n : neg) (count : Z) (l : list wmsg) : res (neg * Z) :=
  match l with
  | [] => Ok (n, count)
  | x :: r =>
      let count := count + 1 in
      if fst x =? 69 then
        do e <- parse (KNotice true) (snd x); Ok (neg_fail n (NServer e), count)
      else match async_kind (fst x) with
      | Some k => do m <- parse k (snd x); neg_loop (neg_async n m) count r
      | None =>
          do t <- machine_send n x;
          let '(n, out, ended) := t in
          if ended then Ok (neg_state n Complete (n_messages n), count)
          else match out with
               | [] => neg_loop n count r
               | _ => Ok (neg_state n Sending out, count)
               end
      end
  end.
(** xact3.py:130-165 put_messages *)
Definition neg_put (n : neg) (id : Z) (l : list wmsg) : res (neg * Z) :=
  if id =? n_last n then Err RuntimeError
  else neg_loop {| n_startup := n_startup n; n_password := n_password n; n_last := id; n_asyncs := n_asyncs n;
     n_authtype := n_authtype n; n_authok := n_authok n; n_killinfo := n_killinfo n; n_ready := n_ready n;
     n_machine := n_machine n; n_messages := n_messages n; n_state := n_state n;
     n_fatal := n_fatal n; n_error := n_error n |} 0 l.
End hash.
