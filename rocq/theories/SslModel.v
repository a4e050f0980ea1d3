(** SslModel.v: establishing a connection: /repo/postgresql/protocol/client3.py:114-222
    Connection.connect and negotiate_ssl, and /repo/postgresql/driver/pq3.py:2436-2560
    Connection._establish (up to the choice of a server; the reading of the server's
    version and the like that follow, 2561-2603, are not modelled).

    What the outside does in one attempt is a record; the start-up conversation itself
    (self.complete(), see NegModel.v and ConnModel.v) is here one event with an outcome. *)
From Verif Require Import Base PyStr IterModel.
From Verif Require Import Element3Model.

(** how a socket is opened: it is; a socket error or timeout (caught); anything else (not caught) *)
Inductive open_out := OpOk | OpError | OpRaise.
(** a send(): so many bytes taken, or an exception (none is caught in negotiate_ssl) *)
Inductive snd_out := SnTaken (n : nat) | SnRaise.
Inductive rcv_out := RcByte (d : bytes) | RcRaise.
(** the start-up conversation: complete; failed, with or without the attribute `exception`
    (a socket error; an error of the server or a broken off conversation); an exception *)
Inductive neg_out := NgOk | NgFail (exc : bool) | NgRaise.
Record outside := {
  o_open : open_out;
  o_sends : list snd_out;
  o_status : rcv_out;
  o_secure : bool;
  o_neg : neg_out
}.

(** what happens to the sockets.  A socket is named by the number of the attempt that made it. *)
Inductive sev :=
| SOpen (s : nat)
| SPlain (s : nat) (d : bytes)     (** bytes sent unprotected, before the start-up *)
| SRecv1 (s : nat)                 (** one byte read unprotected *)
| STls (s : nat)                   (** the TLS handshake completed *)
| SStartup (s : nat)               (** the start-up packet, the password, etc. are sent on the socket *)
| SClose (s : nat).

(** why an attempt failed: the error message given to its transaction *)
Inductive why := WOpen | WNotPq | WNoSsl | WSslFailed | WNegotiation.
(** the attribute ssl_negotiation: absent (-1), None, True or False *)
Inductive didssl := DAbsent | DNone | DTrue | DFalse.
(** pq.xact is None; or a failure, with hasattr(pq.xact, 'exception') and the socket open or not (None); or raised *)
Inductive att_out := AOk | AFail (w : why) (exc : bool) (sock : bool) | ARaise.

Definition S_byte := 83. Definition N_byte := 78.
(** element3.py NegotiateSSLMessage.bytes(): length 8 and the code 1234 5679 *)
Definition ssl_request : bytes := be 4 8 ++ ssl_code.

(** client3.py:212-215: while r: r = r[self.socket.send(r):] (blocked for ever, and so
    interrupted, when the outcomes run out) *)
Fixpoint send_all (s : nat) (r : bytes) (l : list snd_out) : list sev * bool :=
  match r with
  | [] => ([], true)
  | _ =>
      match l with
      | [] => ([], false)
      | SnRaise :: _ => ([], false)
      | SnTaken n :: l =>
          let '(ev, ok) := send_all s (skipn n r) l in (SPlain s (firstn n r) :: ev, ok)
      end
  end.

(** client3.py:204-222 negotiate_ssl: the events and True, False or None; or an exception *)
Definition negotiate_ssl (s : nat) (o : outside) : list sev * option didssl :=
  let '(ev, ok) := send_all s ssl_request (o_sends o) in
  if ok then
    match o_status o with
    | RcRaise => (ev, None)
    | RcByte st =>
        (ev ++ [SRecv1 s],
         Some (match st with [b] => if b =? S_byte then DTrue else if b =? N_byte then DFalse else DNone
                           | _ => DNone end))
    end
  else (ev, None).

(** client3.py:190-202: the start-up; complete() leaves xact None exactly when it is complete and not fatal *)
Definition startup (s : nat) (o : outside) : list sev * att_out :=
  ([SStartup s], match o_neg o with NgOk => AOk | NgFail e => AFail WNegotiation e true | NgRaise => ARaise end).

(** client3.py:114-202 connect(ssl) of a new connection *)
Definition connect (s : nat) (ssl : option bool) (o : outside) : list sev * didssl * att_out :=
  match o_open o with
  | OpError => ([], DAbsent, AFail WOpen true false)                          (* 136-158 *)
  | OpRaise => ([], DAbsent, ARaise)
  | OpOk =>
      match ssl with
      | None => let '(ev, a) := startup s o in (SOpen s :: ev, DAbsent, a)
      | Some required =>
          let '(ev, d) := negotiate_ssl s o in
          match d with
          | None => (SOpen s :: ev, DAbsent, ARaise)
          | Some DTrue =>                                                     (* 181-191 *)
              if o_secure o
              then let '(ev', a) := startup s o in (SOpen s :: ev ++ STls s :: ev', DTrue, a)
              else (SOpen s :: ev, DTrue, AFail WSslFailed true true)
          | Some DFalse =>                                                    (* 174-179 *)
              if required then (SOpen s :: ev, DFalse, AFail WNoSsl false true)
              else let '(ev', a) := startup s o in (SOpen s :: ev ++ ev', DFalse, a)
          | Some d => (SOpen s :: ev, d, AFail WNotPq false true)             (* 167-172 *)
          end
      end
  end.

(** the record of an attempt: its number, the value of ssl, the server (the socket factory) *)
Section Establish.
  Context {H : Type}.
  Record attempt := { a_num : nat; a_ssl : option bool; a_host : H; a_did : didssl; a_out : att_out }.
  (** what _establish does: self.pq and self.security are set; could_not_connect with the
      failures; another exception *)
  Inductive est := Connected (a : attempt) (security : bool) | NotConnected (failures : list attempt) | Broken.

  (** pq3.py:2465-2493 the candidates: interlace(...) of IterModel.v *)
  Definition candidates (sslmode : text) (factories : list H) : res (list (option bool * H)) :=
    let pair v := map (fun f => (v, f)) factories in
    if seqb sslmode (str "allow") then Ok (interlace [pair None; pair (Some true)])
    else if seqb sslmode (str "prefer") then Ok (interlace [pair (Some false); pair None])
    else if seqb sslmode (str "require") then Ok (pair (Some true))
    else if seqb sslmode (str "disable") then Ok (pair None)
    else Err ValueError.

  Definition is_ssl (v w : option bool) : bool :=
    match v, w with None, None => true | Some a, Some b => Bool.eqb a b | _, _ => false end.
  (** pq3.py:2536-2557: can_skip after a failure *)
  Definition can_skip_after (sslmode : text) (ssl : option bool) (d : didssl) (exc : bool) : bool :=
    if seqb sslmode (str "prefer") && is_ssl ssl (Some false) && match d with DFalse => true | _ => false end then true
    else if exc then
      (if seqb sslmode (str "prefer") && is_ssl ssl (Some false) then true
       else seqb sslmode (str "allow") && is_ssl ssl None)
    else false.

  (** pq3.py:2504-2582 the loop: the events, the attempts made, the result.  [n] is the number of
      the attempt; [out] what the outside does in each. *)
  Fixpoint establish_loop (sslmode : text) (out : nat -> outside) (n : nat) (can_skip : bool)
    (l : list (option bool * H)) (failures : list attempt) : list sev * list attempt * est :=
    match l with
    | [] => ([], [], NotConnected failures)
    | (ssl, f) :: l =>
        if can_skip then establish_loop sslmode out n false l failures
        else
          let '(ev, d, a) := connect n ssl (out n) in
          let at_ := {| a_num := n; a_ssl := ssl; a_host := f; a_did := d; a_out := a |} in
          match a with
          | AOk => (ev, [at_], Connected at_ (match d with DTrue => true | _ => false end))
          | ARaise => (ev, [at_], Broken)
          | AFail w exc sock =>
              let cl := if sock then [SClose n] else [] in
              let '(ev', log, r) := establish_loop sslmode out (S n) (can_skip_after sslmode ssl d exc) l
                                      (failures ++ [at_]) in
              (ev ++ cl ++ ev', at_ :: log, r)
          end
    end.
  (** pq3.py:2446-2582.  [sslmode]: None or a string (`self.connector.sslmode or 'prefer'`);
      [factories]: socket_factory_sequence(), None when it raises.  connect() (2426-2444) calls
      close() on an exception, which does nothing as self.pq is None. *)
  Definition establish (sslmode : option text) (factories : option (list H)) (out : nat -> outside)
    : res (list sev * list attempt * est) :=
    let mode := match sslmode with Some (c :: m) => c :: m | _ => str "prefer" end in
    do l <- candidates mode (match factories with Some f => f | None => [] end);
    Ok (establish_loop mode out O false l []).
End Establish.
Arguments attempt : clear implicits.
Arguments est : clear implicits.
