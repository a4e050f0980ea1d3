(** SockModel.v: sockets outside of a connection: /repo/postgresql/python/socket.py (SocketFactory.__call__, try_again,
    fatal_exception_message, timed_out, find_available_port) and protocol/client3.py:106-112, Connection.interrupt.
    A call of the socket module is an operation whose outcome the environment decides from all that happened before.
    Exceptions are of class Exception (RExc) or not (RBase: KeyboardInterrupt and the like); a close() that raises has
    released the descriptor.  Addresses and socket_create arguments are opaque.  Not modelled: SocketFactory.secure and
    _security_context (SslModel has the negotiation). *)
From Verif Require Import Base PBufferModel Element3Model PyStr.

Inductive raised := RExc (e : Z) | RBase (e : Z).
Inductive sop :=
| Timeout (t : option Z)          (* settimeout; None: blocking *)
| Connect (addr : Z)
| Sendall (d : bytes) (k : nat)   (* k bytes were taken *)
| Bind (host : text) (port : Z)
| Name (port : Z)                 (* getsockname()[1] *)
| Close.
Inductive event := ESocket (create : Z) (r : Z + raised) | EOp (s : Z) (o : sop) (r : option raised).
Record env := {
  e_socket : list event -> Z -> Z + raised;         (* socket.socket(...) *)
  e_op : list event -> Z -> sop -> option raised;   (* what an operation raises *)
  e_sent : list event -> Z -> nat;                  (* how many bytes sendall() takes, if it raises *)
  e_port : list event -> Z -> Z
}.
Definition M (A : Type) := env -> list event -> (A + raised) * list event.
Definition ret {A} (a : A) : M A := fun _ h => (inl a, h).
Definition throw {A} (x : raised) : M A := fun _ h => (inr x, h).
Definition bnd {A B} (m : M A) (f : A -> M B) : M B :=
  fun E h => match m E h with (inl a, h') => f a E h' | (inr x, h') => (inr x, h') end.
Notation "'let*' x := a 'in' b" := (bnd a (fun x => b)) (at level 61, x pattern, right associativity).
(** try: m except Exception: c; raise *)
Definition except_raise {A} (m : M A) (c : M unit) : M A :=
  fun E h => match m E h with
             | (inr (RExc e), h') => match c E h' with (inl _, h'') => (inr (RExc e), h'') | (inr x, h'') => (inr x, h'') end
             | other => other
             end.
(** try: m finally: c *)
Definition finally {A} (m : M A) (c : M unit) : M A :=
  fun E h => let (r, h') := m E h in match c E h' with (inl _, h'') => (r, h'') | (inr x, h'') => (inr x, h'') end.

Definition make (create : Z) : M Z := fun E h => let r := e_socket E h create in (r, h ++ [ESocket create r]).
Definition op (s : Z) (o : sop) : M unit :=
  fun E h => let r := e_op E h s o in (match r with None => inl tt | Some x => inr x end, h ++ [EOp s o r]).
Definition sendall (s : Z) (d : bytes) : M unit :=
  fun E h => match e_op E h s (Sendall d (length d)) with
             | None => (inl tt, h ++ [EOp s (Sendall d (length d)) None])
             | Some x => (inr x, h ++ [EOp s (Sendall d (Nat.min (e_sent E h s) (length d))) (Some x)])
             end.
Definition port_of (s : Z) : M Z :=
  fun E h => let p := e_port E h s in
             match e_op E h s (Name p) with None => (inl p, h ++ [EOp s (Name p) None]) | Some x => (inr x, h ++ [EOp s (Name p) (Some x)]) end.

(** the timeout argument: None, a number, or something float() does not take *)
Inductive targ := TNone | TNum (t : Z) | TBad (e : Z).
Definition targ_float (t : targ) : M (option Z) :=
  match t with TNone => ret None | TNum t => ret (Some t) | TBad e => throw (RExc e) end.

(** socket.py:76-86 SocketFactory.__call__ *)
Record factory := { f_create : Z; f_connect : Z }.
Definition call (f : factory) (timeout : targ) : M Z :=
  let* s := make (f_create f) in
  except_raise
    (let* t := targ_float timeout in
     let* _ := op s (Timeout t) in
     let* _ := op s (Connect (f_connect f)) in
     let* _ := op s (Timeout None) in
     ret s)
    (op s Close).

(** socket.py:104-121 find_available_port *)
Definition find_available_port (interface : text) (family : Z) : M Z :=
  let* s := make family in
  finally (let* _ := op s (Bind (str "localhost") 0) in port_of s) (op s Close).

(** client3.py:106-112 interrupt; the id and the key of the backend are None before it told them (struct.error) *)
Definition StructErr : Z := 1.
Definition interrupt (f : factory) (ids : option (Z * Z)) (timeout : targ) : M unit :=
  match ids with
  | None => throw (RExc StructErr)
  | Some (pid, key) =>
      match message_bytes (MCancelRequest pid key) with
      | Err _ => throw (RExc StructErr)
      | Ok cq => let* s := call f timeout in finally (sendall s cq) (op s Close)
      end
  end.

(** socket.py:29-50: an exception: its class, errno (None: absent or None), strerror (None: no such attribute; Some None: None) *)
Record serr := { x_class : Z; x_errno : option Z; x_strerror : option (option text) }.
Definition EAGAIN : Z := 11.
Definition EINTR : Z := 4.
Definition EWOULDBLOCK : Z := 11.
Definition ETIMEDOUT : Z := 110.
Definition TIMEOUT_CLASS : Z := 7.
(** 26-27 *)
Definition timed_out (x : serr) : bool := x_class x =? TIMEOUT_CLASS.
(** 29-39 *)
Definition try_again (x : serr) : bool :=
  match x_errno x with None => false | Some e => memZ e [EAGAIN; EINTR; EWOULDBLOCK; ETIMEDOUT] end.
(** 41-50 *)
Definition fatal_message (x : serr) : option text :=
  if try_again x then None
  else match x_strerror x with None => Some (str "<strerror not present>") | Some m => m end.
