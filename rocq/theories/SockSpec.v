(** SockSpec.v: reading a list of socket events. *)
From Verif Require Import Base PBufferModel Element3Model PyStr SockModel.

(** sockets that were made *)
Fixpoint made (l : list event) : list Z :=
  match l with [] => [] | ESocket _ (inl s) :: r => s :: made r | _ :: r => made r end.
(** how often [s] was closed *)
Fixpoint closes (s : Z) (l : list event) : nat :=
  match l with
  | [] => 0
  | EOp s' Close _ :: r => if s' =? s then S (closes s r) else closes s r
  | _ :: r => closes s r
  end.
(** the sockets something was done with *)
Fixpoint touched (l : list event) : list Z :=
  match l with [] => [] | EOp s _ _ :: r => s :: touched r | _ :: r => touched r end.
(** the bytes that went out through [s] *)
Fixpoint sent (s : Z) (l : list event) : bytes :=
  match l with
  | [] => []
  | EOp s' (Sendall d k) _ :: r => if s' =? s then firstn k d ++ sent s r else sent s r
  | _ :: r => sent s r
  end.
(** the time limit of [s] (None: it blocks), being [t] before *)
Fixpoint limit (s : Z) (t : option Z) (l : list event) : option Z :=
  match l with
  | [] => t
  | EOp s' (Timeout t') None :: r => if s' =? s then limit s t' r else limit s t r
  | _ :: r => limit s t r
  end.
(** where [s] was connected *)
Fixpoint connected (s : Z) (l : list event) : list Z :=
  match l with
  | [] => []
  | EOp s' (Connect a) None :: r => if s' =? s then a :: connected s r else connected s r
  | _ :: r => connected s r
  end.
(** the events an execution adds *)
Definition run {A} (m : M A) (E : env) (h : list event) (r : A + raised) (new : list event) : Prop := m E h = (r, h ++ new).

(** CancelRequest of the protocol: length, request code, process, key, each of 4 bytes *)
Definition cancel_packet (pid key : Z) : bytes := be 4 16 ++ be 4 80877102 ++ be 4 pid ++ be 4 key.
Definition prefix_of (a b : bytes) : Prop := exists c, b = a ++ c.
(** something in [l] was interrupted by an exception that is no Exception *)
Definition interrupted (l : list event) : Prop :=
  exists e, (exists s o, In (EOp s o (Some (RBase e))) l) \/ (exists c, In (ESocket c (inr (RBase e))) l).
Definition targ_limit (t : targ) : option Z := match t with TNum t => Some t | _ => None end.
