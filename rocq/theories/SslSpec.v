(** SslSpec.v: what the sslmodes promise, as conditions on what happens to the sockets and
    on the list of the attempts made. *)
From Verif Require Import Base PBufferModel Element3Model PyStr SslModel.

(** [x] happens and [y] has happened before it *)
Definition before {A} (y x : A) (l : list A) : Prop :=
  forall a b, l = a ++ x :: b -> List.In y a.

(** what the server (or the network) does in an attempt, as far as SSL goes *)
Definition refuses_ssl (o : outside) : Prop := o_status o = RcByte [78].       (* N *)
Definition accepts_ssl (o : outside) : Prop := o_status o = RcByte [83].       (* S *)

Definition failed {H} (a : attempt H) : Prop := exists w e s, a_out a = AFail w e s.
(** a failure due to a Python exception: the socket could not be opened, the handshake failed, the connection broke *)
Definition by_exception {H} (a : attempt H) : Prop := exists w s, a_out a = AFail w true s.
(** the server said N *)
Definition said_no {H} (a : attempt H) : Prop := a_did a = DFalse.

(** the attempts made with one server *)
Inductive tries {H} (mode : text) (h : H) : list (attempt H) -> Prop :=
| tr_require a : mode = str "require" -> a_ssl a = Some true -> a_host a = h -> tries mode h [a]
| tr_disable a : mode = str "disable" -> a_ssl a = None -> a_host a = h -> tries mode h [a]
| tr_prefer1 a : mode = str "prefer" -> a_ssl a = Some false -> a_host a = h ->
    (failed a -> said_no a \/ by_exception a) -> tries mode h [a]
| tr_prefer2 a b : mode = str "prefer" -> a_ssl a = Some false -> a_host a = h ->
    failed a -> ~ said_no a -> ~ by_exception a ->
    a_ssl b = None -> a_host b = h -> tries mode h [a; b]
| tr_allow1 a : mode = str "allow" -> a_ssl a = None -> a_host a = h ->
    (failed a -> by_exception a) -> tries mode h [a]
| tr_allow2 a b : mode = str "allow" -> a_ssl a = None -> a_host a = h ->
    failed a -> ~ by_exception a ->
    a_ssl b = Some true -> a_host b = h -> tries mode h [a; b].

(** the attempts made with the servers in order: all but the last attempt failed *)
Inductive tried {H} (mode : text) : list H -> list (attempt H) -> Prop :=
| td_none hs : tried mode hs []
| td_host h hs l r : tries mode h l -> tried mode hs r ->
    (r <> [] -> Forall failed l) -> tried mode (h :: hs) (l ++ r).
(** all the servers were tried *)
Inductive tried_all {H} (mode : text) : list H -> list (attempt H) -> Prop :=
| ta_none : tried_all mode [] []
| ta_host h hs l r : tries mode h l -> tried_all mode hs r -> tried_all mode (h :: hs) (l ++ r).

(** the number of times a socket is opened, closed *)
Definition opens (s : nat) (l : list sev) : nat :=
  length (filter (fun e => match e with SOpen t => Nat.eqb t s | _ => false end) l).
Definition closes (s : nat) (l : list sev) : nat :=
  length (filter (fun e => match e with SClose t => Nat.eqb t s | _ => false end) l).
(** the bytes sent unprotected before the start-up on a socket *)
Fixpoint plain (s : nat) (l : list sev) : bytes :=
  match l with
  | [] => []
  | SPlain t d :: l => if Nat.eqb t s then d ++ plain s l else plain s l
  | _ :: l => plain s l
  end.
