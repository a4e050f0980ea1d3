(** LoadSpec.v: what a server does with the requests, and what the loading of rows has to do. *)
From Verif Require Import Base Element3Model IterModel LoadModel.

(** ** The server: PostgreSQL's extended query protocol, as far as loading goes *)
(** outside of a transaction block; in one; in a failed one; the connection is no more *)
Inductive tstate := TIdle | TBlock | TFailed | TDead.
Section Server.
  (** the contents of the database *)
  Context {D : Type}.
  (** committed: what others see; now: what the session sees *)
  Record server := { sv_committed : D; sv_now : D; sv_state : tstate }.
  (** the execution of a prepared statement, up to a number of rows: the new contents, or an
      error.  (An error of binding the parameters is one, too.) *)
  Context (exec : D -> bytes -> list (option bytes) -> Z -> option D).

  (** in a request: contents, the portal, did it fail *)
  Definition serve_message (s : tstate) (x : D * option (bytes * list (option bytes)) * bool) (m : message)
    : D * option (bytes * list (option bytes)) * bool :=
    let '(d, portal, failed) := x in
    if failed then x
    else match s, m with
    | TIdle, MBind [] st _ ps _ | TBlock, MBind [] st _ ps _ => (d, Some (st, ps), false)
    | TIdle, MExecute [] n | TBlock, MExecute [] n =>
        match portal with
        | Some (st, ps) => match exec d st ps n with Some d => (d, portal, false) | None => (d, portal, true) end
        | None => (d, portal, true)
        end
    | _, _ => (d, portal, true)                       (* in a failed block, or not expected here *)
    end.
  (** a request that is ended by Synchronize, and only there has one: outside of a block it is a
      transaction; in a block an error makes it a failed one *)
  Definition serve_request (s : server) (ms : list message) : server * bool :=
    let '(d, _, failed) := fold_left (serve_message (sv_state s)) ms (sv_now s, None, false) in
    (match sv_state s, failed with
     | TIdle, false => {| sv_committed := d; sv_now := d; sv_state := TIdle |}
     | TBlock, false => {| sv_committed := sv_committed s; sv_now := d; sv_state := TBlock |}
     | TBlock, true => {| sv_committed := sv_committed s; sv_now := d; sv_state := TFailed |}
     | _, _ => s
     end, failed).

  Definition dead (s : server) : server := {| sv_committed := sv_committed s; sv_now := sv_committed s; sv_state := TDead |}.
  (** what may become of a request, and its answer *)
  Inductive served : server -> list message -> server -> answer -> Prop :=
  | served_ok s ms s' : sv_state s <> TDead -> serve_request s ms = (s', false) -> served s (ms ++ [MEmpty ESynchronize]) s' AOk
  | served_error s ms s' : sv_state s <> TDead -> serve_request s ms = (s', true) -> served s (ms ++ [MEmpty ESynchronize]) s' AError
  (* the connection breaks: before the request has taken effect, or after *)
  | served_lost_before s req : served s req (dead s) ALost
  | served_lost_after s ms s' f : sv_state s <> TDead -> serve_request s ms = (s', f) -> served s (ms ++ [MEmpty ESynchronize]) (dead s') ALost.

  (** any server and network of that kind; [view]: what can be said of its state *)
  Definition lawful {S} (serve : S -> list message -> S * answer) (view : S -> server) : Prop :=
    forall s req, Forall (fun m => m <> MEmpty ESynchronize) (removelast req) ->
      last req (MEmpty ESynchronize) = MEmpty ESynchronize -> req <> [] ->
      served (view s) req (view (fst (serve s req))) (snd (serve s req)).

  (** the statement executed once for each of the parameters, in order *)
  Inductive executed (st : bytes) : D -> list (list (option bytes)) -> D -> Prop :=
  | executed_nil d : executed st d [] d
  | executed_cons d ps l d1 d2 : exec d st ps 1 = Some d1 -> executed st d1 l d2 -> executed st d (ps :: l) d2.
End Server.
Arguments server : clear implicits.

(** ** rows *)
(** the items of an iterable, and how it ends *)
Fixpoint items {A} (s : src A) : list A := match s with SCons a s => a :: items s | _ => [] end.
Fixpoint ending {A} (s : src A) : option exn := match s with SCons _ s => ending s | SNil => None | SRaise e => Some e end.

(** the packed parameters of a row *)
Definition packs {V} (p : stmt V) (row : list (option V)) (ps : list (option bytes)) : Prop :=
  length (st_io p) = length row /\ length ps = length row /\
  forall i f x y, nth_error (st_io p) i = Some f -> nth_error row i = Some x -> nth_error ps i = Some y ->
    match x, y with None, None => True | Some a, Some b => f a = Ok b | _, _ => False end.
Definition cannot_pack {V} (p : stmt V) (row : list (option V)) : Prop := forall ps, ~ packs p row ps.

(** the first [k] chunks of [n] rows *)
Definition first_chunks {A} (n : Z) (k : nat) (l : list A) : list A := firstn (k * Z.to_nat n) l.

(** ** what a caller can start from: no unread error, and the session outside of a transaction
    block or in one *)
Definition ready {D S} (view : S -> server D) (c : conn S) : Prop :=
  (c_xact c = None \/ c_xact c = Some AOk) /\
  let v := view (c_srv c) in
  (sv_state v = TIdle /\ sv_committed v = sv_now v) \/ sv_state v = TBlock.
(** nothing is left to be read: the next operation starts afresh *)
Definition nothing_pending {S} (c : conn S) : Prop := c_xact c = None.
(** the session goes on as before with the contents [d]; outside of a block they are committed *)
Definition now_has {D} (v v' : server D) (d : D) : Prop :=
  sv_now v' = d /\ sv_state v' = sv_state v /\
  sv_committed v' = match sv_state v with TIdle => d | _ => sv_committed v end.
Definition alive {D} (v : server D) : Prop := sv_state v <> TDead.
(** a server that does what it is asked, on a connection that is never lost *)
Definition perfect {D} (exec : D -> bytes -> list (option bytes) -> Z -> option D) (s : server D) (req : list message) : server D * answer :=
  match sv_state s with
  | TDead => (dead s, ALost)
  | _ => let '(s', f) := serve_request exec s (removelast req) in (s', if f then AError else AOk)
  end.
