(** CopySpec.v: what COPY management has to do. *)
From Verif Require Import Base PBufferModel PBufferSpec Element3Model CopyModel.

(** ** C40 *)
(** a line a CopyData message can carry; the messages of lines *)
Definition line_ok (b : bytes) : Prop := is_bytes b /\ len b + 4 < 2 ^ 32.
Definition copy_frames (ls : list bytes) : bytes := frames (map (fun l => (100, l)) ls).
(** [p] is the beginning of a CopyData message, which is not complete *)
Definition unfinished (p : bytes) : Prop := exists l r, line_ok l /\ r <> [] /\ frame (100, l) = p ++ r.
(** [t] begins with a message which is not CopyData *)
Definition other_message (t : bytes) : Prop := exists c r, t = c :: r /\ c <> 100.
(** the stream is read in pieces: messages counted, and the state *)
Fixpoint wire_run (s : wstate) (chunks : list bytes) : res (Z * wstate) :=
  match chunks with
  | [] => Ok (0, s)
  | c :: chunks => do ns <- wire_update s c; do ms <- wire_run (snd ns) chunks; Ok (fst ns + fst ms, snd ms)
  end.
(** the producer: the first piece, then the others, as long as it is receiving; what it made *)
Fixpoint recv_run (p : producer) (chunks : list bytes) : res (producer * list bytes) :=
  match chunks with
  | [] => Ok (p, [])
  | c :: chunks =>
      match p_next p with
      | NRecv => do pv <- process_copy_data p c; do r <- recv_run (fst pv) chunks; Ok (fst r, snd pv :: snd r)
      | _ => Err RuntimeError
      end
  end.
Definition produce (p : producer) (first : bytes) (chunks : list bytes) : res (producer * list bytes) :=
  do pv <- track_state p first; do r <- recv_run (fst pv) chunks; Ok (fst r, snd pv :: snd r).

(** the pieces given as lists of lines (ChunkProtocol) *)
Fixpoint lines_run (p : pbuf) (chunks : list bytes) : res (list (list bytes)) :=
  match chunks with
  | [] => Ok []
  | c :: chunks => match chunk_protocol p c with
                   | (p, Ok l) => do r <- lines_run p chunks; Ok (l :: r)
                   | (_, Err e) => Err e
                   end
  end.

(** ** C41 *)
(** what happens to a CopyManager: data is distributed (as bytes and as lines); progress is
    reported; receivers are reported as faulted; a receiver is brought back; the receiver was
    not brought back; the producer raises *)
Inductive event := EChunk (b : bytes) (l : list bytes) | EStats (s : Z * Z) | EFaults (l : list nat) | EBack (i : nat) | ENotBack (i : nat).
Definition chunk_of (g : mgr) (o : pout) : list event :=
  match o with
  | PWire buf v n => [EChunk (content buf v) (match snd (chunk_protocol (g_chunker g) (content buf v)) with Ok l => l | Err _ => [] end)]
  | PLines l => [EChunk (match cat_messages (map IRaw l) with Ok b => b | Err _ => [] end) l]
  | _ => []
  end.
(** every use of the manager, without interrupts; [o] and [script] are any behaviour of the
    producer and of the receivers *)
Inductive crun (rs : list recv) : mgr -> list event -> Prop :=
| cr_init : crun rs (mgr_init rs) []
| cr_ok g tr o script g' s : crun rs g tr -> mgr_next g o script = (g', GOk s) ->
    crun rs g' (tr ++ chunk_of g o ++ [EStats s])
| cr_fault g tr o script g' f : crun rs g tr -> mgr_next g o script = (g', GReceiverFault f) ->
    crun rs g' (tr ++ chunk_of g o ++ [EFaults f])
| cr_stop g tr o script g' r : crun rs g tr -> mgr_next g o script = (g', r) -> r = GStop \/ r = GProducerFault ->
    crun rs g' tr
| cr_back g tr i script g' : crun rs g tr -> reconcile g i script = (g', true) -> crun rs g' (tr ++ [EBack i])
| cr_not_back g tr i script g' : crun rs g tr -> reconcile g i script = (g', false) -> crun rs g' (tr ++ [ENotBack i]).

(** what was distributed *)
Fixpoint bytes_of (tr : list event) : bytes :=
  match tr with [] => [] | EChunk b _ :: tr => b ++ bytes_of tr | _ :: tr => bytes_of tr end.
Fixpoint lines_of (tr : list event) : list (list bytes) :=
  match tr with [] => [] | EChunk _ l :: tr => l :: lines_of tr | _ :: tr => lines_of tr end.
(** the receiver [i] was in the set each time data was distributed ([present]: it is) *)
Fixpoint attended (i : nat) (present : bool) (tr : list event) : Prop :=
  match tr with
  | [] => True
  | EChunk _ _ :: tr => present = true /\ attended i present tr
  | EFaults f :: tr => attended i (present && negb (existsb (Nat.eqb i) f)) tr
  | EBack j :: tr => attended i (present || (i =? j)%nat) tr
  | _ :: tr => attended i present tr
  end.
(** is the receiver [i] in the set *)
Fixpoint present (i : nat) (b : bool) (tr : list event) : bool :=
  match tr with
  | [] => b
  | EFaults f :: tr => present i (b && negb (existsb (Nat.eqb i) f)) tr
  | EBack j :: tr => present i (b || (i =? j)%nat) tr
  | _ :: tr => present i b tr
  end.
(** the progress reported *)
Fixpoint reported (tr : list event) : Z * Z :=
  match tr with
  | [] => (0, 0)
  | EStats (m, b) :: tr => (m + fst (reported tr), b + snd (reported tr))
  | _ :: tr => reported tr
  end.
(** a receiver at the beginning *)
Definition fresh_recv (r : recv) : Prop := r = RNull \/ r = RWire (VOwn []) [] \/ r = RCall None [].
(** the lines of a call which was not made (or was not finished) *)
Definition pending_lines (l : option (list bytes)) : list (list bytes) := match l with Some l => [l] | None => [] end.
(** the receiver is not tried again (reconcile) *)
Definition not_tried (i : nat) (tr : list event) : Prop := forall e, List.In e tr -> e <> EBack i /\ e <> ENotBack i.
(** what a receiver of data got: bytes on the wire; calls *)
Definition got (r : recv) (b : bytes) (l : list (list bytes)) : Prop :=
  match r with RNull => True | RWire _ sent => sent = b | RCall _ calls => calls = l end.
