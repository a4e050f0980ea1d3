(** FetchSpec.v: what the results of a statement have to be. *)
From Verif Require Import Base PBufferModel Element3Model NegModel NegSpec InstModel InstSpec FetchModel.

(** all the messages the connection reads *)
Fixpoint wire_msgs (e : list wire) : list wmsg :=
  match e with [] => [] | WBatch _ l :: e => l ++ wire_msgs e | WLost :: e => wire_msgs e end.
(** those with the rows or the lines of a COPY *)
Definition data (l : list wmsg) : list wmsg := filter (fun x => (fst x =? 68) || (fst x =? 100)) l.

(** what the connection reads are non empty batches of readable messages; a batch is another
    object than the one before it (0: none was read) *)
Fixpoint readable (last : Z) (e : list wire) : Prop :=
  match e with
  | [] => True
  | WLost :: e => readable last e
  | WBatch id l :: e => id <> last /\ l <> [] /\ Forall well_formed l /\ readable id e
  end.
Definition never_lost (e : list wire) : Prop := Forall (fun w => w <> WLost) e.

(** every use of the result of a statement: the chunks got so far.  The connection may be used
    for something else at any time (the errors are raised there); a call that waits may be
    interrupted and made again. *)
Inductive fetch_run (expect : Z) (cmds : list message) (e : list wire) : fetchall -> list (list message) -> Prop :=
| fr_init fuel f : fetch_init fuel expect cmds e = FDone f -> fetch_run expect cmds e f []
| fr_next fuel f out f' c : fetch_run expect cmds e f out -> fetch_next fuel f = (f', FDone (Some c)) ->
    fetch_run expect cmds e f' (out ++ [c])
| fr_none fuel f out f' r : fetch_run expect cmds e f out -> fetch_next fuel f = (f', r) -> (forall c, r <> FDone (Some c)) ->
    fetch_run expect cmds e f' out
| fr_other fuel f out f' r : fetch_run expect cmds e f out -> other_use fuel f = (f', r) ->
    fetch_run expect cmds e f' out.

(** the same for a MultiXactStream *)
Section Stream.
  Context {R : Type} (chunksize : Z) (rp : nat -> reply R).
  Inductive stream_run : mstream -> list (list R) -> Prop :=
  | sr_init : stream_run stream_init []
  | sr_next m out m' c : stream_run m out -> stream_next chunksize rp m = (m', FDone (Some c)) -> stream_run m' (out ++ [c])
  | sr_none m out m' r : stream_run m out -> stream_next chunksize rp m = (m', r) -> (forall c, r <> FDone (Some c)) -> stream_run m' out
  | sr_other m out m' r : stream_run m out -> stream_other rp m = (m', r) -> stream_run m' out.
  (** the server's cursor: the i-th request gets the next [chunksize] rows, as far as there are *)
  Definition cursor_replies (rows : list R) : Prop :=
    forall i, rp i = {| rp_rows := firstn (Z.to_nat chunksize) (skipn (i * Z.to_nat chunksize) rows); rp_failed := false |}.
End Stream.
