(** LcopySpec.v: what loading by COPY has to send. *)
From Verif Require Import Base PBufferModel Element3Model NegModel NegSpec InstModel InstSpec FetchModel FetchSpec LoadModel LoadSpec LcopyModel.

(** the lines of the chunks, in order, and how the reading of the chunks and of their lines ends *)
Fixpoint all_lines (chunks : src (src bytes)) : list bytes :=
  match chunks with
  | SCons c r => match ending c with None => items c ++ all_lines r | Some _ => [] end
  | _ => []
  end.
Fixpoint lines_end (chunks : src (src bytes)) : option exn :=
  match chunks with
  | SNil => None
  | SRaise e => Some e
  | SCons c r => match ending c with None => lines_end r | Some e => Some e end
  end.
(** the messages that start the COPY; those that end it *)
Definition copy_request (stmt : bytes) : list message := [MBind [] stmt [] [] []; MExecute [] 1; MEmpty ESynchronize].
Definition begin_copy (stmt : bytes) : list item := map IMsg (copy_request stmt).
Definition end_copy : list item := [IMsg (MEmpty ECopyDone); IMsg (MEmpty ESynchronize)].
Definition fail_copy : list item := [IMsg copy_fail_message; IMsg (MEmpty ESynchronize)].
(** after a loss nothing is sent any more *)
Definition lost_for_good (lose : nat -> option nat) : Prop :=
  forall i j n, lose i = Some n -> (i < j)%nat -> lose j = Some O.
(** what was sent, message by message *)
Definition sent (s : cst) : list item := concat (k_out s).
Definition prefix {A} (a l : list A) : Prop := exists b, l = a ++ b.
(** a batch is another object than the one before it (0: none was read) *)
Fixpoint batches_differ (last : Z) (e : list wire) : Prop :=
  match e with
  | [] => True
  | WLost :: e => batches_differ last e
  | WBatch id _ :: e => id <> last /\ batches_differ id e
  end.
