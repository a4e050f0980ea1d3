(** PBufferProps.v: properties C01 and C02 (message stream). *)
From Verif Require Import Base BaseProof PBufferModel PBufferSpec PBufferProof.

(** C01/C02: every history of the buffer is a history of the FIFO of PBufferSpec.v,
    and what remains in the buffer is what remains in the FIFO. *)
Theorem C01_buffer_refines_fifo : forall ops rs p,
  Forall wf_op ops -> pb_run pb_init ops = (rs, p) ->
  exists q, spec_run [] ops rs q /\ fst (pb_getvalue p) = q.
Proof. exact buffer_refines_fifo. Qed.
Print Assumptions C01_buffer_refines_fifo.

(** The FIFO specification leaves no freedom: results and remaining bytes are determined. *)
Theorem C01_fifo_deterministic : forall q o r1 q1 r2 q2, is_bytes q ->
  spec_step q o r1 q1 -> spec_step q o r2 q2 -> r1 = r2 /\ q1 = q2.
Proof. exact spec_step_det. Qed.
Print Assumptions C01_fifo_deterministic.

(** After any history, writing the same bytes cut differently makes no observable difference. *)
Theorem C01_chunking_irrelevant : forall ops chunks1 chunks2 o rs p,
  Forall wf_op ops -> Forall is_bytes chunks1 -> Forall is_bytes chunks2 ->
  concat chunks1 = concat chunks2 -> pb_run pb_init ops = (rs, p) ->
  fst (pb_step (snd (pb_run p (writes chunks1))) o) = fst (pb_step (snd (pb_run p (writes chunks2))) o)
  /\ fst (pb_getvalue (snd (pb_step (snd (pb_run p (writes chunks1))) o)))
     = fst (pb_getvalue (snd (pb_step (snd (pb_run p (writes chunks2))) o))).
Proof. exact buffer_chunking_irrelevant. Qed.
Print Assumptions C01_chunking_irrelevant.

(** C02: after any history that emptied the buffer, the frames of [ms] followed by an incomplete
    rest, cut into any chunks, are read back as exactly [ms], and the rest stays. *)
Theorem C02_complete_messages_delivered : forall ms rest chunks ops rs p num,
  Forall wf_op ops -> pb_run pb_init ops = (rs, p) -> fst (pb_getvalue p) = [] ->
  Forall is_bytes chunks -> Forall wf_msg ms -> concat chunks = frames ms ++ rest ->
  waiting rest -> len ms <= num ->
  fst (pb_read num (snd (pb_run p (writes chunks)))) = Ok ms /\
  fst (pb_getvalue (snd (pb_read num (snd (pb_run p (writes chunks)))))) = rest.
Proof. exact buffer_delivers. Qed.
Print Assumptions C02_complete_messages_delivered.

(** ** non-vacuity *)
Definition big : list Z := repeat 7 (Z.to_nat 3000).
Definition demo_ops : list op :=
  [OWrite (frame (68, big)); OWrite (firstn 7 (frame (84, [1;2;3]))); ORead 4294967295; OHasMessage;
   OLen; OWrite (skipn 7 (frame (84, [1;2;3]))); OHasMessage; ONextMessage; ONext; OGetvalue;
   OWrite [90;0;0;0;3]; OHasMessage].

(** the history contains a compaction (3005 bytes were consumed before the second read) *)
Example demo_wf : Forall wf_op demo_ops.
Proof.
  assert (H : forallb (fun o => match o with OWrite d => is_bytesb d | _ => true end) demo_ops = true)
    by (vm_compute; reflexivity).
  rewrite forallb_forall in H. apply Forall_forall. intros o Ho. specialize (H o Ho).
  destruct o; cbn; auto. apply is_bytesb_spec; auto.
Qed.
Example demo_results : fst (pb_run pb_init demo_ops) =
  [RUnit; RUnit; RMsgs (Ok [(68, big)]); RBool (Ok false); RLen (Ok 0); RUnit; RBool (Ok true);
   RMsgOpt (Ok (Some (84, [1;2;3]))); RMsg (Err StopIteration); RBytes []; RUnit; RBool (Err ValueError)].
Proof. vm_compute. reflexivity. Qed.
Example demo_waiting : waiting [84; 0; 0; 0; 7; 1].
Proof. apply parse1_waiting; [apply is_bytesb_spec; reflexivity | reflexivity]. Qed.
Example demo_wf_msg : wf_msg (84, [1;2;3]).
Proof. unfold wf_msg, is_byte, len; cbn. repeat split; try lia. apply is_bytesb_spec; reflexivity. Qed.
