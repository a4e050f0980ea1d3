(** Element3Props.v: properties C03, C04, C05 (protocol messages). *)
From Verif Require Import Base BaseProof PBufferModel PBufferSpec PBufferProof
  Element3Model Element3Spec Element3Proof Element3Wire.

(** C04: every well-formed message is serialised, and parsed back to itself. *)
Theorem C04_parse_serialize : forall m, wf_message m ->
  exists d, serialize m = Ok d /\ parse (kind_of m) d = Ok m.
Proof. exact parse_serialize. Qed.
Print Assumptions C04_parse_serialize.

(** C04, second half, is false of the code: nothing checks that a C string has no
    NUL byte, nor that Bind has one format per argument; the bytes then decode
    to something else. *)
Theorem C04_nul_not_rejected_refuted : exists d,
  serialize (MParse [97] [98; 0; 99] []) = Ok d /\
  parse KParse d <> Ok (MParse [97] [98; 0; 99] []).
Proof. exact nul_unchecked. Qed.
Print Assumptions C04_nul_not_rejected_refuted.

Theorem C04_bind_formats_not_checked_refuted : exists d,
  serialize (MBind [] [] [] [Some [1]] []) = Ok d /\
  parse KBind d <> Ok (MBind [] [] [] [Some [1]] []).
Proof. exact bind_formats_unchecked. Qed.
Print Assumptions C04_bind_formats_not_checked_refuted.

(** C03: a batch, cut into any chunks by the network, is received as exactly the
    items sent: same number, order, types and bodies, nothing left over. *)
Theorem C03_batch_received : forall items d chunks num,
  Forall typed items -> cat_messages items = Ok d ->
  Forall is_bytes chunks -> concat chunks = d -> len items <= num ->
  exists ms, Forall2 denotes items ms /\
    fst (pb_read num (snd (pb_run pb_init (writes chunks)))) = Ok ms /\
    fst (pb_getvalue (snd (pb_read num (snd (pb_run pb_init (writes chunks)))))) = [].
Proof. exact cat_messages_received. Qed.
Print Assumptions C03_batch_received.

(** C03: COPY data too big for the frame length is refused *)
Theorem C03_oversized_copy_line_refused : forall d, 2 ^ 31 - 4 <= len d -> item_bytes (IRaw d) = Err StructError.
Proof. exact raw_too_big. Qed.
Print Assumptions C03_oversized_copy_line_refused.

(** C05: rows round-trip, NULL and empty string distinguished (instance of C04
    spelled out with the row encoding used by cat_messages and DataRow). *)
Theorem C05_row_roundtrip : forall l, wf_row l ->
  exists d, serialize (MTuple l) = Ok d /\ parse KTuple d = Ok (MTuple l).
Proof. intros l H. exact (parse_serialize (MTuple l) H). Qed.
Print Assumptions C05_row_roundtrip.

(** C05: the strictness half is false of the pure Python parser: truncated
    attribute data and trailing bytes are accepted. *)
Theorem C05_truncated_row_accepted_refuted :
  (exists (d v : bytes), parse KTuple (be 2 1 ++ be 4 (len d) ++ v) = Ok (MTuple [Some v]) /\ len v < len d) /\
  (exists r : bytes, r <> [] /\ parse KTuple (be 2 1 ++ be 4 1 ++ [7] ++ r) = Ok (MTuple [Some [7]])).
Proof. exact tuple_truncated_accepted. Qed.
Print Assumptions C05_truncated_row_accepted_refuted.

(** the row count of a command tag: the digits after the last space *)
Theorem C04_command_tag_count : forall words n ds,
  dec_digits n ds -> extract_count (words ++ [32] ++ ds) = Some n.
Proof. exact extract_count_tag. Qed.
Print Assumptions C04_command_tag_count.

(** ** non-vacuity *)
Example ex_bind : wf_message (MBind [99; 49] [115] [[0;1]; [0;0]] [Some [1;2]; None] [[0;1]]).
Proof. unfold wf_message, wf_row, wf_format, nonul, wf_att, len. cbn.
  repeat split; try lia; try (intros [H|H]; [lia|]; try destruct H; try lia; try contradiction); repeat constructor; cbn; lia. Qed.
Example ex_notice : wf_message (MNotice true [([83], [69;82]); ([67], [48])]).
Proof. unfold wf_message, nonul. cbn. split.
  - repeat constructor; cbn; intros H; intuition congruence.
  - repeat constructor; cbn; intros H; intuition lia. Qed.
Example ex_batch : exists d, cat_messages [IMsg (MString SQuery [65]); IRaw [1;2;3]; ITuple [None; Some []]; IMsg (MEmpty ESynchronize)] = Ok d
  /\ d = [81;0;0;0;6;65;0] ++ [100;0;0;0;7;1;2;3] ++ [68;0;0;0;14;0;2;255;255;255;255;0;0;0;0] ++ [83;0;0;0;4].
Proof. eexists. split; vm_compute; reflexivity. Qed.
Example ex_typed : Forall typed [IMsg (MString SQuery [65]); IRaw [1;2;3]; ITuple [None; Some []]].
Proof. repeat constructor. cbn. discriminate. Qed.
Example ex_tag : dec_digits 42 [52; 50] /\ extract_count ([73;78;83;69;82;84;32;48] ++ [32] ++ [52;50]) = Some 42.
Proof. split; [unfold dec_digits; repeat split; discriminate|reflexivity]. Qed.

(** C03/C04: the bytes are those of the documented message formats ([wire] is
    written from the PostgreSQL documentation, not from the code). *)
Theorem C04_wire_format : forall m d, wf_message m -> (forall e f, m <> MNotice e f) ->
  message_bytes m = Ok d -> d = wire m.
Proof. exact message_wire. Qed.
Print Assumptions C04_wire_format.

Theorem C04_serialize_wire : forall m, wf_message m -> (forall e f, m <> MNotice e f) -> serialize m = Ok (wire_body m).
Proof. exact serialize_wire. Qed.
Print Assumptions C04_serialize_wire.

(** every message in the documented format is parsed to the message it denotes
    (ErrorResponse and NoticeResponse included) *)
Theorem C04_parse_wire : forall m, wf_message m -> parse (kind_of m) (wire_body m) = Ok m.
Proof. exact parse_wire. Qed.
Print Assumptions C04_parse_wire.

Theorem C03_wire : forall items d, Forall wf_item items -> cat_messages items = Ok d ->
  d = concat (map item_wire items).
Proof. exact cat_messages_wire. Qed.
Print Assumptions C03_wire.

(** what the code itself writes for a Notice (used by servers only) lacks the
    final terminator of the documented format *)
Theorem C04_notice_terminator_missing_refuted : forall e d,
  serialize (MNotice e [([77], d)]) = Ok ([77] ++ d ++ [0]) /\ wire_body (MNotice e [([77], d)]) = [77] ++ d ++ [0; 0].
Proof. intros. split; cbn; rewrite ?app_nil_r, <- ?app_assoc; reflexivity. Qed.
Print Assumptions C04_notice_terminator_missing_refuted.

Example wire_items : Forall wf_item [IMsg (MParse [97] [83] [23]); IRaw [49; 10]; ITuple [None; Some []]; IMsg (MEmpty ESynchronize)].
Proof.
  assert (N : forall x : Z, x <> 0 -> nonul [x]) by (intros x H [E|[]]; congruence).
  repeat constructor; cbn; unfold u32; auto; try (apply N; lia); try lia.
Qed.
