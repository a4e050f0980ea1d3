(** ByteaProps.v: C19, the bytea escape codec. *)
From Verif Require Import PyStr PyStrProof BaseProof PyInt ByteaModel ByteaSpec ByteaProof.

(** C19: the text made from any bytes is printable, denotes these bytes in the escape
    format, and encoding it back gives them. *)
Theorem C19_roundtrip : forall U dv d, unicode_ok U -> is_bytes d ->
  Forall printable (bytea_decode d) /\ denotes (bytea_decode d) d /\ bytea_encode U dv (bytea_decode d) = Ok d.
Proof.
  intros U dv d UO B. split; [apply decode_printable, B|]. split; [apply decode_denotes, B|].
  apply denotes_encode; [exact UO|]. apply decode_denotes, B.
Qed.
Print Assumptions C19_roundtrip.

(** C19: every well-formed text is accepted with its meaning, and it has only one. *)
Theorem C19_wellformed : forall U dv t d, unicode_ok U -> denotes t d ->
  bytea_encode U dv t = Ok d /\ is_bytes d /\ forall d', denotes t d' -> d' = d.
Proof.
  intros U dv t d UO D. split; [apply denotes_encode; auto|]. split; [eapply denotes_bytes, D|].
  intros d' D'. symmetry. eapply denotes_fun; eauto.
Qed.
Print Assumptions C19_wellformed.

(** C19 (malformed escapes are rejected), for the texts of printable ASCII without
    o, O and underscore: what is accepted is well-formed.  Missing: see
    [C19_malformed_refuted]. *)
Theorem C19_malformed_partial : forall U dv t d, unicode_ok U -> Forall plain_char t ->
  (bytea_encode U dv t = Ok d <-> denotes t d) /\
  ((forall d', ~ denotes t d') -> exists e, bytea_encode U dv t = Err e).
Proof.
  intros U dv t d UO F. split; [split; [apply encode_strict; auto|intros D; apply denotes_encode; auto]|].
  intros N. destruct (bytea_encode U dv t) as [d'|e] eqn:E; [|eauto].
  exfalso. eapply N, encode_strict; eauto.
Qed.
Print Assumptions C19_malformed_partial.

(** C19, refuted in full: a backslash followed by a digit and something that is not
    octal is accepted when int(..., 8) tolerates it: "\1 2" is not, but "\12 " (a
    blank), "\1_2" and "\0o7" are. *)
Theorem C19_malformed_refuted :
  bytea_encode ascii_unicode (fun _ => None) (str "\12 ") = Ok [10] /\
  bytea_encode ascii_unicode (fun _ => None) (str "\1_2") = Ok [10] /\
  bytea_encode ascii_unicode (fun _ => None) (str "\0o7") = Ok [7] /\
  (forall d, ~ denotes (str "\12 ") d) /\ (forall d, ~ denotes (str "\1_2") d) /\ (forall d, ~ denotes (str "\0o7") d).
Proof.
  do 3 (split; [vm_compute; reflexivity|]).
  repeat split; intros d H; vm_compute in H; inversion H; unfold octal in *; subst; try congruence; try lia.
Qed.
Print Assumptions C19_malformed_refuted.

Example C19_ex : bytea_decode [0; 65; 92; 126; 255] = str "\000A\\\176\377".
Proof. reflexivity. Qed.
Example C19_ex_reject : bytea_encode ascii_unicode (fun _ => None) (str "\777") = Err StructError /\
  bytea_encode ascii_unicode (fun _ => None) (str "a\") = Err ValueError /\
  bytea_encode ascii_unicode (fun _ => None) (str "\81a") = Err ValueError /\
  bytea_encode ascii_unicode (fun _ => None) (str "\x01") = Err ValueError /\
  Forall plain_char (str "\x01").
Proof. do 4 (split; [reflexivity|]). vm_compute. repeat constructor; intro; discriminate. Qed.
