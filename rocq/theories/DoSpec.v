(** DoSpec.v: how a server reads a Query message, and a DO statement. *)
From Verif Require Import Base PBufferModel PBufferSpec Element3Model PyStr RegexModel StrModel StrSpec.

(** a Query message: the byte 'Q', a 4 byte length that counts itself and the body *)
Definition query_packet (body : bytes) : bytes := 81 :: be 4 (len body + 4) ++ body.

(** a string field ends at its first zero byte; [after] is what is left behind it *)
Definition cstring (body text after : bytes) : Prop := ~ In 0 text /\ body = text ++ 0 :: after.

(** the server gets the statement [sql] from these bytes: one Query message whose
    only field, up to its zero byte, decodes to [sql] and fills the message *)
Definition server_gets (dec : bytes -> option text) (wire : bytes) (sql : text) : Prop :=
  exists body t, wire = query_packet body /\ cstring body t [] /\ dec t = Some sql.

(** DO 'source' LANGUAGE "language";   read with the lexer of [StrSpec]; nothing
    follows the semicolon *)
Definition is_do (sql source language : text) : Prop :=
  exists r1 r2, sql = str "DO " ++ r1 /\ quoted 39 r1 source (str " LANGUAGE " ++ r2) /\
                quoted 34 r2 language (str ";").

(** the same with standard_conforming_strings off *)
Definition is_do_bs (sql source language : text) (more : text) : Prop :=
  exists r1 r2, sql = str "DO '" ++ r1 /\ qbody_bs 39 r1 source (str " LANGUAGE " ++ r2) /\
                quoted 34 r2 language more.
