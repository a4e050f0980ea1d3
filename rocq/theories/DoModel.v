(** DoModel.v: /repo/postgresql/driver/pq3.py 2310-2324, Connection.execute and
    Connection.do.
    The session encoding (self.typio._encode, 177, a codec looked up by name) is a
    parameter [enc].  execute hands one message, a Query, to a protocol transaction;
    what that transaction does with the replies is in XactModel. *)
From Verif Require Import Base PBufferModel PBufferSpec Element3Model PyStr RegexModel StrModel.

(** pq3.py 2310-2315: the messages of execute(query).  When the text cannot be
    encoded the exception leaves before anything is handed to the transaction. *)
Definition execute_messages (enc : text -> res bytes) (query : text) : res (list message) :=
  do d <- enc query; Ok [MString SQuery d].

(** pq3.py 2319-2323: the statement of do(language, source) *)
Definition do_sql (language source : text) : text :=
  str "DO " ++ quote_literal source ++ str " LANGUAGE " ++ quote_ident language ++ str ";".

(** pq3.py 2324 *)
Definition do_messages (enc : text -> res bytes) (language source : text) : res (list message) :=
  execute_messages enc (do_sql language source).

(** the bytes put on the wire for them (Connection._pq_push, cat_messages) *)
Definition do_bytes (enc : text -> res bytes) (language source : text) : res bytes :=
  do l <- do_messages enc language source; do b <- mapM message_bytes l; Ok (concat b).
Definition execute_bytes (enc : text -> res bytes) (query : text) : res bytes :=
  do l <- execute_messages enc query; do b <- mapM message_bytes l; Ok (concat b).
