(** Element3Model.v: /repo/postgresql/protocol/element3.py (protocol 3 messages)
    and /repo/postgresql/protocol/version.py.  The pure Python definitions of
    pack_tuple_data, cat_messages and Tuple.parse are modelled.
    repr(), __eq__, Void, WireMessage, ClientNotice and ClientError are not. *)
From Verif Require Import Base PBufferModel.

Notation bytes := (list Z).
Definition nullmark : bytes := [255; 255; 255; 255].

(** bytes.split(sep, n) for a one byte separator: [split1] finds the first occurrence *)
Fixpoint split1 (c : Z) (l : bytes) : option (bytes * bytes) :=
  match l with
  | [] => None
  | x :: xs => if x =? c then Some ([], xs)
               else match split1 c xs with Some (a, b) => Some (x :: a, b) | None => None end
  end.
Fixpoint splitn (n : nat) (c : Z) (l : bytes) : list bytes :=
  match n with
  | O => [l]
  | S n => match split1 c l with Some (a, b) => a :: splitn n c b | None => [l] end
  end.
(** bytes.split(sep) *)
Fixpoint split_all (c : Z) (l : bytes) : list bytes :=
  match l with
  | [] => [[]]
  | x :: xs => if x =? c then [] :: split_all c xs
               else match split_all c xs with y :: ys => (x :: y) :: ys | [] => [[x]] end
  end.
(** sep.join(parts) *)
Fixpoint join (sep : bytes) (l : list bytes) : bytes :=
  match l with
  | [] => []
  | [x] => x
  | x :: xs => x ++ sep ++ join sep xs
  end.
(** data.rstrip(b'\x00') *)
Fixpoint rstrip0 (l : bytes) : bytes :=
  match l with
  | [] => []
  | x :: xs => match rstrip0 xs with [] => if x =? 0 then [] else [x] | r => x :: r end
  end.

(** dict assignment: overwrite in place or append *)
Fixpoint dict_set {V} (k : bytes) (v : V) (d : list (bytes * V)) : list (bytes * V) :=
  match d with
  | [] => [(k, v)]
  | (k', v') :: r => if seqb k' k then (k', v) :: r else (k', v') :: dict_set k v r
  end.
Definition dict_of {V} (l : list (bytes * V)) : list (bytes * V) :=
  fold_left (fun d kv => dict_set (fst kv) (snd kv) d) l [].

(** element3.py:17-27 pack_tuple_data *)
Definition pack_att (x : option bytes) : res bytes :=
  match x with
  | None => Ok nullmark
  | Some d => do l <- pack_u 4 (len d); Ok (l ++ d)
  end.
Definition pack_tuple_data (atts : list (option bytes)) : res bytes :=
  do l <- mapM pack_att atts; Ok (concat l).

(** the attribute loop shared by Tuple.parse (492-507), Bind.parse (774-786) and
    Function.parse (907-919): [natts] attributes from [d]; slices beyond the end
    are short, as in Python *)
Fixpoint parse_atts (natts : nat) (d : bytes) : res (list (option bytes) * bytes) :=
  match natts with
  | O => Ok ([], d)
  | S n =>
      let size := firstn 4 d in
      let d1 := skipn 4 d in
      if seqb size nullmark then
        do r <- parse_atts n d1; Ok (None :: fst r, snd r)
      else
        do al <- unpack_u 4 size;
        do r <- parse_atts n (slice_from al d1);
        Ok (Some (take al d1) :: fst r, snd r)
  end.

(** struct.unpack('!%dL'): exactly 4 * ac bytes (checked by the callers) *)
Fixpoint unpack_Ls (ac : nat) (d : bytes) : list Z :=
  match ac with O => [] | S n => unbe (firstn 4 d) :: unpack_Ls n (skipn 4 d) end.
(** struct.unpack("2s" * ac, d): exactly 2 * ac bytes, otherwise struct.error *)
Fixpoint unpack_2s (ac : nat) (d : bytes) : res (list bytes) :=
  match ac with
  | O => match d with [] => Ok [] | _ => Err StructError end
  | S n => if (length d <? 2)%nat then Err StructError
           else do r <- unpack_2s n (skipn 2 d); Ok (firstn 2 d :: r)
  end.

(** Classes with a single instance (EmptyMessage subclasses) *)
Inductive ekind := ENull | ENoData | EParseComplete | EBindComplete | ECloseComplete
                 | ESuspension | EDisconnect | EFlush | ESynchronize | ECopyDone.
(** StringMessage subclasses without overrides *)
Inductive skind := SPassword | SQuery | SCopyFail.

(** name, relationId, columnNumber, typeId, typlen, typmod, format *)
Record attdesc := { an : bytes; arel : Z; acol : Z; atyp : Z; alen : Z; amod : Z; afmt : Z }.

Inductive message :=
| MNotify (pid : Z) (channel payload : bytes)             (* 198 *)
| MShowOption (name value : bytes)                        (* 221 *)
| MComplete (data : bytes)                                (* 239 *)
| MEmpty (k : ekind)                                      (* 179 and subclasses *)
| MReady (state : bytes)                                  (* 322 *)
| MNotice (error : bool) (d : list (bytes * bytes))       (* 342 Notice, 377 Error *)
| MFunctionResult (r : option bytes)                      (* 394 *)
| MAttributeTypes (l : list Z)                            (* 422 *)
| MTupleDescriptor (l : list attdesc)                     (* 440 *)
| MTuple (l : list (option bytes))                        (* 474 *)
| MKillInformation (pid key : Z)                          (* 514 *)
| MCancelRequest (pid key : Z)                            (* 533 *)
| MNegotiateSSL                                           (* 557 *)
| MStartup (d : list (bytes * bytes))                     (* 583, None values are skipped by serialize *)
| MAuthentication (request : Z) (salt : bytes)            (* 645 *)
| MString (k : skind) (data : bytes)                      (* 93 and 663, 697, 975 *)
| MParse (name statement : bytes) (argtypes : list Z)     (* 704 *)
| MBind (name statement : bytes) (aformats : list bytes) (args : list (option bytes)) (rformats : list bytes) (* 732 *)
| MExecute (name : bytes) (max : Z)                       (* 795 *)
| MDescribe (stmt : bool) (data : bytes)                  (* 814-840 *)
| MClose (stmt : bool) (data : bytes)                     (* 842-874 *)
| MFunction (oid : Z) (aformats : list bytes) (args : list (option bytes)) (rformat : bytes) (* 876 *)
| MCopyBegin (to : bool) (format : Z) (formats : list Z)  (* 923-959 *)
| MCopyData (data : bytes).                               (* 961 *)

(** the class of a message, which selects the parser *)
Inductive kind :=
| KNotify | KShowOption | KComplete | KEmpty (k : ekind) | KReady | KNotice (error : bool)
| KFunctionResult | KAttributeTypes | KTupleDescriptor | KTuple | KKillInformation
| KCancelRequest | KNegotiateSSL | KStartup | KAuthentication | KString (k : skind) | KParse
| KBind | KExecute | KDescribe (stmt : bool) | KClose (stmt : bool) | KFunction
| KCopyBegin (to : bool) | KCopyData.
Definition kind_of (m : message) : kind :=
  match m with
  | MNotify _ _ _ => KNotify | MShowOption _ _ => KShowOption | MComplete _ => KComplete
  | MEmpty k => KEmpty k | MReady _ => KReady | MNotice e _ => KNotice e
  | MFunctionResult _ => KFunctionResult | MAttributeTypes _ => KAttributeTypes
  | MTupleDescriptor _ => KTupleDescriptor | MTuple _ => KTuple
  | MKillInformation _ _ => KKillInformation | MCancelRequest _ _ => KCancelRequest
  | MNegotiateSSL => KNegotiateSSL | MStartup _ => KStartup | MAuthentication _ _ => KAuthentication
  | MString k _ => KString k | MParse _ _ _ => KParse | MBind _ _ _ _ _ => KBind
  | MExecute _ _ => KExecute | MDescribe s _ => KDescribe s | MClose s _ => KClose s
  | MFunction _ _ _ _ => KFunction | MCopyBegin t _ _ => KCopyBegin t | MCopyData _ => KCopyData
  end.

(** the class attribute [type]: Some byte, or None for b'' *)
Definition type_of (k : kind) : option Z :=
  match k with
  | KNotify => Some 65 | KShowOption => Some 83 | KComplete => Some 67
  | KEmpty ENull => Some 73 | KEmpty ENoData => Some 110 | KEmpty EParseComplete => Some 49
  | KEmpty EBindComplete => Some 50 | KEmpty ECloseComplete => Some 51 | KEmpty ESuspension => Some 115
  | KEmpty EDisconnect => Some 88 | KEmpty EFlush => Some 72 | KEmpty ESynchronize => Some 83
  | KEmpty ECopyDone => Some 99
  | KReady => Some 90 | KNotice false => Some 78 | KNotice true => Some 69
  | KFunctionResult => Some 86 | KAttributeTypes => Some 116 | KTupleDescriptor => Some 84
  | KTuple => Some 68 | KKillInformation => Some 75
  | KCancelRequest => None | KNegotiateSSL => None | KStartup => None
  | KAuthentication => Some 82
  | KString SPassword => Some 112 | KString SQuery => Some 81 | KString SCopyFail => Some 102
  | KParse => Some 80 | KBind => Some 66 | KExecute => Some 69
  | KDescribe _ => Some 68 | KClose _ => Some 67 | KFunction => Some 70
  | KCopyBegin true => Some 72 | KCopyBegin false => Some 71 | KCopyData => Some 100
  end.

(** version.py:34-35 Version.bytes ; 44-47 the codes *)
Definition version_bytes (major minor : Z) : bytes := be 2 major ++ be 2 minor.
Definition cancel_code := version_bytes 1234 5678.
Definition ssl_code := version_bytes 1234 5679.
Definition v3_0 := version_bytes 3 0.
(** version.py:19-29 Version.__new__ *)
Definition version_new (major minor : Z) : res (Z * Z) :=
  match pack_u 2 major, pack_u 2 minor with Ok _, Ok _ => Ok (major, minor) | _, _ => Err ValueError end.
(** version.py:31-32 __int__ *)
Definition version_int (v : Z * Z) : Z := Z.lor (Z.shiftl (fst v) 16) (snd v).
(** version.py:40-42 parse: struct '!HH' needs exactly four bytes *)
Definition version_parse (d : bytes) : res (Z * Z) :=
  if (length d =? 4)%nat then version_new (unbe (firstn 2 d)) (unbe (skipn 2 d)) else Err StructError.

(** element3.py:447 struct "!LhLhlh" *)
Definition pack_attdesc (a : attdesc) : res bytes :=
  do r <- pack_u 4 (arel a); do c <- pack_s 2 (acol a); do t <- pack_u 4 (atyp a);
  do l <- pack_s 2 (alen a); do m <- pack_s 4 (amod a); do f <- pack_s 2 (afmt a);
  Ok (an a ++ [0] ++ r ++ c ++ t ++ l ++ m ++ f).

(** 458-472 TupleDescriptor.parse: [ca] counts up to [ac] *)
Fixpoint parse_attdescs (ac : nat) (d : bytes) : res (list attdesc) :=
  match ac with
  | O => Ok []
  | S n =>
      match split1 0 d with
      | None => Err ValueError
      | Some (name, d) =>
          if (length (firstn 18 d) =? 18)%nat then
            let s n k := to_signed k (unbe (firstn k (skipn n d))) in
            let u n k := unbe (firstn k (skipn n d)) in
            do r <- parse_attdescs n (skipn 18 d);
            Ok ({| an := name; arel := u 0%nat 4%nat; acol := s 4%nat 2%nat; atyp := u 6%nat 4%nat;
                   alen := s 10%nat 2%nat; amod := s 12%nat 4%nat; afmt := s 16%nat 2%nat |} :: r)
          else Err StructError
      end
  end.

(** 605-617 Startup.parse: pair up keys and values; an unpaired key is dropped *)
Fixpoint pair_up (l : list bytes) : list (bytes * bytes) :=
  match l with k :: v :: r => (k, v) :: pair_up r | _ => [] end.

(** data[:-2] of a list *)
Definition drop_last2 {A} (l : list A) : list A := firstn (length l - 2) l.

Definition subtype (stmt : bool) : Z := if stmt then 83 else 80.

(** the serialize() method of each class; the lines are those of the class in the
    list above *)
Definition serialize (m : message) : res bytes :=
  match m with
  | MNotify pid ch pl => do p <- pack_u 4 pid; Ok (p ++ ch ++ [0] ++ pl ++ [0])       (* 210-213 *)
  | MShowOption n v => Ok (n ++ [0] ++ v ++ [0])                                       (* 232-233 *)
  | MComplete d => Ok (d ++ [0])                                                       (* 113-114 *)
  | MEmpty _ => Ok []                                                                  (* 189-190 *)
  | MReady s => Ok s                                                                   (* 339-340 *)
  | MNotice _ d => Ok (join [0] (map (fun kv => fst kv ++ snd kv)
                          (filter (fun kv => negb (seqb (fst kv) [])) d)) ++ [0])      (* 353-357 *)
  | MFunctionResult None => Ok nullmark                                                (* 404-406 *)
  | MFunctionResult (Some d) => do l <- pack_u 4 (len d); Ok (l ++ d)
  | MAttributeTypes l => do n <- pack_u 2 (len l); do x <- mapM (pack_u 4) l; Ok (n ++ concat x) (* 429-430 *)
  | MTupleDescriptor l => do n <- pack_u 2 (len l); do x <- mapM pack_attdesc l; Ok (n ++ concat x) (* 451-455 *)
  | MTuple l => do n <- pack_u 2 (len l); do x <- pack_tuple_data l; Ok (n ++ x)       (* 481-482 *)
  | MKillInformation p k => do a <- pack_u 4 p; do b <- pack_u 4 k; Ok (a ++ b)        (* 526-527 *)
  | MCancelRequest p k => do a <- pack_u 4 p; do b <- pack_u 4 k; Ok (cancel_code ++ a ++ b) (* 542-545 *)
  | MNegotiateSSL => Ok ssl_code                                                       (* 573-574 *)
  | MStartup d => Ok (v3_0 ++ concat (map (fun kv => fst kv ++ [0] ++ snd kv ++ [0]) d) ++ [0]) (* 593-598 *)
  | MAuthentication r s => do x <- pack_u 4 r; Ok (x ++ s)                             (* 656-657 *)
  | MString _ d => Ok (d ++ [0])                                                       (* 113-114 *)
  | MParse n s a => do ac <- pack_u 2 (len a); do x <- mapM (pack_u 4) a;
                    Ok (n ++ [0] ++ s ++ [0] ++ ac ++ concat x)                        (* 726-730 *)
  | MBind n s af args rf =>                                                            (* 754-761 *)
      do ac <- pack_u 2 (len args); do ad <- pack_tuple_data args; do rc <- pack_u 2 (len rf);
      Ok (n ++ [0] ++ s ++ [0] ++ ac ++ concat af ++ ac ++ ad ++ rc ++ concat rf)
  | MExecute n mx => do x <- pack_u 4 mx; Ok (n ++ [0] ++ x)                           (* 806-807 *)
  | MDescribe st d => Ok ([subtype st] ++ d ++ [0])                                    (* 821-822 *)
  | MClose st d => Ok ([subtype st] ++ d ++ [0])                                       (* 849-850 *)
  | MFunction oid af args rf =>                                                        (* 889-893 *)
      do ac <- pack_u 2 (len args); do o <- pack_u 4 oid; do ad <- pack_tuple_data args;
      Ok (o ++ ac ++ concat af ++ ac ++ ad ++ rf)
  | MCopyBegin _ f fs => do h <- pack_u 1 f; do n <- pack_u 2 (len fs);                (* 932-935 *)
                         do x <- mapM (pack_u 2) fs; Ok (h ++ n ++ concat x)
  | MCopyData d => Ok d                                                                (* 968-969 *)
  end.

(** Message.bytes (85-87), CancelRequest.bytes (547-549), NegotiateSSL.bytes
    (569-571), Startup.bytes (600-602) *)
Definition message_bytes (m : message) : res bytes :=
  do data <- serialize m;
  do l <- pack_u 4 (len data + 4);
  Ok (match type_of (kind_of m) with Some t => t :: l ++ data | None => l ++ data end).

(** StringMessage.parse (117-120) *)
Definition parse_string (d : bytes) : res bytes :=
  match rev d with
  | 0 :: r => Ok (rev r)
  | _ => Err ValueError
  end.

Fixpoint parse_pairs2 (n : nat) (d : bytes) : list Z :=
  match n with O => [] | S n => unbe (firstn 2 d) :: parse_pairs2 n (skipn 2 d) end.

(** the parse() class method of each class *)
Definition parse (k : kind) (d : bytes) : res message :=
  match k with
  | KNotify =>                                                                         (* 216-219 *)
      do pid <- unpack_u 4 d;
      match splitn 2 0 (skipn 4 d) with
      | [ch; pl; _] => Ok (MNotify pid ch pl)
      | _ => Err ValueError
      end
  | KShowOption =>                                                                     (* 236-237 *)
      match firstn 2 (splitn 2 0 d) with
      | [n; v] => Ok (MShowOption n v)
      | _ => Err TypeError
      end
  | KComplete => Ok (MComplete (rstrip0 d))                                            (* 247-248 *)
  | KEmpty e => match d with [] => Ok (MEmpty e) | _ => Err ValueError end             (* 193-196 *)
  | KReady => if existsb (seqb d) [[73]; [69]; [84]] then Ok (MReady d) else Err ValueError (* 334-337 *)
  | KNotice e => Ok (MNotice e (dict_of (map (fun x => (firstn 1 x, skipn 1 x))        (* 360-365 *)
                        (filter (fun x => negb (seqb x [])) (split_all 0 d)))))
  | KFunctionResult =>                                                                 (* 409-420 *)
      if seqb d nullmark then Ok (MFunctionResult None)
      else do size <- unpack_u 4 (firstn 4 d);
           if size =? len (skipn 4 d) then Ok (MFunctionResult (Some (skipn 4 d))) else Err ValueError
  | KAttributeTypes =>                                                                 (* 433-438 *)
      do ac <- unpack_u 2 (firstn 2 d);
      if len (skipn 2 d) =? ac * 4 then Ok (MAttributeTypes (unpack_Ls (Z.to_nat ac) (skipn 2 d)))
      else Err ValueError
  | KTupleDescriptor =>                                                                (* 458-472 *)
      do ac <- unpack_u 2 (firstn 2 d);
      do l <- parse_attdescs (Z.to_nat ac) (skipn 2 d); Ok (MTupleDescriptor l)
  | KTuple =>                                                                          (* 485-508 *)
      do n <- unpack_u 2 (firstn 2 d);
      do r <- parse_atts (Z.to_nat n) (skipn 2 d); Ok (MTuple (fst r))
  | KKillInformation =>                                                                (* 530-531 *)
      if (length d =? 8)%nat then Ok (MKillInformation (unbe (firstn 4 d)) (unbe (skipn 4 d)))
      else Err StructError
  | KCancelRequest =>                                                                  (* 552-555 *)
      if negb (seqb (firstn 4 d) cancel_code) then Err ValueError
      else if (length (skipn 4 d) =? 8)%nat
      then Ok (MCancelRequest (unbe (firstn 4 (skipn 4 d))) (unbe (skipn 4 (skipn 4 d))))
      else Err StructError
  | KNegotiateSSL => if seqb d ssl_code then Ok MNegotiateSSL else Err ValueError      (* 577-580 *)
  | KStartup =>                                                                        (* 605-617 *)
      if negb (seqb (firstn 4 d) v3_0) then Err ValueError
      else Ok (MStartup (dict_of (pair_up (drop_last2 (split_all 0 (skipn 4 d))))))
  | KAuthentication => do r <- unpack_u 4 (firstn 4 d); Ok (MAuthentication r (skipn 4 d)) (* 660-661 *)
  | KString s => do x <- parse_string d; Ok (MString s x)                              (* 117-120 *)
  | KParse =>                                                                          (* 717-724 *)
      match splitn 2 0 d with
      | [n; s; args] =>
          do ac <- unpack_u 2 (firstn 2 args);
          if len (skipn 2 args) =? ac * 4 then Ok (MParse n s (unpack_Ls (Z.to_nat ac) (skipn 2 args)))
          else Err ValueError
      | _ => Err ValueError
      end
  | KBind =>                                                                           (* 764-793 *)
      match splitn 2 0 d with
      | [n; s; data] =>
          do ac <- unpack_u 2 (firstn 2 data);
          do af <- unpack_2s (Z.to_nat ac) (take (2 * ac) (skipn 2 data));
          let rest := slice_from (2 + 2 * ac) data in
          do natts <- unpack_u 2 (firstn 2 rest);
          do r <- parse_atts (Z.to_nat natts) (skipn 2 rest);
          let rest := snd r in
          do rfc <- unpack_u 2 (firstn 2 rest);
          do rf <- unpack_2s (Z.to_nat rfc) (take (2 * rfc) (skipn 2 rest));
          Ok (MBind n s af (fst r) rf)
      | _ => Err ValueError
      end
  | KExecute =>                                                                        (* 810-812 *)
      match splitn 1 0 d with
      | [n; mx] => do x <- unpack_u 4 mx; Ok (MExecute n x)
      | _ => Err ValueError
      end
  | KDescribe st =>                                                                    (* 825-832 *)
      if seqb (firstn 1 d) [subtype st] then do x <- parse_string (skipn 1 d); Ok (MDescribe st x)
      else Err ValueError
  | KClose st =>                                                                       (* 853-860 *)
      if seqb (firstn 1 d) [subtype st] then do x <- parse_string (skipn 1 d); Ok (MClose st x)
      else Err ValueError
  | KFunction =>                                                                       (* 896-921 *)
      do oid <- unpack_u 4 (firstn 4 d);
      do ac <- unpack_u 2 (firstn 2 (skipn 4 d));
      do af <- unpack_2s (Z.to_nat ac) (take (2 * ac) (skipn 6 d));
      let rest := slice_from (6 + 2 * ac) d in
      do natts <- unpack_u 2 (firstn 2 rest);
      do r <- parse_atts (Z.to_nat natts) (skipn 2 rest);
      Ok (MFunction oid af (fst r) (snd r))
  | KCopyBegin to =>                                                                   (* 938-945 *)
      if (length (firstn 3 d) =? 3)%nat then
        let f := unbe (firstn 1 d) in
        let natts := unbe (firstn 2 (skipn 1 d)) in
        if len (skipn 3 d) =? natts * 2 then Ok (MCopyBegin to f (parse_pairs2 (Z.to_nat natts) (skipn 3 d)))
        else Err ValueError
      else Err StructError
  | KCopyData => Ok (MCopyData d)                                                      (* 972-973 *)
  end.

(** element3.py:34-61 cat_messages: message objects, raw bytes (COPY lines) and
    plain tuples (rows) *)
Inductive item := IMsg (m : message) | IRaw (d : bytes) | ITuple (l : list (option bytes)).
Definition item_bytes (i : item) : res bytes :=
  match i with
  | IMsg m => message_bytes m
  | IRaw d => do l <- pack_s 4 (len d + 4); Ok (100 :: l ++ d)
  | ITuple t => do r <- pack_tuple_data t;
                do h <- pack_s 4 (len r + 6); do n <- pack_u 2 (len t);
                Ok (68 :: h ++ n ++ r)
  end.
Definition cat_messages (l : list item) : res bytes :=
  do x <- mapM item_bytes l; Ok (concat x).

(** 250-259 Complete.extract_count: bytes.split() on ASCII whitespace, isdigit, int *)
Definition is_space (c : Z) : bool := (c =? 32) || ((9 <=? c) && (c <=? 13)).
Definition is_digit (c : Z) : bool := (48 <=? c) && (c <=? 57).
Fixpoint fields (l : bytes) : list bytes :=
  match l with
  | [] => []
  | x :: xs =>
      if is_space x then fields xs
      else match xs with
           | [] => [[x]]
           | y :: _ => if is_space y then [x] :: fields xs
                       else match fields xs with f :: fs => (x :: f) :: fs | [] => [[x]] end
           end
  end.
Definition digits_value (l : bytes) : Z := fold_left (fun a c => a * 10 + (c - 48)) l 0.
Fixpoint last_count (l : list bytes) : option Z :=
  match l with
  | [] => None
  | x :: xs => match last_count xs with
               | Some n => Some n
               | None => if forallb is_digit x then Some (digits_value x) else None
               end
  end.
Definition extract_count (d : bytes) : option Z := last_count (fields d).
(** 261-266 extract_command: strip b'\r\n\t 0123456789' at both ends, or None *)
Definition strip_char (c : Z) : bool := memZ c [13; 10; 9; 32] || is_digit c.
Fixpoint lstrip (f : Z -> bool) (l : bytes) : bytes :=
  match l with [] => [] | x :: xs => if f x then lstrip f xs else l end.
Definition strip (f : Z -> bool) (l : bytes) : bytes := rev (lstrip f (rev (lstrip f l))).
Definition extract_command (d : bytes) : option bytes :=
  match strip strip_char d with [] => None | x => Some x end.
