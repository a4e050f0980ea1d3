(** PBufferModel.v: /repo/postgresql/protocol/pbuffer.py (pure Python message
    buffer).  A [BytesIO] is its contents and its position. *)
From Verif Require Import Base.

Record bytesio := { bcont : list Z; bpos : Z }.

(** io.BytesIO primitives (Python library behaviour, used by pbuffer.py):
    seek(n) | seek(0, 2) | seek(n, 1) | read(n) | read() | write | truncate(n) | tell.
    Reading past the end returns what is there; writing past the end pads with
    zeros; truncate does not move the position. *)
Definition bio_seek (n : Z) (b : bytesio) := {| bcont := bcont b; bpos := n |}.
Definition bio_seek_end (b : bytesio) := {| bcont := bcont b; bpos := len (bcont b) |}.
Definition bio_seek_cur (n : Z) (b : bytesio) := {| bcont := bcont b; bpos := Z.max 0 (bpos b + n) |}.
(** slices with clamped bounds, s[i:i+n] for i, n >= 0 *)
Definition slice_from {A} (i : Z) (l : list A) : list A :=
  skipn (Z.to_nat (Z.min i (len l))) l.
Definition take {A} (n : Z) (l : list A) : list A :=
  firstn (Z.to_nat (Z.min n (len l))) l.
Definition bio_read (n : Z) (b : bytesio) : list Z * bytesio :=
  let d := take n (slice_from (bpos b) (bcont b)) in
  (d, {| bcont := bcont b; bpos := bpos b + len d |}).
Definition bio_read_all (b : bytesio) : list Z := slice_from (bpos b) (bcont b).
Definition bio_write (d : list Z) (b : bytesio) : bytesio :=
  {| bcont := take (bpos b) (bcont b)
              ++ repeat 0 (Z.to_nat (bpos b - len (bcont b)))
              ++ d ++ slice_from (bpos b + len d) (bcont b);
     bpos := bpos b + len d |}.
Definition bio_truncate (n : Z) (b : bytesio) : bytesio :=
  {| bcont := take n (bcont b); bpos := bpos b |}.

(** pbuffer.py:16 xl_unpack = struct.Struct('!xL').unpack_from : skip one byte,
    then an unsigned 32 bit integer *)
Definition xl_unpack (h : list Z) : Z := unbe (firstn 4 (skipn 1 h)).

(** pbuffer.py:18-27 class pq_message_stream, _block, _limit, __init__ *)
Record pbuf := { strio : bytesio; start : Z }.
Definition block : Z := 512.
Definition limit : Z := block * 4.
Definition pb_init : pbuf := {| strio := {| bcont := []; bpos := 0 |}; start := 0 |}.

(** pbuffer.py:29-35 truncate *)
Definition pb_truncate (p : pbuf) : pbuf :=
  {| strio := bio_truncate 0 (strio p); start := 0 |}.

(** pbuffer.py:53-65, the copy loop of _rtruncate: the fuel bounds the number of blocks *)
Fixpoint copy_loop (fuel : nat) (b : bytesio) (copyto copyfrom : Z) : res bytesio :=
  match fuel with
  | O => Err OutOfFuel
  | S fuel =>
      let b := bio_seek copyfrom b in
      let (data, b) := bio_read block b in
      let copyfrom := bpos b in
      let b := bio_seek copyto b in
      let b := bio_write data b in
      if negb (len data =? block) then Ok b
      else copy_loop fuel b (bpos b) copyfrom
  end.

(** pbuffer.py:37-67 _rtruncate(amt), called with an explicit amount only *)
Definition rtruncate (amt : Z) (b : bytesio) : res bytesio :=
  let b := bio_seek_end b in
  let size := bpos b in
  if size =? amt then Ok (bio_truncate 0 b)
  else
    do b <- copy_loop (S (length (bcont b))) b 0 amt;
    Ok (bio_truncate (size - amt) b).

(** pbuffer.py:69-83 has_message (returns the boolean and the moved stream) *)
Definition pb_has_message (p : pbuf) : res bool * pbuf :=
  let b := bio_seek (start p) (strio p) in
  let (header, b) := bio_read 5 b in
  if len header <? 5 then (Ok false, {| strio := b; start := start p |})
  else
    let length := xl_unpack header in
    if length <? 4 then (Err ValueError, {| strio := b; start := start p |})
    else
      let b := bio_seek_end b in
      (Ok (bpos b - start p >=? length + 1), {| strio := b; start := start p |}).

(** pbuffer.py:94-111 the loop of __len__ *)
Fixpoint len_loop (fuel : nat) (b : bytesio) (count : Z) : res Z * bytesio :=
  match fuel with
  | O => (Err OutOfFuel, b)
  | S fuel =>
      let (header, b) := bio_read 5 b in
      if len header <? 5 then (Ok count, b)
      else
        let length := xl_unpack header in
        if length <? 4 then (Err ValueError, b)
        else
          let b := bio_seek_cur (length - 4 - 1) b in
          let (one, b) := bio_read 1 b in
          if negb (len one =? 1) then (Ok count, b)
          else len_loop fuel b (count + 1)
  end.

(** pbuffer.py:85-112 __len__ ; [rpos] is computed but not used by the code *)
Definition pb_len (p : pbuf) : res Z * pbuf :=
  let b := bio_seek (start p) (strio p) in
  let (r, b) := len_loop (S (length (bcont b))) b 0 in
  (r, {| strio := b; start := start p |}).

(** a message: its type byte and its body *)
Definition msg : Type := Z * list Z.

(** pbuffer.py:114-133 _get_message ; message_types[header[0]] is the one byte
    string of that code (protocol/message_types.py), represented by the code *)
Definition get_message (b : bytesio) : res (option msg) * bytesio :=
  let (header, b) := bio_read 5 b in
  if len header <? 5 then (Ok None, b)
  else
    let length := xl_unpack header in
    let typ := hd 0 header in
    if length <? 4 then (Err ValueError, b)
    else
      let length := length - 4 in
      let (body, b) := bio_read length b in
      if len body <? length then (Ok None, b)
      else (Ok (Some (typ, body)), b).

(** pbuffer.py:136-138, 147-149, 159-161: compaction before reading *)
Definition compact (p : pbuf) : res pbuf :=
  if start p >? limit then
    do b <- rtruncate (start p) (strio p);
    Ok {| strio := b; start := 0 |}
  else Ok p.

(** pbuffer.py:135-144 next_message; __next__ (146-156) is the same with
    StopIteration in place of None *)
Definition pb_next_message (p : pbuf) : res (option msg) * pbuf :=
  match compact p with
  | Err e => (Err e, p)
  | Ok p =>
      let b := bio_seek (start p) (strio p) in
      let (r, b) := get_message b in
      match r with
      | Err e => (Err e, {| strio := b; start := start p |})
      | Ok None => (Ok None, {| strio := b; start := start p |})
      | Ok (Some m) => (Ok (Some m), {| strio := b; start := bpos b |})
      end
  end.

(** pbuffer.py:146-156 __next__ *)
Definition pb_next (p : pbuf) : res msg * pbuf :=
  match pb_next_message p with
  | (Ok (Some m), p) => (Ok m, p)
  | (Ok None, p) => (Err StopIteration, p)
  | (Err e, p) => (Err e, p)
  end.

(** pbuffer.py:166-171 the loop of read *)
Fixpoint read_loop (fuel : nat) (b : bytesio) (num : Z) (l : list msg) (new_start : Z)
  : res (list msg * Z) * bytesio :=
  match fuel with
  | O => (Err OutOfFuel, b)
  | S fuel =>
      if len l <? num then
        let (r, b) := get_message b in
        match r with
        | Err e => (Err e, b)
        | Ok None => (Ok (l, new_start), b)
        | Ok (Some m) => read_loop fuel b num (l ++ [m]) (new_start + (5 + len (snd m)))
        end
      else (Ok (l, new_start), b)
  end.

(** pbuffer.py:158-173 read(num = 0xFFFFFFFF) *)
Definition pb_read (num : Z) (p : pbuf) : res (list msg) * pbuf :=
  match compact p with
  | Err e => (Err e, p)
  | Ok p =>
      let b := bio_seek (start p) (strio p) in
      let (r, b) := read_loop (S (length (bcont b))) b num [] (start p) in
      match r with
      | Err e => (Err e, {| strio := b; start := start p |})
      | Ok (l, new_start) => (Ok l, {| strio := b; start := new_start |})
      end
  end.

(** pbuffer.py:175-178 write *)
Definition pb_write (d : list Z) (p : pbuf) : pbuf :=
  {| strio := bio_write d (bio_seek_end (strio p)); start := start p |}.

(** pbuffer.py:180-182 getvalue *)
Definition pb_getvalue (p : pbuf) : list Z * pbuf :=
  let b := bio_seek (start p) (strio p) in
  (bio_read_all b, {| strio := {| bcont := bcont b; bpos := bpos b + len (bio_read_all b) |};
                      start := start p |}).

(** The public operations and their observable results. *)
Inductive op :=
| OWrite (d : list Z) | ORead (num : Z) | ONextMessage | ONext | OHasMessage
| OLen | OGetvalue | OTruncate.
Inductive out :=
| RUnit | RMsgs (r : res (list msg)) | RMsgOpt (r : res (option msg)) | RMsg (r : res msg)
| RBool (r : res bool) | RLen (r : res Z) | RBytes (d : list Z).

Definition pb_step (p : pbuf) (o : op) : out * pbuf :=
  match o with
  | OWrite d => (RUnit, pb_write d p)
  | ORead n => let (r, p) := pb_read n p in (RMsgs r, p)
  | ONextMessage => let (r, p) := pb_next_message p in (RMsgOpt r, p)
  | ONext => let (r, p) := pb_next p in (RMsg r, p)
  | OHasMessage => let (r, p) := pb_has_message p in (RBool r, p)
  | OLen => let (r, p) := pb_len p in (RLen r, p)
  | OGetvalue => let (r, p) := pb_getvalue p in (RBytes r, p)
  | OTruncate => (RUnit, pb_truncate p)
  end.

Fixpoint pb_run (p : pbuf) (ops : list op) : list out * pbuf :=
  match ops with
  | [] => ([], p)
  | o :: os => let (r, p) := pb_step p o in let (rs, p) := pb_run p os in (r :: rs, p)
  end.
