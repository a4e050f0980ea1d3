(** TypeIOModel.v: binary type I/O:
    /repo/postgresql/types/io/lib.py (record, array, vectors, varbit, net,
    macaddr), /repo/postgresql/python/structlib.py (integers, split_sized_data),
    /repo/postgresql/python/itertools.py (interlace, chunk),
    /repo/postgresql/types/io/contrib_hstore.py, stdlib_jsonb.py, builtins.py,
    pg_bitwise.py, pg_network.py and /repo/postgresql/types/bitwise.py.
    Floating point codecs are not modelled. *)
From Verif Require Import Base PBufferModel Element3Model PyList IterModel.

(** structlib.py:77-80 and 41-42, made by mk_pack (structlib.py:11-20): the pure
    Python definitions, used when port.optimized is not available *)
Definition short_pack := pack_s 2.   Definition short_unpack := unpack_s 2.
Definition ushort_pack := pack_u 2.  Definition ushort_unpack := unpack_u 2.
Definition long_pack := pack_s 4.    Definition long_unpack := unpack_s 4.
Definition ulong_pack := pack_u 4.   Definition ulong_unpack := unpack_u 4.
Definition longlong_pack := pack_s 8.  Definition longlong_unpack := unpack_s 8.
Definition ulonglong_pack := pack_u 8. Definition ulonglong_unpack := unpack_u 8.

(** builtins.py:8-9 (dict lookups: KeyError on anything else) *)
Definition bool_pack (b : bool) : bytes := if b then [1] else [0].
Definition bool_unpack (d : bytes) : res bool :=
  if seqb d [1] then Ok true else if seqb d [0] then Ok false else Err KeyError.

(** structlib.py:82-108 split_sized_data; the generator is run to its end.  The
    fuel is the number of rounds of `while v`. *)
Fixpoint split_sized (fuel : nat) (v : bytes) : res (list (option bytes)) :=
  match v with
  | [] => Ok []
  | _ =>
    match fuel with
    | O => Err OutOfFuel
    | S fuel =>
      do l <- ulong_unpack v;
      if l =? 4294967295 then
        do r <- split_sized fuel (skipn 4 v); Ok (None :: r)
      else
        let d := take l (skipn 4 v) in
        if len d <? l then Err ValueError
        else do r <- split_sized fuel (slice_from (l + 4) v); Ok (Some d :: r)
    end
  end.
Definition split_sized_data (v : bytes) : res (list (option bytes)) := split_sized (S (length v)) v.

(** lib.py:378-389 record_pack *)
Definition record_att_pack (x : Z * option bytes) : res bytes :=
  do o <- ulong_pack (fst x);
  match snd x with
  | None => Ok (o ++ nullmark)
  | Some y => do l <- long_pack (len y); Ok (o ++ l ++ y)
  end.
Definition record_pack (seq : list (Z * option bytes)) : res bytes :=
  do h <- long_pack (len seq); do l <- mapM record_att_pack seq; Ok (h ++ concat l).

(** lib.py:359-373 the loop of record_unpack, [n] rounds left, [offset] *)
Fixpoint record_loop (n : nat) (data : bytes) (offset : Z) : res (list (Z * option bytes) * Z) :=
  match n with
  | O => Ok ([], offset)
  | S n =>
      do typid <- ulong_unpack (pyslice data offset (offset + 4));
      let offset := offset + 4 in
      if seqb (pyslice data offset (offset + 4)) nullmark then
        do r <- record_loop n data (offset + 4); Ok ((typid, None) :: fst r, snd r)
      else
        do size <- long_unpack (pyslice data offset (offset + 4));
        let offset := offset + 4 in
        let att := pyslice data offset (offset + size) in
        if (size <? -1) || negb (len att =? size) then Err ValueError
        else do r <- record_loop n data (offset + size); Ok ((typid, Some att) :: fst r, snd r)
  end.
(** lib.py:347-376 record_unpack (generator run to its end) *)
Definition record_unpack (data : bytes) : res (list (Z * option bytes)) :=
  do columns <- long_unpack data;
  do r <- record_loop (Z.to_nat columns) data 4;
  if negb (len data - snd r =? 0) then Err ValueError else Ok (fst r).

(** lib.py:391-405 elements_pack *)
Definition element_pack (x : option bytes) : res bytes :=
  match x with None => Ok nullmark | Some d => do l <- long_pack (len d); Ok (l ++ d) end.
(** lib.py:407-436 array_pack *)
Record raw_array := { aflags : Z; atypid : Z; adims : list Z; albs : list Z; aelems : list (option bytes) }.
Definition array_pack (a : raw_array) : res bytes :=
  do n <- long_pack (len (adims a)); do f <- long_pack (aflags a); do t <- ulong_pack (atypid a);
  do ds <- mapM long_pack (interlace [adims a; albs a]);
  do es <- mapM element_pack (aelems a);
  Ok (n ++ f ++ t ++ concat ds ++ concat es).

(** lib.py:438-455 elements_unpack, `while offset < data_len`; the fuel is the number of rounds *)
Fixpoint elements_unpack (fuel : nat) (data : bytes) (offset : Z) : res (list (option bytes)) :=
  if offset <? len data then
    match fuel with
    | O => Err OutOfFuel
    | S fuel =>
        let lend := pyslice data offset (offset + 4) in
        let offset := offset + 4 in
        if seqb lend nullmark then
          do r <- elements_unpack fuel data offset; Ok (None :: r)
        else
          do sz <- long_unpack lend;
          do r <- elements_unpack fuel data (offset + sz);
          Ok (Some (pyslice data offset (offset + sz)) :: r)
    end
  else Ok [].

(** lib.py:474-475: n values long_unpack(data[x:x+4]) for x = start, start + 8, ... *)
Fixpoint longs_at (n : nat) (data : bytes) (x : Z) : res (list Z) :=
  match n with
  | O => Ok []
  | S n => do v <- long_unpack (pyslice data x (x + 4)); do r <- longs_at n data (x + 8); Ok (v :: r)
  end.
(** lib.py:457-476 array_unpack, with the element generator run to its end
    (fuel as above) *)
Definition array_unpack (fuel : nat) (data : bytes) : res raw_array :=
  do ndim <- long_unpack data;
  do flags <- long_unpack (skipn 4 data);
  do typid <- ulong_unpack (skipn 8 data);
  if ndim <? 0 then Err ValueError
  else
    let endp := (4 * 2 * ndim) + 12 in
    do dims <- longs_at (Z.to_nat ndim) data 12;
    do lbs <- longs_at (Z.to_nat ndim) data 16;
    do es <- elements_unpack fuel data endp;
    Ok {| aflags := flags; atypid := typid; adims := dims; albs := lbs; aelems := es |}.

(** lib.py:220-226, 236-242: bytes.ljust called with a str fill character raises
    TypeError whatever the sequence is *)
Definition oidvector_pack (seq : list Z) : res bytes := do l <- mapM ulong_pack seq; Err TypeError.
Definition int2vector_pack (seq : list Z) : res bytes := do l <- mapM short_pack seq; Err TypeError.
(** lib.py:228-234 unpack("!32L"), 244-250 unpack("!32h"): exact sizes *)
Definition oidvector_unpack (d : bytes) : res (list Z) :=
  if (length d =? 128)%nat then Ok (unpack_Ls 32 d) else Err StructError.
Definition int2vector_unpack (d : bytes) : res (list Z) :=
  if (length d =? 64)%nat then Ok (map (to_signed 2) (parse_pairs2 32 d)) else Err StructError.

(** lib.py:252-260, 262-270 varbit_pack / varbit_unpack *)
Definition varbit_pack (v : Z * bytes) : res bytes := do l <- long_pack (fst v); Ok (l ++ snd v).
Definition varbit_unpack (d : bytes) : res (Z * bytes) :=
  do b <- long_unpack (firstn 4 d); Ok (b, skipn 4 d).

(** ** bitwise.py.  An object is the pair (bits, data) of its attributes;
    OneBit/ZeroBit are (1, b'\x80') and (1, b'\x00') (bitwise.py:98-103). *)
Definition varbit := (Z * bytes)%type.
Definition ZeroBit : varbit := (1, [0]).
Definition OneBit : varbit := (1, [128]).
(** bitwise.py:4-12 from_bits ; data[0] of empty bytes raises IndexError *)
Definition from_bits (bits : Z) (data : bytes) : res varbit :=
  if bits =? 1 then
    match data with
    | [] => Err IndexError
    | b :: _ => Ok (if Z.testbit b 7 then OneBit else ZeroBit)
    end
  else Ok (bits, data).
(** int(s, 2) for a string of at least one binary digit; anything else is taken
    as ValueError (simplified: Python also accepts signs, blanks, underscores and
    a 0b prefix) *)
Definition bit_of (c : Z) : res Z := if c =? 48 then Ok 0 else if c =? 49 then Ok 1 else Err ValueError.
Definition int_base2 (s : list Z) : res Z :=
  match s with
  | [] => Err ValueError
  | _ => do l <- mapM bit_of s; Ok (fold_left (fun a b => a * 2 + b) l 0)
  end.
(** s.ljust(8, '0') *)
Definition ljust8 (s : list Z) : list Z := s ++ repeat 48 (8 - length s).
(** bitwise.py:20-24: whole bytes, then the remainder *)
Fixpoint pack_bits (fuel : nat) (s : list Z) : res bytes :=
  match s with
  | [] => Ok []
  | _ =>
    match fuel with
    | O => Err OutOfFuel
    | S fuel =>
        if (length s <? 8)%nat then do b <- int_base2 (ljust8 s); Ok [b]
        else do b <- int_base2 (firstn 8 s); do r <- pack_bits fuel (skipn 8 s); Ok (b :: r)
    end
  end.
(** bitwise.py:14-25 __new__ for a str *)
Definition varbit_of_str (s : list Z) : res varbit :=
  do d <- pack_bits (length s) s; from_bits (len s) d.
(** bitwise.py:17-18 __new__ for bytes *)
Definition varbit_of_bytes (d : bytes) : res varbit := from_bits (len d * 8) d.
(** bin(x)[2:].rjust(8, '0') for a byte *)
Definition bin8 (x : Z) : list Z := map (fun i => if Z.testbit x i then 49 else 48) [7;6;5;4;3;2;1;0].
(** bitwise.py:27-34 __str__ (Bit.__str__, 95-96, gives the same text for the two
    Bit objects); blocks[-1] on no blocks raises IndexError *)
Definition varbit_str (v : varbit) : res (list Z) :=
  let '(bits, data) := v in
  if bits =? 0 then Ok []
  else match rev (map bin8 data) with
       | [] => Err IndexError
       | last :: firsts =>
           let m := bits mod 8 in
           Ok (concat (rev firsts) ++ firstn (Z.to_nat (if m =? 0 then 8 else m)) last)
       end.
(** bitwise.py:51-52 __add__, 54-55 __mul__ *)
Definition varbit_add (a b : varbit) : res varbit :=
  do x <- varbit_str a; do y <- varbit_str b; varbit_of_str (x ++ y).
Definition varbit_mul (a : varbit) (n : Z) : res varbit :=
  do x <- varbit_str a; varbit_of_str (concat (repeat x (Z.to_nat n))).
(** bitwise.py:57-69 getbit: `ord(self.data[byte])` is applied to an int: TypeError *)
Definition getbit (v : varbit) (off : Z) : res varbit :=
  let idx := if off <? 0 then fst v + off else off in
  if negb ((0 <=? idx) && (idx <? fst v)) then Err IndexError
  else do b <- pyindex (snd v) (idx / 8); Err TypeError.
(** pg_bitwise.py:5-9 *)
Definition pgvarbit_pack (v : varbit) : res bytes := varbit_pack v.
Definition pgvarbit_unpack (d : bytes) : res varbit := do p <- varbit_unpack d; from_bits (fst p) (snd p).

(** ** hstore: contrib_hstore.py; keys and values are taken already encoded
    (typio.encode/decode is the identity on bytes here) *)
Definition hstore_item_pack (kv : bytes * option bytes) : res bytes :=
  do lk <- ulong_pack (len (fst kv));
  match snd kv with
  | None => Ok (lk ++ fst kv ++ nullmark)
  | Some v => do lv <- ulong_pack (len v); Ok (lk ++ fst kv ++ lv ++ v)
  end.
(** contrib_hstore.py:13-27 pack_hstore *)
Definition hstore_pack (d : list (bytes * option bytes)) : res bytes :=
  do n <- ulong_pack (len d); do l <- mapM hstore_item_pack d; Ok (n ++ concat l).
(** contrib_hstore.py:36-39: the dict comprehension over chunk(split(view), 2): a
    trailing single item has no y[1] (IndexError), a NULL key cannot be decoded; the
    empty last chunk is dropped by `if y`.  Simplified: the data is split first, so
    that with two errors in the data the exception may differ *)
Fixpoint hstore_pairs (l : list (option bytes)) : res (list (bytes * option bytes)) :=
  match l with
  | [] => Ok []
  | None :: _ => Err TypeError
  | [Some _] => Err IndexError
  | Some k :: v :: r => do rest <- hstore_pairs r; Ok ((k, v) :: rest)
  end.
(** contrib_hstore.py:29-42 unpack_hstore *)
Definition hstore_unpack (x : bytes) : res (list (bytes * option bytes)) :=
  do n <- ulong_unpack x;
  do items <- split_sized_data (skipn 4 x);
  do ps <- hstore_pairs items;
  let r := dict_of ps in
  if negb (len r =? n) then Err ValueError else Ok r.

(** ** jsonb: stdlib_jsonb.py:4-12 (typeio.encode/decode as identity on bytes) *)
Definition jsonb_pack (x : bytes) : bytes := 1 :: x.
Definition jsonb_unpack (x : bytes) : res bytes :=
  match x with
  | [] => Err IndexError
  | v :: r => if v =? 1 then Ok r else Err ValueError
  end.

(** ** network: lib.py:272-286 net_pack *)
Definition fam_to_pg (f : Z) : res Z := if f =? 4 then Ok 2 else if f =? 6 then Ok 3 else Err KeyError.
Definition fam_of_pg (f : Z) : res Z := if f =? 2 then Ok 4 else if f =? 3 then Ok 6 else Err KeyError.
Definition mk_bytes (l : list Z) : res bytes := if is_bytesb l then Ok l else Err ValueError.
Definition net_pack (family : Z) (mask : option Z) (data : bytes) : res bytes :=
  do f <- fam_to_pg family;
  do h <- mk_bytes [f; match mask with Some m => m | None => 0 end;
                    match mask with None => 0 | Some _ => 1 end; len data];
  Ok (h ++ data).
(** lib.py:288-301 net_unpack: unpacking data[:4] into four names needs four bytes *)
Definition net_unpack (d : bytes) : res (Z * Z * bytes) :=
  match d with
  | fam :: mask :: is_cidr :: size :: r => do f <- fam_of_pg fam; Ok (f, mask, r)
  | _ => Err ValueError
  end.
(** pg_network.py: an address is (version, integer); a network adds the prefix
    length.  ipaddress (Python library): .packed is the big-endian integer,
    ip_address/ip_network of bytes selects the version by the length (4 or 16). *)
Definition addr_bytes (version : Z) : nat := if version =? 4 then 4%nat else 16%nat.
Definition width (version : Z) : Z := if version =? 4 then 32 else 128.
Definition packed (version addr : Z) : bytes := be (addr_bytes version) addr.
Definition addr_of_bytes (d : bytes) : res (Z * Z) :=
  if (length d =? 4)%nat then Ok (4, unbe d)
  else if (length d =? 16)%nat then Ok (6, unbe d) else Err ValueError.
(** pg_network.py:11-13 inet_pack *)
Definition inet_pack (a : Z * Z) : res bytes := net_pack (fst a) None (packed (fst a) (snd a)).
(** pg_network.py:19-21 inet_unpack *)
Definition inet_unpack (d : bytes) : res (Z * Z) := do t <- net_unpack d; addr_of_bytes (snd t).
(** pg_network.py:15-17 cidr_pack *)
Definition cidr_pack (n : Z * Z * Z) : res bytes :=
  let '(v, addr, prefix) := n in net_pack v (Some prefix) (packed v addr).
(** pg_network.py:23-25 cidr_unpack: ip_network(data).supernet(new_prefix = mask)
    (ipaddress: refuses a longer prefix, masks the host bits) *)
Definition cidr_unpack (d : bytes) : res (Z * Z * Z) :=
  do t <- net_unpack d;
  let '(_, mask, data) := t in
  do a <- addr_of_bytes data;
  let '(v, addr) := a in
  if mask >? width v then Err ValueError
  else Ok (v, Z.land addr (Z.shiftl (2 ^ width v - 1) (width v - mask)), mask).

(** ** macaddr: lib.py:303-345 on strings of code points *)
Definition hex_digit (x : Z) : Z := if x <? 10 then 48 + x else 87 + x.
Definition hex2 (b : Z) : list Z := [hex_digit (b / 16); hex_digit (b mod 16)].
Definition hex_val (c : Z) : res Z :=
  if (48 <=? c) && (c <=? 57) then Ok (c - 48)
  else if (97 <=? c) && (c <=? 102) then Ok (c - 87)
  else if (65 <=? c) && (c <=? 70) then Ok (c - 55) else Err ValueError.
(** int(p, 16); simplified as [int_base2] *)
Definition int_base16 (s : list Z) : res Z :=
  match s with
  | [] => Err ValueError
  | _ => do l <- mapM hex_val s; Ok (fold_left (fun a b => a * 16 + b) l 0)
  end.
(** lib.py:303-333 macaddr_pack *)
Definition macaddr_pack (data : list Z) : res bytes :=
  let colon := split_all 58 data in
  let dash := split_all 45 data in
  let dot := split_all 46 data in
  do parts <-
    match colon, dash, dot with
    | [_;_;_;_;_;_], _, _ => Ok colon
    | _, [_;_;_;_;_;_], _ => Ok dash
    | [a; b], _, _ => Ok [firstn 2 a; firstn 2 (skipn 2 a); skipn 4 a; firstn 2 b; firstn 2 (skipn 2 b); skipn 4 b]
    | _, [a; b], _ => Ok [firstn 2 a; firstn 2 (skipn 2 a); skipn 4 a; firstn 2 b; firstn 2 (skipn 2 b); skipn 4 b]
    | _, _, [a; b; c] => Ok [firstn 2 a; skipn 2 a; firstn 2 b; skipn 2 b; firstn 2 c; skipn 2 c]
    | [_], _, _ => Ok [firstn 2 data; firstn 2 (skipn 2 data); firstn 2 (skipn 4 data);
                       firstn 2 (skipn 6 data); firstn 2 (skipn 8 data); skipn 10 data]
    | _, _, _ => Err ValueError
    end;
  do l <- mapM int_base16 parts;
  mk_bytes l.
(** lib.py:335-345 macaddr_unpack *)
Definition macaddr_unpack (d : bytes) : res (list Z) :=
  if negb (len d =? 6) then Err ValueError else Ok (join [58] (map hex2 d)).

(** ** uuid: stdlib_uuid.py:4-10; a uuid.UUID is its 128 bit integer, .bytes its 16
    big-endian bytes; UUID(bytes = x) refuses any other length (Python library) *)
Definition uuid_pack (x : Z) : bytes := be 16 x.
Definition uuid_unpack (d : bytes) : res Z :=
  if (length d =? 16)%nat then Ok (unbe d) else Err ValueError.
