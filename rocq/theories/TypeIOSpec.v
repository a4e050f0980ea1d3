(** TypeIOSpec.v: the binary representations of the server (documented formats),
    written without reference to the driver's code. *)
From Verif Require Import Base.

(** the number written in big-endian by a byte string *)
Fixpoint be_value (d : list Z) : Z :=
  match d with [] => 0 | b :: r => b * 256 ^ len r + be_value r end.
(** two's complement reading on n bytes *)
Definition twos (n : nat) (d : list Z) (x : Z) : Prop :=
  length d = n /\ is_bytes d /\
  - (2 ^ (8 * Z.of_nat n - 1)) <= x < 2 ^ (8 * Z.of_nat n - 1) /\
  (be_value d = x \/ be_value d = x + 2 ^ (8 * Z.of_nat n)).
Definition unsigned (n : nat) (d : list Z) (x : Z) : Prop :=
  length d = n /\ is_bytes d /\ be_value d = x.

(** a nullable value with its size: -1 for NULL *)
Definition sized_wire (a : option (list Z)) : list Z :=
  match a with None => [255; 255; 255; 255] | Some v => be 4 (len v) ++ v end.
Definition small (a : option (list Z)) : Prop :=
  match a with None => True | Some v => len v < 2 ^ 31 end.

(** composite value: number of columns, then for each the type oid and the sized value *)
Definition record_wire (l : list (Z * option (list Z))) : list Z :=
  be 4 (len l) ++ concat (map (fun c => be 4 (fst c) ++ sized_wire (snd c)) l).
Definition wf_record (l : list (Z * option (list Z))) : Prop :=
  len l < 2 ^ 31 /\ Forall (fun c => 0 <= fst c < 2 ^ 32 /\ small (snd c)) l.

(** array value: ndim, flags, element oid, (dimension, lower bound)*, sized elements *)
Definition s32be (x : Z) : list Z := be 4 (x mod 2 ^ 32).
Definition array_wire (flags oid : Z) (dims : list (Z * Z)) (elems : list (option (list Z))) : list Z :=
  be 4 (len dims) ++ s32be flags ++ be 4 oid ++
  concat (map (fun d => s32be (fst d) ++ s32be (snd d)) dims) ++ concat (map sized_wire elems).
Definition is_s32 (x : Z) : Prop := - 2 ^ 31 <= x < 2 ^ 31.

(** hstore: number of pairs, then key (never NULL) and value, both sized *)
Definition hstore_wire (n : Z) (l : list (list Z * option (list Z))) : list Z :=
  be 4 n ++ concat (map (fun kv => sized_wire (Some (fst kv)) ++ sized_wire (snd kv)) l).
Definition usmall (a : option (list Z)) : Prop :=
  match a with None => True | Some v => len v < 2 ^ 32 - 1 end.

(** bit i (0 first) of a bit string stored most significant bit first *)
Definition bit_at (data : list Z) (i : nat) : bool :=
  Z.testbit (nth (i / 8) data 0) (7 - Z.of_nat (i mod 8)).
(** the characters '0' and '1' *)
Definition is_bits (s : list Z) : Prop := Forall (fun c => c = 48 \/ c = 49) s.

(** address families of the server's inet and cidr formats: PGSQL_AF_INET = 2,
    PGSQL_AF_INET6 = 3; then prefix length, cidr flag, number of address bytes *)
Definition net_wire (family prefix is_cidr : Z) (addr : list Z) : list Z :=
  [family; prefix; is_cidr; len addr] ++ addr.

(** an IP address: version and integer *)
Definition wf_addr (v a : Z) : Prop := (v = 4 /\ 0 <= a < 2 ^ 32) \/ (v = 6 /\ 0 <= a < 2 ^ 128).
Definition pgfam (v : Z) : Z := if v =? 4 then 2 else 3.

(** what an array value may contain *)
Definition wf_array flags oid (dims : list (Z * Z)) (elems : list (option (list Z))) : Prop :=
  is_s32 flags /\ 0 <= oid < 2 ^ 32 /\ len dims < 2 ^ 31 /\
  Forall (fun d => is_s32 (fst d) /\ is_s32 (snd d)) dims /\ Forall small elems.

(** two lower case hexadecimal digits *)
Definition hexdigits : list Z := [48;49;50;51;52;53;54;55;56;57;97;98;99;100;101;102].
Definition hexbyte (b : Z) : list Z := [nth (Z.to_nat (b / 16)) hexdigits 0; nth (Z.to_nat (b mod 16)) hexdigits 0].
(** the spellings of the PostgreSQL manual for the address a:b:c:d:e:f; 58 is ':',
    45 is '-', 46 is '.' *)
Definition mac_colon (a b c d e f : Z) : list Z :=
  hexbyte a ++ [58] ++ hexbyte b ++ [58] ++ hexbyte c ++ [58] ++ hexbyte d ++ [58] ++ hexbyte e ++ [58] ++ hexbyte f.
Definition mac_dash (a b c d e f : Z) : list Z :=
  hexbyte a ++ [45] ++ hexbyte b ++ [45] ++ hexbyte c ++ [45] ++ hexbyte d ++ [45] ++ hexbyte e ++ [45] ++ hexbyte f.
Definition mac_spellings (a b c d e f : Z) : list (list Z) :=
  [ mac_colon a b c d e f; mac_dash a b c d e f;
    hexbyte a ++ hexbyte b ++ hexbyte c ++ [58] ++ hexbyte d ++ hexbyte e ++ hexbyte f;
    hexbyte a ++ hexbyte b ++ hexbyte c ++ [45] ++ hexbyte d ++ hexbyte e ++ hexbyte f;
    hexbyte a ++ hexbyte b ++ [46] ++ hexbyte c ++ hexbyte d ++ [46] ++ hexbyte e ++ hexbyte f;
    hexbyte a ++ hexbyte b ++ hexbyte c ++ hexbyte d ++ hexbyte e ++ hexbyte f ].
