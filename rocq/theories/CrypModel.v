(** CrypModel.v: /repo/postgresql/resolved/crypt.py, the crypt() with which a password is answered to a server that asks
    for "crypt" authentication (protocol/xact3.py:203-204).  Integers are those of Python: they are unbounded, and a
    negative one (the struct format is signed) has infinitely many leading ones.  Bytes are numbers 0..255. *)
From Verif Require Import Base CrypTable.

Local Notation "a & b" := (Z.land a b) (at level 48, left associativity).
Local Notation "a ^^ b" := (Z.lxor a b) (at level 49, left associativity).
Local Notation "a || b" := (Z.lor a b).
Local Notation "a << n" := (Z.shiftl a n) (at level 47, left associativity).
Local Notation "a >> n" := (Z.shiftr a n) (at level 47, left associativity).

(** t[i] of a tuple; every index in the code is within the tuple *)
Definition at_ (t : list Z) (i : Z) : Z := nth (Z.to_nat i) t 0.
(** one of the eight tables of _SPtrans and _skb *)
Definition SP (n : nat) : list Z := nth n SPtrans [].
Definition skb_ (n : nat) : list Z := nth n skb [].

(** 443-446 _HPERM_OP *)
Definition HPERM_OP (a : Z) : Z :=
  let t := ((a << 18) ^^ a) & 0xcccc0000 in a ^^ t ^^ ((t >> 18) & 0x3fff).
(** 448-453 _PERM_OP *)
Definition PERM_OP (a b n m : Z) : Z * Z :=
  let t := ((a >> n) ^^ b) & m in
  let b := b ^^ t in
  let a := a ^^ (t << n) in
  (a, b).

(** 455 struct '<i' of four bytes *)
Definition le_int (b0 b1 b2 b3 : Z) : Z :=
  let n := b0 + 256 * b1 + 65536 * b2 + 16777216 * b3 in if n <? 2147483648 then n else n - 4294967296.

(** 482-509: one pass of the loop: the new c, d and the two words *)
Definition key_round (shift c d : Z) : Z * Z * (Z * Z) :=
  let '(c, d) := if shift =? 0 then ((c >> 1) || (c << 27), (d >> 1) || (d << 27))
                 else ((c >> 2) || (c << 26), (d >> 2) || (d << 26)) in
  let c := c & 0x0fffffff in
  let d := d & 0x0fffffff in
  let s := at_ (skb_ 0) (c & 0x3f) || at_ (skb_ 1) (((c >> 6) & 0x03) || ((c >> 7) & 0x3c))
           || at_ (skb_ 2) (((c >> 13) & 0x0f) || ((c >> 14) & 0x30))
           || at_ (skb_ 3) (((c >> 20) & 0x01) || ((c >> 21) & 0x06) || ((c >> 22) & 0x38)) in
  let t := at_ (skb_ 4) (d & 0x3f) || at_ (skb_ 5) (((d >> 7) & 0x03) || ((d >> 8) & 0x3c))
           || at_ (skb_ 6) ((d >> 15) & 0x3f)
           || at_ (skb_ 7) (((d >> 21) & 0x0f) || ((d >> 22) & 0x30)) in
  let k0 := ((t << 16) || (s & 0x0000ffff)) & 0xffffffff in
  let s := (s >> 16) || (t & 0xffff0000) in
  let s := (s << 4) || ((s >> 28) & 0x0f) in
  (c, d, (k0, s & 0xffffffff)).
Fixpoint key_rounds (shifts : list Z) (c d : Z) : list (Z * Z) :=
  match shifts with
  | [] => []
  | x :: r => let '(c, d, k) := key_round x c d in k :: key_rounds r c d
  end.
(** 463-476: up to the loop *)
Definition key_start (c d : Z) : Z * Z :=
  let c := (c & 0x7f7f7f7f) << 1 in
  let d := (d & 0x7f7f7f7f) << 1 in
  let '(d, c) := PERM_OP d c 4 0x0f0f0f0f in
  let c := HPERM_OP c in
  let d := HPERM_OP d in
  let '(d, c) := PERM_OP d c 1 0x55555555 in
  let '(c, d) := PERM_OP c d 8 0x00ff00ff in
  let '(d, c) := PERM_OP d c 1 0x55555555 in
  let d := ((d & 0x000000ff) << 16) || (d & 0x0000ff00) || ((d & 0x00ff0000) >> 16) || ((c >> 4) & 0x0f000000) in
  let c := c & 0x0fffffff in
  (c, d).
(** 457-511 _set_key; the words k[2*i], k[2*i+1] in pairs *)
Definition set_key (password : list Z) : list (Z * Z) :=
  let b i := nth i password 0 in
  let '(c, d) := key_start (le_int (b 0%nat) (b 1%nat) (b 2%nat) (b 3%nat)) (le_int (b 4%nat) (b 5%nat) (b 6%nat) (b 7%nat)) in
  key_rounds shifts2 c d.

(** 526-536: what r becomes *)
Definition feistel (E0 E1 : Z) (k : Z * Z) (l r : Z) : Z :=
  let t := r ^^ ((r >> 16) & 0xffff) in
  let u := t & E0 in
  let t := t & E1 in
  let u := u ^^ (u << 16) ^^ r ^^ fst k in
  let t := t ^^ (t << 16) ^^ r ^^ snd k in
  let t := ((t >> 4) & 0x0fffffff) || (t << 28) in
  at_ (SP 1) (t & 0x3f) ^^ at_ (SP 3) ((t >> 8) & 0x3f) ^^ at_ (SP 5) ((t >> 16) & 0x3f) ^^ at_ (SP 7) ((t >> 24) & 0x3f)
  ^^ at_ (SP 0) (u & 0x3f) ^^ at_ (SP 2) ((u >> 8) & 0x3f) ^^ at_ (SP 4) ((u >> 16) & 0x3f) ^^ at_ (SP 6) ((u >> 24) & 0x3f) ^^ l.
(** 525-536: the inner loop; [f] is what r becomes *)
Fixpoint rounds (f : Z * Z -> Z -> Z -> Z) (ks : list (Z * Z)) (l r : Z) : Z * Z :=
  match ks with [] => (l, r) | k :: ks => rounds f ks r (f k l r) end.
(** 523-536: the outer loop *)
Fixpoint passes (n : nat) (f : Z * Z -> Z -> Z -> Z) (ks : list (Z * Z)) (l r : Z) : Z * Z :=
  match n with
  | O => (l, r)
  | S n => let '(l, r) := rounds f ks r l in passes n f ks l r
  end.
(** 538-547 *)
Definition body_end (l r : Z) : Z * Z :=
  let l := ((l >> 1) & 0x7fffffff) || ((l & 0x1) << 31) in
  let r := ((r >> 1) & 0x7fffffff) || ((r & 0x1) << 31) in
  let '(r, l) := PERM_OP r l 1 0x55555555 in
  let '(l, r) := PERM_OP l r 8 0x00ff00ff in
  let '(r, l) := PERM_OP r l 2 0x33333333 in
  let '(l, r) := PERM_OP l r 16 0x0000ffff in
  let '(r, l) := PERM_OP r l 4 0x0f0f0f0f in
  (l, r).
(** 514-547 _body *)
Definition body (ks : list (Z * Z)) (E0 E1 : Z) : Z * Z :=
  let '(l, r) := passes 25 (feistel E0 E1) ks 0 0 in body_end l r.

(** 599-606: the 6-bit subsets *)
Definition six (o1 o2 : Z) : list Z :=
  let t1 := ((o1 << 16) & 0xff0000) || (o1 & 0xff00) || ((o1 >> 16) & 0xff) in
  let t2 := ((o1 >> 8) & 0xff0000) || ((o2 << 8) & 0xff00) || ((o2 >> 8) & 0xff) in
  let t3 := (o2 & 0xff0000) || ((o2 >> 16) & 0xff00) in
  [(t1 >> 18) & 0x3f; (t1 >> 12) & 0x3f; (t1 >> 6) & 0x3f; t1 & 0x3f;
   (t2 >> 18) & 0x3f; (t2 >> 12) & 0x3f; (t2 >> 6) & 0x3f; t2 & 0x3f;
   (t3 >> 18) & 0x3f; (t3 >> 12) & 0x3f; (t3 >> 6) & 0x3f].
(** 586-589: a salt that is too short is filled up *)
Definition fill (salt : list Z) : list Z := match salt with [] => [65; 65] | [a] => [a; 65] | _ => salt end.
(** 549-610 crypt *)
Definition crypt (password salt : list Z) : list Z :=
  let salt := fill salt in
  let Eswap0 := at_ con_salt (nth 0 salt 0 & 0x7f) in
  let Eswap1 := at_ con_salt (nth 1 salt 0 & 0x7f) << 4 in
  let ks := set_key (firstn 8 (password ++ [0; 0; 0; 0; 0; 0; 0; 0])) in
  let '(o1, o2) := body ks Eswap0 Eswap1 in
  firstn 2 salt ++ map (fun i => at_ cov_2char i) (six o1 o2).
