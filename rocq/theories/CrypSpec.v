(** CrypSpec.v: the traditional crypt(3) of Unix, from the text of FIPS 46-3 (the Data Encryption Standard) and the manual
    of crypt(3).  A block is a list of bits, the first one being the one that the standard calls bit 1. *)
From Coq Require Import ZArith List Bool.
Import ListNotations.
Local Open Scope Z_scope.

(** FIPS 46-3: the tables; the numbers say which bit (from 1) of the operand comes there *)
Definition IP : list nat := [
  58; 50; 42; 34; 26; 18; 10; 2; 60; 52; 44; 36; 28; 20; 12; 4; 62; 54; 46; 38; 30; 22; 14; 6; 64; 56; 48; 40; 32; 24; 16; 8;
  57; 49; 41; 33; 25; 17; 9; 1; 59; 51; 43; 35; 27; 19; 11; 3; 61; 53; 45; 37; 29; 21; 13; 5; 63; 55; 47; 39; 31; 23; 15; 7]%nat.
Definition IP_inverse : list nat := [
  40; 8; 48; 16; 56; 24; 64; 32; 39; 7; 47; 15; 55; 23; 63; 31; 38; 6; 46; 14; 54; 22; 62; 30; 37; 5; 45; 13; 53; 21; 61; 29;
  36; 4; 44; 12; 52; 20; 60; 28; 35; 3; 43; 11; 51; 19; 59; 27; 34; 2; 42; 10; 50; 18; 58; 26; 33; 1; 41; 9; 49; 17; 57; 25]%nat.
Definition E_table : list nat := [
  32; 1; 2; 3; 4; 5; 4; 5; 6; 7; 8; 9; 8; 9; 10; 11; 12; 13; 12; 13; 14; 15; 16; 17;
  16; 17; 18; 19; 20; 21; 20; 21; 22; 23; 24; 25; 24; 25; 26; 27; 28; 29; 28; 29; 30; 31; 32; 1]%nat.
Definition P_table : list nat := [
  16; 7; 20; 21; 29; 12; 28; 17; 1; 15; 23; 26; 5; 18; 31; 10; 2; 8; 24; 14; 32; 27; 3; 9; 19; 13; 30; 6; 22; 11; 4; 25]%nat.
Definition PC1 : list nat := [
  57; 49; 41; 33; 25; 17; 9; 1; 58; 50; 42; 34; 26; 18; 10; 2; 59; 51; 43; 35; 27; 19; 11; 3; 60; 52; 44; 36;
  63; 55; 47; 39; 31; 23; 15; 7; 62; 54; 46; 38; 30; 22; 14; 6; 61; 53; 45; 37; 29; 21; 13; 5; 28; 20; 12; 4]%nat.
Definition PC2 : list nat := [
  14; 17; 11; 24; 1; 5; 3; 28; 15; 6; 21; 10; 23; 19; 12; 4; 26; 8; 16; 7; 27; 20; 13; 2;
  41; 52; 31; 37; 47; 55; 30; 40; 51; 45; 33; 48; 44; 49; 39; 56; 34; 53; 46; 42; 50; 36; 29; 32]%nat.
Definition left_shifts : list nat := [1; 1; 2; 2; 2; 2; 2; 2; 1; 2; 2; 2; 2; 2; 2; 1]%nat.
Definition S_boxes : list (list (list Z)) := [
  [[14; 4; 13; 1; 2; 15; 11; 8; 3; 10; 6; 12; 5; 9; 0; 7]; [0; 15; 7; 4; 14; 2; 13; 1; 10; 6; 12; 11; 9; 5; 3; 8];
   [4; 1; 14; 8; 13; 6; 2; 11; 15; 12; 9; 7; 3; 10; 5; 0]; [15; 12; 8; 2; 4; 9; 1; 7; 5; 11; 3; 14; 10; 0; 6; 13]];
  [[15; 1; 8; 14; 6; 11; 3; 4; 9; 7; 2; 13; 12; 0; 5; 10]; [3; 13; 4; 7; 15; 2; 8; 14; 12; 0; 1; 10; 6; 9; 11; 5];
   [0; 14; 7; 11; 10; 4; 13; 1; 5; 8; 12; 6; 9; 3; 2; 15]; [13; 8; 10; 1; 3; 15; 4; 2; 11; 6; 7; 12; 0; 5; 14; 9]];
  [[10; 0; 9; 14; 6; 3; 15; 5; 1; 13; 12; 7; 11; 4; 2; 8]; [13; 7; 0; 9; 3; 4; 6; 10; 2; 8; 5; 14; 12; 11; 15; 1];
   [13; 6; 4; 9; 8; 15; 3; 0; 11; 1; 2; 12; 5; 10; 14; 7]; [1; 10; 13; 0; 6; 9; 8; 7; 4; 15; 14; 3; 11; 5; 2; 12]];
  [[7; 13; 14; 3; 0; 6; 9; 10; 1; 2; 8; 5; 11; 12; 4; 15]; [13; 8; 11; 5; 6; 15; 0; 3; 4; 7; 2; 12; 1; 10; 14; 9];
   [10; 6; 9; 0; 12; 11; 7; 13; 15; 1; 3; 14; 5; 2; 8; 4]; [3; 15; 0; 6; 10; 1; 13; 8; 9; 4; 5; 11; 12; 7; 2; 14]];
  [[2; 12; 4; 1; 7; 10; 11; 6; 8; 5; 3; 15; 13; 0; 14; 9]; [14; 11; 2; 12; 4; 7; 13; 1; 5; 0; 15; 10; 3; 9; 8; 6];
   [4; 2; 1; 11; 10; 13; 7; 8; 15; 9; 12; 5; 6; 3; 0; 14]; [11; 8; 12; 7; 1; 14; 2; 13; 6; 15; 0; 9; 10; 4; 5; 3]];
  [[12; 1; 10; 15; 9; 2; 6; 8; 0; 13; 3; 4; 14; 7; 5; 11]; [10; 15; 4; 2; 7; 12; 9; 5; 6; 1; 13; 14; 0; 11; 3; 8];
   [9; 14; 15; 5; 2; 8; 12; 3; 7; 0; 4; 10; 1; 13; 11; 6]; [4; 3; 2; 12; 9; 5; 15; 10; 11; 14; 1; 7; 6; 0; 8; 13]];
  [[4; 11; 2; 14; 15; 0; 8; 13; 3; 12; 9; 7; 5; 10; 6; 1]; [13; 0; 11; 7; 4; 9; 1; 10; 14; 3; 5; 12; 2; 15; 8; 6];
   [1; 4; 11; 13; 12; 3; 7; 14; 10; 15; 6; 8; 0; 5; 9; 2]; [6; 11; 13; 8; 1; 4; 10; 7; 9; 5; 0; 15; 14; 2; 3; 12]];
  [[13; 2; 8; 4; 6; 15; 11; 1; 10; 9; 3; 14; 5; 0; 12; 7]; [1; 15; 13; 8; 10; 3; 7; 4; 12; 5; 6; 11; 0; 14; 9; 2];
   [7; 11; 4; 1; 9; 12; 14; 2; 0; 6; 10; 13; 15; 3; 5; 8]; [2; 1; 14; 7; 4; 10; 8; 13; 15; 12; 9; 0; 3; 5; 6; 11]]].

(** the bits of the operand that a table names *)
Definition pick {A} (d : A) (t : list nat) (l : list A) : list A := map (fun i => nth (i - 1) l d) t.
Definition rotate_left {A} (n : nat) (l : list A) : list A := skipn n l ++ firstn n l.
Definition xor_bits (a b : list bool) : list bool := map (fun p => xorb (fst p) (snd p)) (combine a b).
(** the n bits of a number, the most significant one first; and back *)
Fixpoint bits_of (n : nat) (z : Z) : list bool :=
  match n with O => [] | S n => Z.testbit z (Z.of_nat n) :: bits_of n z end.
Definition number_of (l : list bool) : Z := fold_left (fun a b => 2 * a + Z.b2z b) l 0.

(** the key schedule: the 16 keys of 48 bits *)
Fixpoint schedule {A} (d : A) (shifts : list nat) (C D : list A) : list (list A) :=
  match shifts with
  | [] => []
  | n :: r => let C := rotate_left n C in let D := rotate_left n D in pick d PC2 (C ++ D) :: schedule d r C D
  end.
Definition des_keys {A} (d : A) (key : list A) : list (list A) :=
  let CD := pick d PC1 key in schedule d left_shifts (firstn 28 CD) (skipn 28 CD).

(** S_box number i (from 0) of 6 bits *)
Definition S_box (i : nat) (l : list bool) : list bool :=
  match l with
  | [b1; b2; b3; b4; b5; b6] =>
      bits_of 4 (nth (Z.to_nat (number_of [b2; b3; b4; b5])) (nth (Z.to_nat (number_of [b1; b6])) (nth i S_boxes []) []) 0)
  | _ => []
  end.
(** the salt of crypt(3): for each of its 12 bits that is set, the bits i and i + 24 of what E gives are exchanged *)
Fixpoint salted {A} (s : list bool) (a b : list A) : list A * list A :=
  match s, a, b with
  | x :: s, p :: a, q :: b => let '(a, b) := salted s a b in if x then (q :: a, p :: b) else (p :: a, q :: b)
  | _, _, _ => (a, b)
  end.
Definition expand {A} (d : A) (salt : list bool) (R : list A) : list A :=
  let e := pick d E_table R in
  let '(a, b) := salted salt (firstn 24 e) (skipn 24 e) in a ++ b.
(** the cipher function f *)
Definition group (i : nat) (l : list bool) : list bool := firstn 6 (skipn (6 * i) l).
Definition cipher_f (salt : list bool) (R K : list bool) : list bool :=
  let x := xor_bits (expand false salt R) K in
  pick false P_table (concat (map (fun i => S_box i (group i x)) (seq 0 8))).
Fixpoint des_rounds (salt : list bool) (keys : list (list bool)) (L R : list bool) : list bool * list bool :=
  match keys with
  | [] => (L, R)
  | K :: keys => des_rounds salt keys R (xor_bits L (cipher_f salt R K))
  end.
(** enciphering of a block of 64 bits, with a key of 64 bits; without a salt it is the standard *)
Definition des (salt : list bool) (key block : list bool) : list bool :=
  let b := pick false IP block in
  let '(L, R) := des_rounds salt (des_keys false key) (firstn 32 b) (skipn 32 b) in
  pick false IP_inverse (R ++ L).

(** crypt(3): the key is made of the lower 7 bits of the first 8 characters; a block of zeros is enciphered 25 times; the
    salt is two characters of 6 bits, the least significant bit first; the result is the salt and 11 characters of 6 bits *)
Definition alphabet : list Z :=
  map Z.of_nat ([46; 47] ++ seq 48 10 ++ seq 65 26 ++ seq 97 26)%nat.      (* ./0-9A-Za-z *)
Fixpoint value (c : Z) (l : list Z) : Z :=
  match l with [] => 0 | x :: r => if x =? c then 0 else 1 + value c r end.
Definition key_of (password : list Z) : list bool :=
  concat (map (fun i => bits_of 7 (nth i password 0) ++ [false]) (seq 0 8)).
Definition salt_bits (a b : Z) : list bool := rev (bits_of 6 (value a alphabet)) ++ rev (bits_of 6 (value b alphabet)).
Fixpoint times {A} (n : nat) (f : A -> A) (x : A) : A := match n with O => x | S n => f (times n f x) end.
(** in groups of 6 bits, the last one filled up with zeros *)
Definition printed (block : list bool) : list Z :=
  map (fun i => nth (Z.to_nat (number_of (firstn 6 (skipn (6 * i) (block ++ [false; false]))))) alphabet 0) (seq 0 11).
Definition unix_crypt (password : list Z) (a b : Z) : list Z :=
  [a; b] ++ printed (times 25 (des (salt_bits a b) (key_of password)) (repeat false 64)).
