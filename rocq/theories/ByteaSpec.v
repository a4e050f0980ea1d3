(** ByteaSpec.v: the escape format of bytea, as a grammar: which text denotes which bytes. *)
From Verif Require Import PyStr.

Definition octal (c : Z) : Prop := 48 <= c <= 55.
(** a character stands for itself, a doubled backslash for a backslash, a backslash and
    three octal digits for the byte of that value *)
Inductive denotes : text -> list Z -> Prop :=
| den_nil : denotes [] []
| den_char c t d : 0 <= c < 256 -> c <> 92 -> denotes t d -> denotes (c :: t) (c :: d)
| den_backslash t d : denotes t d -> denotes (92 :: 92 :: t) (92 :: d)
| den_octal a b c t d v : octal a -> octal b -> octal c ->
    v = (a - 48) * 64 + (b - 48) * 8 + (c - 48) -> v < 256 -> denotes t d ->
    denotes (92 :: a :: b :: c :: t) (v :: d).

(** printable ASCII without the blank and the tilde *)
Definition printable (c : Z) : Prop := 33 <= c <= 125.
(** the texts in which the blanks and letters that int(..., 8) tolerates inside a
    number cannot occur *)
Definition plain_char (c : Z) : Prop := 33 <= c <= 126 /\ c <> 95 /\ c <> 79 /\ c <> 111.
