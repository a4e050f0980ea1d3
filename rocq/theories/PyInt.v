(** PyInt.v: Python's int(text, base) (CPython PyLong_FromUnicodeObject) and str(int).
    Python library, not part of /repo: the modelled code calls it on version numbers,
    octal escapes, row counts and ports. *)
From Verif Require Import PyStr.

(** What int() does with the characters outside ASCII: [uv_dec c] is the decimal value
    of the digit c (None: not a digit). *)
Notation decimals := (Z -> option Z).
Definition int_char (U : unicode) (dv : decimals) (c : Z) : Z :=
  if c <? 128 then c
  else if u_space U c then 32
  else match dv c with Some d => 48 + d | None => 63 end.
(** the value of an ASCII letter or digit *)
Definition digit_value (c : Z) : Z :=
  if ascii_digit c then c - 48
  else if ascii_lowerc c then c - 87
  else if ascii_upper c then c - 55 else 37.
Definition c_space (c : Z) : bool := ((9 <=? c) && (c <=? 13)) || (c =? 32).
(** digits with single underscores between them; [prev]: the last character was an
    underscore; gives the value and what follows *)
Fixpoint int_digits (base acc : Z) (prev : bool) (s : text) : option (Z * text) :=
  match s with
  | c :: r =>
      if c =? 95 then (if prev then None else int_digits base acc true r)
      else if digit_value c <? base then int_digits base (acc * base + digit_value c) false r
      else if prev then None else Some (acc, s)
  | [] => if prev then None else Some (acc, s)
  end.
Definition sign_of (s : text) : Z * text :=
  match s with
  | c :: r => if c =? 43 then (1, r) else if c =? 45 then (-1, r) else (1, s)
  | [] => (1, s)
  end.
(** the optional 0x, 0o, 0b (and one underscore after it) *)
Definition skip_prefix (base : Z) (s : text) : text :=
  match s with
  | z :: p :: r =>
      if negb (z =? 48) then s
      else if ((base =? 16) && ((p =? 120) || (p =? 88))) || ((base =? 8) && ((p =? 111) || (p =? 79)))
         || ((base =? 2) && ((p =? 98) || (p =? 66)))
      then match r with u :: r' => if u =? 95 then r' else r | [] => r end
      else s
  | _ => s
  end.
Definition ascii_int (base : Z) (s : text) : res Z :=
  let s := lstrip_by c_space s in
  let '(sg, s) := sign_of s in
  let s := skip_prefix base s in
  match s with
  | [] => Err ValueError
  | c :: _ =>
      if negb (digit_value c <? base) then Err ValueError
      else match int_digits base 0 false s with
           | None => Err ValueError
           | Some (v, r) => match lstrip_by c_space r with [] => Ok (sg * v) | _ => Err ValueError end
           end
  end.
Definition py_int (U : unicode) (dv : decimals) (base : Z) (s : text) : res Z :=
  ascii_int base (map (int_char U dv) s).

(** str(n) *)
Fixpoint dec_digits (fuel : nat) (n : Z) (acc : text) : text :=
  match fuel with
  | O => acc
  | S k => let acc := (48 + n mod 10) :: acc in if n <? 10 then acc else dec_digits k (n / 10) acc
  end.
Definition str_nat (n : Z) : text := dec_digits (S (Z.to_nat n)) n [].
Definition str_int (n : Z) : text := if n <? 0 then 45 :: str_nat (- n) else str_nat n.

(** the value of a string of ASCII digits *)
Definition digits_value (s : text) : Z := fold_left (fun a c => a * 10 + (c - 48)) s 0.
Definition all_digits (s : text) : Prop := s <> [] /\ Forall (fun c => 48 <= c <= 57) s.
