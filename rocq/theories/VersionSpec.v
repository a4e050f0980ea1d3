(** VersionSpec.v: what a version is. *)
From Verif Require Import PyStr PyInt VersionModel.

(** A version of the documented form: one to three numbers, and possibly a state: a
    word (beta, rc, ...) with a level or without. *)
Record version := { v_nums : list Z; v_state : option (text * option Z) }.
Definition word_char (U : unicode) (c : Z) : Prop := u_space U c = false /\ ascii_digit c = false /\ c <> 46.
Definition valid (U : unicode) (v : version) : Prop :=
  (1 <= length (v_nums v) <= 3)%nat /\ Forall (fun n => 0 <= n) (v_nums v) /\
  match v_state v with
  | None => True
  | Some (w, l) => w <> [] /\ Forall (word_char U) w /\ match l with Some n => 0 <= n | None => True end
  end.
(** [written v s]: s is a way to write v: the numbers in decimal (leading zeros
    allowed), separated by dots, then the word and the level *)
Definition numeral (n : Z) (s : text) : Prop := all_digits s /\ digits_value s = n.
Definition written (v : version) (s : text) : Prop :=
  exists ns st, Forall2 numeral (v_nums v) ns /\
    match v_state v with
    | None => st = []
    | Some (w, None) => st = w
    | Some (w, Some n) => exists l, numeral n l /\ st = w ++ l
    end /\ s = py_join [46] ns ++ st.
(** the tuple (major, minor, patch, state class, state level) *)
Definition version_tuple (v : version) : list vitem :=
  map VI (v_nums v) ++ repeat VN (3 - length (v_nums v)) ++
  match v_state v with
  | None => [VN; VN]
  | Some (w, None) => [VS w; VN]
  | Some (w, Some n) => [VS w; VI n]
  end.
(** the same with nothing missing *)
Definition full_nums (v : version) : list Z := v_nums v ++ repeat 0 (3 - length (v_nums v)).
Definition full_tuple (v : version) : list vitem :=
  map VI (full_nums v) ++
  match v_state v with
  | None => [VS (str "final"); VI 0]
  | Some (w, None) => [VS w; VI 0]
  | Some (w, Some n) => [VS w; VI n]
  end.
(** the order of releases: by the first number that differs, missing numbers being 0 *)
Fixpoint nums_cmp (a b : list Z) : comparison :=
  match a, b with
  | [], [] => Eq
  | x :: a, [] => match x ?= 0 with Eq => nums_cmp a [] | c => c end
  | [], y :: b => match 0 ?= y with Eq => (fix go l := match l with [] => Eq | y :: l => match 0 ?= y with Eq => go l | c => c end end) b | c => c end
  | x :: a, y :: b => match x ?= y with Eq => nums_cmp a b | c => c end
  end.
(** the stage of development, in the order given by default_state_class_priority
    (versionstring.py:56-65) *)
Definition stage (w : option text) : option nat :=
  match w with
  | None => Some 6%nat
  | Some w =>
      if seqb w (str "dev") then Some 0%nat else if seqb w (str "a") then Some 1%nat
      else if seqb w (str "alpha") then Some 2%nat else if seqb w (str "b") then Some 3%nat
      else if seqb w (str "beta") then Some 4%nat else if seqb w (str "rc") then Some 5%nat else None
  end.
