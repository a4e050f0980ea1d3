(** PyStr.v: the Python str methods used by the modelled code.  A str is the list
    of its code points ([list Z]). *)
From Coq Require Export String Ascii.
From Verif Require Export Base PyList.
Close Scope string_scope.
Open Scope list_scope.
Open Scope Z_scope.
Notation length := List.length.
Notation text := (list Z).

(** ASCII literals *)
Definition str (s : string) : text := map (fun a => Z.of_N (N_of_ascii a)) (list_ascii_of_string s).

(** The facts about Unicode the code relies on (str.isspace, isdecimal, isalnum,
    isalpha, isdigit, lower and the regex class \w).  Every theorem holds for any
    [U] that agrees with ASCII on ASCII ([unicode_ok] in the specifications). *)
Record unicode := {
  u_space : Z -> bool;
  u_decimal : Z -> bool;
  u_digit : Z -> bool;
  u_alpha : Z -> bool;
  u_alnum : Z -> bool;
  u_word : Z -> bool;
  u_lower : Z -> text            (* lower() of one character *)
}.
Definition ascii_digit (c : Z) := (48 <=? c) && (c <=? 57).
Definition ascii_upper (c : Z) := (65 <=? c) && (c <=? 90).
Definition ascii_lowerc (c : Z) := (97 <=? c) && (c <=? 122).
Definition ascii_alpha (c : Z) := ascii_upper c || ascii_lowerc c.
Definition ascii_space (c : Z) := ((9 <=? c) && (c <=? 13)) || ((28 <=? c) && (c <=? 32)).
Definition ascii_lower (c : Z) : Z := if ascii_upper c then c + 32 else c.
Definition ascii_unicode : unicode :=
  {| u_space := ascii_space; u_decimal := ascii_digit; u_digit := ascii_digit; u_alpha := ascii_alpha;
     u_alnum := fun c => ascii_alpha c || ascii_digit c;
     u_word := fun c => ascii_alpha c || ascii_digit c || (c =? 95);
     u_lower := fun c => [ascii_lower c] |}.
(** agreement with ASCII *)
Record unicode_ok (U : unicode) : Prop := {
  uo_space : forall c, 0 <= c < 128 -> u_space U c = ascii_space c;
  uo_decimal : forall c, 0 <= c < 128 -> u_decimal U c = ascii_digit c;
  uo_digit : forall c, 0 <= c < 128 -> u_digit U c = ascii_digit c;
  uo_alpha : forall c, 0 <= c < 128 -> u_alpha U c = ascii_alpha c;
  uo_alnum : forall c, 0 <= c < 128 -> u_alnum U c = ascii_alpha c || ascii_digit c;
  uo_word : forall c, 0 <= c < 128 -> u_word U c = ascii_alpha c || ascii_digit c || (c =? 95);
  uo_lower : forall c, 0 <= c < 128 -> u_lower U c = [ascii_lower c]
}.

(** position of the first occurrence of [sub] in [l] *)
Fixpoint index_of (sub l : text) : option nat :=
  if prefixb sub l then Some O else
  match l with
  | [] => None
  | _ :: r => match index_of sub r with Some k => Some (S k) | None => None end
  end.
(** text.find(sub, a, b) with 0 <= a; -1 when absent (sub non empty) *)
Definition pyfind (sub l : text) (a b : Z) : Z :=
  match index_of sub (pyslice l a b) with Some k => a + Z.of_nat k | None => -1 end.

(** text.replace(sub, new), sub non empty: [skip] characters are still inside an
    occurrence already replaced *)
Fixpoint replace_go (sub new l : text) (skip : nat) : text :=
  match l with
  | [] => []
  | c :: r => match skip with
              | S k => replace_go sub new r k
              | O => if prefixb sub l then new ++ replace_go sub new r (length sub - 1)
                     else c :: replace_go sub new r O
              end
  end.
Definition py_replace (sub new l : text) : text := replace_go sub new l O.

(** text.split(sep), sep non empty *)
Fixpoint split_go (sep l : text) (skip : nat) (cur : text) : list text :=
  match l with
  | [] => [rev cur]
  | c :: r => match skip with
              | S k => split_go sep r k cur
              | O => if prefixb sep l then rev cur :: split_go sep r (length sep - 1) []
                     else split_go sep r O (c :: cur)
              end
  end.
Definition py_split (sep l : text) : list text := split_go sep l O [].
(** text.split(sep, n) *)
Fixpoint py_splitn (n : nat) (sep l : text) : list text :=
  match n with
  | O => [l]
  | S m => match index_of sep l with
           | Some k => firstn k l :: py_splitn m sep (skipn (k + length sep) l)
           | None => [l]
           end
  end.
(** sep.join(parts) *)
Fixpoint py_join (sep : text) (l : list text) : text :=
  match l with
  | [] => []
  | [x] => x
  | x :: xs => x ++ sep ++ py_join sep xs
  end.
(** text.lstrip / rstrip / strip of the characters satisfying [p] *)
Fixpoint lstrip_by (p : Z -> bool) (l : text) : text :=
  match l with
  | c :: r => if p c then lstrip_by p r else l
  | [] => []
  end.
Definition rstrip_by (p : Z -> bool) (l : text) : text := rev (lstrip_by p (rev l)).
Definition strip_by (p : Z -> bool) (l : text) : text := rstrip_by p (lstrip_by p l).
Definition py_strip (U : unicode) (l : text) : text := strip_by (u_space U) l.
(** text.lower(): character by character (context dependent lower-casing, the
    Greek final sigma, is not modelled) *)
Definition py_lower (U : unicode) (l : text) : text := concat (map (u_lower U) l).
(** text.isalnum(): false on the empty string *)
Definition py_isalnum (U : unicode) (l : text) : bool :=
  match l with [] => false | _ => forallb (u_alnum U) l end.
Definition py_startswith (p l : text) : bool := prefixb p l.
Definition py_endswith (p l : text) : bool := prefixb (rev p) (rev l).
(** sub in text *)
Definition py_in (sub l : text) : bool := match index_of sub l with Some _ => true | None => false end.
