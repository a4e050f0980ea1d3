(** RegexModel.v: Python's backtracking regular expressions (module re), the part
    used by /repo/postgresql/string.py:52-57 and /repo/postgresql/driver/dbapi20.py:28-31.
    Alternatives are tried in order, [*] and [?] are greedy, [*?] is lazy,
    a failing continuation makes the matcher backtrack.  One capture group. *)
From Verif Require Import PyStr.

Inductive re : Type :=
| RSet (p : Z -> bool)             (* one character *)
| RLit (l : text)                  (* literal characters *)
| RSeq (a b : re)
| RAlt (a b : re)
| ROpt (a : re)                    (* a?  *)
| RStar (a : re)                   (* a*  *)
| RLazy (a : re)                   (* a*? *)
| RGroup (a : re)                  (* (a), group 1 *)
| RBack                            (* \1 *)
| REol.                            (* $: at the end, or before a final newline *)

(** the text which remains and what group 1 holds *)
Definition rst : Type := text * option text.
Definition at_eol (l : text) : bool := match l with [] => true | [10] => true | _ => false end.

Section Match.
  Context {X : Type}.
  (** greedy / lazy repetition; an iteration that consumes nothing stops (never
      happens in the expressions used).  [n] bounds the iterations: the length of
      the text is enough since each one consumes a character. *)
  Fixpoint star_m (m : rst -> (rst -> option X) -> option X) (n : nat) (s : rst) (k : rst -> option X) : option X :=
    match n with
    | O => k s
    | S n' =>
        match m s (fun s' => if (length (fst s') <? length (fst s))%nat then star_m m n' s' k else None) with
        | Some r => Some r
        | None => k s
        end
    end.
  Fixpoint lazy_m (m : rst -> (rst -> option X) -> option X) (n : nat) (s : rst) (k : rst -> option X) : option X :=
    match k s with
    | Some r => Some r
    | None => match n with
              | O => None
              | S n' => m s (fun s' => if (length (fst s') <? length (fst s))%nat then lazy_m m n' s' k else None)
              end
    end.
  Fixpoint re_m (r : re) (s : rst) (k : rst -> option X) {struct r} : option X :=
    match r with
    | RSet p => match fst s with c :: l => if p c then k (l, snd s) else None | [] => None end
    | RLit t => if prefixb t (fst s) then k (skipn (length t) (fst s), snd s) else None
    | RSeq a b => re_m a s (fun s' => re_m b s' k)
    | RAlt a b => match re_m a s k with Some x => Some x | None => re_m b s k end
    | ROpt a => match re_m a s k with Some x => Some x | None => k s end
    | RStar a => star_m (re_m a) (length (fst s)) s k
    | RLazy a => lazy_m (re_m a) (length (fst s)) s k
    | RGroup a => re_m a s (fun s' => k (fst s', Some (firstn (length (fst s) - length (fst s')) (fst s))))
    | RBack => match snd s with
               | Some g => if prefixb g (fst s) then k (skipn (length g) (fst s), snd s) else None
               | None => None
               end
    | REol => if at_eol (fst s) then k s else None
    end.
End Match.

(** pattern.match at the start of [l]: what remains and group 1 *)
Definition re_match (r : re) (l : text) : option rst := re_m r (l, None) Some.

(** pattern.search / scanner.search: leftmost position where it matches: the text
    before, the text matched, group 1, the rest *)
Fixpoint re_search (r : re) (l : text) : option (text * text * option text * text) :=
  match re_match r l with
  | Some (rest, g) => Some ([], firstn (length l - length rest) l, g, rest)
  | None => match l with
            | [] => None
            | c :: t => match re_search r t with
                        | Some (b, m, g, rest) => Some (c :: b, m, g, rest)
                        | None => None
                        end
            end
  end.
