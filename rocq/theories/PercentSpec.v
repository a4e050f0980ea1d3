(** PercentSpec.v: the pyformat style of the DB-API: what a statement with parameters means.
    Independent of the regular expression and of Python's formatting. *)
From Verif Require Import PyStr StrModel StrSpec PyInt PyDict.

(** unquoted text: characters, the escape %%, the placeholders %s and %(name)s *)
Inductive tok : Type := TChar (c : Z) | TPct | TPos | TKey (k : text).
Definition tok_text (t : tok) : text :=
  match t with TChar c => [c] | TPct => str "%%" | TPos => str "%s" | TKey k => str "%(" ++ k ++ str ")s" end.
Definition toks_text (l : list tok) : text := concat (map tok_text l).
(** a per-cent sign is written %%, names have no parentheses *)
Definition tok_ok (t : tok) : Prop :=
  match t with TChar c => c <> 37 | TKey k => ~ In 40 k /\ ~ In 41 k | _ => True end.
(** a statement: unquoted text and quotations *)
Inductive spart : Type := SU (l : list tok) | SQ (q b : text).
Definition spart_part (p : spart) : part := match p with SU l => PU (toks_text l) | SQ q b => PQ q b end.
Definition stmt_parts (l : list spart) : list part := map spart_part l.
Definition stmt_text (l : list spart) : text := render (stmt_parts l).
Definition stmt_ok (U : unicode) (l : list spart) : Prop :=
  wf_parts U (stmt_parts l) /\ Forall (fun p => match p with SU ts => Forall tok_ok ts | SQ _ _ => True end) l.
Definition toks_of (l : list spart) : list tok := flat_map (fun p => match p with SU ts => ts | SQ _ _ => [] end) l.
(** the placeholders *)
Definition is_pos (t : tok) : bool := match t with TPos => true | _ => false end.
Definition is_key (t : tok) : bool := match t with TKey _ => true | _ => false end.
Definition positions (l : list spart) : Z := len (filter is_pos (toks_of l)).
Definition names (l : list spart) : list text := flat_map (fun t => match t with TKey k => [k] | _ => [] end) (toks_of l).
Definition placeholder (t : tok) : bool := is_pos t || is_key t.
(** how %% comes out: a single sign, but it is left alone in an unquoted part without placeholder *)
Definition pct_out (ts : list tok) : text := if existsb placeholder ts then str "%" else str "%%".
Definition dollar_n (n : Z) : text := str "$" ++ str_nat n.
(** the statement with its placeholders numbered: %s from left to right *)
Fixpoint out_pos (pct : text) (n : Z) (l : list tok) : text :=
  match l with
  | [] => []
  | TChar c :: r => c :: out_pos pct n r
  | TPct :: r => pct ++ out_pos pct n r
  | TPos :: r => dollar_n n ++ out_pos pct (n + 1) r
  | TKey _ :: r => out_pos pct n r
  end.
Fixpoint stmt_pos (n : Z) (l : list spart) : text :=
  match l with
  | [] => []
  | SU ts :: r => out_pos (pct_out ts) n ts ++ stmt_pos (n + len (filter is_pos ts)) r
  | SQ q b :: r => q ++ b ++ closing q ++ stmt_pos n r
  end.
(** %(name)s by a numbering of the names *)
Definition out_key (num : text -> Z) (pct : text) (t : tok) : text :=
  match t with TChar c => [c] | TPct => pct | TPos => [] | TKey k => dollar_n (num k) end.
Definition stmt_key (num : text -> Z) (l : list spart) : text :=
  concat (map (fun p => match p with SU ts => concat (map (out_key num (pct_out ts)) ts) | SQ q b => q ++ b ++ closing q end) l).
(** no %s and no %( in a text *)
Definition no_placeholder (l : text) : Prop := forall u c v, l = u ++ 37 :: c :: v -> c <> 115 /\ c <> 40.
