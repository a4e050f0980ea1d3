(** StrSpec.v: what quoting and splitting must mean to an SQL lexer. *)
From Verif Require Import PyStr RegexModel StrModel.

(** ** a quoted token of the SQL lexer: the opening character [q], then pairs [q q]
    standing for one [q], any other character for itself, up to a [q] which is not
    followed by [q].  [quoted q txt v rest]: txt starts with one quoted token of value
    [v], and [rest] follows. *)
Inductive qbody (q : Z) : text -> text -> text -> Prop :=
| qb_end rest : (forall r, rest <> q :: r) -> qbody q (q :: rest) [] rest
| qb_pair t v rest : qbody q t v rest -> qbody q (q :: q :: t) (q :: v) rest
| qb_char c t v rest : c <> q -> qbody q t v rest -> qbody q (c :: t) (c :: v) rest.
Definition quoted (q : Z) (txt v rest : text) : Prop := exists t, txt = q :: t /\ qbody q t v rest.

(** the same lexer when standard_conforming_strings is off: a backslash takes the
    next character with it *)
Inductive qbody_bs (q : Z) : text -> text -> text -> Prop :=
| qbb_end rest : (forall r, rest <> q :: r) -> qbody_bs q (q :: rest) [] rest
| qbb_pair t v rest : qbody_bs q t v rest -> qbody_bs q (q :: q :: t) (q :: v) rest
| qbb_bs c t v rest : qbody_bs q t v rest -> qbody_bs q (92 :: c :: t) (c :: v) rest
| qbb_char c t v rest : c <> q -> c <> 92 -> qbody_bs q t v rest -> qbody_bs q (c :: t) (c :: v) rest.

(** ** an unquoted identifier is folded to lower case by the server (ASCII letters);
    it starts with a letter or an underscore *)
Definition ident_start (c : Z) : bool := ascii_alpha c || (c =? 95).
Definition ident_char (c : Z) : bool := ident_start c || ascii_digit c.
Definition plain_ident (t : text) : bool :=
  match t with c :: r => ident_start c && forallb ident_char r | [] => false end.
(** the identifier a (possibly quoted) SQL identifier token denotes; ASCII only *)
Inductive denotes_ident : text -> text -> Prop :=
| di_plain t : plain_ident t = true -> denotes_ident t (map ascii_lower t)
| di_quoted t v : quoted 34 t v [] -> denotes_ident t v.

(** ** separators outside of quotations: [cuts] reads the text once, toggling at each
    quote character, and cuts at separators outside, at most [left] times (never
    exhausted when negative) *)
Fixpoint cuts (q sep : Z) (inq : bool) (left : Z) (t cur : text) : list text :=
  match t with
  | [] => [rev cur]
  | c :: r =>
      if c =? q then cuts q sep (negb inq) left r (c :: cur)
      else if (c =? sep) && negb inq && negb (left =? 0) then rev cur :: cuts q sep inq (left - 1) r []
      else cuts q sep inq left r (c :: cur)
  end.

(** ** the parts of a text with all its quotations closed *)
Definition closing (q : text) : text := if seqb q [69; 39] then [39] else q.
Definition render1 (p : part) : text := match p with PU t => t | PQ q b => q ++ b ++ closing q end.
Definition render (l : list part) : text := concat (map render1 l).

(** content of a literal or identifier: quotes are doubled *)
Inductive doubled (q : Z) : text -> Prop :=
| d_nil : doubled q []
| d_pair t : doubled q t -> doubled q (q :: q :: t)
| d_char c t : c <> q -> doubled q t -> doubled q (c :: t).
(** content of an E'' literal *)
Inductive escaped : text -> Prop :=
| e_nil : escaped []
| e_pair t : escaped t -> escaped (39 :: 39 :: t)
| e_bs c t : escaped t -> escaped (92 :: c :: t)
| e_char c t : c <> 39 -> c <> 92 -> escaped t -> escaped (c :: t).
(** a dollar quote tag *)
Definition is_tag (U : unicode) (q : text) : Prop :=
  q = [36; 36] \/ exists c w, q = 36 :: c :: w ++ [36] /\ ascii_digit c = false /\ c <> 36 /\ forallb (u_word U) w = true.
Definition not_starting (c : Z) (t : text) : Prop := forall r, t <> c :: r.
(** [q b] followed by [after] is one complete quotation *)
Definition quotation (U : unicode) (q b after : text) : Prop :=
  (q = [39] /\ doubled 39 b /\ not_starting 39 after) \/
  (q = [34] /\ doubled 34 b /\ not_starting 34 after) \/
  (q = [69; 39] /\ escaped b /\ not_starting 39 after) \/
  (is_tag U q /\ ~ In 10 b /\ index_of q (b ++ q) = Some (length b)).
(** unquoted text: no quote character, and a dollar only in front of a digit
    (a positional parameter) *)
Fixpoint plain (t : text) : Prop :=
  match t with
  | [] => True
  | c :: r => c <> 39 /\ c <> 34 /\ (c = 36 -> exists d r', r = d :: r' /\ ascii_digit d = true) /\ plain r
  end.
Fixpoint wf_parts (U : unicode) (l : list part) : Prop :=
  match l with
  | PU u :: r => plain u /\
      match r with
      | [] => True
      | PQ q b :: r' => (q = [39] -> forall v, u <> v ++ [69]) /\ quotation U q b (render r') /\ r' <> [] /\ wf_parts U r'
      | PU _ :: _ => False
      end
  | _ => False
  end.

(** the quoted parts of a list of parts *)
Definition quotes_of (l : list part) : list part := filter (fun p => match p with PQ _ _ => true | _ => false end) l.
(** ASCII, without upper-case letters *)
Definition ascii_lc (t : text) : Prop := Forall (fun c => 0 <= c < 128 /\ ascii_upper c = false) t.
(** the separator does not occur in an unquoted part *)
Definition sep_free (c : Z) (p : part) : Prop := match p with PU t => ~ In c t | PQ _ _ => True end.
