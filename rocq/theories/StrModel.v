(** StrModel.v: /repo/postgresql/string.py (quoting, splitting). *)
From Verif Require Import PyStr RegexModel.

(** characters *)
Definition c_quote : Z := 39.     (* the single quote *)
Definition c_dquote : Z := 34.    (* the double quote *)
Definition c_dollar : Z := 36.

(** string.py:18-22 escape_literal *)
Definition escape_literal (t : text) : text := py_replace [39] [39; 39] t.
(** string.py:24-28 quote_literal *)
Definition quote_literal (t : text) : text := [39] ++ py_replace [39] [39; 39] t ++ [39].
(** string.py:30-34 escape_ident *)
Definition escape_ident (t : text) : text := py_replace [34] [34; 34] t.
(** string.py:36-37 needs_quoting *)
Definition needs_quoting (U : unicode) (t : text) : bool :=
  negb (match t with
        | [] => false
        | c :: _ => negb (u_decimal U c) && py_isalnum U (py_replace [95] [97] t)
        end).
(** string.py:39-43 quote_ident *)
Definition quote_ident (t : text) : text := [34] ++ py_replace [34] [34; 34] t ++ [34].
(** string.py:45-50 quote_ident_if_needed *)
Definition quote_ident_if_needed (U : unicode) (t : text) : text :=
  if needs_quoting U t then quote_ident t else t.

(** string.py:52-57 quote_re, piece by piece.  [.] does not match a newline. *)
Definition r_dot : re := RSet (fun c => negb (c =? 10)).
Definition r_not (q : Z) : re := RSet (fun c => negb (c =? q)).
Definition quote_re (U : unicode) : re :=
  RAlt (RSeq (RLit [69; 39])                                  (* line 53: backslash escapes *)
             (RSeq (RStar (RAlt (RLit [39; 39]) (RAlt (RSeq (RLit [92]) r_dot) (r_not 39))))
                   (RAlt (RLit [39]) REol)))
 (RAlt (RSeq (RLit [39])                                      (* line 54: regular literals *)
             (RSeq (RStar (RAlt (RLit [39; 39]) (r_not 39))) (RAlt (RLit [39]) REol)))
 (RAlt (RSeq (RLit [34])                                      (* line 55: identifiers *)
             (RSeq (RStar (RAlt (RLit [34; 34]) (r_not 34))) (RAlt (RLit [34]) REol)))
       (RSeq (RGroup (RSeq (RLit [36])                        (* line 56: dollar quotes *)
                (RSeq (ROpt (RSeq (RSet (fun c => negb (ascii_digit c || (c =? 36)))) (RStar (RSet (u_word U)))))
                      (RLit [36]))))
             (RSeq (RLazy r_dot) (RAlt RBack REol))))).

(** what split() yields: unquoted text, or (quote, content) *)
Inductive part : Type := PU (t : text) | PQ (q b : text).

(** string.py:78-114 split: the generator, from [rest] = text[lastend:].  Positions
    are relative to [rest]; [m] is the text matched, [text[match.end()-endoff:match.end()]]
    is its last [endoff] characters (a match is never shorter than [endoff]).
    [fuel]: number of matches, each consumes at least one character. *)
Fixpoint split_loop (U : unicode) (fuel : nat) (rest : text) : list part :=
  match re_search (quote_re U) rest with
  | None => [PU rest]                                                   (* 112-114 *)
  | Some (before, m, dq, after) =>
      PU before ::                                                      (* 84 *)
      let '(quote, ende) :=                                             (* 86-98 *)
        match dq with
        | Some d => (d, d)
        | None => match m with
                  | q :: _ => if q =? 69 then ([69; 39], [39]) else ([q], [q])
                  | [] => ([], [])
                  end
        end in
      let endoff := len ende in
      if negb (seqb (pyslice m (len m - endoff) (len m)) ende) || (len m - endoff =? 0)   (* 103-104 *)
      then [PQ quote (skipn (length before + length quote) rest)]       (* 105-106 *)
      else PQ quote (pyslice m (len quote) (len m - endoff)) ::         (* 108 *)
           match fuel with O => [] | S n => split_loop U n after end
  end.
Definition str_split (U : unicode) (t : text) : list part := split_loop U (length t) t.

(** string.py:116-136 unsplit.  [s += endq + x] with x a tuple raises TypeError;
    a str where a (quote, content) pair is expected is not unpacked (simplified to
    ValueError). *)
Definition end_quote (q : text) : text := if seqb q [69; 39] then [39] else q.
Fixpoint unsplit_go (s endq : text) (l : list part) : res text :=
  match l with
  | [] => Ok s
  | PU x :: r =>
      match r with
      | [] => Ok (s ++ endq ++ x)
      | PQ q t :: r' => unsplit_go (s ++ endq ++ x ++ q ++ t) (end_quote q) r'
      | PU _ :: _ => Err ValueError
      end
  | PQ _ _ :: _ => Err TypeError
  end.
Definition str_unsplit (l : list part) : res text := unsplit_go [] [] l.

(** string.py:138-192 split_using with one-character [quote] and [sep]. *)
(** 168-178: the inner while; -1 when the quotation is not closed *)
Fixpoint eat_quoted (fuel : nat) (q : Z) (t : text) (nextquote : Z) : Z :=
  if nextquote =? -1 then -1
  else if negb (pyfind [q; q] t nextquote (nextquote + 2) =? nextquote) then nextquote
  else match fuel with
       | O => -1
       | S n => eat_quoted n q t (pyfind [q] t (nextquote + 2) (len t))
       end.
(** 164-185: the quotations before the separator; returns nextsep *)
Fixpoint seek_sep (fuel : nat) (q sep : Z) (t : text) (nextquote nextsep : Z) : Z :=
  if nextquote =? -1 then nextsep
  else let nq := eat_quoted (length t) q t (pyfind [q] t (nextquote + 1) (len t)) in
       if nq =? -1 then -1
       else let ns := pyfind [sep] t (nq + 1) (len t) in
            if ns =? -1 then -1
            else match fuel with
                 | O => -1
                 | S n => seek_sep n q sep t (pyfind [q] t (nq + 1) ns) ns
                 end.
(** 155-192; [left] is maxsplit - len(l) *)
Fixpoint split_using_loop (fuel : nat) (q sep : Z) (t : text) (left offset : Z) : list text :=
  if left =? 0 then [pyslice t offset (len t)]
  else let nextsep := pyfind [sep] t offset (len t) in
       if nextsep =? -1 then [pyslice t offset (len t)]
       else let ns := seek_sep (length t) q sep t (pyfind [q] t offset nextsep) nextsep in
            if ns =? -1 then [pyslice t offset (len t)]
            else pyslice t offset ns ::
                 match fuel with
                 | O => []
                 | S n => split_using_loop n q sep t (left - 1) (ns + 1)
                 end.
Definition split_using (t : text) (q sep : Z) (maxsplit : Z) : list text :=
  if negb (py_in [q] t) then                                            (* 151-152 *)
    (if maxsplit <? 0 then py_split [sep] t else py_splitn (Z.to_nat maxsplit) [sep] t)
  else split_using_loop (length t) q sep t maxsplit 0.

(** string.py:194-216 split_ident *)
Definition split_ident1 (U : unicode) (x : text) : res text :=
  let x := py_strip U x in
  if py_startswith [34] x then
    if negb (py_endswith [34] x) then Err ValueError
    else Ok (py_replace [34; 34] [34] (pyslice x 1 (-1)))
  else if needs_quoting U x then Err ValueError
  else Ok (py_lower U x).
Definition split_ident (U : unicode) (t : text) (sep quote maxsplit : Z) : res (list text) :=
  mapM (split_ident1 U) (split_using t quote sep maxsplit).
(** string.py:218-222 split_qname *)
Definition split_qname (U : unicode) (t : text) (maxsplit : Z) : res (list text) := split_ident U t 46 34 maxsplit.
(** string.py:224-228 qname *)
Definition qname (args : list text) : text := py_join [46] (map quote_ident args).
(** string.py:230-231 qname_if_needed *)
Definition qname_if_needed (U : unicode) (args : list text) : text := py_join [46] (map (quote_ident_if_needed U) args).

(** string.py:233-260 split_sql *)
Fixpoint split_sql_go (sep : text) (cur : list part) (l : list part) : res (list (list part)) :=
  match l with
  | PU p :: r =>
      let sections := py_split sep p in
      let '(out, cur) :=
        if (length sections <? 2)%nat then ([], cur ++ [PU p])                                 (* 247-248 *)
        else ((cur ++ [PU (hd [] sections)]) :: map (fun x => [PU x]) (removelast (tl sections)), (* 250-253 *)
              [PU (last sections [])])                                                         (* 254 *)
      in
      match r with
      | [] => Ok (out ++ [cur])                                                                (* 257-260 *)
      | q :: r' => do o <- split_sql_go sep (cur ++ [q]) r'; Ok (out ++ o)                     (* 256 *)
      end
  | PQ _ _ :: _ => Err AttributeError                                                          (* tuple.split *)
  | [] => match cur with [] => Ok [] | _ => Ok [cur] end                                       (* 259-260 *)
  end.
Definition split_sql (U : unicode) (sql sep : text) : res (list (list part)) := split_sql_go sep [] (str_split U sql).
(** string.py:262-270 split_sql_str *)
Definition split_sql_str (U : unicode) (sql sep : text) : res (list text) :=
  do l <- split_sql U sql sep; mapM str_unsplit l.
