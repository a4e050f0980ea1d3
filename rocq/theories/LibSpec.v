(** LibSpec.v: what an ILF document means, and the vocabulary of the properties of libraries *)
From Verif Require Import PyStr PyDict LibModel.

(** ** documents *)
(** a line of a symbol's section: any text, or a reference to an earlier symbol *[name] followed by text *)
Inductive dline := DText (l : text) | DRef (name rest : text).
(** a section: [name:type:method], the lines below it.  [d_fields]: what follows the name, [d_amp]: the name is prefixed with an
    ampersand; [d_before], [d_after]: white space around the marker (such as the end of the line) *)
Record dsection := { d_before : text; d_amp : bool; d_name : text; d_fields : list text; d_after : text; d_lines : list dline }.
Definition show_line (l : dline) : text := match l with DText l => l | DRef n rest => [42; 91] ++ n ++ [93] ++ rest end.
Definition inner (s : dsection) : text := (if d_amp s then [38] else []) ++ d_name s ++ concat (map (fun f => 58 :: f) (d_fields s)).
Definition show_header (s : dsection) : text := d_before s ++ [91] ++ inner s ++ [93] ++ d_after s.
Definition show_section (s : dsection) : list text := show_header s :: map show_line (d_lines s).
Definition show (preface : list text) (ss : list dsection) : list text := preface ++ concat (map show_section ss).
(** what makes a document unambiguous *)
Definition blank (U : unicode) (l : text) : Prop := Forall (fun c => u_space U c = true) l.
(** a line is a marker if, but for white space around it, it is between brackets *)
Definition marker (U : unicode) (l : text) : Prop := exists a x b, l = a ++ [91] ++ x ++ [93] ++ b /\ blank U a /\ blank U b.
Definition ok_text (U : unicode) (l : text) : Prop := ~ marker U l /\ (forall r, l = [42; 91] ++ r -> ~ In 93 r).
Definition ok_line (U : unicode) (l : dline) : Prop :=
  match l with DText l => ok_text U l | DRef n rest => ~ In 93 n end.
(** the bracketed text does not itself begin or end with a bracket *)
Definition ok_inner (l : text) : Prop := forall c, (hd_error l = Some c \/ hd_error (rev l) = Some c) -> c <> 91 /\ c <> 93.
Definition ok_section (U : unicode) (s : dsection) : Prop :=
  blank U (d_before s) /\ blank U (d_after s) /\ ~ In 58 (d_name s) /\ Forall (fun f => ~ In 58 f) (d_fields s) /\
  ok_inner (inner s) /\ (d_amp s = false -> hd_error (d_name s) <> Some 38) /\ Forall (ok_line U) (d_lines s).

(** ** their meaning *)
(** the latest of the definitions made so far *)
Definition latest {A} (defs : list (text * A)) (n : text) (q : A) : Prop :=
  exists a b, defs = a ++ (n, q) :: b /\ ~ In n (map fst b).
(** the text of a line: a reference stands for the query of the symbol *)
Inductive line_text (defs : list (text * text)) : dline -> text -> Prop :=
| LT_text l : line_text defs (DText l) l
| LT_ref n rest q : latest defs n q -> line_text defs (DRef n rest) (q ++ rest).
Definition comment (l : text) : Prop := exists r, l = [45; 45; 32] ++ r.
(** the type, the method *)
Definition field (k : nat) (s : dsection) : option text := match nth_error (d_fields s) k with Some [] => None | x => x end.
(** the query of a section: its lines, but for the comments at the beginning; for a procedure without the
    white space around it *)
Definition query_of (U : unicode) (defs : list (text * text)) (s : dsection) (q : text) : Prop :=
  exists doc code, Forall2 (line_text defs) (d_lines s) (doc ++ code) /\ Forall comment doc /\
    (forall l r, code = l :: r -> ~ comment l) /\
    q = if match field 0 s with Some t => seqb t (str "proc") | None => false end then py_strip U (concat code) else concat code.
(** the queries of all the sections, in order *)
Inductive queries (U : unicode) : list (text * text) -> list dsection -> list (text * text) -> Prop :=
| Q_nil defs : queries U defs [] defs
| Q_cons defs s q ss out : query_of U defs s q -> queries U (defs ++ [(d_name s, q)]) ss out -> queries U defs (s :: ss) out.
(** annotations that exist *)
Definition known_type (s : dsection) : Prop :=
  match field 0 s with None => True | Some t => In t [str "static"; str "preload"; str "const"; str "proc"; str "transient"] end.
Definition known_method (s : dsection) : Prop :=
  match field 1 s with
  | None => True
  | Some m => In m [str "all"; str "first"; str "rows"; str "chunks"; str "declare"; str "load_chunks"; str "load_rows"; str "column"]
  end.
(** the symbol of a section and its query *)
Definition symbol_of (s : dsection) (q : text) (y : symbol) : Prop :=
  sy_name y = d_name s /\ sy_source y = q /\ sy_ref y = d_amp s /\
  sy_method y = (match field 1 s with Some m => if seqb m (str "all") then None else Some m | None => None end) /\
  (match field 0 s with
   | Some t => if seqb t (str "preload") then sy_type y = None else sy_type y = Some t
   | None => sy_type y = None \/ sy_type y = Some []
   end).
(** the library of a document *)
Definition library_of (U : unicode) (preface : list text) (ss : list dsection) (lib : library) : Prop :=
  exists qs, queries U [] ss qs /\
    l_preface lib = concat preface /\
    (forall n s q, latest (combine (map d_name ss) (combine ss (map snd qs))) n (s, q) -> exists y, get_symbol lib n = Some y /\ symbol_of s q y) /\
    (forall n, In n (symbols lib) <-> In n (map d_name ss)) /\
    (forall n, get_symbol lib n = None <-> ~ In n (map d_name ss)) /\
    (forall n, In n (l_preload lib) <-> exists s, In s ss /\ d_name s = n /\ field 0 s = Some (str "preload")).

(** ** bindings *)
Section Bindings.
Context {V : Type} (is_none : V -> bool) (o_prepare : nat -> bool) (o_run : nat -> res V) (o_rows : nat -> res (list (list text))).
(** a library in which every symbol has the name it is found by *)
Definition named (l : library) : Prop := forall n s, get_symbol l n = Some s -> sy_name s = n.
Definition typed (s : symbol) (t : string) : Prop := sy_type s = Some (str t).
(** the binding made, and a use of it: its state, what the reads and the calls gave *)
Inductive used (l : library) : list bop -> binding V -> list (bres V) -> Prop :=
| used_by ops g0 g out : bind_library is_none o_prepare o_run o_rows l = (g0, Ok tt) ->
    bsteps is_none o_prepare o_run o_rows l g0 [] ops = (g, out) -> used l ops g out.
(** the operation [k] made the statement (or procedure) of symbol [n]: from the text of the symbol or, for a reference, from
    the rows the operation before gave: columns joined by a space, rows by a newline *)
Definition makes (s : symbol) (n src : text) : ev := if has_type s (str "proc") then EvProc n src true else EvPrepare n src true.
Definition made (l : library) (h : list ev) (n : text) (k : nat) (s : symbol) : Prop :=
  get_symbol l n = Some s /\
  if sy_ref s then
    exists j i rows, k = S j /\ nth_error h j = Some (EvRows n i) /\ o_rows j = Ok rows /\
      nth_error h k = Some (makes s n (py_join [10] (map (py_join [32]) rows)))
  else nth_error h k = Some (makes s n (sy_source s)).
Definition ev_name (e : ev) : text := match e with EvPrepare n _ _ | EvProc n _ _ | EvRun n _ _ | EvRows n _ => n end.
End Bindings.

(** ** categories: no library has an attribute named twice *)
Definition all_names (aliases : nat -> list text) (direct : nat -> bool) (name : nat -> option text) (libs : list nat) : list (option text * nat) :=
  concat (map (fun l => map (fun n => (n, l)) (map Some (aliases l) ++ (if direct l then [name l] else []))) libs).
