(** MarkSpec.v: statement-level definitions for C60, C61 and C62 *)
From Verif Require Import Base PyStr PyDict PyInt Element3Model MesgModel.
From Coq Require Import Sorting.Sorted Sorting.Permutation.
Open Scope Z_scope.

(** ** lines of a text, as Python's str.splitlines counts them *)
Definition break_chars : list Z := [10; 11; 12; 13; 28; 29; 30; 133; 8232; 8233].
Definition line_break (b : text) : Prop := b = [13; 10] \/ exists c, b = [c] /\ In c break_chars.
Definition no_break (l : text) : Prop := Forall (fun c => ~ In c break_chars) l.
(** complete lines with the breaks that end them, before the text [t]; a carriage return with a line feed after it is one break *)
Definition written (ps : list (text * text)) : text := concat (map (fun p => fst p ++ snd p) ps).
Inductive lines_before (t : text) : list (text * text) -> Prop :=
| lb_nil : lines_before t []
| lb_cons l b ps : no_break l -> line_break b -> (b = [13] -> forall r, written ps ++ t <> 10 :: r) -> lines_before t ps ->
    lines_before t ((l, b) :: ps).
(** the rest of the text after a line *)
Definition after_line (t : text) : Prop := t = [] \/ exists c r, t = c :: r /\ In c break_chars.
Definition blanks (l : text) : text := map (fun c => if c =? 9 then 32 else c) l.

(** ** NOTIFY statements as the server reads them (standard_conforming_strings on).  A quoted word: its text, a quote
    standing doubled, and what comes after it. *)
Fixpoint read_quoted (q : Z) (t : text) : option (text * text) :=
  match t with
  | [] => None
  | c :: r =>
      if c =? q then
        match r with
        | d :: r' => if d =? q then match read_quoted q r' with Some (w, rest) => Some (q :: w, rest) | None => None end else Some ([], r)
        | [] => Some ([], r)
        end
      else match read_quoted q r with Some (w, rest) => Some (c :: w, rest) | None => None end
  end.
(** NOTIFY "channel" or NOTIFY "channel",'payload', each with a semicolon; [n] bounds the number of statements *)
Fixpoint read_notifies (n : nat) (t : text) : option (list (text * option text)) :=
  match n with
  | O => match t with [] => Some [] | _ => None end
  | S n =>
      match t with
      | [] => Some []
      | _ =>
          if seqb (firstn 8 t) (str "NOTIFY """) then
            match read_quoted 34 (skipn 8 t) with
            | Some (channel, c :: r) =>
                if c =? 59 then option_map (cons (channel, None)) (read_notifies n r)
                else if (c =? 44) && (match r with d :: _ => d =? 39 | [] => false end) then
                  match read_quoted 39 (tl r) with
                  | Some (payload, e :: r) => if e =? 59 then option_map (cons (channel, Some payload)) (read_notifies n r) else None
                  | _ => None
                  end
                else None
            | _ => None
            end
          else None
      end
  end.

(** ** the text of an exception *)
(** code points, like Python compares strings *)
Inductive text_le : text -> text -> Prop :=
| tl_nil b : text_le [] b
| tl_lt x y a b : x < y -> text_le (x :: a) (y :: b)
| tl_eq x a b : text_le a b -> text_le (x :: a) (x :: b).
(** the details that have a line of their own *)
Definition own_line (name : text) : Prop :=
  ~ In name [str "message"; str "severity"; str "file"; str "function"; str "line"].
(** the lines under the message: name and value *)
Definition entry (linesep : text) (kv : text * text) : text := linesep ++ str "  " ++ fst kv ++ str ": " ++ snd kv.
