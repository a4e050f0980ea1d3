(** MarkModel.v: /repo/postgresql/driver/pq3.py 1264-1308 (the LINE entry of Statement._e_metas) and 2668-2719 (notify, listen,
    unlisten); message.py 19-30, 102-118 and sys.py:29-52 (the text of an exception) *)
From Verif Require Import Base PyStr PyDict PyInt Element3Model ExcModel MesgModel.
Open Scope Z_scope.

(** str.splitlines(): \n \v \f \r \x1c \x1d \x1e \x85 \u2028 \u2029, and \r\n as one *)
Definition is_break (c : Z) : bool := existsb (Z.eqb c) [10; 11; 12; 13; 28; 29; 30; 133; 8232; 8233].
Fixpoint splitlines_go (l cur : text) : list text :=
  match l with
  | [] => match cur with [] => [] | _ => [rev cur] end
  | c :: r =>
      if is_break c then
        rev cur :: (if c =? 13 then match r with
                                    | d :: r' => if d =? 10 then splitlines_go r' [] else splitlines_go r []
                                    | [] => splitlines_go r []
                                    end
                    else splitlines_go r [])
      else splitlines_go r (c :: cur)
  end.
Definition splitlines (l : text) : list text := splitlines_go l [].
(** text.count(c, 0, b) for a character *)
Definition py_count (c : Z) (l : text) (b : Z) : Z := len (filter (Z.eqb c) (pyslice l 0 b)).
(** text.rfind(c, 0, b) *)
Definition py_rfind (c : Z) (l : text) (b : Z) : Z :=
  match index_of [c] (rev (pyslice l 0 b)) with Some k => len (pyslice l 0 b) - 1 - Z.of_nat k | None => -1 end.
(** n * ' ' *)
Definition spaces (n : Z) : text := repeat 32 (Z.to_nat n).

Section mark.
(** os.linesep *)
Context (linesep : text).
(** pq3.py:1272-1303 *)
Definition line_entry (string : text) (pos : Z) : text :=
  let q := string in
  let pos := len (py_join [10] (splitlines (pyslice q 0 pos))) in
  let q := py_join [10] (splitlines q) in
  let line_no := py_count 10 q pos + 1 in
  let q := py_replace [9] [32] q in
  let bov := py_rfind 10 q pos + 1 in
  let eov := pyfind [10] q pos (len q) in
  let eov := if eov =? -1 then len q else eov in
  let view := pyslice q bov eov in
  let pos := pos - bov in
  let dlines := splitlines view in
  let marker := spaces (pos - 1) ++ str "^" ++ str " [line " ++ str_int line_no ++ str ", character " ++ str_int pos ++ str "] " in
  py_join linesep (dlines ++ [marker]).
(** bytes.isdigit *)
Definition isdigits (b : bytes) : bool := match b with [] => false | _ => forallb (fun c => (48 <=? c) && (c <=? 57)) b end.
(** pq3.py:1266-1273: the LINE entry, given the fields of the error of the statement's last request *)
Definition line_meta (error_message : list (bytes * bytes)) (string : text) : option text :=
  match dget (str "P") error_message with
  | None => None
  | Some p => if isdigits p then match ascii_int 10 p with Ok p => Some (line_entry string p) | Err _ => None end else None
  end.

(** message.py:102-115 location_string; [py_repr] is repr() of a str *)
Context (py_repr : text -> text) (upper : Z -> text).
Definition location_string (details : list (text * text)) : text :=
  let get k := match dget k details with Some v => v | None => str "?" end in
  let loc := map get [str "file"; str "line"; str "function"] in
  if forallb (seqb (str "?")) loc then []
  else str "File " ++ py_repr (get (str "file")) ++ str ", line " ++ get (str "line") ++ str ", in " ++ get (str "function").
(** sorted(details.items(), key = get0): by code points, stable *)
Fixpoint text_leb (a b : text) : bool :=
  match a, b with
  | [], _ => true
  | _ :: _, [] => false
  | x :: a, y :: b => if x <? y then true else if x =? y then text_leb a b else false
  end.
Fixpoint insert_key {V} (x : text * V) (l : list (text * V)) : list (text * V) :=
  match l with
  | [] => [x]
  | y :: r => if text_leb (fst x) (fst y) then x :: l else y :: insert_key x r
  end.
Definition sort_keys {V} (l : list (text * V)) : list (text * V) := fold_right insert_key [] l.
(** message.py:118 standard_detail_coverage *)
Definition standard_detail_coverage : list text := [str "message"; str "severity"; str "file"; str "function"; str "line"].
(** message.py:19-30 _e_metas, after the first entry *)
Definition e_metas (e : msg) : list (text * text) :=
  (if negb (seqb (m_code e) []) && negb (seqb (m_code e) (str "00000")) then [(str "CODE", m_code e)] else []) ++
  [(str "LOCATION", if seqb (location_string (m_details e)) [] then m_source e else location_string (m_details e) ++ str " from " ++ m_source e)] ++
  flat_map (fun kv => if existsb (seqb (fst kv)) standard_detail_coverage then [] else [(concat (map upper (fst kv)), snd kv)]) (sort_keys (m_details e)).
(** sys.py:29-52 default_errformat; [after] is the text of the creator (empty if there is none) *)
Definition default_errformat (after : text) (e : msg) : text :=
  m_message e ++ linesep ++ str "  " ++ py_join (linesep ++ str "  ") (map (fun kv => fst kv ++ str ": " ++ snd kv) (e_metas e)) ++ after.
End mark.

(** pq3.py:2668-2690 notify: what is given to execute().  A channel is a str, or a tuple with a payload. *)
Definition notify_one (channel : text) (payload : option text) : text :=
  match payload with
  | None => str "NOTIFY """ ++ py_replace (str """") (str """""") channel ++ str """"
  | Some p => str "NOTIFY """ ++ py_replace (str """") (str """""") channel ++ str """,'" ++ py_replace (str "'") (str "''") p ++ str "'"
  end.
Definition notify_sql (channels : list (text * option text)) (channel_and_payload : list (text * text)) : text :=
  (match channels with [] => [] | _ => py_join (str ";") (map (fun x => notify_one (fst x) (snd x)) channels) ++ str ";" end) ++
  (match channel_and_payload with [] => [] | _ => py_join (str ";") (map (fun x => notify_one (fst x) (Some (snd x))) channel_and_payload) ++ str ";" end).
(** pq3.py:2698-2719 listen (word = LISTEN) and unlisten *)
Definition listen_sql (word : text) (channels : list text) : res text :=
  fold_left (fun r x => do q <- r; if 63 <? len x then Err ValueError else Ok (q ++ str "; " ++ word ++ str " " ++ py_replace (str """") (str """""") x)) channels (Ok []).
