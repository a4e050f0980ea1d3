(** ConfModel.v: /repo/postgresql/configfile.py *)
From Verif Require Import PyStr PyDict.

(** number of leading characters satisfying [p] *)
Fixpoint span (p : Z -> bool) (l : text) : nat :=
  match l with c :: r => if p c then S (span p r) else O | [] => O end.

Section conf.
Context (U : unicode).
Definition is_word (c : Z) : bool := u_alpha U c || u_digit U c || (c =? 95).
(** configfile.py:43-63: the extent of the value; [r] starts at val[i] *)
Fixpoint scan (inquotes escaped : bool) (l : text) : nat :=
  match l with
  | [] => O
  | c :: r =>
      if c =? 39 then
        if negb inquotes then S (scan true escaped r)
        else if negb escaped then
          let e := match r with d :: _ => d =? 39 | [] => false end in S (scan e e r)
        else S (scan true false r)
      else if negb inquotes && (u_space U c || (c =? 35)) then O
      else S (scan inquotes escaped r)
  end.
(** slice(a, b) *)
Record extent := { x_start : nat; x_stop : nat }.
Definition cut (x : extent) (l : text) : text := firstn (x_stop x - x_start x) (skipn (x_start x) l).
(** configfile.py:15-70 parse_line; None for the lines without setting *)
Definition parse_line (line : text) : option (extent * extent) :=
  match py_splitn 1 [61] line with
  | [key; val] =>
      let prekey := span (fun c => u_space U c || (c =? 35)) key in
      let key_len := span is_word (skipn prekey key) in
      match py_strip U (skipn (prekey + key_len) key) with
      | _ :: _ => None
      | [] =>
          let preval := span (fun c => u_space U c && negb ((c =? 10) || (c =? 13))) val in
          let val_len := scan false false (skipn preval val) in
          let base := (length key + 1 + preval)%nat in
          Some ({| x_start := prekey; x_stop := key_len + prekey |}, {| x_start := base; x_stop := base + val_len |})
      end
  | _ => None
  end.
(** configfile.py:72-79 unquote *)
Definition unquote (s : text) : text :=
  let s := py_strip U s in
  if negb (py_startswith [39] s) then s else py_replace [39; 39] [39] (pyslice s 1 (-1)).
(** configfile.py:116, 160, 194: the text of a value *)
Definition quoted (v : text) : text := [39] ++ py_replace [39] [39; 39] v ++ [39].
Definition linesep : text := [10].

Notation candidate := (nat * extent * extent)%type.
(** lines[i] = x *)
Fixpoint set_nth (i : nat) (x : text) (l : list text) : list text :=
  match l, i with
  | [], _ => []
  | _ :: r, O => x :: r
  | y :: r, S i => y :: set_nth i x r
  end.
Definition line_at (i : nat) (lines : list text) : text := nth i lines [].
(** configfile.py:98-100: pkeys, from normalized key to its position in keys *)
Definition norm_key (k : text) : text := py_strip U (py_lower U k).
Fixpoint index_key (k : text) (keys : list text) : nat :=
  match keys with [] => O | j :: r => if seqb k j then O else S (index_key k r) end.
Definition pkeys (keys : list text) : list (text * nat) :=
  fold_left (fun d k => dset (norm_key k) (index_key k keys) d) keys [].
(** configfile.py:106-121: the lines that have one of the keys *)
Fixpoint find_candidates (pk : list (text * nat)) (i : nat) (fo : list text) (cs : list (text * list candidate)) : list (text * list candidate) :=
  match fo with
  | [] => cs
  | l :: r =>
      let cs := match parse_line l with
                | None => cs
                | Some (sk, sv) =>
                    let k := py_lower U (cut sk l) in
                    if dmem k pk then dset k (match dget k cs with Some c => c | None => [] end ++ [(i, sk, sv)]) cs else cs
                end in
      find_candidates pk (S i) r cs
  end.
(** configfile.py:123-131; [map] is the dictionary of the settings to alter *)
Definition append_line (lines : list text) (key val : text) : res (list text) :=
  match rev lines with
  | [] => Err IndexError
  | last :: before =>
      let last := if py_endswith linesep last then last else last ++ linesep in
      Ok (rev before ++ [last] ++ [key ++ str " = " ++ quoted val])
  end.
Fixpoint append_unfound (map : list (text * option text)) (keys : list text) (pk : list (text * nat)) (cs : list (text * list candidate)) (lines : list text) : res (list text) :=
  match pk with
  | [] => Ok lines
  | (k, i) :: r =>
      if dmem k cs then append_unfound map keys r cs lines
      else
        let key := nth i keys [] in
        match dget key map with
        | None => Err KeyError
        | Some None => append_unfound map keys r cs lines
        | Some (Some val) => do lines <- append_line lines key val; append_unfound map keys r cs lines
        end
  end.
Definition comment_in (l : text) (sk : extent) : bool := memZ 35 (firstn (x_start sk) l).
(** configfile.py:139-143: comment the uncommented occurrences *)
Definition comment_all (cls : list candidate) (lines : list text) : list text :=
  fold_left (fun lines (cl : candidate) =>
    let '(n, sk, sv) := cl in
    if comment_in (line_at n lines) sk then lines else set_nth n ([35] ++ line_at n lines) lines) cls lines.
(** configfile.py:149-179: the election; the winner is (score, commented, candidate) *)
Definition elect_step (val : text) (st : list text * option (Z * bool * candidate)) (cl : candidate) : list text * option (Z * bool * candidate) :=
  let '(lines, w) := st in
  let '(n, sk, sv) := cl in
  let l := line_at n lines in
  let commented := comment_in l sk in
  let score := (if commented then 0 else 1) + (if seqb (unquote (cut sv l)) val then 2 else 0) in
  let w_score := match w with Some (s, _, _) => s | None => -1 end in
  if w_score <? score then
    let lines := match w with
                 | Some (_, false, (wn, _, _)) => set_nth wn ([35] ++ line_at wn lines) lines
                 | _ => lines
                 end in
    (lines, Some (score, commented, cl))
  else if commented then (lines, w)
  else (set_nth n ([35] ++ l) lines, w).
(** configfile.py:188-198 *)
Definition post_value (post : text) : text :=
  if negb (match post with [] => true | _ => forallb (u_space U) post end) then
    let stripped := lstrip_by (u_space U) post in
    if negb (py_startswith [35] stripped) then firstn (length post - length stripped) post ++ [35] ++ stripped else post
  else post.
(** configfile.py:181-203 *)
Definition write_winner (val : text) (lines : list text) (commented : bool) (cl : candidate) : list text :=
  let '(n, sk, sv) := cl in
  let l := line_at n lines in
  let bol := if commented then [] else firstn (x_start sk) l in
  set_nth n (bol ++ cut {| x_start := x_start sk; x_stop := x_start sv |} l ++ quoted val ++ post_value (skipn (x_stop sv) l)) lines.
Definition set_value (val : text) (cls : list candidate) (lines : list text) : list text :=
  match fold_left (elect_step val) cls (lines, None) with
  | (lines, Some (_, commented, cl)) => write_winner val lines commented cl
  | (lines, None) => lines
  end.
(** configfile.py:133-203 *)
Fixpoint alter_candidates (map : list (text * option text)) (keys : list text) (pk : list (text * nat)) (cs : list (text * list candidate)) (lines : list text) : res (list text) :=
  match cs with
  | [] => Ok lines
  | (ck, cls) :: r =>
      match dget (nth (match dget ck pk with Some i => i | None => O end) keys []) map with
      | None => Err KeyError
      | Some None => alter_candidates map keys pk r (comment_all cls lines)
      | Some (Some val) => alter_candidates map keys pk r (set_value val cls lines)
      end
  end.
(** configfile.py:90-204 alter_config with keys = list(map.keys()) *)
Definition alter_config (map : list (text * option text)) (fo : list text) : res (list text) :=
  let keys := dkeys map in
  let pk := pkeys keys in
  let cs := find_candidates pk O fo [] in
  do lines <- append_unfound map keys pk cs fo;
  alter_candidates map keys pk cs lines.

(** configfile.py:206-216 read_config: one line *)
Definition read_line (line : text) : option (text * text) :=
  match parse_line line with
  | None => None
  | Some (sk, sv) => if comment_in line sk then None else Some (cut sk line, unquote (cut sv line))
  end.
Definition read_config (selector : text -> bool) (lines : list text) : list (text * text) :=
  fold_left (fun d l => match read_line l with Some (k, v) => if selector k then dset k v d else d | None => d end) lines [].

(** the lines of a text file, each with its line feed *)
Fixpoint file_lines_go (cur : text) (s : text) : list text :=
  match s with
  | [] => match cur with [] => [] | _ => [rev cur] end
  | c :: r => if c =? 10 then rev (c :: cur) :: file_lines_go [] r else file_lines_go (c :: cur) r
  end.
Definition file_lines (s : text) : list text := file_lines_go [] s.
(** configfile.py:243-246, 308-315: ConfigFile.update, on the content of the file *)
Definition config_update (map : list (text * option text)) (content : text) : res text :=
  do lines <- alter_config map (file_lines content); Ok (concat lines).
(** configfile.py:254-260, 289-291: ConfigFile.__getitem__ and get *)
Definition config_get (k : text) (content : text) : option text := dget k (read_config (seqb k) (file_lines content)).
(** configfile.py:248-251: ConfigFile.__delitem__ calls _save without its argument *)
Definition config_del (k : text) (content : text) : res text :=
  do _ <- alter_config [(k, None)] (file_lines content); Err TypeError.
(** configfile.py:317-331 getset *)
Definition config_getset (keys : list text) (content : text) : list (text * option text) :=
  let cfg := read_config (fun k => existsb (seqb k) keys) (file_lines content) in
  map (fun p => (fst p, Some (snd p))) cfg ++ map (fun k => (k, None)) (filter (fun k => negb (dmem k cfg)) (nodup (list_eq_dec Z.eq_dec) keys)).
End conf.
