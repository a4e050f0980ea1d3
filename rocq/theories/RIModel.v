(** RIModel.v: /repo/postgresql/resolved/riparse.py *)
From Verif Require Import PyStr.

(** riparse.py:44 and 47-54: the characters a class escapes, besides chr(0..32) and '%' *)
Definition unescaped (c : Z) : bool := (c =? 37) || ((0 <=? c) && (c <=? 32)).
Definition esc_class (extra : text) (c : Z) : bool := unescaped c || memZ c extra.
Definition escape_re := esc_class [].
Definition escape_user_re := esc_class [58; 64; 47; 63; 35].
Definition escape_password_re := esc_class [64; 47; 63; 35].
Definition escape_host_re := esc_class [47; 63; 35].
Definition escape_port_re := esc_class [47; 63; 35].
Definition escape_path_re := esc_class [47; 63; 35].
Definition escape_query_key_re := esc_class [38; 61; 35].
Definition escape_query_value_re := esc_class [38; 35].
(** riparse.py:43 '%%%0.2X', for the characters below 256 *)
Definition hex_upper (x : Z) : Z := if x <? 10 then 48 + x else 55 + x.
Definition pct_encode (c : Z) : text := [37; hex_upper (c / 16); hex_upper (c mod 16)].
(** riparse.py:93-94: re.sub(re_pct_encode, x) *)
Definition ri_escape (cls : Z -> bool) (x : text) : text :=
  flat_map (fun c => if cls c then pct_encode c else [c]) x.

(** riparse.py:56-62 percent_escapes.get of two characters *)
Definition hex_digit_val (c : Z) : option Z :=
  if (48 <=? c) && (c <=? 57) then Some (c - 48)
  else if (65 <=? c) && (c <=? 70) then Some (c - 55)
  else if (97 <=? c) && (c <=? 102) then Some (c - 87) else None.
Definition percent_escapes (a b : Z) : option Z :=
  match hex_digit_val a, hex_digit_val b with Some x, Some y => Some (x * 16 + y) | _, _ => None end.
(** riparse.py:67-91 unescape (of a str), character by character instead of from one
    '%' to the next *)
Fixpoint ri_unescape (x : text) : text :=
  match x with
  | [] => []
  | c :: r =>
      if c =? 37 then
        match r with
        | a :: b :: r' => match percent_escapes a b with
                          | Some v => v :: ri_unescape r'
                          | None => 37 :: ri_unescape r
                          end
        | _ => 37 :: ri_unescape r
        end
      else c :: ri_unescape r
  end.

Definition find1 (c : Z) (s : text) (pos : Z) : Z := pyfind [c] s pos (len s).
(** riparse.py:64, 126-128 *)
Definition scheme_char (c : Z) : bool :=
  memZ c [45; 46; 43] || ascii_digit c || ascii_upper c || ascii_lowerc c.
(** the 5-tuple *)
Record ri := { r_scheme : option text; r_netloc : option text; r_path : option text; r_query : option text; r_fragment : option text }.
(** [x or y] on positions: 0 counts as absent *)
Definition pos_or (x : option Z) (y : Z) : Z := match x with Some k => if k =? 0 then y else k | None => y end.
(** riparse.py:104-172 split *)
Definition ri_split (s : text) : ri :=
  let endp := len s in
  let scheme_pos := pyfind [58; 47; 47] s 0 endp in
  let '(scheme, pos) :=
    if negb (scheme_pos =? -1) then
      let sc := pyslice s 0 scheme_pos in
      if forallb scheme_char sc then (Some sc, scheme_pos + 3) else (None, 0)
    else (None, 0) in
  let path_pos := find1 47 s pos in
  let '(path_pos, eon) := if path_pos =? -1 then (None, endp) else (Some path_pos, path_pos) in
  let query_pos := find1 63 s pos in
  let '(query_pos, path_pos, eon) :=
    if query_pos =? -1 then (None, path_pos, eon)
    else if match path_pos with None => true | Some p => query_pos <? p end then (Some query_pos, None, query_pos)
    else (Some query_pos, path_pos, eon) in
  let fragment_pos := find1 35 s pos in
  let '(fragment_pos, query_pos, path_pos, eon) :=
    if fragment_pos =? -1 then (None, query_pos, path_pos, eon)
    else
      let query_pos := match query_pos with Some q => if fragment_pos <? q then None else Some q | None => None end in
      let '(path_pos, eon) := match path_pos with
                              | Some p => if fragment_pos <? p then (None, fragment_pos) else (Some p, eon)
                              | None => (None, eon) end in
      let eon := match query_pos, path_pos with None, None => fragment_pos | _, _ => eon end in
      (Some fragment_pos, query_pos, path_pos, eon) in
  {| r_scheme := scheme;
     r_netloc := if negb (eon =? pos) then Some (pyslice s pos eon) else None;
     r_path := match path_pos with Some p => Some (pyslice s (p + 1) (pos_or query_pos (pos_or fragment_pos endp))) | None => None end;
     r_query := match query_pos with Some q => Some (pyslice s (q + 1) (pos_or fragment_pos endp)) | None => None end;
     r_fragment := match fragment_pos with Some f => Some (pyslice s (f + 1) endp) | None => None end |}.

Definition opt_with (sep : text) (x : option text) : text := match x with Some t => sep ++ t | None => [] end.
(** riparse.py:193-212 unsplit *)
Definition ri_unsplit (t : ri) : text :=
  match r_scheme t with Some s => s ++ [58; 47; 47] | None => [] end ++
  opt_with [] (r_netloc t) ++ opt_with [47] (r_path t) ++ opt_with [63] (r_query t) ++ opt_with [35] (r_fragment t).

Record netloc := { n_user : option text; n_password : option text; n_host : option text; n_port : option text }.
(** riparse.py:214-265 split_netloc *)
Definition split_netloc (fieldproc : text -> text) (s : text) : netloc :=
  let at_ := find1 64 s 0 in
  let '(user, password, pos) :=
    if at_ =? -1 then (None, None, 0)
    else match py_splitn 1 [58] (pyslice s 0 at_) with
         | [u; p] => (Some (fieldproc u), Some (fieldproc p), at_ + 1)
         | u :: _ => (Some (fieldproc u), None, at_ + 1)
         | [] => (None, None, at_ + 1)
         end in
  if pos >=? len s then {| n_user := user; n_password := password; n_host := None; n_port := None |}
  else
    if match pyindex s pos with Ok c => c =? 91 | Err _ => false end then
        let next_pos := find1 93 s pos in
        let next_pos := if next_pos =? -1 then len s - 1 else next_pos in
        let addr := pyslice s pos (next_pos + 1) in
        let colon := find1 58 s (next_pos + 1) in
        {| n_user := user; n_password := password; n_host := Some addr;
           n_port := if colon =? -1 then None else Some (fieldproc (pyslice s (colon + 1) (len s))) |}
    else
        let colon := find1 58 s pos in
        if colon =? -1
        then {| n_user := user; n_password := password; n_host := Some (fieldproc (pyslice s pos (len s))); n_port := None |}
        else {| n_user := user; n_password := password; n_host := Some (fieldproc (pyslice s pos colon));
                n_port := Some (fieldproc (pyslice s (colon + 1) (len s))) |}.
(** riparse.py:267-287 unsplit_netloc *)
Definition unsplit_netloc (t : netloc) : option text :=
  match n_user t, n_host t with
  | None, None => None
  | _, _ => Some (
      match n_user t with
      | Some u => ri_escape escape_user_re u ++
                  match n_password t with Some p => [58] ++ ri_escape escape_password_re p | None => [] end ++ [64]
      | None => []
      end ++
      match n_host t with
      | Some h => ri_escape escape_host_re h ++ match n_port t with Some p => [58] ++ ri_escape escape_port_re p | None => [] end
      | None => []
      end)
  end.

(** the dictionary of a parsed RI *)
Record rid := { d_scheme : option text; d_net : netloc; d_path : option (list text);
                d_query : option (list (text * option text)); d_fragment : option text }.
(** (list(map(fieldproc, x.split('=', 1))) + [None])[:2] *)
Definition query_item (fieldproc : text -> text) (x : text) : text * option text :=
  match py_splitn 1 [61] x with
  | [k; v] => (fieldproc k, Some (fieldproc v))
  | k :: _ => (fieldproc k, None)
  | [] => ([], None)
  end.
Definition no_netloc : netloc := {| n_user := None; n_password := None; n_host := None; n_port := None |}.
(** riparse.py:289-327 structure *)
Definition ri_structure (fieldproc : text -> text) (t : ri) : rid :=
  {| d_scheme := r_scheme t;
     d_net := match r_netloc t with Some n => split_netloc fieldproc n | None => no_netloc end;
     d_path := match r_path t with None => None | Some [] => Some [] | Some p => Some (map fieldproc (py_split [47] p)) end;
     d_query := match r_query t with None => None | Some [] => Some [] | Some q => Some (map (query_item fieldproc) (py_split [38] q)) end;
     d_fragment := match r_fragment t with Some f => Some (fieldproc f) | None => None end |}.
(** riparse.py:329-342 construct_query ('k=v' is never empty) *)
Definition construct_query (x : list (text * option text)) : text :=
  py_join [38] (map (fun kv => match snd kv with
                               | Some v => ri_escape escape_query_key_re (fst kv) ++ [61] ++ ri_escape escape_query_value_re v
                               | None => ri_escape escape_query_key_re (fst kv)
                               end) x).
(** riparse.py:344-373 construct *)
Definition ri_construct (d : rid) : ri :=
  {| r_scheme := d_scheme d;
     r_netloc := unsplit_netloc (d_net d);
     r_path := match d_path d with Some p => Some (py_join [47] (map (ri_escape escape_path_re) p)) | None => None end;
     r_query := match d_query d with Some q => Some (construct_query q) | None => None end;
     r_fragment := match d_fragment d with Some f => Some (ri_escape escape_re f) | None => None end |}.
(** riparse.py:375-382, 384-388 *)
Definition ri_parse (fieldproc : text -> text) (s : text) : rid := ri_structure fieldproc (ri_split s).
Definition ri_serialize (d : rid) : text := ri_unsplit (ri_construct d).
