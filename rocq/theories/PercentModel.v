(** PercentModel.v: the pyformat parameters of the DB-API module,
    /repo/postgresql/driver/dbapi20.py (percent_parameters, convert_keywords,
    Cursor._convert_query and the parameter part of Cursor.execute). *)
From Verif Require Import PyStr RegexModel StrModel PyInt PyDict.

(** dbapi20.py:28-30 parameters_re: (?:%%)+|%(s|[(][^)]*[)]s) *)
Definition parameters_re : re :=
  RAlt (RSeq (RLit [37; 37]) (RStar (RLit [37; 37])))
       (RSeq (RLit [37])
             (RGroup (RAlt (RLit [115]) (RSeq (RLit [40]) (RSeq (RStar (r_not 41)) (RLit [41; 115])))))).
(** pattern.findall with one group: the group of every match, from left to right, an
    empty string where the group took no part.  No match is empty, so [fuel] = the
    length of the text is enough. *)
Fixpoint re_findall (r : re) (fuel : nat) (l : text) : list text :=
  match re_search r l with
  | None => []
  | Some (_, _, g, rest) =>
      match g with Some x => x | None => [] end :: match fuel with O => [] | S n => re_findall r n rest end
  end.
(** dbapi20.py:31-33 percent_parameters *)
Definition percent_parameters (sql : text) : list text :=
  filter (fun x => match x with [] => false | _ => true end) (re_findall parameters_re (length sql) sql).

(** Python's [str % tuple], the directives %% and %s.  [%(] needs a mapping: TypeError.
    Any other directive (flags, widths, other conversions) is not modelled: OtherError 0. *)
Fixpoint fmt_seq (l : text) (args : list text) : res text :=
  match l with
  | [] => match args with [] => Ok [] | _ => Err TypeError end
  | c :: t =>
      if c =? 37 then
        match t with
        | [] => Err ValueError                                    (* incomplete format *)
        | d :: r =>
            if d =? 37 then bind (fmt_seq r args) (fun x => Ok (37 :: x))
            else if d =? 115 then
              match args with [] => Err TypeError | a :: args => bind (fmt_seq r args) (fun x => Ok (a ++ x)) end
            else if d =? 40 then Err TypeError
            else Err (OtherError 0)
        end
      else bind (fmt_seq t args) (fun x => Ok (c :: x))
  end.
(** the key of a directive [%(key)...]: up to the parenthesis which closes it *)
Fixpoint fmt_key (depth : nat) (l : text) : option (text * text) :=
  match l with
  | [] => None
  | c :: t =>
      if c =? 41 then
        match depth with
        | O => Some ([], t)
        | S d => match fmt_key d t with Some (k, r) => Some (c :: k, r) | None => None end
        end
      else match fmt_key (if c =? 40 then S depth else depth) t with Some (k, r) => Some (c :: k, r) | None => None end
  end.
(** Python's [str % dict], the directives %% and %(key)s; any other directive
    (with a dict %s formats the dict itself) is not modelled: OtherError 0.
    [fuel]: every step consumes a character. *)
Fixpoint fmt_map (fuel : nat) (l : text) (m : list (text * text)) : res text :=
  match fuel with
  | O => match l with [] => Ok [] | _ => Err OutOfFuel end
  | S n =>
    match l with
    | [] => Ok []
    | c :: t =>
      if c =? 37 then
        match t with
        | [] => Err ValueError
        | d :: r =>
            if d =? 37 then bind (fmt_map n r m) (fun x => Ok (37 :: x))
            else if d =? 40 then
              match fmt_key 0 r with
              | None => Err ValueError                            (* incomplete format key *)
              | Some (k, r) =>
                  match dget k m with
                  | None => Err KeyError
                  | Some v => match r with
                              | e :: r => if e =? 115 then bind (fmt_map n r m) (fun x => Ok (v ++ x)) else Err (OtherError 0)
                              | [] => Err ValueError
                              end
                  end
              end
            else Err (OtherError 0)
        end
      else bind (fmt_map n t m) (fun x => Ok (c :: x))
    end
  end.

(** dbapi20.py:207-247 Cursor._convert_query.  [count], [keys], [kmap], [rparts]. *)
Record cq := { cq_count : Z; cq_keys : list text; cq_kmap : list (text * text); cq_rparts : list part }.
Definition dollar (n : Z) : text := 36 :: str_nat n.
(** lines 221-228: for x in r *)
Fixpoint cq_scan (r : list text) (pcount : Z) (keys : list text) (kmap : list (text * text)) : Z * list text * list (text * text) :=
  match r with
  | [] => (pcount, keys, kmap)
  | x :: r =>
      if seqb x [115] then cq_scan r (pcount + 1) keys kmap
      else let x := pyslice x 1 (-2) in
           if existsb (seqb x) keys then cq_scan r pcount keys kmap
           else cq_scan r pcount (keys ++ [x]) (dset x (dollar (len keys + 1)) kmap)
  end.
(** range(count, count + pcount) *)
Fixpoint dollars (n : Z) (k : nat) : list text := match k with O => [] | S k => dollar (n + 1) :: dollars (n + 1) k end.
(** lines 215-242: for part in parts *)
Definition cq_part (s : cq) (p : part) : res cq :=
  match p with
  | PQ q b => Ok {| cq_count := cq_count s; cq_keys := cq_keys s; cq_kmap := cq_kmap s; cq_rparts := cq_rparts s ++ [PQ q b] |}
  | PU t =>
      let r := percent_parameters t in
      let '(pcount, keys, kmap) := cq_scan r 0 (cq_keys s) (cq_kmap s) in
      match r with
      | [] => Ok {| cq_count := cq_count s; cq_keys := keys; cq_kmap := kmap; cq_rparts := cq_rparts s ++ [PU t] |}
      | _ :: _ =>
          if negb (pcount =? 0) then
            bind (fmt_seq t (dollars (cq_count s) (Z.to_nat pcount))) (fun x =>
            Ok {| cq_count := cq_count s + pcount; cq_keys := keys; cq_kmap := kmap; cq_rparts := cq_rparts s ++ [PU x] |})
          else
            bind (fmt_map (length t) t kmap) (fun x =>
            Ok {| cq_count := cq_count s; cq_keys := keys; cq_kmap := kmap; cq_rparts := cq_rparts s ++ [PU x] |})
      end
  end.
Fixpoint cq_loop (s : cq) (l : list part) : res cq :=
  match l with [] => Ok s | p :: l => bind (cq_part s p) (fun s => cq_loop s l) end.
(** the transformer: tuple, or partial(convert_keywords, keys) *)
Inductive transformer : Type := XTuple | XKeys (keys : list text).
(** lines 244-253 (rparts is never empty: split() yields at least one part) *)
Definition convert_query (U : unicode) (s : text) : res (text * transformer * Z) :=
  bind (cq_loop {| cq_count := 0; cq_keys := []; cq_kmap := []; cq_rparts := [] |} (str_split U s)) (fun c =>
  match cq_keys c with
  | [] => bind (str_unsplit (cq_rparts c)) (fun sql => Ok (match cq_rparts c with [] => s | _ => sql end, XTuple, cq_count c))
  | _ :: _ =>
      if negb (cq_count c =? 0) then Err TypeError
      else bind (str_unsplit (cq_rparts c)) (fun sql => Ok (match cq_rparts c with [] => s | _ => sql end, XKeys (cq_keys c), len (cq_keys c)))
  end).

(** the parameters given to execute(): a sequence or a dictionary *)
Inductive params (V : Type) : Type := PSeq (l : list V) | PMap (m : list (text * V)).
Arguments PSeq {V}. Arguments PMap {V}.
Definition params_len {V} (p : params V) : Z := match p with PSeq l => len l | PMap m => len m end.
(** dbapi20.py:35-36 convert_keywords; tuple() of a dictionary would give its keys: not modelled *)
Definition apply_transformer {V} (x : transformer) (p : params V) : res (list V) :=
  match x, p with
  | XTuple, PSeq l => Ok l
  | XTuple, PMap [] => Ok []
  | XTuple, PMap _ => Err (OtherError 0)
  | XKeys keys, PMap m => mapM (fun k => match dget k m with Some v => Ok v | None => Err KeyError end) keys
  | XKeys keys, PSeq _ => Err TypeError                     (* list indices must be integers *)
  end.
(** dbapi20.py:255-267 Cursor.execute, up to the statement prepared and the arguments given to it *)
Definition execute_query {V} (U : unicode) (statement : text) (p : params V) : res (text * list V) :=
  bind (convert_query U statement) (fun '(sql, pxf, nparams) =>
  if negb (params_len p =? nparams) then Err TypeError
  else bind (apply_transformer pxf p) (fun args => Ok (sql, args))).
