(** IRIModel.v: /repo/postgresql/iri.py *)
From Verif Require Import PyStr PyInt RIModel StrModel PyDict.

(** the values found in a dictionary of connection parameters; [PItems] is a sequence
    of pairs (the settings may be given so), [PList] a sequence of strings *)
Inductive pval :=
| PStr (s : text) | PInt (z : Z) | PBool (b : bool) | PNone
| PList (l : list text) | PDict (d : list (text * pval)) | PItems (d : list (text * pval)).
Notation cpd := (list (text * pval)).

(** iri.py:27 *)
Definition escape_path_comma := esc_class [44].
Definition k_settings := str "settings".
Definition k_search_path := str "search_path".

(** an optional string: x.get(k), where None and the absence are the same; the escapes
    of other objects raise TypeError *)
Definition opt_text (o : option pval) : res (option text) :=
  match o with None | Some PNone => Ok None | Some (PStr s) => Ok (Some s) | Some _ => Err TypeError end.
(** str(v); [repr] gives the text of the sequences and dictionaries *)
Definition py_str (repr : pval -> text) (v : pval) : text :=
  match v with
  | PStr s => s
  | PInt z => str_int z
  | PBool b => if b then str "True" else str "False"
  | PNone => str "None"
  | v => repr v
  end.

(** iri.py:85-89 construct_path *)
Definition construct_path (l : list text) : text := py_join [44] (map (ri_escape escape_path_comma) l).
(** iri.py:100-115: (no_path_settings, search_path) *)
Definition split_settings (o : option pval) : res (option (list (text * pval)) * option pval) :=
  let none_if_empty l := match l with [] => None | _ => Some l end in
  let others l := filter (fun p => negb (seqb (fst p) k_search_path)) l in
  match o with
  | None | Some PNone | Some (PStr []) | Some (PList []) | Some (PDict []) | Some (PItems []) => Ok (None, None)
  | Some (PDict d) => Ok (none_if_empty (others d), dget k_search_path d)
  | Some (PItems d) => Ok (none_if_empty (others d), dget k_search_path (rev d))
  | Some (PInt z) => if z =? 0 then Ok (None, None) else Err TypeError
  | Some (PBool b) => if b then Err TypeError else Ok (None, None)
  | Some (PStr _) | Some (PList _) => Err ValueError
  end.
(** iri.py:117-119 *)
Definition path_list (U : unicode) (o : option pval) : res (option (list text)) :=
  match o with
  | None | Some PNone => Ok None
  | Some (PStr s) => do l <- split_ident U s 44 34 (-1); Ok (Some l)
  | Some (PList l) => Ok (Some l)
  | Some _ => Err TypeError
  end.
(** iri.py:121-133: the host; the port is taken from the dictionary at line 165 *)
Definition iri_host (x : cpd) : res (option text) :=
  match dget (str "unix") x with
  | Some (PStr u) => Ok (Some (str "[unix:" ++ py_replace [47] [58] u ++ [93]))
  | Some _ => Err AttributeError
  | None => match dget (str "host") x with
            | Some (PStr h) => Ok (Some (if memZ 58 h then [91] ++ h ++ [93] else h))
            | Some _ => Err TypeError
            | None => Ok None
            end
  end.
(** iri.py:135-139 *)
Definition iri_path (x : cpd) : res (list text) :=
  do db <- match dget (str "database") x with Some (PStr s) => Ok [s] | Some _ => Err TypeError | None => Ok [] end;
  do p <- match dget (str "path") x with
          | None | Some PNone => Ok []
          | Some (PList l) => Ok l
          | Some _ => Err TypeError
          end;
  Ok (db ++ p).
(** iri.py:168-171: ri.escape_path_re.sub(path_comp, '/') replaces the '/' of the
    constant string by the component, which is taken as a replacement template: the
    component itself when it has no backslash.  Simplified: an error with one. *)
Definition path_sub (c : text) : res text := if memZ 92 c then Err (OtherError 1) else Ok c.

(** iri.py:144-151 *)
Definition reserved : list text :=
  [str "user"; str "password"; str "port"; str "database"; str "ssl"; str "path"; str "host"; str "unix"; str "ipv"; str "settings"].
Definition is_reserved (k : text) : bool := existsb (seqb k) reserved.
(** the order of str *)
Fixpoint text_leb (a b : text) : bool :=
  match a, b with
  | [], _ => true
  | _, [] => false
  | x :: a, y :: b => if x =? y then text_leb a b else x <? y
  end.
Fixpoint insert_item {V} (p : text * V) (l : list (text * V)) : list (text * V) :=
  match l with [] => [p] | q :: r => if text_leb (fst p) (fst q) then p :: l else q :: insert_item p r end.
Definition sort_items {V} (l : list (text * V)) : list (text * V) := fold_right insert_item [] l.
Definition driver_params (repr : pval -> text) (x : cpd) : list (text * option text) :=
  sort_items (map (fun p => ([91] ++ fst p ++ [93], Some (py_str repr (snd p)))) (filter (fun p => negb (is_reserved (fst p))) x)).

(** iri.py:91-182 construct *)
Definition iri_construct (U : unicode) (repr : pval -> text) (x : cpd) (obscure : bool) : res ri :=
  do ss <- split_settings (dget k_settings x);
  let '(others, sp) := ss in
  do search_path <- path_list U sp;
  do host <- iri_host x;
  do path <- iri_path x;
  let password := match dget (str "password") x with
                  | Some PNone => Some PNone
                  | Some v => if obscure then Some (PStr (str "***")) else Some v
                  | None => None
                  end in
  let driver := driver_params repr x in
  do user <- opt_text (dget (str "user") x);
  (* a password without a user is not looked at *)
  do pw <- match user with Some _ => opt_text password | None => Ok None end;
  do qs <- match others with
           | None => Ok []
           | Some l => mapM (fun p => do v <- opt_text (Some (snd p)); Ok (fst p, v)) l
           end;
  do comps <- mapM path_sub path;
  Ok {| r_scheme := Some (match dget (str "ssl") x with Some (PBool true) => str "pqs" | _ => str "pq" end);
        r_netloc := unsplit_netloc {| n_user := user; n_password := pw; n_host := host;
                                      n_port := match dget (str "port") x with Some v => Some (py_str repr v) | None => None end |};
        r_path := match path with [] => None | _ => Some (py_join [47] comps) end;
        r_query := match driver ++ qs with [] => None | l => Some (construct_query l) end;
        r_fragment := match search_path with None => None | Some l => Some (construct_path l) end |}.
(** iri.py:196-200 serialize *)
Definition iri_serialize (U : unicode) (repr : pval -> text) (x : cpd) (obscure : bool) : res text :=
  do t <- iri_construct U repr x obscure; Ok (ri_unsplit t).

(** iri.py:61-78: the parts of the query *)
Definition bracketed_key (k : text) : bool := py_startswith [91] k && py_endswith [93] k.
Fixpoint structure_query (q : list (text * option text)) (c settings : cpd) : res (cpd * cpd) :=
  match q with
  | [] => Ok (c, settings)
  | (k, v) :: r =>
      if bracketed_key k then
        let k := pyslice k 1 (-1) in
        if negb (seqb k k_settings) && negb (dmem k c) then
          match v with
          | Some v => structure_query r (dset (ri_unescape k) (PStr (ri_unescape v)) c) settings
          | None => Err TypeError
          end
        else structure_query r c settings
      else match k with
           | [] => structure_query r c settings
           | _ => match v with
                  | Some v => structure_query r c (dset (ri_unescape k) (PStr (ri_unescape v)) settings)
                  | None => Err TypeError
                  end
           end
  end.
Definition dset_opt (k : text) (o : option text) (c : cpd) : cpd := match o with Some v => dset k (PStr v) c | None => c end.
(** iri.py:29-83 structure, with fieldproc = ri.unescape *)
Definition iri_structure (U : unicode) (d : rid) : res cpd :=
  let scheme := match d_scheme d with Some s => s | None => str "pq" end in
  if negb (existsb (seqb (py_lower U scheme)) [str "pq"; str "postgres"; str "postgresql"]) then Err ValueError
  else
    let n := d_net d in
    let c := dset_opt (str "port") (option_map ri_unescape (n_port n))
            (dset_opt (str "password") (option_map ri_unescape (n_password n))
            (dset_opt (str "user") (option_map ri_unescape (n_user n)) [])) in
    let c := match n_host n with
             | None => c
             | Some h =>
                 if py_startswith [91] h && py_endswith [93] h then
                   let h := pyslice h 1 (-1) in
                   if py_startswith (str "unix:") h
                   then dset (str "unix") (PStr (py_replace [58] [47] (skipn 5 h))) c
                   else dset (str "host") (PStr h) c
                 else dset (str "host") (PStr (ri_unescape h)) c
             end in
    let c := match d_path d with
             | None | Some [] => c
             | Some (db :: rest) =>
                 let c := match db with [] => c | _ => dset (str "database") (PStr db) c end in
                 match rest with [] => c | _ => dset (str "path") (PList rest) c end
             end in
    do cs <- structure_query (match d_query d with Some q => q | None => [] end) c [];
    let '(c, settings) := cs in
    let settings := match d_fragment d with
                    | None | Some [] => settings
                    | Some f => dset k_search_path (PList (map ri_unescape (py_split [44] f))) settings
                    end in
    Ok (match settings with [] => c | _ => dset k_settings (PDict settings) c end).
(** iri.py:184-194 parse *)
Definition iri_parse (U : unicode) (s : text) : res cpd := iri_structure U (ri_parse (fun x => x) s).
