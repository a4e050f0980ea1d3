(** PgcModel.v: /repo/postgresql/installation.py (what pg_config says about an installation) and python/os.py *)
From Verif Require Import PyStr PyDict PyInt StrModel VersionModel MarkModel.

(** text.split(): the runs of characters that are not white space *)
Fixpoint words_go (U : unicode) (l cur : text) : list text :=
  match l with
  | [] => match cur with [] => [] | _ => [rev cur] end
  | c :: r => if u_space U c then match cur with [] => words_go U r [] | _ => rev cur :: words_go U r [] end
              else words_go U r (c :: cur)
  end.
Definition py_words (U : unicode) (l : text) : list text := words_go U l [].
(** text.find(sub, a): to the end *)
Definition pyfind_from (sub l : text) (a : Z) : Z := pyfind sub l a (len l).

Section pg_config.
Variable U : unicode.

(** installation.py:87-121 parse_configure_options.  The quote is the first character if that is a quote, else the
    last one if that is, else a single quote.  ([''[0:1] in quotes] holds: with an empty [confopt] the quote is empty,
    split_using gives [''] and nothing is yielded.)  A value of None stands for True. *)
Definition is_quote (c : Z) : bool := (c =? 39) || (c =? 34).
Definition option_quote (confopt : text) : Z :=
  match confopt with
  | [] => 39
  | c :: _ => if is_quote c then c else if is_quote (last confopt 0) then last confopt 0 else 39
  end.
(** 109-121, for one part *)
Definition option_item (quote : Z) (x : text) : list (text * option text) :=
  let x := if py_in [quote; quote] x then py_replace [quote; quote] [quote] x else x in      (* 110-112 *)
  let s := strip_by (fun c => (c =? 45) || (c =? 39) || (c =? 34)) x in                       (* 117 *)
  let '(k, v) := match index_of [61] s with
                 | Some n => (firstn n s, Some (skipn (S n) s))
                 | None => (s, None)
                 end in
  let key := py_replace [45] [95] k in                                                        (* 118 *)
  match key with [] => [] | _ => [(key, v)] end.                                              (* 120-121 *)
Definition parse_configure_options (confopt : text) : list (text * option text) :=
  match confopt with
  | [] => []
  | _ => flat_map (option_item (option_quote confopt)) (split_using confopt (option_quote confopt) 32 (-1))
  end.

(** installation.py:20-42 get_command_output: [run args] is the standard output of the executable with these arguments,
    None when it did not exit with 0 (the process, the decoding and the timeout are not modelled; a decoding error would be
    raised) *)
Variable run : list text -> option text.
Definition get_command_output (args : list text) : option text :=
  run (map (fun x => [45; 45] ++ py_strip U x) args).

(** installation.py:51-58 *)
Definition config_line (d : list (text * text)) (x : text) : list (text * text) :=
  match index_of [61] x with
  | None => d                                                    (* find('=') == -1; so are empty and blank lines *)
  | Some n => dset (py_strip U (py_lower U (firstn n x))) (py_strip U (skipn (S n) x)) d
  end.
(** installation.py:66-73 *)
Definition help_option (l : text) : option text :=
  let dash_pos := pyfind_from [45; 45] l 0 in
  if dash_pos =? -1 then None else Some (pyslice l (dash_pos + 2) (pyfind_from [32] l dash_pos)).
Fixpoint remove_first (x : text) (l : list text) : list text :=
  match l with [] => [] | y :: r => if seqb x y then r else y :: remove_first x r end.
Fixpoint zip_dict (d : list (text * text)) (k v : list text) : list (text * text) :=
  match k, v with x :: k, y :: v => zip_dict (dset x y d) k v | _, _ => d end.
(** installation.py:44-82 pg_config_dictionary; None.splitlines() raises AttributeError *)
Definition pg_config_dictionary : res (list (text * text)) :=
  match get_command_output [] with
  | Some out => Ok (fold_left config_line (splitlines out) [])                        (* 51-59 *)
  | None =>
      match get_command_output [str "help"] with
      | None => Err AttributeError
      | Some help =>
          let opt := flat_map (fun l => match help_option l with Some o => [o] | None => [] end) (splitlines help) in
          let opt := remove_first (str "version") (remove_first (str "help") opt) in  (* 74-77 *)
          match get_command_output opt, get_command_output [str "version"] with
          | Some o, Some v => Ok (dset (str "version") (py_strip U v) (zip_dict [] opt (splitlines o)))
          | _, _ => Err AttributeError
          end
      end
  end.

(** installation.py:142-186: the names *)
Definition pg_executables : list text :=
  map str ["pg_config"; "psql"; "initdb"; "pg_resetxlog"; "pg_controldata"; "clusterdb"; "pg_ctl"; "pg_dump"; "pg_dumpall";
           "postgres"; "postmaster"; "reindexdb"; "vacuumdb"; "ipcclean"; "createdb"; "ecpg"; "createuser"; "createlang";
           "droplang"; "dropuser"; "pg_restore"]%string.
Definition pg_directories : list text :=
  map str ["bindir"; "docdir"; "includedir"; "pkgincludedir"; "includedir_server"; "libdir"; "pkglibdir"; "localedir";
           "mandir"; "sharedir"; "sysconfdir"]%string.
(** posixpath.join(a, b), b relative *)
Definition path_join (a b : text) : text :=
  match a with [] => b | _ => if py_endswith [47] a then a ++ b else a ++ [47] ++ b end.

Record install := {
  in_version : text;
  in_type : text;
  in_version_info : list vitem;
  in_options : list (text * option text);
  in_paths : list (text * option text)
}.
(** installation.py:206-237 Installation.__init__; [exists_ p]: os.path.exists(p) *)
Variable dv : decimals.
Variable exists_ : text -> bool.
Definition find_paths (info : list (text * text)) : list (text * option text) :=
  let paths := fold_left (fun d k => dset k (dget k info) d) pg_directories [] in      (* 224-225 *)
  match dget (str "bindir") info with
  | None => fold_left (fun d k => dset k None d) pg_executables paths                  (* 229-230 *)
  | Some bindir =>
      fold_left (fun d k => let path := path_join bindir k in
                            dset k (if exists_ path then Some path else None) d) pg_executables paths
  end.
Definition installation_init (info : list (text * text)) : res install :=
  match dget (str "version") info with
  | None => Err KeyError
  | Some version =>
      match py_words U version with                                                    (* 212 *)
      | [type_; vs] =>
          do vi <- version_split U dv vs;
          do vi <- version_normalize vi;
          Ok {| in_version := version; in_type := type_; in_version_info := vi;
                in_options := dupdate [] (parse_configure_options (match dget (str "configure") info with Some c => c | None => [] end));
                in_paths := find_paths info |}
      | _ => Err ValueError
      end
  end.
(** installation.py:239-251 Installation.ssl *)
Definition install_ssl (i : install) : bool :=
  dmem (str "with_openssl") (in_options i) || existsb (py_in (str "with_ssl")) (dkeys (in_options i)).

(** python/os.py:17-34 find_file, find_executable; [path]: the PATH variable *)
Fixpoint find_file (basename : text) (paths : list text) : option text :=
  match paths with
  | [] => None
  | x :: r => if exists_ (path_join x basename) then Some (path_join x basename) else find_file basename r
  end.
Definition find_executable (basename : text) (path : option text) : option text :=
  find_file basename (py_split [58] (match path with Some p => p | None => [] end)).
(** installation.py:123-134 default_pg_config; [env]: PGINSTALLATION *)
Definition default_pg_config (env path : option text) : option text :=
  match env with
  | Some (c :: p) => Some (c :: p)
  | _ => find_executable (str "pg_config") path
  end.
End pg_config.
