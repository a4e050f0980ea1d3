(** ConsSpec.v: statement-level definitions for C90. *)
From Verif Require Import PyStr PyDict ConsModel.

(** a console that was just made *)
Definition new_console (s : con) : Prop := c_buffer s = [] /\ c_temp s = [] /\ c_log s = [].
(** the files made so far *)
Fixpoint made (l : list event) : list (text * text) :=
  match l with [] => [] | EMktemp n p :: r => (n, p) :: made r | _ :: r => made r end.
Definition sources (l : list event) : list text := concat (map (fun e => match e with EPython t => [t] | _ => [] end) l).
(** the line is a command and what stands behind it, divided by white space *)
Definition command_line (U : unicode) (line cmd arg : text) : Prop :=
  exists blanks, line = cmd ++ blanks ++ arg /\ Forall (fun c => u_space U c = false) cmd /\ Forall (fun c => u_space U c = true) blanks /\
    (blanks = [] -> arg = []) /\ match arg with [] => True | c :: _ => u_space U c = false end.

(** the words of \set, in order, up to the first one which the environment refuses: what is set and what is written *)
Section sets.
Context (setenv : text -> text -> option exn).
Definition no_equals (x : text) : Prop := ~ In 61 x.
Inductive sets : list (text * text) -> list text -> list (text * text) -> list text -> option exn -> Prop :=
| s_nil env : sets env [] env [] None
| s_set env k v r env' out e : no_equals k -> setenv k v = None -> sets (dset k v env) r env' out e ->
    sets env ((k ++ str "=" ++ v) :: r) env' ((k ++ str "=" ++ v ++ [10]) :: out) e
| s_refused env k v r e : no_equals k -> setenv k v = Some e -> sets env ((k ++ str "=" ++ v) :: r) env [] (Some e)
| s_show env x r env' out e v : no_equals x -> x <> [] -> v = match dget x env with Some v => v | None => [] end -> sets env r env' out e ->
    sets env (x :: r) env' ((x ++ str "=" ++ v ++ [10]) :: out) e
| s_blank env r env' out e : sets env r env' out e -> sets env ([] :: r) env' out e.
End sets.

(** the files are executed one after the other, up to the first that cannot be loaded *)
Section runs.
Context (load : list event -> text -> loaded).
Inductive runs : list event -> list text -> list event -> option exn -> Prop :=
| r_nil l : runs l [] l None
| r_code l p r l' e : load l p = LCode -> runs (l ++ [EExec p]) r l' e -> runs l (p :: r) l' e
| r_syntax l p r l' e : load l p = LSyntax -> runs (l ++ [ESyntax p]) r l' e -> runs l (p :: r) l' e
| r_fail l p r e : load l p = LFail e -> runs l (p :: r) l (Some e).
End runs.
(** tempfile.mktemp never gives the same name twice *)
Definition fresh (mktemp : list event -> text -> text) : Prop := forall l n, ~ In (mktemp l n) (map snd (made l)).
(** two names are the same file's: the same path, or names without directories that differ in blanks around and case only *)
Definition same_file (U : unicode) (x y : text) : Prop :=
  x = y \/ (~ In 47 x /\ ~ In 47 y /\ py_lower U (py_strip U x) = py_lower U (py_strip U y)).

(** the names that files are known by *)
Definition plain (x : text) : Prop := ~ In 47 x.
Definition short (U : unicode) (x : text) : text := py_lower U (py_strip U x).
(** the file that \i takes for a name: a path as it is, a temporary file by its name, otherwise what is called like the
    stripped and lower-cased name in the current directory *)
Inductive found (U : unicode) (l : list event) : text -> text -> Prop :=
| f_path x : ~ plain x -> found U l x x
| f_temp x p : plain x -> In (short U x, p) (made l) -> found U l x p
| f_here x : plain x -> ~ In (short U x) (map fst (made l)) -> found U l x (short U x).
(** the files that \e and \E take for names: a temporary file is made for every new name *)
Inductive files (U : unicode) (mktemp : list event -> text -> text) : list event -> list text -> list event -> list text -> Prop :=
| fs_nil l : files U mktemp l [] l []
| fs_path l x r l' ps : ~ plain x -> files U mktemp l r l' ps -> files U mktemp l (x :: r) l' (x :: ps)
| fs_temp l x p r l' ps : plain x -> In (short U x, p) (made l) -> files U mktemp l r l' ps -> files U mktemp l (x :: r) l' (p :: ps)
| fs_new l x p r l' ps : plain x -> ~ In (short U x) (map fst (made l)) -> p = mktemp l (short U x) ->
    files U mktemp (l ++ [EMktemp (short U x) p]) r l' ps -> files U mktemp l (x :: r) l' (p :: ps).
(** without a name it is the file of the empty name *)
Definition names_of (l : list text) : list text := match l with [] => [[]] | _ => l end.
(** what is printed of an exception that a command lets out *)
Definition printed (e : option exn) : list event := match e with Some e => [EPrint e] | None => [] end.
Definition editor (env : list (text * text)) : text := match dget (str "EDITOR") env with Some e => e | None => str "vi" end.
