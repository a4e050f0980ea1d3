(** ConsModel.v: /repo/postgresql/python/command.py 193-401 (ExtendedConsole) with Python's code.InteractiveConsole.push.
    Simplified: the executed code and Python source change neither os.environ nor the console; what a command writes is the event of its writing; the help text (showhelp, 257-268) is one event; commands
    registered by others are not there; tempfile.mktemp always finds a name. *)
From Verif Require Import PyStr PyDict.

Inductive event :=
| EWrite (t : text)                  (* self.write *)
| EHelp                              (* the list of commands is written *)
| EMktemp (name path : text)         (* tempfile.mktemp *)
| EEdit (args : list text)           (* subprocess.call *)
| EExec (path : text)                (* exec of the code of the file *)
| ESyntax (path : text)              (* its SyntaxError is printed *)
| EPrint (e : exn)                   (* an exception is printed *)
| EPython (source : text).           (* runsource *)
(** what becomes of a file: it cannot be opened, read or compiled, it has a SyntaxError, or it has code *)
Inductive loaded := LFail (e : exn) | LSyntax | LCode.
Record con := { c_buffer : list text; c_temp : list (text * text); c_environ : list (text * text); c_log : list event }.
(** what push returns or raises: [None], InteractiveConsole.push's bool, or SystemExit *)
Inductive pushed := PNone | PMore (more : bool) | PRaised (e : exn).

Section cons.
(** Unicode; shlex.split; os.environ[k] = v (ValueError or OSError for some keys and values); what happens to files, the
    editor and Python source, dependent on all that was done; repr() of a list; tempfile.mktemp *)
Context (U : unicode) (shlex : text -> res (list text)) (setenv : text -> text -> option exn)
        (load : list event -> text -> loaded) (call : list event -> list text -> option exn)
        (runsource : list event -> text -> res bool) (repr_list : list text -> text) (mktemp : list event -> text -> text).

Notation step := (con -> con * option exn).
Definition log (e : event) (s : con) : con :=
  {| c_buffer := c_buffer s; c_temp := c_temp s; c_environ := c_environ s; c_log := c_log s ++ [e] |}.
Definition done : step := fun s => (s, None).
Definition seq (a b : step) : step := fun s => match a s with (s, None) => b s | x => x end.
Fixpoint each {A} (f : A -> step) (l : list A) : step := match l with [] => done | x :: r => seq (f x) (each f r) end.
Definition write (t : text) : step := fun s => (log (EWrite t) s, None).
(** shlex.split(arg), then *)
Definition splitting (arg : text) (f : list text -> step) : step := fun s => match shlex arg with Ok l => f l s | Err e => (s, Some e) end.

(** the text before and after the first =, if there is one *)
Fixpoint split_eq (x : text) : option (text * text) :=
  match x with
  | [] => None
  | c :: r => if c =? 61 then Some ([], r) else match split_eq r with Some (k, v) => Some (c :: k, v) | None => None end
  end.
Definition assignment (k v : text) : text := k ++ str "=" ++ v ++ [10].
(** 276-283 *)
Definition set_one (x : text) : step := fun s =>
  match split_eq x with
  | Some (k, v) =>
      match setenv k v with
      | Some e => (s, Some e)
      | None => write (assignment k v) {| c_buffer := c_buffer s; c_temp := c_temp s; c_environ := dset k v (c_environ s); c_log := c_log s |}
      end
  | None =>
      match x with
      | [] => (s, None)
      | _ => write (assignment x (match dget x (c_environ s) with Some v => v | None => [] end)) s
      end
  end.
(** 270-286 bs_set *)
Definition bs_set (arg : text) : step :=
  match arg with
  | [] => fun s => each (fun kv => write (assignment (fst kv) (snd kv))) (c_environ s) s
  | _ => splitting arg (each set_one)
  end.
(** 288-309 resolve_path; on posix an absolute path has a separator *)
Definition resolve_path (path : text) (dont_create : bool) (s : con) : con * text :=
  if existsb (Z.eqb 47) path then (s, path) else
  let p := py_lower U (py_strip U path) in
  match dget p (c_temp s) with
  | Some t => (s, t)
  | None =>
      if dont_create then (s, p)
      else let t := mktemp (c_log s) p in
           (log (EMktemp p t) {| c_buffer := c_buffer s; c_temp := dset p t (c_temp s); c_environ := c_environ s; c_log := c_log s |}, t)
  end.
Fixpoint resolve_all (l : list text) (s : con) : con * list text :=
  match l with
  | [] => (s, [])
  | x :: r => let (s, p) := resolve_path x false s in let (s, ps) := resolve_all r s in (s, p :: ps)
  end.
(** 311-327 execfile *)
Definition execfile (path : text) : step := fun s =>
  match load (c_log s) path with
  | LFail e => (s, Some e)
  | LSyntax => (log (ESyntax path) s, None)
  | LCode => (log (EExec path) s, None)
  end.
(** 329-333 editfiles *)
Definition editfiles (files : list text) : step := fun s =>
  let args := match dget (str "EDITOR") (c_environ s) with Some e => e | None => str "vi" end :: files in
  (log (EEdit args) s, call (c_log s) args).
Definition or_blank (l : list text) : list text := match l with [] => [[]] | _ => l end.
(** 335-352 bs_i, bs_E, bs_e *)
Definition bs_i (arg : text) : step :=
  splitting arg (fun l => each (fun x s => let (s, p) := resolve_path x true s in execfile p s) (or_blank l)).
Definition bs_E (arg : text) : step := splitting arg (fun l s => let (s, ps) := resolve_all (or_blank l) s in editfiles ps s).
Definition bs_e (arg : text) : step :=
  splitting arg (fun l s => let (s, ps) := resolve_all (or_blank l) s in seq (editfiles ps) (each execfile ps) s).
(** 354-363 bs_x: the global [command] is the option of -c (176-186), which cannot be called *)
Definition bs_x (arg : text) : step := splitting arg (fun _ s => (s, Some TypeError)).

(** line.split(None, 1) of a line that begins with a backslash, and the '' that is appended: 249-250 *)
Fixpoint word (l : text) : text * text :=
  match l with [] => ([], []) | c :: r => if u_space U c then ([], l) else let (w, k) := word r in (c :: w, k) end.
Definition first_word (line : text) : text * text := let (w, r) := word line in (w, lstrip_by (u_space U) r).
(** 244-255 execslash with the commands of 217-231 *)
Definition execslash (line : text) : step :=
  let (cmd, arg) := first_word line in
  if seqb cmd (str "\?") then fun s => (log EHelp s, None)
  else if seqb cmd (str "\set") then bs_set arg
  else if seqb cmd (str "\E") then bs_E arg
  else if seqb cmd (str "\i") then bs_i arg
  else if seqb cmd (str "\e") then bs_e arg
  else if seqb cmd (str "\x") then bs_x arg
  else write (str "ERROR: unknown backslash command: " ++ repr_list (match arg with [] => [cmd; []] | _ => [cmd; arg; []] end) ++ [10]).
(** code.InteractiveConsole.push *)
Definition python_push (line : text) (s : con) : con * pushed :=
  let buffer := c_buffer s ++ [line] in
  let source := py_join [10] buffer in
  let leave b := {| c_buffer := b; c_temp := c_temp s; c_environ := c_environ s; c_log := c_log s ++ [EPython source] |} in
  match runsource (c_log s) source with
  | Ok true => (leave buffer, PMore true)
  | Ok false => (leave [], PMore false)
  | Err e => (leave buffer, PRaised e)
  end.
(** 365-376 push *)
Definition push (line : text) (s : con) : con * pushed :=
  match c_buffer s with
  | [] =>
      if py_startswith [92] line then
        match execslash line s with
        | (s, None) => (s, PNone)
        | (s, Some e) => (log (EPrint e) s, PNone)
        end
      else python_push line s
  | _ => python_push line s
  end.
Fixpoint pushes (lines : list text) (s : con) : con :=
  match lines with [] => s | l :: r => pushes r (fst (push l s)) end.
End cons.
