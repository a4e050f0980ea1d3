(** PyxModel.v: Python commands: /repo/postgresql/python/command.py:57-129 (loaders), 134-160 (the -C and -m/-c options), 375-404
    (postmortem), 406-603 (Execution) and /repo/postgresql/bin/pg_python.py:42-134 (command).

    The code that is run is an arbitrary function on the [world], which is what it can reach of the interpreter; so is a console, and the
    postmortem object.  Files and modules are found by an [env], whose answers may depend on all that happened before.  Lists and dicts
    are values: a list or dict that is changed in place behind a reference kept by the command is not modelled; nor is sys.path, nor the
    texts of reports.  optparse is the standard library's (ClientParamModel has the options of the connection). *)
From Verif Require Import PyStr PyDict.

(** SystemExit.code *)
Inductive exitcode := CNone | CInt (n : Z) | CText (t : text).
(** an exception; [e_normal]: it is an Exception *)
Inductive exc := XExit (c : exitcode) | XOther (cls : Z) (e_normal : bool).
Definition is_exception (x : exc) : bool := match x with XExit _ => false | XOther _ b => b end.
Definition ImportErr : exc := XOther 1 true.
Definition NoneCall : exc := XOther 2 true.   (* TypeError: 'NoneType' object is not callable *)

(** a code object: the file name it was compiled with, and its source *)
Definition code : Type := text * text.
(** os.environ: the mapping that changes the environment of the process, or a dict *)
Inductive environ := EProcess | EDict (d : list (text * text)).
Record world := {
  w_main : option (option Z);               (* sys.modules['__main__']: absent, or None, or a module *)
  w_context : option (option Z);            (* sys.modules['__context__'] *)
  w_argv : list text;
  w_environ : environ;
  w_penv : list (text * text);              (* the environment of the process, which child processes get *)
  w_last : option exc;                      (* sys.last_type, sys.last_value *)
  w_builtins : list (text * option Z);      (* builtins; None: the value None *)
  w_libpath : list text                     (* postgresql.sys.libpath *)
}.
Definition environ_view (w : world) : list (text * text) := match w_environ w with EProcess => w_penv w | EDict d => d end.

(** code that was run: the code, its namespace, sys.modules['__main__'], sys.argv and __file__ when it began, what it raised *)
Record run := { r_code : code; r_ns : Z; r_main : option (option Z); r_argv : list text; r_file : text; r_end : option exc }.
Inductive event :=
| ERun (r : run)                                                                       (* code was run *)
| EConsole (ns : Z) (argv : list text)
| EPost (x : exc)                                                                      (* the postmortem object is called, for an exception *)
| EReport (x : option exc).                                                            (* written to stderr; None: a message *)

Inductive modloader := ML (ml_code : code + exc) (ml_file : text + exc).
Inductive postlook := PFound | PMissing | PValueError | PRaise (x : exc).
Record env := {
  e_read : list event -> text -> text + exc;                  (* open and read a file *)
  e_module : list event -> text -> option modloader + exc;    (* pkgutil.get_loader *)
  e_compile : text -> text -> option exc;                     (* compile(source, filename): what it raises *)
  e_exec : code -> Z -> world -> world * option exc;          (* exec(code, md, md) *)
  e_interact : Z -> world -> world * option exc;              (* the console *)
  e_post : text -> postlook;                                  (* the import and getattr for the postmortem object *)
  e_postcall : world -> world * option exc
}.

Definition st : Type := world * list event.
Definition M (A : Type) : Type := st -> (A + exc) * st.
Definition ret {A} (a : A) : M A := fun s => (inl a, s).
Definition throw {A} (x : exc) : M A := fun s => (inr x, s).
Definition bnd {A B} (m : M A) (f : A -> M B) : M B := fun s => match m s with (inl a, s') => f a s' | (inr x, s') => (inr x, s') end.
Notation "'let*' x := a 'in' b" := (bnd a (fun x => b)) (at level 61, x pattern, right associativity).
(** the outcome of [m] as a value *)
Definition caught {A} (m : M A) : M (A + exc) := fun s => let (r, s') := m s in (inl r, s').
Definition lift {A} (r : A + exc) : M A := fun s => (r, s).
Definition log (e : event) : M unit := fun s => (inl tt, (fst s, snd s ++ [e])).
Definition upd (f : world -> world) : M unit := fun s => (inl tt, (f (fst s), snd s)).
Definition ask {A} (f : list event -> A) : M A := fun s => (inl (f (snd s)), s).
Definition get : M world := fun s => (inl (fst s), s).

Definition set_main v w := {| w_main := v; w_context := w_context w; w_argv := w_argv w; w_environ := w_environ w; w_penv := w_penv w; w_last := w_last w; w_builtins := w_builtins w; w_libpath := w_libpath w |}.
Definition set_argv v w := {| w_main := w_main w; w_context := w_context w; w_argv := v; w_environ := w_environ w; w_penv := w_penv w; w_last := w_last w; w_builtins := w_builtins w; w_libpath := w_libpath w |}.
Definition set_last v w := {| w_main := w_main w; w_context := w_context w; w_argv := w_argv w; w_environ := w_environ w; w_penv := w_penv w; w_last := Some v; w_builtins := w_builtins w; w_libpath := w_libpath w |}.
Definition set_builtins v w := {| w_main := w_main w; w_context := w_context w; w_argv := w_argv w; w_environ := w_environ w; w_penv := w_penv w; w_last := w_last w; w_builtins := v; w_libpath := w_libpath w |}.
Definition set_libpath v w := {| w_main := w_main w; w_context := w_context w; w_argv := w_argv w; w_environ := w_environ w; w_penv := w_penv w; w_last := w_last w; w_builtins := w_builtins w; w_libpath := v |}.
Definition set_all m c a e w := {| w_main := m; w_context := c; w_argv := a; w_environ := e; w_penv := w_penv w; w_last := w_last w; w_builtins := w_builtins w; w_libpath := w_libpath w |}.

Section pyx.
Context (E : env).

(** command.py:57-125: the loaders.  A file loader has the source when it was given a file object. *)
Inductive lkind := KModule | KFile | KCommand.
Inductive loader := LModule (m : modloader) | LFile (path : text) (src : option text) | LCommand (src : text).
(** 124-128 and 57-62, 79-87: making a loader; None: a module that was not found *)
Definition load (k : lkind) (path : text) : M (option loader) :=
  match k with
  | KModule => let* r := ask (fun h => e_module E h path) in let* o := lift r in ret (option_map LModule o)
  | KFile => ret (Some (LFile path None))
  | KCommand => ret (Some (LCommand path))
  end.
Definition compiled (src name : text) : M code :=
  match e_compile E src name with None => ret (name, src) | Some x => throw x end.
(** get_code (66-68, 106-109) *)
Definition get_code (l : loader) : M code :=
  match l with
  | LModule (ML c _) => lift c
  | LFile path (Some s) => compiled s path
  | LFile path None => let* r := ask (fun h => e_read E h path) in let* s := lift r in compiled s path
  | LCommand s => compiled s (str "<command>")
  end.
(** get_filename (62-64, 88-90) *)
Definition get_filename (l : loader) : M text :=
  match l with LModule (ML _ f) => lift f | LFile path _ => ret path | LCommand _ => ret (str "<command>") end.

(** 111-141 find_loader, and append_context (148-161): what -C makes of its value *)
Definition context_of (value : text) : text * lkind :=
  if py_startswith (str "module:") value then (value, KModule)
  else if py_startswith (str "file://") value then (value, KFile)
  else (value, KCommand).
(** 111-119: the path that a loader is given *)
Definition xpath (value : text) (k : lkind) : text := match k with KCommand => value | _ => skipn 7 value end.

(** 437-483 __init__: what is main; None: a console.  [main]: the value of -m or -c. *)
Definition choose (main : option (text * lkind)) (args : list text) (isatty : bool) (stdin : text + exc) : M (option (text * loader) * list text) :=
  match main with
  | Some (path, k) =>
      let* l := load k path in
      match l with None => throw ImportErr | Some l => ret (Some (path, l), args) end
  | None =>
      match args with
      | fp :: rest => let* r := ask (fun h => e_read E h fp) in let* s := lift r in ret (Some (fp, LFile fp (Some s)), rest)
      | [] => if negb isatty then let* s := lift stdin in ret (Some (str "<stdin>", LFile (str "<stdin>") (Some s)), [])
              else ret (None, [])
      end
  end.

(** exec(code, md, md) *)
Definition execute (c : code) (ns : Z) (file : text) : M unit :=
  let* w := get in
  let (w', x) := e_exec E c ns w in
  let* _ := upd (fun _ => w') in
  let* _ := log (ERun {| r_code := c; r_ns := ns; r_main := w_main w; r_argv := w_argv w; r_file := file; r_end := x |}) in
  match x with None => ret tt | Some x => throw x end.

(** 512-540: one context; true: it went well *)
Definition run_context (ns : Z) (c : text * lkind) : M bool :=
  let rpath := xpath (fst c) (snd c) in
  let* l := load (snd c) rpath in
  match l with
  | None => let* _ := log (EReport None) in ret false
  | Some l =>
      let* r := caught (get_code l) in
      match r with
      | inr x => let* _ := log (EReport (Some x)) in ret false
      | inl co =>
          let* file := get_filename l in
          let* r := caught (execute co ns file) in
          match r with
          | inr x => let* _ := log (EReport (Some x)) in ret false
          | inl _ => ret true
          end
      end
  end.
Fixpoint run_contexts (ns : Z) (l : list (text * lkind)) : M bool :=
  match l with
  | [] => ret true
  | c :: r => let* ok := run_context ns c in if ok then run_contexts ns r else ret false
  end.

(** 375-404 with postmortem(funcpath): m; the result tells whether the exception came from [m] (exe_exception) *)
Definition under_postmortem (funcpath : text) (m : M unit) : M (option (exc * bool)) :=
  match funcpath with
  | [] => let* r := caught m in ret (match r with inl _ => None | inr x => Some (x, true) end)
  | _ =>
      match e_post E funcpath with
      | PRaise x => ret (Some (x, false))
      | look =>
          let* _ := match look with PValueError => log (EReport None) | _ => ret tt end in
          let* r := caught m in
          match r with
          | inl _ => ret None
          | inr x =>
              let* _ := upd (set_last x) in
              let* _ := match look with
                        | PFound =>
                            let* _ := log (EPost x) in
                            let* w := get in
                            let (w', y) := e_postcall E w in
                            let* _ := upd (fun _ => w') in
                            match y with None => ret tt | Some y => log (EReport (Some y)) end
                        | _ => log (EReport (Some NoneCall))
                        end in
              ret (Some (x, true))
          end
      end
  end.

(** 498-588 _call *)
Definition body (ns : Z) (contexts : list (text * lkind)) (main : option (text * loader)) (args : list text) (post : text) : M exitcode :=
  let* _ := upd (set_main (Some (Some ns))) in
  let* ok := run_contexts ns contexts in
  if negb ok then ret (CInt 1) else
  match main with
  | None =>
      let argv := match args with [] => [str "<console>"] | _ => args end in
      let* _ := upd (set_argv argv) in
      let* w := get in
      let* _ := log (EConsole ns argv) in
      let (w', x) := e_interact E ns w in
      let* _ := upd (fun _ => w') in
      match x with None => ret (CInt 0) | Some (XExit c) => ret c | Some x => throw x end
  | Some (path, l) =>
      let* file := get_filename l in
      let* _ := upd (set_argv (file :: args)) in
      let* r := caught (get_code l) in
      match r with
      | inr x => let* _ := log (EReport (Some x)) in ret (CInt 1)
      | inl co =>
          let* o := under_postmortem post (execute co ns file) in
          match o with
          | None => ret (CInt 0)
          | Some (XExit c, _) => let* _ := upd (set_last (XExit c)) in ret c
          | Some (x, false) => throw x
          | Some (x, true) => let* _ := log (EReport (Some x)) in let* _ := upd (set_last x) in ret (CInt 1)
          end
      end
  end.

(** 590-603 __call__ *)
Definition value_of (v : option (option Z)) : option Z := match v with Some v => v | None => None end.
Definition call (ns : Z) (contexts : list (text * lkind)) (main : option (text * loader)) (args : list text) (post : text) : M exitcode :=
  fun s =>
    let w := fst s in
    let (r, s') := body ns contexts main args post s in
    (r, (set_all (Some (value_of (w_main w))) (Some (value_of (w_context w))) (w_argv w) (EDict (environ_view w)) (fst s'), snd s')).

(** the whole: python -m postgresql.python.command *)
Definition command (ns : Z) (contexts : list (text * lkind)) (main : option (text * lkind)) (args : list text) (isatty : bool) (stdin : text + exc) (post : text) : M exitcode :=
  let* (m, a) := choose main args isatty stdin in call ns contexts m a post.

(** ** pg_python *)
Inductive cstate := COpen | CDropped | CClosed.      (* dropped: the socket was taken away, nothing was said to the server *)
(** 93-105: the names, given to the code in builtins *)
Definition overload_names : list text :=
  [str "connector"; str "db"; str "do"; str "prepare"; str "sqlexec"; str "settings"; str "proc"; str "xact"].
Definition truthy (c : exitcode) : bool := match c with CNone => false | CInt n => negb (n =? 0) | CText t => negb (len t =? 0) end.
(** pq3.py:2376-2400, 2302-2305: what close() does to the connection *)
Definition close (c : cstate) : cstate := match c with COpen => CClosed | c => c end.
(** 106-128: [run]: pythonexec(...); [vals]: the values of the new names *)
Definition with_connection (run : M exitcode) (vals : list Z) : st -> ((exitcode + exc) * st) * cstate :=
  fun s =>
    let w := fst s in
    let overload := combine overload_names (map Some vals) in
    let restore := map (fun n => (n, match dget n (w_builtins w) with Some v => v | None => None end)) overload_names in
    let (r, s') := run (set_builtins (dupdate (w_builtins w) overload) w, snd s) in
    let c := match r with
             | inl rv => if truthy rv && match w_last (fst s') with Some x => negb (is_exception x) | None => false end
                         then close CDropped else close COpen
             | inr x => if is_exception x then close COpen else COpen
             end in
    ((r, (set_builtins (dupdate (w_builtins (fst s')) restore) (fst s'), snd s')), c).

(** 66-92: connecting.  How each attempt ends: connected, ClientCannotConnectError with what its failures are (AuthenticationSpecificationError
    or not), another exception; [eof]: the prompt for the password is answered with its end.  The result: the prompts asked for, and how it ends. *)
Inductive attempt := AOk | ACannot (authspec : list bool) | AOther (x : exc) | AEof.
Inductive connected := Connected | Failed (x : exc) | Waiting.
Definition CannotConnect : exc := XOther 3 true.
Fixpoint connecting (need_prompt : bool) (l : list attempt) : list bool * connected :=
  match l with
  | [] => ([], Waiting)
  | a :: r =>
      match a with
      | AOk => ([need_prompt], Connected)
      | AEof => ([need_prompt], Failed (XExit (CInt 1)))
      | AOther x => ([need_prompt], Failed x)
      | ACannot fs => if existsb (fun b => b) fs then let (p, c) := connecting true r in (need_prompt :: p, c)
                      else ([need_prompt], Failed CannotConnect)
      end
  end.
(** list.remove *)
Fixpoint remove_first (x : text) (l : list text) : list text :=
  match l with [] => [] | y :: r => if seqb x y then r else y :: remove_first x r end.
(** 42-134 command, after the options were read.  [setup] is all that is done to the world before the code runs, except connecting (loading the
    libraries, 51-55, does nothing to it) *)
Definition pg_python (libpath : list text) (attempts : list attempt) (vals : list Z)
    (ns : Z) (contexts : list (text * lkind)) (main : option (text * lkind)) (args : list text) (isatty : bool) (stdin : text + exc) (post : text) : st -> ((exitcode + exc) * st) * option cstate :=
  fun s =>
    let w := fst s in
    let w1 := set_libpath ((str ".") :: w_libpath w ++ libpath) w in
    let fail x s := ((inr x, (set_libpath (remove_first (str ".") (w_libpath (fst s))) (fst s), snd s))) in
    match snd (connecting false attempts) with
    | Waiting => ((inr (XOther 4 false), (w1, snd s)), None)
    | Failed x => (fail x (w1, snd s), None)
    | Connected =>
        match choose main args isatty stdin (w1, snd s) with
        | (inr x, s1) => (fail x s1, Some COpen)
        | (inl (m, a), s1) =>
            match with_connection (call ns contexts m a post) vals s1 with
            | ((inr x, s2), c) => (fail x s2, Some c)
            | (r, c) => (r, Some c)
            end
        end
    end.
End pyx.
