(** PyxSpec.v: what code a command is made of, and what is read off the events. *)
From Verif Require Import PyStr PyDict PyxModel.

(** the code that was run, in order; the exceptions the postmortem object was called for; the reports *)
Fixpoint ran (l : list event) : list run := match l with [] => [] | ERun r :: t => r :: ran t | _ :: t => ran t end.
Fixpoint posts (l : list event) : list exc := match l with [] => [] | EPost x :: t => x :: posts t | _ :: t => posts t end.
Fixpoint reports (l : list event) : list (option exc) := match l with [] => [] | EReport x :: t => x :: reports t | _ :: t => reports t end.
Fixpoint consoles (l : list event) : list (Z * list text) := match l with [] => [] | EConsole n a :: t => (n, a) :: consoles t | _ :: t => consoles t end.

(** [source E value c]: the value of a -C option stands for this code: "module:NAME" is that module's, "file://PATH" is what the file
    holds, anything else is the code itself *)
Inductive source (E : env) : text -> code -> Prop :=
| src_module name h c f : e_module E h name = inl (Some (ML (inl c) f)) -> source E (str "module:" ++ name) c
| src_file path h s : e_read E h path = inl s -> source E (str "file://" ++ path) (path, s)
| src_code s : (forall n, s <> str "module:" ++ n) -> (forall p, s <> str "file://" ++ p) -> source E s (str "<command>", s).

(** how main ends, for who ran the command *)
Definition result_of (x : option exc) : exitcode :=
  match x with None => CInt 0 | Some (XExit c) => c | Some (XOther _ _) => CInt 1 end.

(** an exit code that means success: none, 0, or an empty message *)
Definition success (c : exitcode) : Prop := match c with CNone => True | CInt n => n = 0 | CText t => t = [] end.

(** what the options and arguments select: [selects E main args isatty stdin m rest]: main is [m], with the arguments [rest] *)
Inductive selects (E : env) : option (text * lkind) -> list text -> bool -> text + exc -> option (text * loader) -> list text -> Prop :=
| sel_command src args tty stdin : selects E (Some (src, KCommand)) args tty stdin (Some (src, LCommand src)) args
| sel_file path args tty stdin : selects E (Some (path, KFile)) args tty stdin (Some (path, LFile path None)) args
| sel_module name args tty stdin h m : e_module E h name = inl (Some m) -> selects E (Some (name, KModule)) args tty stdin (Some (name, LModule m)) args
| sel_script path args tty stdin h s : e_read E h path = inl s -> selects E None (path :: args) tty stdin (Some (path, LFile path (Some s))) args
| sel_stdin s : selects E None [] false (inl s) (Some (str "<stdin>", LFile (str "<stdin>") (Some s))) []
| sel_console stdin : selects E None [] true stdin None [].
(** the code of a main *)
Inductive main_code (E : env) : loader -> code -> text -> Prop :=
| mc_command s : main_code E (LCommand s) (str "<command>", s) (str "<command>")
| mc_script p s : main_code E (LFile p (Some s)) (p, s) p
| mc_file p h s : e_read E h p = inl s -> main_code E (LFile p None) (p, s) p
| mc_module c f : main_code E (LModule (ML (inl c) (inl f))) c f.

(** it ended normally *)
Definition normal (r : run) : Prop := r_end r = None.
(** the code that was run before main: the options of -C, in order, all of which but perhaps the last ended normally *)
Definition prelude (E : env) (ns : Z) (vs : list text) (cs : list run) : Prop :=
  (length cs <= length vs)%nat /\ Forall2 (fun v x => source E v (r_code x)) (firstn (length cs) vs) cs /\ Forall (fun x => r_ns x = ns) cs /\
  exists a b, cs = a ++ b /\ Forall normal a /\ (b = [] \/ exists x e, b = [x] /\ r_end x = Some e).
