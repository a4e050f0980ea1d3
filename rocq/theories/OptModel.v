(** OptModel.v: the command line of pg_python: /repo/postgresql/clientparameters.py:219-367, python/command.py:141-204 (the options),
    bin/pg_python.py:20-42.  optparse.OptionParser.parse_args (Python 3.11) is modelled with them; the texts of the messages are left out. *)
From Verif Require Import PyStr PyDict IRIModel ParamModel PyxModel.

(** what an option does with its value (its callback or action, with dest):
    clientparameters.py:232-237 append_db_client_parameters (of options with and without a value), with type = 'choice' (295-300),
    276-285 append_settings, 302-303 append_db_client_x_parameters, optparse's 'append' (312-323) and 'store' (pg_python.py:20-25),
    command.py:148-161 append_context, 163-171 set_python_main with option.python_loader, and --help and --version *)
Inductive action :=
| AParam (dest : text) | AFlag (dest : text) | AChoice (dest : text) (choices : list text) | ASettings (dest : text) | ASpecial (dest : text)
| ALib | ALibpath | ATrace | AContext | AMain (k : lkind) | AShow.
Record opt := Opt { o_short : option Z; o_long : option text; o_act : action }.
(** optparse.Option.takes_value *)
Definition takes_value (a : action) : bool := match a with AFlag _ | AShow => false | _ => true end.

(** parser.values: db_client_parameters, lib, libpath, pq_trace, python_context, python_main.  None and [] of lib, libpath and
    python_context are not told apart: pg_python.py:47-49 does not; python_context holds what find_loader says of the values (C89). *)
Record vals := Vals {
  v_params : list pitem; v_lib : list text; v_libpath : list text; v_trace : option text;
  v_context : list (text * lkind); v_main : option (text * lkind) }.
Definition no_vals : vals := Vals [] [] [] None [] None.

(** optparse.OptionParser.exit: error(): the status is 2; --help and --version: 0; an exception of a callback *)
Inductive stop := Usage | Shown | NameError.
Inductive out (A : Type) := Go (a : A) | Stop (s : stop).
Arguments Go {A}. Arguments Stop {A}.

Definition add_param (i : pitem) (s : vals) : vals :=
  Vals (v_params s ++ [i]) (v_lib s) (v_libpath s) (v_trace s) (v_context s) (v_main s).
(** value.split('=', 1) *)
Fixpoint split_eq (t : text) : option (text * text) :=
  match t with
  | [] => None
  | c :: r => if Z.eqb c 61 then Some ([], r) else match split_eq r with Some (k, v) => Some (c :: k, v) | None => None end
  end.
(** option.process: the value is checked (choices), then the callback is called.  set_python_main puts '--' before the rest of the
    arguments: true.  append_settings: OptionValueError is not a name of clientparameters.py (284). *)
Definition process (a : action) (v : text) (s : vals) : out (vals * bool) :=
  match a with
  | AParam d => Go (add_param (At [d] (PStr v)) s, false)
  | AFlag d => Go (add_param (At [d] (PBool true)) s, false)
  | AChoice d l => if existsb (fun x => seqb x v) l then Go (add_param (At [d] (PStr v)) s, false) else Stop Usage
  | ASettings d =>
      match split_eq v with
      | Some (k, w) => Go (add_param (At [d; k] (PStr w)) s, false)
      | None => Stop NameError
      end
  | ASpecial d => Go (add_param (Special d (PStr v)) s, false)
  | ALib => Go (Vals (v_params s) (v_lib s ++ [v]) (v_libpath s) (v_trace s) (v_context s) (v_main s), false)
  | ALibpath => Go (Vals (v_params s) (v_lib s) (v_libpath s ++ [v]) (v_trace s) (v_context s) (v_main s), false)
  | ATrace => Go (Vals (v_params s) (v_lib s) (v_libpath s) (Some v) (v_context s) (v_main s), false)
  | AContext => Go (Vals (v_params s) (v_lib s) (v_libpath s) (v_trace s) (v_context s ++ [context_of v]) (v_main s), false)
  | AMain k => Go (Vals (v_params s) (v_lib s) (v_libpath s) (v_trace s) (v_context s) (Some (v, k)), true)
  | AShow => Stop Shown
  end.

Section parser.
Context (table : list opt).
(** _short_opt.get('-' + ch) *)
Definition find_short (c : Z) : option opt :=
  find (fun o => match o_short o with Some x => Z.eqb x c | None => false end) table.
(** optparse._match_abbrev on _long_opt *)
Definition is_long (w : text) (o : opt) : bool := match o_long o with Some x => seqb x w | None => false end.
Definition has_prefix (w : text) (o : opt) : bool := match o_long o with Some x => py_startswith w x | None => false end.
Definition find_long (w : text) : option opt :=
  match find (is_long w) table with
  | Some o => Some o
  | None => match filter (has_prefix w) table with [o] => Some o | _ => None end
  end.
(** _process_short_opts, up to where a value is taken from the next argument *)
Inductive taken := Done (s : vals) (halt : bool) | Needs (a : action) (s : vals).
Fixpoint cluster (chs : text) (s : vals) : out taken :=
  match chs with
  | [] => Go (Done s false)
  | c :: r =>
      match find_short c with
      | None => Stop Usage
      | Some o =>
          if takes_value (o_act o) then
            match r with
            | [] => Go (Needs (o_act o) s)
            | _ => match process (o_act o) r s with Go (s, h) => Go (Done s h) | Stop e => Stop e end
            end
          else match process (o_act o) [] s with Go (s, _) => cluster r s | Stop e => Stop e end
      end
  end.
(** _process_long_opt, up to there *)
Definition long (body : text) (s : vals) : out taken :=
  let '(name, explicit) := match split_eq body with Some (n, v) => (n, Some v) | None => (body, None) end in
  match find_long name with
  | None => Stop Usage
  | Some o =>
      if takes_value (o_act o) then
        match explicit with
        | Some v => match process (o_act o) v s with Go (s, h) => Go (Done s h) | Stop e => Stop e end
        | None => Go (Needs (o_act o) s)
        end
      else match explicit with
           | Some _ => Stop Usage
           | None => match process (o_act o) [] s with Go (s, h) => Go (Done s h) | Stop e => Stop e end
           end
  end.
(** _process_args, with parser.disable_interspersed_args().  When set_python_main has put '--' before the rest,
    the next round takes it away and ends. *)
Fixpoint parse (args : list text) (s : vals) : out (vals * list text) :=
  match args with
  | [] => Go (s, [])
  | a :: r =>
      let step (t : out taken) :=
        match t with
        | Stop e => Stop e
        | Go (Done s h) => if h then Go (s, r) else parse r s
        | Go (Needs act s) =>
            match r with
            | [] => Stop Usage
            | v :: r => match process act v s with Stop e => Stop e | Go (s, h) => if h then Go (s, r) else parse r s end
            end
        end in
      if seqb a (str "--") then Go (s, r)
      else if py_startswith (str "--") a then step (long (skipn 2 a) s)
      else if py_startswith (str "-") a && Nat.ltb 1 (length a) then step (cluster (skipn 1 a) s)
      else Go (s, a :: r)
  end.
End parser.

(** clientparameters.py:239-323 and 359-367 (DefaultParser), pg_python.py:20-30, command.py:173-204 *)
Definition one (c : string) : option Z := match str c with x :: _ => Some x | [] => None end.
Definition modes : list text := [str "require"; str "prefer"; str "allow"; str "disable"].
Definition options : list opt :=
  [ Opt None (Some (str "unix")) (AParam (str "unix"));
    Opt None (Some (str "ssl-mode")) (AChoice (str "sslmode") modes);
    Opt (one "s") (Some (str "setting")) (ASettings (str "settings"));
    Opt (one "I") (Some (str "iri")) (ASpecial (str "pq_iri"));
    Opt (one "h") (Some (str "host")) (AParam (str "host"));
    Opt (one "p") (Some (str "port")) (AParam (str "port"));
    Opt (one "U") (Some (str "username")) (AParam (str "user"));
    Opt (one "W") (Some (str "password")) (AFlag (str "prompt_password"));
    Opt (one "d") (Some (str "database")) (AParam (str "database"));
    Opt None (Some (str "pq-trace")) ATrace;
    Opt (one "l") None ALib;
    Opt (one "L") None ALibpath;
    Opt (one "C") (Some (str "context")) AContext;
    Opt (one "m") None (AMain KModule);
    Opt (one "c") None (AMain KCommand);
    Opt None (Some (str "version")) AShow;
    Opt None (Some (str "help")) AShow ].
(** pg_python.py:35-42: p.parse_args(argv[1:]) *)
Definition pg_python_args (argv : list text) : out (vals * list text) := parse options argv no_vals.
