(** LibModel.v: /repo/postgresql/lib/__init__.py: the INI Library Format, symbols, bindings and categories.
    Not modelled: ModuleLibrary (the name is undefined in the package), subjective symbols (383-391: an ILF only has
    Symbols), load() and find_libsql (the file system), the arguments of the calls (they are passed on as they are). *)
From Verif Require Import PyStr PyDict.

(** ** ILF.from_lines, 206-263 *)
(** a line of a block: text, or (ref, rest) *)
Inductive bline := BText (l : text) | BRef (ref rest : text).
(** 217-218 *)
Definition is_header (U : unicode) (line : text) : bool :=
  let l := py_strip U line in py_startswith [91] l && py_endswith [93] l.
(** 221-228 *)
Definition read_line (line : text) : bline :=
  if py_startswith [42; 91] line then
    match index_of [93] line with
    | Some k => BRef (skipn 2 (firstn k line)) (skipn (S k) line)     (* line.split(']', 1) *)
    | None => BText line
    end
  else BText line.
(** 211-229: the blocks, each with the line of its header (None before the first) *)
Fixpoint blocks (U : unicode) (curid : option text) (curblock : list bline) (lines : list text) : list (option text * list bline) :=
  match lines with
  | [] => [(curid, curblock)]
  | line :: r =>
      if is_header U line then (curid, curblock) :: blocks U (Some line) [] r
      else blocks U curid (curblock ++ [read_line line]) r
  end.
(** 230: ''.join(...): a reference before the first symbol is a TypeError *)
Definition plain_line (b : bline) : res text := match b with BText l => Ok l | BRef _ _ => Err TypeError end.
(** a member of syms: (name, (isref, styp, exe, doc, query)); the doc is not used by SymbolCollection *)
Record isym := { y_name : text; y_isref : bool; y_type : option text; y_exe : option text; y_query : text }.
(** 236-238: symdesc.strip().strip('[]').split(':') + (None, None) *)
Definition brackets (c : Z) : bool := (c =? 91) || (c =? 93).
Definition describe (U : unicode) (line : text) : text * option text * option text :=
  match py_split [58] (strip_by brackets (py_strip U line)) with
  | [] => ([], None, None)
  | [n] => (n, None, None)
  | [n; t] => (n, Some t, None)
  | n :: t :: e :: _ => (n, Some t, Some e)
  end.
(** 242-247 *)
Definition dereference (syms : list isym) (b : bline) : res text :=
  match b with
  | BText l => Ok l
  | BRef ref rest =>
      match find (fun y => seqb (y_name y) ref) (rev syms) with
      | Some y => Ok (y_query y ++ rest)
      | None => Err TypeError                       (* None[1] *)
      end
  end.
(** 248-253 *)
Definition is_comment (l : text) : bool := py_startswith [45; 45; 32] l.
Fixpoint skip_comments (l : list text) : list text :=
  match l with [] => [] | x :: r => if is_comment x then skip_comments r else l end.
(** 232-262 one symbol *)
Definition read_symbol (U : unicode) (syms : list isym) (b : option text * list bline) : res isym :=
  match fst b with
  | None => Err AttributeError                      (* only the first block has no header *)
  | Some line =>
      let '(name, styp, exe) := describe U line in
      do block <- mapM (dereference syms) (snd b);
      let query := concat (skip_comments block) in
      let query := match styp with Some t => if seqb t (str "proc") then py_strip U query else query | None => query end in
      let (isref, name) := match name with c :: n => if c =? 38 then (true, n) else (false, name) | [] => (false, name) end in
      Ok {| y_name := name; y_isref := isref; y_type := styp; y_exe := exe; y_query := query |}
  end.
Fixpoint read_symbols (U : unicode) (syms : list isym) (bs : list (option text * list bline)) : res (list isym) :=
  match bs with
  | [] => Ok syms
  | b :: bs => do y <- read_symbol U syms b; read_symbols U (syms ++ [y]) bs
  end.

(** ** 46-103 Symbol *)
Record symbol := { sy_name : text; sy_source : text; sy_method : option text; sy_type : option text; sy_ref : bool }.
Definition execution_methods : list text :=
  [str "first"; str "rows"; str "chunks"; str "declare"; str "load_chunks"; str "load_rows"; str "column"].
(** 89-92 *)
Definition check_method (m : option text) : res (option text) :=
  match m with
  | None => Ok None
  | Some [] => Ok None
  | Some m => if seqb m (str "all") then Ok None else if existsb (seqb m) execution_methods then Ok (Some m) else Err ValueError
  end.
(** ** 143-182 SymbolCollection *)
Definition symtypes : list text := [str "static"; str "preload"; str "const"; str "proc"; str "transient"].
Record library := { l_preface : text; l_symbols : list (text * symbol); l_preload : list text }.
Definition set_add (x : text) (l : list text) : list text := if existsb (seqb x) l then l else l ++ [x].
Fixpoint collection_go (l : library) (syms : list isym) : res library :=
  match syms with
  | [] => Ok l
  | y :: r =>
      if match y_type y with Some (c :: t) => negb (existsb (seqb (c :: t)) symtypes) | _ => false end then Err ValueError
      else
        let preload := match y_type y with Some t => seqb t (str "preload") | None => false end in
        do m <- check_method (y_exe y);
        let s := {| sy_name := y_name y; sy_source := y_query y; sy_method := m; sy_type := if preload then None else y_type y; sy_ref := y_isref y |} in
        collection_go {| l_preface := l_preface l; l_symbols := dset (y_name y) s (l_symbols l);
                         l_preload := if preload then set_add (y_name y) (l_preload l) else l_preload l |} r
  end.
Definition symbol_collection (syms : list isym) (preface : text) : res library :=
  collection_go {| l_preface := preface; l_symbols := []; l_preload := [] |} syms.
Definition from_lines (U : unicode) (lines : list text) : res library :=
  match blocks U None [] lines with
  | [] => Err IndexError
  | (_, pre) :: bs =>
      do pre <- mapM plain_line pre;
      do syms <- read_symbols U [] bs;
      symbol_collection syms (concat pre)
  end.
(** 200-204 get_symbol, symbols *)
Definition get_symbol (l : library) (name : text) : option symbol := dget name (l_symbols l).
Definition symbols (l : library) : list text := dkeys (l_symbols l).

(** ** bindings *)
Section Binding.
Context {V : Type} (is_none : V -> bool).
(** what the database does: whether the n-th operation on it succeeds when it prepares a statement or finds a procedure;
    what it gives when it executes one (an iterator being resolved, 394-396); the rows when it executes a reference *)
Context (o_prepare : nat -> bool) (o_run : nat -> res V) (o_rows : nat -> res (list (list text))).
(** the operations made.  The name (of the attribute for which it is done) and the outcome are only recorded. *)
Inductive ev :=
| EvPrepare (name : text) (src : text) (ok : bool)
| EvProc (name : text) (src : text) (ok : bool)
| EvRun (name : text) (stmt : nat) (method : option text)      (* stmt: the number of the operation that prepared it *)
| EvRows (name : text) (stmt : nat).
(** 278-297 BoundSymbol *)
Record bound := { b_id : nat; b_name : text; b_src : text; b_proc : bool; b_method : option text }.
(** what an attribute can be: 278 BoundSymbol, 299 BoundReference, the value of a constant *)
Inductive attr := ASym (b : bound) | ARef (id : nat) (s : symbol) | AVal (v : V).
Record binding := { g_cache : list (text * attr); g_log : list ev }.
Definition log (g : binding) (e : ev) : binding := {| g_cache := g_cache g; g_log := g_log g ++ [e] |}.
Definition remember (g : binding) (n : text) (a : attr) : binding := {| g_cache := dset n a (g_cache g); g_log := g_log g |}.
Definition has_type (s : symbol) (t : text) : bool := match sy_type s with Some u => seqb u t | None => false end.
(** 282-294 *)
Definition bind_symbol (g : binding) (s : symbol) : binding * res bound :=
  let n := length (g_log g) in
  let ok := o_prepare n in
  let proc := has_type s (str "proc") in
  (log g (if proc then EvProc (sy_name s) (sy_source s) ok else EvPrepare (sy_name s) (sy_source s) ok),
   if ok then Ok {| b_id := n; b_name := sy_name s; b_src := sy_source s; b_proc := proc; b_method := if proc then None else sy_method s |}
   else Err (OtherError 1)).
(** 296-297 *)
Definition run_symbol (g : binding) (b : bound) : binding * res V :=
  (log g (EvRun (b_name b) (b_id b) (b_method b)), o_run (length (g_log g))).
(** 307-310 BoundReference *)
Definition bind_reference (g : binding) (s : symbol) : binding * res attr :=
  let n := length (g_log g) in
  let ok := o_prepare n in
  (log g (EvPrepare (sy_name s) (sy_source s) ok), if ok then Ok (ARef n s) else Err (OtherError 1)).
(** 312-326 *)
Definition joined (rows : list (list text)) : text := py_join [10] (map (py_join [32]) rows).
Definition call_reference (g : binding) (id : nat) (s : symbol) : binding * res bound :=
  let n := length (g_log g) in
  let g := log g (EvRows (sy_name s) id) in
  match o_rows n with
  | Err e => (g, Err e)
  | Ok rows => bind_symbol g {| sy_name := sy_name s; sy_source := joined rows; sy_method := sy_method s; sy_type := sy_type s; sy_ref := false |}
  end.
(** 351-401 __getattr__ (Python calls it for names which are not attributes of the object itself) *)
Definition make (g : binding) (name : text) (s : symbol) : binding * res attr :=
  if sy_ref s then
    match bind_reference g s with
    | (g, Ok (ARef id s)) =>
        match (if has_type s (str "const") then let (g, r) := call_reference g id s in (g, do b <- r; Ok (ASym b)) else (g, Ok (ARef id s))) with
        | (g, Ok a) => (if has_type s (str "transient") then g else remember g name a, Ok a)
        | r => r
        end
    | r => r
    end
  else
    match bind_symbol g s with
    | (g, Err e) => (g, Err e)
    | (g, Ok b) =>
        if has_type s (str "const") then
          match run_symbol g b with
          | (g, Err e) => (g, Err e)
          | (g, Ok v) => (remember g name (AVal v), Ok (AVal v))
          end
        else (if has_type s (str "transient") then g else remember g name (ASym b), Ok (ASym b))
    end.
Definition is_none_attr (a : attr) : bool := match a with AVal v => is_none v | _ => false end.
Definition getattr (l : library) (g : binding) (name : text) : binding * res attr :=
  match dget name (g_cache g) with
  | Some a => if is_none_attr a then
                match get_symbol l name with None => (g, Err AttributeError) | Some s => make g name s end
              else (g, Ok a)
  | None => match get_symbol l name with None => (g, Err AttributeError) | Some s => make g name s end
  end.
(** 332-340 Binding.__init__ *)
Fixpoint load_all (l : library) (g : binding) (names : list text) : binding * res unit :=
  match names with
  | [] => (g, Ok tt)
  | n :: r => match getattr l g n with (g, Ok _) => load_all l g r | (g, Err e) => (g, Err e) end
  end.
Definition bind_library (l : library) : binding * res unit := load_all l {| g_cache := []; g_log := [] |} (l_preload l).
(** a use of the binding: attributes read, and what was read (the i-th result) called *)
Inductive bop := BGet (name : text) | BCall (i : nat).
Inductive bres := BAttr (a : attr) | BVal (v : V) | BErr (e : exn).
Definition bstep (l : library) (g : binding) (out : list bres) (o : bop) : binding * bres :=
  match o with
  | BGet n => let (g, r) := getattr l g n in (g, match r with Ok a => BAttr a | Err e => BErr e end)
  | BCall i =>
      match nth_error out i with
      | Some (BAttr (ASym b)) => let (g, r) := run_symbol g b in (g, match r with Ok v => BVal v | Err e => BErr e end)
      | Some (BAttr (ARef id s)) => let (g, r) := call_reference g id s in (g, match r with Ok b => BAttr (ASym b) | Err e => BErr e end)
      | _ => (g, BErr TypeError)
      end
  end.
Fixpoint bsteps (l : library) (g : binding) (out : list bres) (ops : list bop) : binding * list bres :=
  match ops with
  | [] => (g, out)
  | o :: r => let (g, x) := bstep l g out o in bsteps l g (out ++ [x]) r
  end.
End Binding.
Arguments attr : clear implicits.
Arguments binding : clear implicits.
Arguments bres : clear implicits.

(** ** 403-431 Category.  [libs]: the set of libraries, in the order it is iterated; a library is a number (its identity);
    [aliases]: the names it was given by keyword; [direct]: given as an argument; [name]: its own name (None if it was not
    loaded from a file lib...sql); [bindable]: Binding() succeeds *)
Section Category.
Context (aliases : nat -> list text) (direct : nat -> bool) (name : nat -> option text) (bindable : nat -> bool).
Definition lib_names (l : nat) : list (option text) := map Some (aliases l) ++ (if direct l then [name l] else []).
(** the attributes set on the connection: the name, the library bound (None: an attribute it has of its own) *)
Notation attrs := (list (text * option nat)).
Fixpoint set_names (l : nat) (ns : list (option text)) (d : attrs) : attrs * option exn :=
  match ns with
  | [] => (d, None)
  | None :: _ => (d, Some TypeError)                     (* hasattr(database, None) *)
  | Some n :: r => if dmem n d then (d, Some (OtherError 9)) (* NameError: name *) else set_names l r (dset n (Some l) d)
  end.
Fixpoint category (libs : list nat) (d : attrs) : attrs * option exn :=
  match libs with
  | [] => (d, None)
  | l :: r =>
      if bindable l then
        match set_names l (lib_names l) d with
        | (d, None) => category r d
        | x => x
        end
      else (d, Some (OtherError 1))
  end.
End Category.
