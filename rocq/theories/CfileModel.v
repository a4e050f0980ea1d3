(** CfileModel.v: configuration files on disk: /repo/postgresql/configfile.py:217-315 (ConfigFile), bin/pg_dotconf.py:10-78 (command).
    The file is seen by other processes, and by a restart after a crash, in every state that it passes through: [disk] is its content, [seen] are
    the contents since the last operation began, oldest first.  Whatever the operating system does is a parameter: opening or reading may
    raise; opening for writing empties the file; Python's buffer reaches the file in pieces; writing and closing may raise.  (A loss of
    power, after which not even these contents need be left, is not modelled.)  Names with U: Unicode. *)
From Verif Require Import Base PyStr PyDict ConfModel.
From Coq Require Import String.
Local Notation str s := (PyStr.str s%string).

Record io := {
  o_open : option exn;          (* open(path) raises *)
  o_read : option exn;          (* reading raises *)
  o_wopen : option exn;         (* open(path, 'w') raises *)
  o_flush : list nat;           (* how many characters reach the file, each time that the buffer is flushed before the end *)
  o_fail : option exn }.        (* after these, writing or closing raises *)
Definition settings := list (text * option text).
Record world := { disk : text; seen : list text; store : list settings; restore : list settings }.

Section cfile.
Context (U : unicode).
(** the file read to its end *)
Definition read_file (o : io) (w : world) : res text :=
  match o_open o with Some e => Err e | None => match o_read o with Some e => Err e | None => Ok (disk w) end end.
(** with open(path, 'w') as f: for l in lines: f.write(l) *)
Fixpoint flushes (new : text) (k : nat) (l : list nat) : list text :=
  match l with [] => [] | n :: l => firstn (k + n) new :: flushes new (k + n) l end.
Definition write_file (o : io) (new : text) (w : world) : world * res unit :=
  match o_wopen o with
  | Some e => (w, Err e)
  | None =>
      let l := [] :: flushes new O (o_flush o) in
      match o_fail o with
      | Some e => ({| disk := last l []; seen := seen w ++ l; store := store w; restore := restore w |}, Err e)
      | None => ({| disk := new; seen := seen w ++ l ++ [new]; store := store w; restore := restore w |}, Ok tt)
      end
  end.
(** 297-304 update *)
Definition cf_update (o : io) (m : settings) (w : world) : world * res unit :=
  match read_file o w with
  | Err e => (w, Err e)
  | Ok c => match config_update U m c with Err e => (w, Err e) | Ok new => write_file o new w end
  end.
(** 306-315 getset *)
Definition cf_getset (o : io) (keys : list text) (w : world) : res settings := do c <- read_file o w; Ok (config_getset U keys c).
Inductive cop :=
  | Update (m : settings) | SetItem (k : text) (v : option text) | DelItem (k : text)
  | Get (k : text) | GetItem (k : text) | Getset (keys : list text) | Items | Iter
  | Call (kw : settings) | Enter | Exit.
Inductive cres := RNone | RValue (v : option text) | RSettings (m : settings) | RItems (m : list (text * text)).
(** the operations; [o], [o2] are the system's behaviour for the first and the second use of the file *)
Definition cf_step (o o2 : io) (op : cop) (w : world) : world * res cres :=
  match op with
  | Update m => let '(w, r) := cf_update o m w in (w, do _ <- r; Ok RNone)                   (* 297-304 *)
  | SetItem k v => let '(w, r) := cf_update o [(k, v)] w in (w, do _ <- r; Ok RNone)          (* 256-257 *)
  | DelItem k => (w, do c <- read_file o w; do _ <- config_del U k c; Ok RNone)               (* 244-247: _save() lacks its argument *)
  | Get k => (w, do c <- read_file o w; Ok (RValue (config_get U k c)))                       (* 284-286 *)
  | GetItem k => (w, do c <- read_file o w; match config_get U k c with Some v => Ok (RValue (Some v)) | None => Err KeyError end) (* 249-254 *)
  | Getset keys => (w, do m <- cf_getset o keys w; Ok (RSettings m))                          (* 306-315 *)
  | Items => (w, do c <- read_file o w; Ok (RItems (read_config U (fun _ => true) (file_lines c)))) (* 288-295 *)
  | Iter => (w, do c <- read_file o w; Err TypeError)                                         (* 265-266: keys() is no iterator *)
  | Call kw => ({| disk := disk w; seen := seen w; store := kw :: store w; restore := restore w |}, Ok RNone) (* 259-260 *)
  | Enter =>                                                                                  (* 271-275 *)
      match store w with
      | [] => (w, Err IndexError)
      | kw :: st =>
          match cf_getset o (dkeys kw) w with
          | Err e => (w, Err e)
          | Ok r =>
              let '(w, x) := cf_update o2 kw w in
              match x with Err e => (w, Err e) | Ok _ => ({| disk := disk w; seen := seen w; store := st; restore := restore w ++ [r] |}, Ok RNone) end
          end
      end
  | Exit => (w, Err AttributeError)                                                           (* 277-282: _restored does not exist *)
  end.

(** pg_dotconf.  Of optparse: [files] are the values of -f, [stdout] whether --stdout is given, [args] the rest *)
Inductive exit := Returned | SysExit1.
(** 33-40: the files; a line with a setting raises NameError (OtherError 2), for neither comment nor unquote is imported *)
Fixpoint read_settings (files : list text) : res unit :=
  match files with
  | [] => Ok tt
  | f :: files => if existsb (fun l => match parse_line U l with Some _ => true | None => false end) (file_lines f) then Err (OtherError 2) else read_settings files
  end.
(** 43-63: the arguments *)
Fixpoint read_args (ps : list text) (d : settings) : option settings :=
  match ps with
  | [] => Some d
  | p :: ps =>
      let '(k, v) := if memZ 61 p then (match py_splitn 1 [61] p with k :: v :: _ => (k, Some v) | _ => (p, None) end) else (p, None) in
      let k := py_strip U k in
      match k with [] => None | _ => read_args ps (dset k v d) end
  end.
(** 30-77; what is printed to stdout, and the exit *)
Definition dotconf (o : io) (files : list text) (stdout : bool) (args : list text) (w : world) : world * res (text * exit) :=
  match args with
  | [] => (w, Ok ([], Returned))
  | fp :: ps =>
      match read_settings files with
      | Err e => (w, Err e)
      | Ok _ =>
          match read_args ps [] with
          | None => (w, Ok ([], SysExit1))
          | Some m =>
              match read_file o w with
              | Err e => (w, Err e)
              | Ok c =>
                  match config_update U m c with
                  | Err e => (w, Err e)
                  | Ok new =>
                      if stdout || seqb fp (str "/dev/stdin") then (w, Ok (new, Returned))
                      else let '(w, r) := write_file o new w in (w, do _ <- r; Ok ([], Returned))
                  end
              end
          end
      end
  end.
End cfile.
