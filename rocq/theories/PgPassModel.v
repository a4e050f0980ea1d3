(** PgPassModel.v: /repo/postgresql/pgpassfile.py *)
From Verif Require Import PyStr.

(** x.replace('\\\\', '\\'): a doubled backslash becomes a single one *)
Definition unescape (x : text) : text := py_replace [92; 92] [92] x.
(** len(x) - len(x.rstrip('\\')) *)
Definition trailing_backslashes (x : text) : Z := len x - len (rstrip_by (Z.eqb 92) x).
(** r[-1] = f(r[-1]); IndexError on an empty list does not happen: a continuation
    comes after a field *)
Definition on_last (f : text -> text) (r : list text) : list text := removelast r ++ [f (last r [])].
(** pgpassfile.py:15-28, the loop *)
Fixpoint pass_loop (continuation : bool) (r : list text) (xs : list text) : list text :=
  match xs with
  | [] => r
  | x :: xs =>
      let r := if continuation
               then on_last (fun y => pyslice y 0 (-1) ++ [58] ++ unescape x) r
               else r ++ [unescape x] in
      pass_loop (trailing_backslashes x mod 2 =? 1) r xs
  end.
(** pgpassfile.py:9-32 split *)
Definition pass_split (U : unicode) (line : text) : option (list text) :=
  let line := py_strip U line in
  match line with
  | [] => None
  | _ => let r := pass_loop false [] (py_split [58] line) in
         if negb (len r =? 5) then None else Some r
  end.
(** pgpassfile.py:34-40 parse: (x[-1], x[0:4]) of the lines that are entries *)
Definition pass_entry := (text * list text)%type.
Fixpoint pass_parse (U : unicode) (data : list text) : list pass_entry :=
  match data with
  | [] => []
  | line :: r => match pass_split U line with
                 | Some x => (last x [], pyslice x 0 4) :: pass_parse U r
                 | None => pass_parse U r
                 end
  end.
Definition star : text := [42].
(** pgpassfile.py:42-54 lookup_password; unpacking anything but four fields raises *)
Fixpoint lookup_password (words : list pass_entry) (user host port database : text) : res (option text) :=
  match words with
  | [] => Ok None
  | (word, fields) :: r =>
      match fields with
      | [w_host; w_port; w_database; w_user] =>
          if (seqb w_user star || seqb w_user user) && (seqb w_host star || seqb w_host host)
             && (seqb w_port star || seqb w_port port) && (seqb w_database star || seqb w_database database)
          then Ok (Some word) else lookup_password r user host port database
      | _ => Err ValueError
      end
  end.
(** pgpassfile.py:63-70 lookup_pgpass (and 56-61): [file]: the lines of the file, None
    when it does not exist; [database]: d.get('database') *)
Definition lookup_pgpass (U : unicode) (file : option (list text)) (user host port : text) (database : option text)
  : res (option text) :=
  match file with
  | None => Ok None
  | Some lines => lookup_password (pass_parse U lines) user host port
                    (match database with Some d => d | None => user end)
  end.
