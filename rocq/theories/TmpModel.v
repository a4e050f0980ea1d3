(** TmpModel.v: /repo/postgresql/temporal.py, the contexts of a temporary cluster (push, pop, __enter__, __exit__) *)
From Verif Require Import PyStr PyDict.

(** what is in the builtins: something of the user's, or an attribute of the connection of a context (for "new" the
    function that makes further connections of that context) *)
Inductive bval := User (n : Z) | Of (c : Z) (what : text).
(** how an operation with the server ends *)
Inductive outc := Good | Fails (e : Z) | Interrupted (e : Z).
(** what was done with the server: connecting for a context, creating and dropping the schema with this number,
    closing a connection *)
Inductive act := AConnect (c : Z) | ACreate (n : Z) | AClose (c : Z) | ADrop (n : Z).
(** a context: its connection, and the local_builtins it set *)
Record frame := { f_ctx : option Z; f_dict : list (text * bval) }.
Record tstate := {
  t_builtins : list (text * bval);
  t_stack : list frame;                     (* builtins_stack, the left end first *)
  t_extras : list (Z * list Z);             (* the lists l of new_pg_tmp_connection, by context *)
  t_sandbox : Z;                            (* sandbox_id *)
  t_log : list act
}.
(** temporal.py:37-47 builtins_keys *)
Definition builtins_keys : list text :=
  map str ["connector"; "db"; "do"; "xact"; "proc"; "settings"; "prepare"; "sqlexec"; "newdb"]%string.
(** temporal.py:173-183 local_builtins *)
Definition local_names : list text :=
  map str ["db"; "prepare"; "xact"; "sqlexec"; "do"; "settings"; "proc"; "connector"; "new"]%string.
Definition local_builtins (c : Z) : list (text * bval) := map (fun k => (k, Of c k)) local_names.

Definition extras_of (c : Z) (x : list (Z * list Z)) : list Z :=
  match find (fun p => fst p =? c) x with Some p => snd p | None => [] end.
Definition add_extra (c e : Z) (x : list (Z * list Z)) : list (Z * list Z) :=
  map (fun p => if fst p =? c then (fst p, snd p ++ [e]) else p) x.

(** temporal.py:151-195 push; [c]: the connection, [o]: how connecting ends *)
Definition push (c : Z) (o : outc) (s : tstate) : tstate * outc :=
  match o with
  | Good =>
      let current := fold_left (fun d k => match dget k (t_builtins s) with Some v => dset k v d | None => d end) builtins_keys [] in
      let stack := match t_stack s with [] => [{| f_ctx := None; f_dict := current |}] | l => l end in      (* 184-190 *)
      ({| t_builtins := dupdate (t_builtins s) (local_builtins c);                                          (* 193-194 *)
          t_stack := stack ++ [{| f_ctx := Some c; f_dict := local_builtins c |}];
          t_extras := t_extras s ++ [(c, [])];
          t_sandbox := t_sandbox s + 1;                                                                     (* 195 *)
          t_log := t_log s ++ [AConnect c] |}, Good)
  | _ => (s, o)
  end.

(** temporal.py:217-222: closing the connections, one after the other; an exception ends it *)
Fixpoint close_all (cs : list Z) (os : list outc) (log : list act) : list act * list outc * outc :=
  match cs with
  | [] => (log, os, Good)
  | c :: r => match os with
              | [] => close_all r [] (log ++ [AClose c])
              | Good :: os => close_all r os (log ++ [AClose c])
              | o :: os => (log, os, o)
              end
  end.
(** temporal.py:197-235 pop; [interrupted]: exc is an exception that is no Exception.  The test [x in previous] (207) looks
    for the name in the pair (dict, list): it is never there. [os]: how the operations with the server end *)
Definition pop (interrupted : bool) (os : list outc) (s : tstate) : tstate * outc :=
  match rev (t_stack s) with
  | [] => (s, Fails 0)                                                    (* IndexError: pop from an empty deque *)
  | top :: below =>
      let sid := t_sandbox s - 1 in
      let '(stack, b) :=
        match below with
        | next :: _ :: _ => (rev below, dupdate (t_builtins s) (f_dict next))                                 (* 202-203 *)
        | _ => (tl (rev below), fold_left (fun d k => ddel k d) builtins_keys (t_builtins s))                 (* 205-211 *)
        end in
      let s1 := {| t_builtins := b; t_stack := stack; t_extras := t_extras s; t_sandbox := sid; t_log := t_log s |} in
      if interrupted then (s1, Good)                                                                         (* 233-235 *)
      else match f_ctx top with
           | None => (s1, Fails 1)
           | Some c =>
               let '(log, os, o) := close_all (c :: extras_of c (t_extras s)) os (t_log s) in
               let s2 := {| t_builtins := b; t_stack := stack; t_extras := t_extras s; t_sandbox := sid; t_log := log |} in
               match o with
               | Good => match os with
                         | (Fails e) :: _ => (s2, Fails e)
                         | (Interrupted e) :: _ => (s2, Interrupted e)
                         | _ => ({| t_builtins := b; t_stack := stack; t_extras := t_extras s; t_sandbox := sid; t_log := log ++ [ADrop (sid + 1)] |}, Good)   (* 232 *)
                         end
               | o => (s2, o)
               end
           end
  end.
(** temporal.py:237-256 _init_c and __enter__ ([o]: how creating the schema ends, [os]: the operations of pop) *)
Definition enter (c : Z) (oc o : outc) (os : list outc) (s : tstate) : tstate * outc :=
  match push c oc s with
  | (s1, Good) =>
      match o with
      | Good => ({| t_builtins := t_builtins s1; t_stack := t_stack s1; t_extras := t_extras s1; t_sandbox := t_sandbox s1;
                    t_log := t_log s1 ++ [ACreate (t_sandbox s1)] |}, Good)
      | Fails e => match pop false os s1 with (s2, Good) => (s2, Fails e) | r => r end
      | Interrupted e => (s1, Interrupted e)
      end
  | r => r
  end.
(** temporal.py:159-164 new_pg_tmp_connection: calling builtins' new; [o]: how it ends *)
Definition call_new (e : Z) (s : tstate) : tstate :=
  match dget (str "new") (t_builtins s) with
  | Some (Of c w) =>
      if seqb w (str "new") then
        {| t_builtins := t_builtins s; t_stack := t_stack s; t_extras := add_extra c e (t_extras s); t_sandbox := t_sandbox s; t_log := t_log s ++ [AConnect e] |}
      else s
  | _ => s
  end.

(** the program: entering and leaving contexts (257-258 __exit__), making connections, setting builtins of its own *)
Inductive tev :=
| Enter (c : Z) (oc o : outc) (os : list outc)
| Exit (interrupted : bool) (os : list outc)
| New (e : Z)
| Set_ (k : text) (v : Z).
Definition tstep (e : tev) (s : tstate) : tstate * outc :=
  match e with
  | Enter c oc o os => enter c oc o os s
  | Exit i os => pop i os s
  | New e => (call_new e s, Good)
  | Set_ k v => ({| t_builtins := dset k (User v) (t_builtins s); t_stack := t_stack s; t_extras := t_extras s; t_sandbox := t_sandbox s; t_log := t_log s |}, Good)
  end.
Fixpoint trun (es : list tev) (s : tstate) : tstate :=
  match es with [] => s | e :: r => trun r (fst (tstep e s)) end.
Definition tinit (b : list (text * bval)) : tstate := {| t_builtins := b; t_stack := []; t_extras := []; t_sandbox := 0; t_log := [] |}.
