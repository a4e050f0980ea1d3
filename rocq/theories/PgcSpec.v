(** PgcSpec.v: what the output of pg_config means. *)
From Verif Require Import PyStr PyDict PyInt StrModel VersionModel VersionSpec MarkModel PgcModel.

(** ** The options given to configure *)
Record copt := { o_dashes : text; o_name : text; o_value : option text; o_quoted : bool }.
(** the argument as it was given: --name or --name=value, NAME=value *)
Definition argument (o : copt) : text :=
  o_dashes o ++ o_name o ++ match o_value o with Some v => 61 :: v | None => [] end.
(** pg_config writes it with quotes around it, or as it is *)
Definition shown (q : Z) (o : copt) : text := if o_quoted o then [q] ++ argument o ++ [q] else argument o.
Definition dash_or_quote (c : Z) : Prop := c = 45 \/ c = 39 \/ c = 34.
Definition regular (q : Z) (o : copt) : Prop :=
  Forall (eq 45) (o_dashes o) /\ ~ In 61 (o_name o) /\ ~ In q (argument o) /\
  (exists c r, o_name o = c :: r /\ ~ dash_or_quote c) /\                    (* the name begins with neither *)
  (forall r c, argument o = r ++ [c] -> ~ dash_or_quote c) /\                (* the argument ends in neither *)
  (o_quoted o = false -> Forall (fun c => c <> 32 /\ c <> 39 /\ c <> 34) (argument o)).
(** its name in configure_options, and its value (None: given without one) *)
Definition option_key (o : copt) : text := map (fun c => if c =? 45 then 95 else c) (o_name o).

(** ** The lines of pg_config: NAME = value, and others that have no equals sign *)
Inductive cline := Entry (k v : text) (pad : list text) | Noise (t : text).
Definition trim (U : unicode) (t : text) : Prop :=
  (forall c r, t = c :: r -> u_space U c = false) /\ (forall r c, t = r ++ [c] -> u_space U c = false).
Definition no_break (t : text) : Prop := Forall (fun c => is_break c = false) t.
Definition spaces_only (U : unicode) (t : text) : Prop := Forall (fun c => u_space U c = true) t.
Definition cline_ok (U : unicode) (l : cline) : Prop :=
  match l with
  | Entry k v pad => ~ In 61 k /\ trim U v /\ Forall (fun c => 0 <= c < 128) k /\ trim U k /\ no_break k /\ no_break v /\ Forall (Forall (fun c => c = 32 \/ c = 9)) pad
  | Noise t => ~ In 61 t /\ no_break t
  end.
Definition cline_text (l : cline) : text :=
  match l with
  | Entry k v pad => nth 0 pad [] ++ k ++ nth 1 pad [] ++ [61] ++ nth 2 pad [] ++ v ++ nth 3 pad []
  | Noise t => t
  end.
(** what the lines say, in lower case as the documentation of Installation has it *)
Definition said (ls : list cline) : list (text * text) :=
  flat_map (fun l => match l with Entry k v _ => [(map ascii_lower k, v)] | Noise _ => [] end) ls.
(** the value last given *)
Definition last_said {A} (d : list (text * A)) (k : text) (v : A) : Prop :=
  exists a b, d = a ++ (k, v) :: b /\ ~ In k (map fst b).

(** ** old servers: the options pg_config --help tells *)
Inductive hline := HOption (pre name rest : text) | HOther (t : text).
Definition hline_ok (l : hline) : Prop :=
  match l with
  | HOption pre name rest => Forall (fun c => c <> 45) pre /\ ~ In 32 name /\ no_break pre /\ no_break name /\ no_break rest
  | HOther t => (forall a b, t <> a ++ 45 :: 45 :: b) /\ no_break t
  end.
Definition hline_text (l : hline) : text :=
  match l with HOption pre name rest => pre ++ [45; 45] ++ name ++ [32] ++ rest | HOther t => t end.
Definition told (ls : list hline) : list text := flat_map (fun l => match l with HOption _ n _ => [n] | HOther _ => [] end) ls.
(** lines of text *)
Definition lines_text (ls : list text) : text := concat (map (fun l => l ++ [10]) ls).

(** the two words of a version: PostgreSQL 9.6.1 *)
Definition word (U : unicode) (w : text) : Prop := w <> [] /\ Forall (fun c => u_space U c = false) w.
Definition two_words (U : unicode) (t a b : text) : Prop :=
  word U a /\ word U b /\ exists s0 s1 s2, t = s0 ++ a ++ s1 ++ b ++ s2 /\ s1 <> [] /\ spaces_only U s0 /\ spaces_only U s1 /\ spaces_only U s2.
