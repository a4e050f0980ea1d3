(** PgPassSpec.v: the password file as documented by PostgreSQL:
    hostname:port:database:username:password, with colons and backslashes in a field
    escaped by a backslash; a field (not the password) may be an asterisk. *)
From Verif Require Import PyStr.

Definition esc_char (c : Z) : text := if c =? 58 then [92; 58] else if c =? 92 then [92; 92] else [c].
Definition esc (f : text) : text := flat_map esc_char f.
Record entry := { e_host : text; e_port : text; e_db : text; e_user : text; e_pass : text }.
Definition line_of (e : entry) : text :=
  esc (e_host e) ++ [58] ++ esc (e_port e) ++ [58] ++ esc (e_db e) ++ [58] ++ esc (e_user e) ++ [58] ++ esc (e_pass e).
(** no blank at the ends of the line *)
Definition no_outer_blank (U : unicode) (e : entry) : Prop :=
  (forall c r, e_host e = c :: r -> u_space U c = false) /\
  (forall c r, e_pass e = r ++ [c] -> u_space U c = false).
Definition matches (user host port database : text) (e : entry) : Prop :=
  (e_user e = [42] \/ e_user e = user) /\ (e_host e = [42] \/ e_host e = host) /\
  (e_port e = [42] \/ e_port e = port) /\ (e_db e = [42] \/ e_db e = database).
(** the first entry that matches *)
Definition first_match (user host port database : text) (es : list entry) (r : option text) : Prop :=
  match r with
  | Some w => exists before e after, es = before ++ e :: after /\ matches user host port database e /\ e_pass e = w /\
                Forall (fun e => ~ matches user host port database e) before
  | None => Forall (fun e => ~ matches user host port database e) es
  end.
