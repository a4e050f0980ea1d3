(** SettSpec.v: what the settings of a connection have to do. *)
From Verif Require Import Base PyStr PyDict SettModel.

(** the settings of the server: names differ by more than case; what it writes it can read, both ways *)
Record pg_ok {V} (eqv : V -> V -> bool) (P : pg V) : Prop := {
  po_names : NoDup (map fold_case (pg_names P));
  po_show : forall n v, In n (pg_names P) -> pg_parse P n (pg_show P n v) = Some v;
  po_raw : forall n v, In n (pg_names P) -> pg_parse P n (pg_raw P n v) = Some v;
  po_eq : forall a b, eqv a b = true <-> a = b }.
(** the text [v] is the value in force of the setting [k] *)
Definition in_force {V} (P : pg V) (st : state V) (k v : text) : Prop := pg_parse P k v = Some (s_cur (st_srv st) k).
(** what the client remembers of the settings [on] is in force *)
Definition coherent {V} (P : pg V) (on : text -> bool) (st : state V) : Prop :=
  forall k v, dget k (st_cache st) = Some v -> In k (pg_names P) /\ (on k = true -> in_force P st k v).
Definition all_settings : text -> bool := fun _ => true.
(** the operation names settings as the server does *)
Definition spelled {V} (P : pg V) (o : op) : Prop :=
  match o with
  | OItem k | OGet k | OSet k _ | ODel k | OSql k _ => In k (pg_names P)
  | OGetset ks => Forall (fun k => In k (pg_names P)) ks
  | OUpdate d | OEnter _ d => Forall (fun k => In k (pg_names P)) (map fst d)
  | OPath | OSetPath _ | ODelPath _ => In path_key (pg_names P)
  | ONew | OExit _ | OBegin | OCommit | ORollback | OFail => True
  end.
(** nothing changes settings behind the back of the object: no rollback, no SET by SQL *)
Definition quiet {V} (o : op) (st : state V) : Prop :=
  match o with
  | ORollback | OSql _ _ | ODelPath None => False
  | OCommit => s_failed (st_srv st) = false
  | _ => True
  end.
Fixpoint quiet_run {V} eqv (P : pg V) U (os : list op) (st : state V) : Prop :=
  match os with
  | [] => True
  | o :: os => quiet o st /\ quiet_run eqv P U os (fst (step eqv P U o st))
  end.
(** a new object *)
Definition new_state {V} (s : session V) : state V := {| st_srv := s; st_cache := []; st_cms := [] |}.
(** a small server: settings are texts *)
Definition demo : pg text := {| pg_names := [str "TimeZone"; str "work_mem"; str "search_path"]; pg_report := seqb (str "TimeZone");
  pg_default := fun _ => str "d"; pg_parse := fun _ t => Some t; pg_show := fun _ t => t; pg_raw := fun _ t => t |}.
Definition demo0 : state text := new_state {| s_cur := fun _ => str "d"; s_saved := []; s_failed := false |}.

(** ** subscriptions: the last of subscribe and unsubscribe for this key and callback was subscribe *)
Fixpoint subscribed (k : option text) (cb : Z) (h : list sop) : Prop :=   (* [h]: newest first *)
  match h with
  | [] => False
  | SSub j c :: h => (j = k /\ c = cb) \/ subscribed k cb h
  | SUnsub j c :: h => ~ (j = k /\ c = cb) /\ subscribed k cb h
  end.
(** the subscriptions after [h] (newest first) *)
Definition subs_of (h : list sop) : subs_t := fold_left sub_step (rev h) [].
Definition no_raise : Z -> bool := fun _ => false.
