(** CfileSpec.v: what is seen of a configuration file *)
From Verif Require Import Base PyStr PyDict ConfModel CfileModel.
Definition prefix_of (s t : text) : Prop := exists r, t = s ++ r.
(** the settings that an operation is to put into the file *)
Definition asks (w : world) (op : cop) (m : settings) : Prop :=
  match op with
  | Update m' => m = m'
  | SetItem k v => m = [(k, v)]
  | Enter => exists st, store w = m :: st
  | _ => False
  end.
(** nothing fails when a file is opened for writing, written or closed *)
Definition writes (o : io) : Prop := o_wopen o = None /\ o_fail o = None.
Definition reads (o : io) : Prop := o_open o = None /\ o_read o = None.
(** a program: operations one after the other, exceptions caught *)
Fixpoint cf_run (U : unicode) (l : list (io * io * cop)) (w : world) : world :=
  match l with [] => w | (o, o2, op) :: l => cf_run U l (fst (cf_step U o o2 op w)) end.
(** the argument [p] of pg_dotconf gives the setting k the value v, or comments it (None) *)
Definition argument (U : unicode) (p k : text) (v : option text) : Prop :=
  match v with
  | Some v => exists a, p = a ++ [61] ++ v /\ ~ In 61 a /\ k = py_strip U a
  | None => ~ In 61 p /\ k = py_strip U p
  end.
