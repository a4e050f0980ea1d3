(** NotifySpec.v: what a NotificationManager has to do. *)
From Verif Require Import Base NotifyModel.

Section Spec.
Context {raw note : Type} (decode : nat -> raw -> res note).

(** what happens: notifications of a connection are given; an idle event; StopIteration; an exception *)
Inductive nevent := EGive (c : nat) (l : list note) | EIdle | EStop | EExn | EOther.
Definition event_of (r : nres note) : nevent :=
  match r with NYield c l => EGive c l | NIdle => EIdle | NStop => EStop | NDecode _ | NRaised => EExn | NWaiting => EOther end.
(** every use of the manager: next() in any world (NWaiting: it is not finished; the loop goes on
    in nr_on); a connection receives notifications (by other uses of it); settimeout; the user
    changes the sets of connections *)
Inductive nrun (m0 : nman raw note) : nman raw note -> list nevent -> Prop :=
| nr_init : nrun m0 m0 []
| nr_next m tr ws m' r ws' : nrun m0 m tr -> nm_next decode m ws = (m', r, ws') -> nrun m0 m' (tr ++ [event_of r])
| nr_receive m tr c l : nrun m0 m tr -> nrun m0 (receive m c l) tr
| nr_timeout m tr t m' : nrun m0 m tr -> settimeout m t = Ok m' -> nrun m0 m' tr
| nr_conns m tr cs gs : nrun m0 m tr -> nrun m0 (set_conns m cs gs) tr.

(** the notifications given for a connection *)
Fixpoint given (c : nat) (tr : list nevent) : list note :=
  match tr with
  | [] => []
  | EGive d l :: tr => if (d =? c)%nat then l ++ given c tr else given c tr
  | _ :: tr => given c tr
  end.
(** those the manager collected, and did not give yet *)
Fixpoint of_conn (c : nat) (l : list (nat * list note)) : list note :=
  match l with
  | [] => []
  | (d, x) :: l => if (d =? c)%nat then x ++ of_conn c l else of_conn c l
  end.
Definition collected (m : nman raw note) (c : nat) : list note :=
  match n_incoming m with Some i => of_conn c i | None => [] end ++ of_conn c (n_pulled m).
(** a new manager *)
Definition new_manager (m : nman raw note) : Prop := exists cs t q, nm_init cs t q = Ok m.
(** no exception was raised *)
Definition no_exception (tr : list nevent) : Prop := ~ List.In EExn tr.

(** list(nm): next() until StopIteration, in these worlds *)
Fixpoint to_list (fuel : nat) (m : nman raw note) (ws : list (world raw)) : option (list (nat * list note)) :=
  match fuel with
  | O => None
  | S fuel =>
      match nm_next decode m ws with
      | (m, NYield c l, ws) => option_map (cons (c, l)) (to_list fuel m ws)
      | (_, NStop, _) => Some []
      | _ => None
      end
  end.
(** the clock: the times of the worlds do not decrease, from [t] on *)
Fixpoint clock (t : Z) (ws : list (world raw)) : Prop :=
  match ws with [] => True | w :: ws => t <= t_out w /\ t_out w <= t_wait w /\ clock (t_wait w) ws end.
(** a run on one clock: the worlds still to come, and the times of the idle events *)
Definition last_used (ws ws' : list (world raw)) : option (world raw) := nth_error ws (length ws - length ws' - 1).
Inductive trun (m0 : nman raw note) (ws0 : list (world raw)) : nman raw note -> list (world raw) -> list Z -> Prop :=
| tr_init : trun m0 ws0 m0 ws0 []
| tr_next m ws is m' r ws' : trun m0 ws0 m ws is -> nm_next decode m ws = (m', r, ws') ->
    trun m0 ws0 m' ws' (match r, last_used ws ws' with NIdle, Some w => is ++ [t_out w] | _, _ => is end)
| tr_receive m ws is c l : trun m0 ws0 m ws is -> trun m0 ws0 (receive m c l) ws is
| tr_conns m ws is cs gs : trun m0 ws0 m ws is -> trun m0 ws0 (set_conns m cs gs) ws is.
(** iternotifies(): the run of the generator *)
Inductive irun (m0 : nman raw note) : niter raw note -> list (ires note) -> Prop :=
| ir_init : irun m0 {| i_left := []; i_man := m0 |} []
| ir_next s tr ws s' r ws' : irun m0 s tr -> iter_next decode s ws = (s', r, ws') -> irun m0 s' (tr ++ [r])
| ir_receive s tr c l : irun m0 s tr -> irun m0 {| i_left := i_left s; i_man := receive (i_man s) c l |} tr.
Fixpoint ones (tr : list (ires note)) : list note :=
  match tr with [] => [] | IOne n :: tr => n :: ones tr | _ :: tr => ones tr end.
End Spec.
Arguments nevent : clear implicits.
