(** NotifyModel.v: /repo/postgresql/notifyman.py, NotificationManager, and
    driver/pq3.py:2716-2723 Connection.iternotifies.
    A connection is a number; [raw] is a NotificationResponse as the connection holds it,
    [note] is the (channel, payload, pid) of it, [decode] makes one from the other
    (notifyman.py:126-129: it raises if the text is not valid in the client's encoding).
    Times are integers (in any unit).  A set of connections is a list (without an assumed
    order).  Subclasses which override trash() and queue() are not modelled. *)
From Verif Require Import Base.

Section Notify.
Context {raw note : Type} (decode : nat -> raw -> res note).

(** connections, garbage; incoming; timeout; _last_time; _pulled; and the _notifies of the connections.
    n_recv is not in the code: it records every notification a connection received *)
Record nman := {
  n_conns : list nat; n_garbage : list nat; n_incoming : option (list (nat * list note));
  n_timeout : option Z; n_last : option Z; n_pulled : list (nat * list note); n_queue : nat -> list raw; n_recv : nat -> list raw }.
Definition mem (c : nat) (l : list nat) : bool := existsb (Nat.eqb c) l.
Definition minus (l l' : list nat) : list nat := filter (fun c => negb (mem c l')) l.
Definition set_conns (m : nman) (c g : list nat) : nman :=
  {| n_conns := c; n_garbage := g; n_incoming := n_incoming m; n_timeout := n_timeout m; n_last := n_last m; n_pulled := n_pulled m; n_queue := n_queue m; n_recv := n_recv m |}.
Definition set_incoming (m : nman) (i : option (list (nat * list note))) (p : list (nat * list note)) : nman :=
  {| n_conns := n_conns m; n_garbage := n_garbage m; n_incoming := i; n_timeout := n_timeout m; n_last := n_last m; n_pulled := p; n_queue := n_queue m; n_recv := n_recv m |}.
Definition set_last (m : nman) (t : option Z) : nman :=
  {| n_conns := n_conns m; n_garbage := n_garbage m; n_incoming := n_incoming m; n_timeout := n_timeout m; n_last := t; n_pulled := n_pulled m; n_queue := n_queue m; n_recv := n_recv m |}.
Definition set_pulled (m : nman) (p : list (nat * list note)) (q : nat -> list raw) : nman :=
  {| n_conns := n_conns m; n_garbage := n_garbage m; n_incoming := n_incoming m; n_timeout := n_timeout m; n_last := n_last m; n_pulled := p; n_queue := q; n_recv := n_recv m |}.
Definition add_queue (q : nat -> list raw) (c : nat) (l : list raw) : nat -> list raw := fun d => if (d =? c)%nat then q d ++ l else q d.
(** driver/pq3.py:2652-2653: the connection [c] receives notifications *)
Definition receive (m : nman) (c : nat) (l : list raw) : nman :=
  {| n_conns := n_conns m; n_garbage := n_garbage m; n_incoming := n_incoming m; n_timeout := n_timeout m; n_last := n_last m; n_pulled := n_pulled m;
     n_queue := add_queue (n_queue m) c l; n_recv := add_queue (n_recv m) c l |}.
Definition clear_queue (q : nat -> list raw) (c : nat) : nat -> list raw := fun d => if (d =? c)%nat then [] else q d.

(** what the world does in one turn of the loop: the clock in _timedout; the clock in
    _wait_on_wires; the connections found closed; what select() gives (None: it raises); what
    execute() of an empty command receives, and how it ends *)
Inductive xend := XDone | XFailed | XInterrupt.
Record world := { t_out : Z; t_wait : Z; t_closed : nat -> bool; t_select : option (list nat * list nat); t_exec : nat -> list raw * xend }.

(** 105-107 trash *)
Definition trash (m : nman) (l : list nat) : nman :=
  set_conns m (minus (n_conns m) l) (n_garbage m ++ l).
(** 83-96 the loop on the readable connections; false: interrupted *)
Fixpoint collect (m : nman) (r x : list nat) (exec : nat -> list raw * xend) : nman * list nat * bool :=
  match r with
  | [] => (m, x, true)
  | c :: r =>
      let '(l, e) := exec c in
      let m := receive m c l in
      match e with
      | XDone => collect m r x exec
      | XFailed => collect m r (x ++ [c]) exec
      | XInterrupt => (m, x, false)
      end
  end.
(** 60-96 _wait_on_wires; its select() waits up to [max_duration]; false: an exception *)
Definition max_duration (m : nman) (w : world) : Z :=
  match n_timeout m with
  | Some 0 => 0
  | _ =>
      let t := match n_timeout m with Some t => t | None => 10 end in
      match n_last m with
      | Some l => Z.max 0 (t - (t_wait w - l))
      | None => t
      end
  end.
Definition wait_on_wires (m : nman) (w : world) : nman * bool :=
  let m :=
    match n_timeout m with
    | Some 0 => m
    | _ => match n_last m with Some _ => m | None => set_last m (Some (t_wait w)) end
    end in
  let check := minus (n_conns m) (n_garbage m) in
  let closed := filter (t_closed w) check in
  let m := set_conns m (minus (n_conns m) closed) (n_garbage m ++ closed) in
  match t_select w with
  | None => (m, false)
  | Some (r, x) =>
      let '(m, x, ok) := collect m r x (t_exec w) in
      if ok then (trash m x, true) else (m, false)
  end.
(** 109-117 queue *)
Fixpoint enqueue (p : list (nat * list note)) (c : nat) (l : list note) : list (nat * list note) :=
  match p with
  | [] => [(c, l)]
  | (d, l') :: p => if (d =? c)%nat then (d, l' ++ l) :: p else (d, l') :: enqueue p c l
  end.
(** 119-132 _pull_from_connections *)
Fixpoint pull (m : nman) (conns : list nat) : nman * option exn :=
  match conns with
  | [] => (m, None)
  | c :: conns =>
      match n_queue m c with
      | [] => pull m conns
      | _ =>
          match mapM (decode c) (n_queue m c) with
          | Err e => (m, Some e)
          | Ok l => pull (set_pulled m (enqueue (n_pulled m) c l) (clear_queue (n_queue m) c)) conns
          end
      end
  end.
Definition pull_from_connections (m : nman) : nman * option exn := pull m (n_conns m).
(** 134-151 _queue_next *)
Definition queue_next (m : nman) : nman :=
  match n_pulled m, n_incoming m with
  | [], None => set_incoming m (Some []) []
  | [], Some _ => m
  | p, Some i => set_incoming m (Some (i ++ p)) []
  | p, None => set_incoming m (Some p) []
  end.
(** 153-169 _timedout *)
Definition timedout (m : nman) (now : Z) : nman * bool :=
  match n_last m with
  | None => (set_last m (Some now), false)
  | Some l =>
      match n_timeout m with
      | Some t => if negb (t =? 0) && (l + t <=? now) then (set_last m None, true) else (set_last m None, false)
      | None => (set_last m None, false)
      end
  end.
(** 171-190 settimeout *)
Definition settimeout (m : nman) (t : option Z) : res nman :=
  if match t with Some t => t <? 0 | None => false end then Err ValueError
  else Ok {| n_conns := n_conns m; n_garbage := n_garbage m; n_incoming := n_incoming m; n_timeout := t; n_last := n_last m; n_pulled := n_pulled m; n_queue := n_queue m; n_recv := n_recv m |}.

(** 48-57 __init__ *)
Definition nm_init (conns : list nat) (timeout : option Z) (q : nat -> list raw) : res nman :=
  settimeout {| n_conns := conns; n_garbage := []; n_incoming := None; n_timeout := None; n_last := None; n_pulled := []; n_queue := q; n_recv := q |} timeout.

(** 200-234 __next__: the notifications of a connection; the idle event; StopIteration; an
    exception (of the decoding; of select or an interrupt); still waiting *)
Inductive nres := NYield (c : nat) (l : list note) | NIdle | NStop | NDecode (e : exn) | NRaised | NWaiting.
Fixpoint nm_loop (m : nman) (checked : bool) (ws : list world) : nman * nres * list world :=
  let '(m, r) :=
    match n_incoming m with
    | Some ((c, l) :: i) => (set_incoming m (Some i) (n_pulled m), Some (NYield c l))
    | Some [] =>
        let m := set_incoming m None (n_pulled m) in
        if match n_timeout m with Some t => t =? 0 | None => false end || match n_conns m with [] => true | _ => false end
        then (m, Some NStop) else (m, None)
    | None => (m, None)
    end in
  match r with
  | Some r => (m, r, ws)
  | None =>
      match ws with
      | [] => (m, NWaiting, [])
      | w :: ws =>
          let (m, idle) := timedout m (t_out w) in
          if idle then (m, NIdle, ws)
          else
            let '(m, ok, checked) :=
              if negb checked && negb match n_conns m with [] => true | _ => false end
              then let (m, ok) := wait_on_wires m w in (m, ok, true)
              else (m, true, false) in
            if negb ok then (m, NRaised, ws)
            else match pull_from_connections m with
                 | (m, Some e) => (m, NDecode e, ws)
                 | (m, None) => nm_loop (queue_next m) checked ws
                 end
      end
  end.
Definition nm_next (m : nman) (ws : list world) : nman * nres * list world := nm_loop m true ws.

(** pq3.py:2716-2723 iternotifies: what is left of the list of the last event, and the manager *)
Record niter := { i_left : list note; i_man : nman }.
Inductive ires := IOne (n : note) | IIdle | IStop | IRaised | IWaiting.
Definition iter_next (s : niter) (ws : list world) : niter * ires * list world :=
  match i_left s with
  | n :: l => ({| i_left := l; i_man := i_man s |}, IOne n, ws)
  | [] =>
      match nm_next (i_man s) ws with
      | (m, NYield c (n :: l), ws) => ({| i_left := l; i_man := m |}, IOne n, ws)
      | (m, NYield c [], ws) => ({| i_left := []; i_man := m |}, IWaiting, ws)   (* never: C42_not_empty *)
      | (m, NIdle, ws) => ({| i_left := []; i_man := m |}, IIdle, ws)
      | (m, NStop, ws) => ({| i_left := []; i_man := m |}, IStop, ws)
      | (m, NDecode _, ws) | (m, NRaised, ws) => ({| i_left := []; i_man := m |}, IRaised, ws)
      | (m, NWaiting, ws) => ({| i_left := []; i_man := m |}, IWaiting, ws)
      end
  end.
End Notify.
Arguments nman : clear implicits.
Arguments world : clear implicits.
Arguments nres : clear implicits.
Arguments niter : clear implicits.
Arguments ires : clear implicits.
