(** AlockModel.v: /repo/postgresql/alock.py and the advisory lock statements of /repo/postgresql/lib/libsys.sql *)
From Verif Require Import Base.

(** a lock identifier: an int, or a pair of ints *)
Inductive lockid := Int8 (n : Z) | Int4s (a b : Z).
Definition lockid_dec (x y : lockid) : {x = y} + {x <> y}. Proof. decide equality; apply Z.eq_dec. Defined.

(** alock.py:49-60 ALock._split_lock_identifiers *)
Definition pair_of (x : lockid) : list (option Z) := match x with Int4s a b => [Some a; Some b] | Int8 _ => [None; None] end.
Definition int_of (x : lockid) : option Z := match x with Int8 n => Some n | Int4s _ _ => None end.
Definition split_lock_identifiers (idseq : list lockid) : list (list (option Z)) * list (option Z) :=
  (map pair_of idseq, map int_of idseq).

(** libsys.sql:275-341: the keys the statements lock, try or release, in order.  A NULL argument makes the function
    give NULL without doing anything. *)
Definition sql_key (pairs : list (list (option Z))) (ints : list (option Z)) (i : nat) : option lockid :=
  match nth i ints None with
  | Some n => Some (Int8 n)
  | None => match nth i pairs [] with [Some a; Some b] => Some (Int4s a b) | _ => None end
  end.
(** generate_series(1, COALESCE(array_upper($2, 1), array_upper($1, 1))): array_upper of an empty array is NULL *)
Definition sql_keys (pairs : list (list (option Z))) (ints : list (option Z)) : list (option lockid) :=
  map (sql_key pairs ints) (seq 0 (match ints with [] => List.length pairs | _ => List.length ints end)).

(** the server: how many times this session holds a lock, in the mode of the lock class *)
Notation held := (lockid -> Z).
Definition set_held (h : held) (k : lockid) (n : Z) : held := fun j => if lockid_dec j k then n else h j.
(** pg_advisory_lock *)
Definition srv_lock (h : held) (k : option lockid) : held := match k with Some k => set_held h k (h k + 1) | None => h end.
(** pg_advisory_unlock: false, with a warning, if it is not held *)
Definition srv_unlock (h : held) (k : option lockid) : held := match k with Some k => if 0 <? h k then set_held h k (h k - 1) else h | None => h end.
(** pg_try_advisory_lock: [free k]: no other session holds k in a conflicting mode *)
Definition srv_try (free : lockid -> bool) (h : held) (k : option lockid) : held * option bool :=
  match k with Some k => if free k then (set_held h k (h k + 1), Some true) else (h, Some false) | None => (h, None) end.
Definition sql_acquire (h : held) p i : held := fold_left srv_lock (sql_keys p i) h.
Definition sql_release (h : held) p i : held := fold_left srv_unlock (sql_keys p i) h.
Fixpoint try_keys (free : lockid -> bool) (h : held) (ks : list (option lockid)) : held * list (option bool) :=
  match ks with
  | [] => (h, [])
  | k :: r => let (h, b) := srv_try free h k in let (h, bs) := try_keys free h r in (h, b :: bs)
  end.
Definition sql_try (free : lockid -> bool) (h : held) p i : held * list (option bool) := try_keys free h (sql_keys p i).

(** alock.py:131-142 ALock.__init__ *)
Record alock := { al_count : Z; al_ids : list lockid; al_pairs : list (list (option Z)); al_ints : list (option Z) }.
Definition alock_init (ids : list lockid) : alock :=
  let '(p, i) := split_lock_identifiers ids in {| al_count := 0; al_ids := ids; al_pairs := p; al_ints := i |}.
Definition set_count (a : alock) (n : Z) : alock := {| al_count := n; al_ids := al_ids a; al_pairs := al_pairs a; al_ints := al_ints a |}.

(** alock.py:62-92 acquire.  On a closed connection the statements raise (here OtherError 8).  A blocking acquire
    that gives back control has the locks; its failure (a deadlock, a cancellation) is [interrupted n]: the
    error comes after n of the locks were taken. *)
Definition truthy (b : option bool) : bool := match b with Some true => true | _ => false end.
Definition acquire (closed : bool) (free : lockid -> bool) (interrupted : option nat) (blocking : bool) (h : held) (a : alock) : held * alock * res bool :=
  if al_count a =? 0 then
    if closed then (h, a, Err (OtherError 8))
    else if blocking then
      match interrupted with
      | Some n => (fold_left srv_lock (firstn n (sql_keys (al_pairs a) (al_ints a))) h, a, Err (OtherError 40))
      | None => (sql_acquire h (al_pairs a) (al_ints a), set_count a (al_count a + 1), Ok true)
      end
    else
      let '(h1, r) := sql_try free h (al_pairs a) (al_ints a) in
      let release_seq := map snd (filter (fun q => truthy (fst q)) (combine r (al_ids a))) in
      if negb (List.length release_seq =? List.length (al_ids a))%nat then
        let '(p, i) := split_lock_identifiers (rev release_seq) in
        (sql_release h1 p i, a, Ok false)
      else (h1, set_count a (al_count a + 1), Ok true)
  else (h, set_count a (al_count a + 1), Ok true).
(** alock.py:98-110 release *)
Definition release (closed : bool) (h : held) (a : alock) : held * alock * res unit :=
  if al_count a <? 1 then (h, a, Err RuntimeError)
  else ((if negb closed && (0 <? al_count a) then sql_release h (rev (al_pairs a)) (rev (al_ints a)) else h), set_count a (al_count a - 1), Ok tt).
(** alock.py:115-120 locked *)
Definition locked (closed : bool) (a : alock) : bool := (0 <? al_count a) && negb closed.

(** a connection with its lock objects (of the same mode), and what can be done with them *)
Record world := { w_held : held; w_closed : bool; w_locks : list alock }.
Inductive aop :=
| Acquire (i : nat) (blocking : bool) (free : lockid -> bool) (interrupted : option nat)
| Release (i : nat)
| CloseConn.
Definition upd {A} (i : nat) (x : A) (l : list A) : list A := firstn i l ++ x :: skipn (S i) l.
Inductive aret := RBool (b : bool) | RNone | RExn (e : exn).
Definition astep (w : world) (o : aop) : world * aret :=
  match o with
  | Acquire i b free int =>
      match nth_error (w_locks w) i with
      | None => (w, RNone)
      | Some a =>
          let '(h, a', r) := acquire (w_closed w) free int b (w_held w) a in
          ({| w_held := h; w_closed := w_closed w; w_locks := upd i a' (w_locks w) |}, match r with Ok b => RBool b | Err e => RExn e end)
      end
  | Release i =>
      match nth_error (w_locks w) i with
      | None => (w, RNone)
      | Some a =>
          let '(h, a', r) := release (w_closed w) (w_held w) a in
          ({| w_held := h; w_closed := w_closed w; w_locks := upd i a' (w_locks w) |}, match r with Ok _ => RNone | Err e => RExn e end)
      end
  (* the server gives the session's locks up; a closed connection object cannot be connected again (driver/pq3.py:2425-2436) *)
  | CloseConn => ({| w_held := fun _ => 0; w_closed := true; w_locks := w_locks w |}, RNone)
  end.
Definition world_init (locks : list (list lockid)) : world := {| w_held := fun _ => 0; w_closed := false; w_locks := map alock_init locks |}.
Fixpoint arun (w : world) (ops : list aop) : world * list aret :=
  match ops with [] => (w, []) | o :: r => let (w, x) := astep w o in let (w, xs) := arun w r in (w, x :: xs) end.
