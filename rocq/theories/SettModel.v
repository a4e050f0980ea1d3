(** SettModel.v: /repo/postgresql/driver/pq3.py:1936-2095 SettingsCM and Settings, and the SQL of
    lib/libsys.sql:130-159 they run, over a model of the settings of a PostgreSQL session.
    Not modelled: custom settings (names with a dot); SET LOCAL; values which are not str. *)
From Verif Require Import Base PyStr PyDict StrModel.

(** ** the server.  Its settings: their names as pg_settings spells them, which of them
    are reported to the client (ParameterStatus), their values: default, how a value is read
    from text (None: refused), and the two ways of writing it: SHOW and set_config() (with a unit),
    and pg_settings.setting (without). *)
Record pg (V : Type) := { pg_names : list text; pg_report : text -> bool; pg_default : text -> V;
  pg_parse : text -> text -> option V; pg_show : text -> V -> text; pg_raw : text -> V -> text }.
Arguments pg_names {V}. Arguments pg_report {V}. Arguments pg_default {V}. Arguments pg_parse {V}. Arguments pg_show {V}. Arguments pg_raw {V}.
(** set_config, SET and RESET find a setting without regard to case; [WHERE name = $1] does not *)
Definition fold_case (t : text) : text := map ascii_lower t.
Definition resolve {V} (P : pg V) (k : text) : option text := find (fun n => seqb (fold_case n) (fold_case k)) (pg_names P).
Definition known {V} (P : pg V) (k : text) : bool := existsb (seqb k) (pg_names P).
(** the session: the values in force; those before each open transaction and savepoint; whether the
    transaction failed *)
Record session (V : Type) := { s_cur : text -> V; s_saved : list (text -> V); s_failed : bool }.
Arguments s_cur {V}. Arguments s_saved {V}. Arguments s_failed {V}.
Definition put {V} (n : text) (v : V) (f : text -> V) : text -> V := fun m => if seqb m n then v else f m.
(** set_config(k, v, false): NULL is the default value *)
Definition set_config {V} (P : pg V) (k : text) (v : option text) (f : text -> V) : option ((text -> V) * text) :=
  match resolve P k with
  | None => None
  | Some n =>
      match match v with None => Some (pg_default P n) | Some t => pg_parse P n t end with
      | None => None
      | Some x => Some (put n x f, pg_show P n x)
      end
  end.
(** setting_update: one statement; the rows (key, value) *)
Fixpoint set_configs {V} (P : pg V) (kvs : list (text * option text)) (f : text -> V) : option ((text -> V) * list (text * text)) :=
  match kvs with
  | [] => Some (f, [])
  | (k, v) :: kvs =>
      match set_config P k v f with
      | None => None
      | Some (f, t) => match set_configs P kvs f with None => None | Some (f, r) => Some (f, (k, t) :: r) end
      end
  end.
(** a failed statement changes nothing; in a transaction, the transaction is failed *)
Definition statement {V R} (c : (text -> V) -> option ((text -> V) * R)) (s : session V) : session V * option R :=
  if s_failed s then (s, None)
  else match c (s_cur s) with
  | None => ({| s_cur := s_cur s; s_saved := s_saved s; s_failed := match s_saved s with [] => false | _ => true end |}, None)
  | Some (f, r) => ({| s_cur := f; s_saved := s_saved s; s_failed := false |}, Some r)
  end.

(** ** the client *)
Inductive serr := SKey | SServer | SValue | SRuntime.
Record state (V : Type) := { st_srv : session V; st_cache : list (text * text); st_cms : list (option (list (text * text))) }.
Arguments st_srv {V}. Arguments st_cache {V}. Arguments st_cms {V}.
Definition with_cache {V} (c : list (text * text)) (st : state V) : state V := {| st_srv := st_srv st; st_cache := c; st_cms := st_cms st |}.
(** 2057-2067 _notify, 2648-2649: the reports come before the answer to the statement.  The server
    reports the settings it reports whose value changed.  Simplified: values are compared, and a
    value is reported once. *)
Definition changed {V} (eqv : V -> V -> bool) (P : pg V) (f g : text -> V) : list text :=
  filter (fun n => pg_report P n && negb (eqv (f n) (g n))) (pg_names P).
Definition reports {V} (eqv : V -> V -> bool) (P : pg V) (f g : text -> V) (c : list (text * text)) : list (text * text) :=
  fold_left (fun c n => dset n (pg_show P n (g n)) c) (changed eqv P f g) c.
(** the server goes to [s]; the client hears of it *)
Definition goes {V} eqv (P : pg V) (s : session V) (st : state V) : state V :=
  {| st_srv := s; st_cache := reports eqv P (s_cur (st_srv st)) (s_cur s) (st_cache st); st_cms := st_cms st |}.
(** run a statement *)
Definition execute {V R} eqv (P : pg V) (c : (text -> V) -> option ((text -> V) * R)) (st : state V) : state V * option R :=
  let (s, r) := statement c (st_srv st) in (goes eqv P s st, r).
(** reading pg_settings *)
Definition query {V R} (q : (text -> V) -> R) (f : text -> V) : option ((text -> V) * R) := Some (f, q f).
Definition setting_get {V} (P : pg V) (k : text) := query (fun f : text -> V => if known P k then Some (pg_raw P k (f k)) else None).
Definition setting_mget {V} (P : pg V) (ks : list text) := query (fun f : text -> V => map (fun n => (n, pg_raw P n (f n))) (filter (fun n => existsb (seqb n) ks) (pg_names P))).

(** 1965-1974 __getitem__ *)
Definition getitem {V} eqv (P : pg V) (k : text) (st : state V) : state V * (text + serr) :=
  match dget k (st_cache st) with
  | Some v => (st, inl v)
  | None =>
      match execute eqv P (setting_get P k) st with
      | (st, None) => (st, inr SServer)
      | (st, Some (Some v)) => (st, inl v)
      | (st, Some None) => (st, inr SKey)
      end
  end.
(** 1976-1981 __setitem__ *)
Definition setitem {V} eqv (P : pg V) (k : text) (v : option text) (st : state V) : state V * option serr :=
  if match dget k (st_cache st), v with Some a, Some b => seqb a b | None, None => true | _, _ => false end then (st, None)
  else match execute eqv P (set_config P k v) st with
  | (st, None) => (st, Some SServer)
  | (st, Some t) => (with_cache (dset k t (st_cache st)) st, None)
  end.
(** 1983-1987 __delitem__: RESET is set_config with the default value; the name is quoted, which does not matter to
    the server *)
Definition delitem {V} eqv (P : pg V) (k : text) (st : state V) : state V * option serr :=
  match execute eqv P (set_config P k None) st with
  | (st, None) => (st, Some SServer)
  | (st, Some _) => (with_cache (ddel k (st_cache st)) st, None)
  end.
(** 2013-2024 get *)
Definition get {V} eqv (P : pg V) (k : text) (st : state V) : state V * (option text + serr) :=
  match dget k (st_cache st) with
  | Some v => (st, inl (Some v))
  | None =>
      match execute eqv P (setting_get P k) st with
      | (st, None) => (st, inr SServer)
      | (st, Some (Some v)) => (with_cache (dset k v (st_cache st)) st, inl (Some v))
      | (st, Some None) => (st, inl None)
      end
  end.
(** 2026-2043 getset; the keys are those of a dict or set *)
Fixpoint cached (c : list (text * text)) (ks : list text) : list (text * text) * list text :=
  match ks with
  | [] => ([], [])
  | k :: ks => let (m, r) := cached c ks in match dget k c with Some v => ((k, v) :: m, r) | None => (m, k :: r) end
  end.
Definition getset {V} eqv (P : pg V) (ks : list text) (st : state V) : state V * (list (text * text) + serr) :=
  let (setmap, rkeys) := cached (st_cache st) ks in
  match rkeys with
  | [] => (st, inl setmap)
  | _ =>
      match execute eqv P (setting_mget P rkeys) st with
      | (st, None) => (st, inr SServer)
      | (st, Some r) =>
          let st := with_cache (dupdate (st_cache st) r) st in
          if forallb (fun k => existsb (seqb k) (map fst r)) rkeys then (st, inl (dupdate setmap r)) else (st, inr SKey)
      end
  end.
(** 2053-2055 update *)
Definition update {V} eqv (P : pg V) (d : list (text * option text)) (st : state V) : state V * option serr :=
  match execute eqv P (set_configs P d) st with
  | (st, None) => (st, Some SServer)
  | (st, Some r) => (with_cache (dupdate (st_cache st) r) st, None)
  end.
(** 1936-1950 SettingsCM: enter, exit.  The object is the last of [st_cms], or its number. *)
Definition some_values (d : list (text * text)) : list (text * option text) := map (fun p => (fst p, Some (snd p))) d.
Definition set_nth {A} (n : nat) (x : A) (l : list A) : list A := firstn n l ++ match skipn n l with [] => [] | _ :: r => x :: r end.
Definition enter {V} eqv (P : pg V) (d : list (text * option text)) (i : nat) (st : state V) : state V * option serr :=
  match nth i (st_cms st) None with
  | Some _ => (st, Some SRuntime)
  | None =>
      match getset eqv P (map fst d) st with
      | (st, inr e) => (st, Some e)
      | (st, inl m) => update eqv P d {| st_srv := st_srv st; st_cache := st_cache st; st_cms := set_nth i (Some m) (st_cms st) |}
      end
  end.
Definition exit {V} eqv (P : pg V) (i : nat) (st : state V) : state V * option serr :=
  match nth i (st_cms st) None with
  | None => (st, Some SRuntime)
  | Some m => update eqv P (some_values m) st
  end.
(** 1994-2011 path *)
Definition path_key : text := str "search_path".
Definition get_path {V} eqv (P : pg V) (U : unicode) (st : state V) : state V * (list text + serr) :=
  match getitem eqv P path_key st with
  | (st, inr e) => (st, inr e)
  | (st, inl v) => (st, match split_ident U v 44 34 (-1) with Ok l => inl l | Err _ => inr SValue end)
  end.
Definition path_value (l : list text) : text := py_join [44] (map quote_ident l).
Definition set_path {V} eqv (P : pg V) (l : list text) (st : state V) : state V * option serr := setitem eqv P path_key (Some (path_value l)) st.
Definition del_path {V} eqv (P : pg V) (connector_path : option (list text)) (st : state V) : state V * option serr :=
  match connector_path with
  | Some l => set_path eqv P l st
  | None => match execute eqv P (set_config P path_key None) st with (st, None) => (st, Some SServer) | (st, Some _) => (st, None) end
  end.

(** ** histories: the operations of the object, transactions and savepoints, and SET by SQL *)
Inductive op :=
| OItem (k : text) | OGet (k : text) | OGetset (ks : list text) | OSet (k : text) (v : option text) | ODel (k : text) | OUpdate (d : list (text * option text))
| ONew | OEnter (i : nat) (d : list (text * option text)) | OExit (i : nat)
| OPath | OSetPath (l : list text) | ODelPath (c : option (list text))
| OBegin | OCommit | ORollback | OSql (k : text) (v : option text) | OFail.
Inductive answer := AText (t : text) | AOpt (t : option text) | AMap (m : list (text * text)) | AList (l : list text) | ANone | AErr (e : serr).
Definition done (o : option serr) : answer := match o with None => ANone | Some e => AErr e end.
Definition restore {V} (s : session V) : session V :=
  match s_saved s with [] => s | f :: r => {| s_cur := f; s_saved := r; s_failed := false |} end.
Definition step {V} eqv (P : pg V) (U : unicode) (o : op) (st : state V) : state V * answer :=
  let s := st_srv st in
  match o with
  | OItem k => let (st, r) := getitem eqv P k st in (st, match r with inl t => AText t | inr e => AErr e end)
  | OGet k => let (st, r) := get eqv P k st in (st, match r with inl t => AOpt t | inr e => AErr e end)
  | OGetset ks => let (st, r) := getset eqv P ks st in (st, match r with inl t => AMap t | inr e => AErr e end)
  | OSet k v => let (st, r) := setitem eqv P k v st in (st, done r)
  | ODel k => let (st, r) := delitem eqv P k st in (st, done r)
  | OUpdate d => let (st, r) := update eqv P d st in (st, done r)
  | ONew => ({| st_srv := st_srv st; st_cache := st_cache st; st_cms := st_cms st ++ [None] |}, ANone)
  | OEnter i d => let (st, r) := enter eqv P d i st in (st, done r)
  | OExit i => let (st, r) := exit eqv P i st in (st, done r)
  | OPath => let (st, r) := get_path eqv P U st in (st, match r with inl t => AList t | inr e => AErr e end)
  | OSetPath l => let (st, r) := set_path eqv P l st in (st, done r)
  | ODelPath c => let (st, r) := del_path eqv P c st in (st, done r)
  | OBegin => if s_failed s then (st, AErr SServer) else (goes eqv P {| s_cur := s_cur s; s_saved := s_cur s :: s_saved s; s_failed := false |} st, ANone)
  | OCommit =>                                                    (* or RELEASE *)
      if s_failed s then match s_saved s with [_] => (goes eqv P (restore s) st, ANone) | _ => (st, AErr SServer) end
      else (goes eqv P {| s_cur := s_cur s; s_saved := tl (s_saved s); s_failed := false |} st, ANone)
  | ORollback => (goes eqv P (restore s) st, ANone)
  | OSql k v => let (st, r) := execute eqv P (set_config P k v) st in (st, done (match r with None => Some SServer | Some _ => None end))
  | OFail => let (st, r) := execute eqv P (fun _ => @None ((text -> V) * unit)) st in (st, AErr SServer)
  end.
Fixpoint steps {V} eqv (P : pg V) (U : unicode) (os : list op) (st : state V) : state V * list answer :=
  match os with
  | [] => (st, [])
  | o :: os => let (st, a) := step eqv P U o st in let (st, l) := steps eqv P U os st in (st, a :: l)
  end.

(** ** 2057-2095 subscriptions: callbacks are numbers; [None]: every setting.  Not modelled: callbacks which
    subscribe or unsubscribe while they are called. *)
Definition keyb (a b : option text) : bool := match a, b with None, None => true | Some a, Some b => seqb a b | _, _ => false end.
Definition subs_t := list (option text * list Z).
Fixpoint subs_get (k : option text) (d : subs_t) : list Z :=
  match d with [] => [] | (j, l) :: d => if keyb k j then l else subs_get k d end.
Fixpoint subs_set (k : option text) (v : list Z) (d : subs_t) : subs_t :=
  match d with [] => [(k, v)] | (j, l) :: d => if keyb k j then (j, v) :: d else (j, l) :: subs_set k v d end.
(** 2070-2085 *)
Definition subscribe (k : option text) (cb : Z) (d : subs_t) : subs_t :=
  let l := subs_get k d in subs_set k (if existsb (Z.eqb cb) l then l else l ++ [cb]) d.
(** 2087-2095; list.remove *)
Fixpoint remove1 (cb : Z) (l : list Z) : list Z := match l with [] => [] | x :: l => if cb =? x then l else x :: remove1 cb l end.
Definition unsubscribe (k : option text) (cb : Z) (d : subs_t) : subs_t :=
  let l := subs_get k d in if existsb (Z.eqb cb) l then subs_set k (remove1 cb l) d else d.
(** the calls up to the first which raises; whether one did *)
Fixpoint call_all (raises : Z -> bool) (l : list Z) : list Z * bool :=
  match l with [] => ([], false) | x :: l => if raises x then ([x], true) else let (c, b) := call_all raises l in (x :: c, b) end.
(** 2057-2067: the callbacks called, and the cache *)
Definition notify (raises : Z -> bool) (d : subs_t) (key val : text) (cache : list (text * text)) : list Z * list (text * text) :=
  match call_all raises (subs_get (Some key) d) with
  | (c, true) => (c, cache)
  | (c, false) =>
      match call_all raises (subs_get None d) with
      | (c2, true) => (c ++ c2, cache)
      | (c2, false) => (c ++ c2, dset key val cache)
      end
  end.
Inductive sop := SSub (k : option text) (cb : Z) | SUnsub (k : option text) (cb : Z).
Definition sub_step (d : subs_t) (o : sop) : subs_t := match o with SSub k cb => subscribe k cb d | SUnsub k cb => unsubscribe k cb d end.
