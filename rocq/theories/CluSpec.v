(** CluSpec.v: what is said of controlling a cluster, in terms of what happens outside of the process. *)
From Verif Require Import PyStr PyDict PyInt PgcModel CluModel.

(** events that only look: reading the pid file, polling the child, signal 0 *)
Definition looks (e : event) : Prop :=
  match e with EPid _ | EPoll _ => True | EKill _ sig _ => sig = 0 | _ => False end.
(** ... or wait, and try connections with the name of the ping user *)
Definition waits (e : event) : Prop :=
  looks e \/ match e with ETime _ | ESleep _ | EConf _ => True | EConnect _ _ u _ => u = ping_user | _ => False end.
(** the signals sent, in order *)
Fixpoint signals (t : list event) : list (Z * Z) :=
  match t with
  | [] => []
  | EKill p s _ :: r => if s =? 0 then signals r else (p, s) :: signals r
  | _ :: r => signals r
  end.
Definition is_spawn (e : event) : Prop := match e with ESpawn _ _ => True | _ => False end.
Definition removes (e : event) : Prop := match e with EUnlink _ _ | ERmdir _ _ => True | _ => False end.

Section Seen.
  Variable U : unicode. Variable dv : decimals.
  (** the last thing seen is the server running: the child has not ended, or a process of the number in the pid file
      exists *)
  Definition up_seen (t : list event) : Prop :=
    (exists a, t = a ++ [EPoll None])
    \/ (exists a l n, t = a ++ [EPid (PLine l); EKill n 0 None] /\ py_int U dv 10 l = Ok n).
  (** the last thing seen is that it is not running: there is no pid file that can be read, or no process of the
      number in it *)
  Definition down_seen (t : list event) : Prop :=
    (exists a err, t = a ++ [EPid (PErr err)])
    \/ (exists a l n, t = a ++ [EPid (PLine l); EKill n 0 (Some 3)] /\ py_int U dv 10 l = Ok n).
  (** the process a signal is meant for: the pid file's, else the child's *)
  Definition target (a : pidans) (child : option proc) (n : option Z) : Prop :=
    match a with
    | PLine l => exists m, py_int U dv 10 l = Ok m /\ n = Some m
    | PErr _ => n = match child with Some p => Some (p_pid p) | None => None end
    end.
End Seen.

(** a child whose end was not seen *)
Definition child_alive (w : world) : Prop := exists p, w_proc w = Some p /\ p_rc p = None.

(** the failures of a connection attempt show that the server answers: one that says that the user is refused, and
    before it neither a configuration or protocol error nor "still starting up" *)
Definition refuses (ancient : bool) (x : failure) : Prop := x_authspec x = true \/ (ancient = true /\ x_undefined x = true).
Definition plain (ancient : bool) (x : failure) : Prop := ~ refuses ancient x /\ x_config x = false /\ x_notready x = false.
Definition answers (ancient : bool) (r : ping) : Prop :=
  r = PConnected \/ exists a x b, r = PCannot (a ++ x :: b) /\ Forall (plain ancient) a /\ refuses ancient x.

(** nothing changes outside: the server runs with this process number, or not at all, the pid file and the processes
    say so, and the child, if there is one, is the server *)
Definition quiet (U : unicode) (dv : decimals) (E : env) (h : list event) (server : option Z) : Prop :=
  (forall t, match e_pid E (h ++ t), server with
             | PLine l, Some n => py_int U dv 10 l = Ok n
             | PErr _, None => True
             | _, _ => False
             end)
  /\ (forall t n, e_kill E (h ++ t) n 0 = if match server with Some m => m =? n | None => false end then None else Some 3)
  /\ (forall t, e_poll E (h ++ t) = None <-> server <> None).

(** the clock goes on while sleeping: between two readings of the clock with a sleep in between there is at least
    the time slept *)
Definition clock_runs (E : env) : Prop :=
  forall h a t d u, e_time E (h ++ [ETime a] ++ t ++ [ESleep d] ++ u) >= a + d.
(** it never goes back *)
Definition clock_forward (E : env) : Prop :=
  forall h a t, e_time E (h ++ [ETime a] ++ t) >= a.

Section Outcomes.
  Variable U : unicode. Variable dv : decimals. Variable ancient : bool.
  (** what wait_until_started() has seen (from reading the clock, [s], on), the child afterwards and the result, for
      a timeout [T] *)
  Inductive started (s T : Z) : list event -> option proc -> out unit -> Prop :=
  | st_ready t u c h p a now d :                     (* a running server has just answered at the configured address *)
      up_seen U dv u -> address_of U c = (Some h, Some p) -> answers ancient a ->
      started s T (t ++ u ++ [EConf (inl c); EConnect h p ping_user a; ETime now]) d (Ret tt)
  | st_ended t n rc : down_seen U dv t -> started s T t (Some {| p_pid := n; p_rc := Some rc |}) (Raise (XStartup rc))
  | st_none t : down_seen U dv t -> started s T t None (Raise XNotRunning)
  | st_timeout t now d : T <= now - s -> started s T (t ++ [ETime now]) d (Raise XTimeout)
  | st_notready t h p pre f post now d :             (* it answered that it is still starting up *)
      T <= now - s -> Forall (plain ancient) pre -> ~ refuses ancient f -> x_notready f = true ->
      started s T (t ++ [EConnect h p ping_user (PCannot (pre ++ f :: post)); ETime now]) d (Raise (XServer f))
  | st_config t h p pre f post d :
      Forall (plain ancient) pre -> ~ refuses ancient f -> x_config f = true ->
      started s T (t ++ [EConnect h p ping_user (PCannot (pre ++ f :: post))]) d (Raise (XServer f))
  | st_other t h p n d : started s T (t ++ [EConnect h p ping_user (POther n)]) d (Raise (XOther n))
  | st_noaddress t c d : (fst (address_of U c) = None \/ snd (address_of U c) = None) ->
      started s T (t ++ [EConf (inl c)]) d (Raise XType)
  | st_noconfig t err d : started s T (t ++ [EConf (inr err)]) d (Raise (XOS err))
  | st_badpid t l e d : py_int U dv 10 l = Err e -> started s T (t ++ [EPid (PLine l)]) d (Raise XValue)
  | st_kill t n err d : err <> 3 -> started s T (t ++ [EKill n 0 (Some err)]) d (Raise (XOS err)).

  (** the same for wait_until_stopped() *)
  Inductive stopped (s T : Z) : list event -> option proc -> out unit -> Prop :=
  | sp_down t d : down_seen U dv t -> (forall p, d = Some p -> p_rc p <> None) -> stopped s T t d (Ret tt)
  | sp_timeout t now d : T <= now - s -> stopped s T (t ++ [ETime now]) d (Raise XTimeout)
  | sp_badpid t l e d : py_int U dv 10 l = Err e -> stopped s T (t ++ [EPid (PLine l)]) d (Raise XValue)
  | sp_kill t n err d : err <> 3 -> stopped s T (t ++ [EKill n 0 (Some err)]) d (Raise (XOS err))
  (** without a child: the server went down after it was seen running *)
  | sp_race_file t err : stopped s T (t ++ [EPid (PErr err)]) None (Raise XType)
  | sp_race_kill t n : stopped s T (t ++ [EKill n 0 (Some 3)]) None (Raise (XOS 3)).
End Outcomes.

(** removing: unlink or rmdir, with the errno *)
Definition removal (x : bool * text) (err : option Z) : event := if fst x then ERmdir (snd x) err else EUnlink (snd x) err.
(** the removals [l] were made in their order, up to a first one that failed *)
Inductive removed (l : list (bool * text)) : list event -> out unit -> Prop :=
| rm_all : removed l (map (fun x => removal x None) l) (Ret tt)
| rm_some a x b err : l = a ++ x :: b -> removed l (map (fun x => removal x None) a ++ [removal x (Some err)]) (Raise (XOS err)).
(** drop() has given up waiting: it waited for the whole timeout after SIGINT, and again after SIGKILL, and warned *)
Definition gave_up (T : Z) (t : list event) : Prop :=
  exists a s1 t1 n1 t2 s2 t3 n2, t = a ++ ETime s1 :: t1 ++ ETime n1 :: t2 ++ ETime s2 :: t3 ++ [ETime n2; EWarn]
    /\ T <= n1 - s1 /\ T <= n2 - s2.

Section Outcomes2.
  Variable U : unicode. Variable dv : decimals. Variable ancient : bool.
  (** at most one new process, only after the old one was seen to be down *)
  Definition lone_spawn (t : list event) : Prop :=
    Forall (fun e => ~ is_spawn e) t \/ exists a cmd q b, t = a ++ ESpawn cmd q :: b /\ Forall (fun e => ~ is_spawn e) (a ++ b) /\ down_seen U dv a.
  (** restart(): at most one SIGTERM, and when it returns the server has answered *)
  Definition restarted (T : Z) (t : list event) (d : option proc) (r : out unit) : Prop :=
    lone_spawn t /\ (signals t = [] \/ exists n, signals t = [(n, 15)])
    /\ (r = Ret tt -> exists t1 s t2, t = t1 ++ ETime s :: t2 /\ started U dv ancient s T t2 d (Ret tt)).
  (** drop(): nothing is removed, or the removal begins when the server was seen to be down or after giving up; SIGINT
      and SIGKILL in this order, at most once each *)
  Variable dir : text.
  Definition dropped (T : Z) (t : list event) (r : out unit) : Prop :=
    (Forall (fun e => ~ removes e) t /\ r <> Ret tt /\ In (map snd (signals t)) [[]; [2]; [9]; [2; 9]])
    \/ exists t1 l t2, t = t1 ++ EWalk l :: t2 /\ Forall (fun e => ~ removes e) t1 /\ In (map snd (signals t1)) [[]; [2]; [9]; [2; 9]]
       /\ (down_seen U dv t1 \/ gave_up T t1) /\ removed (removals dir l) t2 r.
End Outcomes2.

(** a directory tree; a symbolic link may point to a directory *)
Inductive node := NFile | NLink (to_dir : bool) | NDir (entries : list (text * node)).
(** os.walk(root, topdown = False): the directories below first, symbolic links are not followed, but a link to a
    directory is listed among the directories *)
Definition dirlike (x : node) : bool := match x with NDir _ => true | NLink d => d | NFile => false end.
Definition names (p : node -> bool) (es : list (text * node)) : list text := map fst (filter (fun e => p (snd e)) es).
Fixpoint walk_node (root : text) (x : node) : list (text * list text * list text) :=
  match x with
  | NDir es =>
      (fix go (es : list (text * node)) := match es with [] => [] | (n, y) :: r => walk_node (path_join root n) y ++ go r end) es
      ++ [(root, names dirlike es, names (fun y => negb (dirlike y)) es)]
  | _ => []
  end.
(** the file system: what there is, and whether it is a directory *)
Definition fs := list (text * bool).
Fixpoint entries (path : text) (x : node) : fs :=
  match x with
  | NDir es => (path, true) :: (fix go (es : list (text * node)) := match es with [] => [] | (n, y) :: r => entries (path_join path n) y ++ go r end) es
  | _ => [(path, false)]
  end.
Definition inside (p q : text) : bool := prefixb (p ++ [47]) q.
Definition without (p : text) (f : fs) : fs := filter (fun e => negb (seqb p (fst e))) f.
(** unlink does not remove directories, rmdir removes only empty directories *)
Definition fs_remove (x : bool * text) (f : fs) : option fs :=
  let (d, p) := x in
  if existsb (fun e => seqb p (fst e) && Bool.eqb d (snd e))%bool f && negb (d && existsb (fun e => inside p (fst e)) f)%bool
  then Some (without p f) else None.
Fixpoint fs_run (l : list (bool * text)) (f : fs) : option fs :=
  match l with
  | [] => Some f
  | x :: r => match fs_remove x f with Some f => fs_run r f | None => None end
  end.
(** names: not empty, without slashes, different in a directory; no links to directories *)
Definition good_name (n : text) : Prop := n <> [] /\ ~ In 47 n.
Fixpoint good_tree (x : node) : Prop :=
  match x with
  | NFile => True
  | NLink d => d = false
  | NDir es => NoDup (map fst es) /\ Forall good_name (map fst es)
               /\ (fix go (es : list (text * node)) := match es with [] => True | (_, y) :: r => good_tree y /\ go r end) es
  end.

(** the options of the command that makes a cluster, from the keyword arguments, in their order; the encoding is
    UTF-8 if none is given *)
Definition flag (k : text) : option text :=
  if seqb k (str "encoding") then Some (str "-E") else
  if seqb k (str "authentication") then Some (str "-A") else
  if seqb k (str "user") then Some (str "-U") else None.
Definition known_kw (kw : list (text * kwval)) : Prop :=
  Forall (fun kv => (exists t, flag (fst kv) <> None /\ snd kv = KText t) \/ fst kv = str "logfile" \/ fst kv = str "extra_arguments") kw.
Definition one_option (kv : text * kwval) : list text :=
  match flag (fst kv), snd kv with Some f, KText t => [f; t] | _, _ => [] end.
Definition command_options (kw : list (text * kwval)) : list text :=
  concat (map one_option kw) ++ (if existsb (fun kv => seqb (fst kv) (str "encoding")) kw then [] else [str "-E"; str "utf-8"]).
Definition extra_of (kw : list (text * kwval)) : list text :=
  match dget (str "extra_arguments") kw with Some (KArgs l) => l | _ => [] end.
(** the return code of the command, or the errno *)
Definition init_outcome (q : Z + Z) : out unit :=
  match q with inl rc => if rc =? 0 then Ret tt else Raise (XInitDB rc) | inr err => Raise (XOS err) end.
(** the program that makes it *)
Definition init_program (initdb pg_ctl : option text) (exe : list text) : Prop :=
  match initdb, pg_ctl with
  | Some p, _ => exe = [p]
  | None, Some p => exe = [p; str "initdb"]
  | None, None => False
  end.

(** which of the addresses the server listens at is chosen *)
Definition preferred (items : list text) (host : text) : Prop :=
  let has a := In a (map (map ascii_lower) items) in
  (host = str "localhost" /\ (has (str "localhost") \/ has (str "*")))
  \/ (host = str "127.0.0.1" /\ ~ has (str "localhost") /\ ~ has (str "*") /\ has (str "127.0.0.1"))
  \/ (host = str "::1" /\ ~ has (str "localhost") /\ ~ has (str "*") /\ ~ has (str "127.0.0.1") /\ has (str "::1"))
  \/ (~ has (str "localhost") /\ ~ has (str "*") /\ ~ has (str "127.0.0.1") /\ ~ has (str "::1")
      /\ exists x r, items = x :: r /\ host = map ascii_lower x).
