(** CluModel.v: /repo/postgresql/cluster.py, the control of a cluster (start, stop, kill, restart, the waits, drop,
    init, address, connect).

    What is outside of the process, the file system, the processes, the clock and the server, is an [env]: the answer
    it gives to a question may depend on all that happened before (the history), so quantifying over environments is
    quantifying over everything other processes may do between any two system calls.  Times are integers (of any
    unit).  Signals are sent with os.kill (POSIX).  A loop runs [fuel] times at most and then ends with [XFuel]. *)
From Verif Require Import PyStr PyDict PyInt ConfModel PgcModel.

(** what reading the first line of postmaster.pid gives: the line, or the errno of an IOError *)
Inductive pidans := PLine (l : text) | PErr (errno : Z).
(** an exception a connection attempt recorded, by what isinstance() says of it *)
Record failure := { x_id : Z; x_undefined : bool; x_authspec : bool; x_config : bool; x_notready : bool }.
(** how connect() of a connection ends: established, ClientCannotConnectError with these failures, another exception *)
Inductive ping := PConnected | PCannot (fs : list failure) | POther (n : Z).

(** what happens outside, with the answer *)
Inductive event :=
| EPid (a : pidans)                                            (* postmaster.pid was read *)
| EPoll (rc : option Z)                                        (* Popen.poll(): waitpid *)
| EKill (pid sig : Z) (err : option Z)                         (* os.kill *)
| ESpawn (cmd : list text) (r : Z + Z)                         (* Popen(cmd): the pid, or errno *)
| ETime (t : Z)                                                (* time.time() *)
| ESleep (d : Z)                                               (* time.sleep *)
| EConf (r : text + Z)                                         (* postgresql.conf was read, or errno *)
| EConnect (host port user : text) (r : ping)                  (* a connection was tried *)
| EWarn                                                        (* the ClusterWarning *)
| EWalk (l : list (text * list text * list text))              (* os.walk(data_directory, topdown = False) *)
| EUnlink (p : text) (err : option Z)
| ERmdir (p : text) (err : option Z)
| ETemp (name : text)                                          (* the password file was made *)
| EWrite (name content : text) (err : option Z)                (* and written *)
| ETempGone (name : text)                                      (* and removed *)
| EInit (cmd : list text) (r : Z + Z).                         (* initdb ran: its return code, or the errno of Popen *)

Record env := {
  e_pid : list event -> pidans;
  e_poll : list event -> option Z;
  e_kill : list event -> Z -> Z -> option Z;
  e_spawn : list event -> list text -> Z + Z;
  e_time : list event -> Z;
  e_conf : list event -> text + Z;
  e_connect : list event -> text -> text -> text -> ping;
  e_walk : list event -> list (text * list text * list text);
  e_unlink : list event -> text -> option Z;
  e_rmdir : list event -> text -> option Z;
  e_temp : list event -> text;
  e_write : list event -> text -> text -> option Z;
  e_init : list event -> list text -> Z + Z
}.

(** exceptions: 36-68, and Python's *)
Inductive cexn :=
| XInit                                 (* ClusterInitializationError *)
| XInitDB (rc : Z)                      (* InitDBError *)
| XStartup (rc : Z)                     (* ClusterStartupError *)
| XNotRunning                           (* ClusterNotRunningError *)
| XTimeout                              (* ClusterTimeoutError *)
| XCluster                              (* ClusterError: failed to shutdown cluster *)
| XServer (f : failure)                 (* an exception of a connection attempt *)
| XCannot (fs : list failure)           (* ClientCannotConnectError *)
| XOther (n : Z)
| XOS (errno : Z)
| XValue | XType | XAttr
| XFuel.
Inductive out (A : Type) := Ret (a : A) | Raise (x : cexn).
Arguments Ret {A}. Arguments Raise {A}.

(** self.daemon_process: the pid, and the returncode if poll() got it *)
Record proc := { p_pid : Z; p_rc : option Z }.
Record world := { w_proc : option proc; w_hist : list event }.

Section Clu.
  Variable U : unicode.
  Variable dv : decimals.
  Variable E : env.
  (** self.data_directory; self.installation: postmaster, postgres, initdb, pg_ctl and version_info[:2] < (8, 1) *)
  Variable dir : text.
  Variable postmaster postgres : option text.
  Variable initdb pg_ctl : option text.
  Variable ancient : bool.

  Definition M (A : Type) := world -> world * out A.
  Definition ret {A} (a : A) : M A := fun w => (w, Ret a).
  Definition raise {A} (x : cexn) : M A := fun w => (w, Raise x).
  Definition bindM {A B} (m : M A) (k : A -> M B) : M B :=
    fun w => match m w with (w', Ret a) => k a w' | (w', Raise x) => (w', Raise x) end.
  Local Notation "x <- m ;; k" := (bindM m (fun x => k)) (at level 60, m at level 50, right associativity).
  Local Notation "m ;; k" := (bindM m (fun _ => k)) (at level 60, right associativity).
  (** try: m except ClusterTimeoutError: h *)
  Definition on_timeout (m : M unit) (h : M unit) : M unit :=
    fun w => match m w with (w', Raise XTimeout) => h w' | r => r end.
  (** try: m finally: f, where f does not raise *)
  Definition finally {A} (m : M A) (f : M unit) : M A :=
    fun w => let (w', r) := m w in let (w'', _) := f w' in (w'', r).
  Definition note (e : event) : M unit := fun w => ({| w_proc := w_proc w; w_hist := w_hist w ++ [e] |}, Ret tt).
  Definition set_proc (p : option proc) : M unit := fun w => ({| w_proc := p; w_hist := w_hist w |}, Ret tt).
  Definition get_proc : M (option proc) := fun w => (w, Ret (w_proc w)).
  (** asking the environment: the answer, with the event that is remembered *)
  Definition ask {A} (q : list event -> A) (e : A -> event) : M A :=
    fun w => let a := q (w_hist w) in ({| w_proc := w_proc w; w_hist := w_hist w ++ [e a] |}, Ret a).

  Definition ESRCH : Z := 3.
  Definition SIGHUP : Z := 1. Definition SIGINT : Z := 2. Definition SIGKILL : Z := 9. Definition SIGTERM : Z := 15.

  (** 129-139 get_pid_from_file: None for EIO and ENOENT, and, falling off the end, for any other IOError *)
  Definition get_pid_from_file : M (option Z) :=
    a <- ask (e_pid E) EPid ;;
    match a with
    | PLine l => match py_int U dv 10 l with Ok n => ret (Some n) | Err _ => raise XValue end
    | PErr _ => ret None
    end.
  (** 141-151 pid *)
  Definition pid : M (option Z) :=
    p <- get_pid_from_file ;;
    match p with
    | Some n => ret (Some n)
    | None => d <- get_proc ;; ret (match d with Some p => Some (p_pid p) | None => None end)
    end.
  (** os.kill *)
  Definition kill_ (p sig : Z) : M (option Z) := ask (fun h => e_kill E h p sig) (EKill p sig).
  (** 378-427 reload, stop, shutdown, kill: one signal, ESRCH is ignored *)
  Definition signal (sig : Z) : M unit :=
    p <- pid ;;
    match p with
    | None => ret tt
    | Some n =>
        r <- kill_ n sig ;;
        match r with
        | None => ret tt
        | Some err => if err =? ESRCH then ret tt else raise (XOS err)
        end
    end.
  Definition reload : M unit := signal SIGHUP.
  Definition stop : M unit := signal SIGTERM.
  Definition shutdown : M unit := signal SIGINT.
  Definition kill : M unit := signal SIGKILL.

  (** subprocess.Popen.poll(): the returncode is kept once the process was waited for *)
  Definition poll (p : proc) : M (option Z) :=
    match p_rc p with
    | Some rc => ret (Some rc)
    | None =>
        r <- ask (e_poll E) EPoll ;;
        match r with
        | None => ret None
        | Some rc => set_proc (Some {| p_pid := p_pid p; p_rc := Some rc |}) ;; ret (Some rc)
        end
    end.
  (** 456-466 running() without a process of its own *)
  Definition running_file : M bool :=
    p <- get_pid_from_file ;;
    match p with
    | None => ret false
    | Some n =>
        r <- kill_ n 0 ;;
        match r with
        | None => ret true
        | Some err => if err =? ESRCH then ret false else raise (XOS err)
        end
    end.
  (** 439-466 running *)
  Definition running : M bool :=
    d <- get_proc ;;
    match d with
    | None => running_file
    | Some p =>
        r <- poll p ;;
        match r with
        | None => ret true
        | Some _ =>
            f <- get_pid_from_file ;;
            match f with
            | Some _ => set_proc None ;; running_file
            | None => ret false
            end
        end
    end.

  (** 122-127 daemon_path *)
  Definition daemon_path : option text := match postmaster with Some p => Some p | None => postgres end.
  (** 331-355 start; Popen with None in the command raises TypeError; settings that are not empty: the command is a
      tuple, which has no append *)
  Definition start (settings : list (text * text)) : M unit :=
    r <- running ;;
    if r : bool then ret tt
    else match settings with
         | _ :: _ => raise XAttr
         | [] =>
             match daemon_path with
             | None => raise XType
             | Some path =>
                 let cmd := [path; str "-D"; dir] in
                 r <- ask (fun h => e_spawn E h cmd) (ESpawn cmd) ;;
                 match r with
                 | inr err => raise (XOS err)
                 | inl n => set_proc (Some {| p_pid := n; p_rc := None |})
                 end
             end
         end.

  (** 501-522 address: of the host, from the value of listen_addresses *)
  Definition choose_host (addresses : text) : text :=
    let addrs := py_split [44] (py_lower U addresses) in
    let has a := existsb (seqb a) addrs in
    if has (str "localhost") || has (str "*") then str "localhost"
    else if has (str "127.0.0.1") then str "127.0.0.1"
    else if has (str "::1") then str "::1"
    else hd [] addrs.
  Definition address_of (content : text) : option text * option text :=
    let d := config_getset U [str "listen_addresses"; str "port"] content in
    let get k := match dget (str k) d with Some (Some v) => Some v | _ => None end in
    (match get "listen_addresses"%string with Some a => Some (choose_host a) | None => None end, get "port"%string).
  Definition address : M (option text * option text) :=
    r <- ask (e_conf E) EConf ;;
    match r with inr err => raise (XOS err) | inl content => ret (address_of content) end.

  (** driver.fit(host, port, user) and connect() of its connection (driver/pq3.py:3004-3041); connecting as such is
      C33, C31 *)
  Definition try_connect (host port : option text) (user : text) : M ping :=
    match host, port with
    | Some h, Some p => ask (fun hist => e_connect E hist h p user) (EConnect h p user)
    | _, _ => raise XType
    end.
  (** what ready_for_connections returns: True, False, or an exception *)
  Inductive ready := RTrue | RFalse | RNotReady (f : failure) | RCannot (fs : list failure).
  (** 542-563: the failures one after the other *)
  Fixpoint look_at (all fs : list failure) : out ready :=
    match fs with
    | [] => Ret (RCannot all)
    | x :: r =>
        if (x_authspec x || (ancient && x_undefined x))%bool then Ret RTrue
        else if x_config x then Raise (XServer x)
        else if x_notready x then Ret (RNotReady x)
        else look_at all r
    end.
  Definition ping_user : text := str " -*- ping -*- ".
  (** 524-565 ready_for_connections *)
  Definition ready_for_connections : M ready :=
    r <- running ;;
    if negb r then ret RFalse
    else
      a <- address ;;
      c <- try_connect (fst a) (snd a) ping_user ;;
      match c with
      | PConnected => ret RTrue
      | PCannot fs => fun w => (w, look_at fs fs)
      | POther n => raise (XOther n)
      end.

  (** 567-614 wait_until_started *)
  Fixpoint started_loop (fuel : nat) (start timeout delay : Z) : M unit :=
    match fuel with
    | O => raise XFuel
    | S fuel =>
        up <- running ;;
        d <- get_proc ;;
        (if up : bool then ret tt
         else match d with
              | None => raise XNotRunning
              | Some p => match p_rc p with Some rc => raise (XStartup rc) | None => ret tt end
              end) ;;
        r <- ready_for_connections ;;
        now <- ask (e_time E) ETime ;;
        match r with
        | RTrue => ret tt
        | _ =>
            if timeout <=? now - start then
              match r with RNotReady f => raise (XServer f) | _ => raise XTimeout end
            else note (ESleep delay) ;; started_loop fuel start timeout delay
        end
    end.
  Definition wait_until_started (fuel : nat) (timeout delay : Z) : M unit :=
    t <- ask (e_time E) ETime ;; started_loop fuel t timeout delay.

  (** 616-637 wait_until_stopped; os.kill(None, 0) raises TypeError *)
  Fixpoint stopped_loop (fuel : nat) (start timeout delay : Z) : M unit :=
    match fuel with
    | O => raise XFuel
    | S fuel =>
        up <- running ;;
        if negb up then ret tt
        else
          d <- get_proc ;;
          (match d with
           | Some p => poll p ;; ret tt
           | None =>
               f <- get_pid_from_file ;;
               match f with
               | None => raise XType
               | Some n => r <- kill_ n 0 ;; match r with None => ret tt | Some err => raise (XOS err) end
               end
           end) ;;
          now <- ask (e_time E) ETime ;;
          if timeout <=? now - start then raise XTimeout
          else note (ESleep delay) ;; stopped_loop fuel start timeout delay
    end.
  Definition wait_until_stopped (fuel : nat) (timeout delay : Z) : M unit :=
    t <- ask (e_time E) ETime ;; stopped_loop fuel t timeout delay.

  (** 357-376 restart *)
  Definition restart (fuel : nat) (settings : list (text * text)) (timeout delay : Z) : M unit :=
    r <- running ;;
    (if r : bool then stop ;; wait_until_stopped fuel timeout delay else ret tt) ;;
    r <- running ;;
    if r : bool then raise XCluster
    else start settings ;; wait_until_started fuel timeout delay.

  (** 324-329: the calls that remove the tree, in their order: (is it a directory, path) *)
  Definition removals (l : list (text * list text * list text)) : list (bool * text) :=
    concat (map (fun x => let '(root, dirs, files) := x in
                          map (fun f => (false, path_join root f)) files ++ map (fun d => (true, path_join root d)) dirs) l)
    ++ [(true, dir)].
  Fixpoint remove_all (l : list (bool * text)) : M unit :=
    match l with
    | [] => ret tt
    | (d, p) :: r =>
        e <- (if d : bool then ask (fun h => e_rmdir E h p) (ERmdir p) else ask (fun h => e_unlink E h p) (EUnlink p)) ;;
        match e with Some err => raise (XOS err) | None => remove_all r end
    end.
  (** 305-329 drop; the waits have timeout 10 seconds and delay 0.05 *)
  Definition drop (fuel : nat) (timeout delay : Z) : M unit :=
    r <- running ;;
    (if r : bool then
       shutdown ;;
       on_timeout (wait_until_stopped fuel timeout delay)
         (kill ;; on_timeout (wait_until_stopped fuel timeout delay) (note EWarn))
     else ret tt) ;;
    l <- ask (e_walk E) EWalk ;;
    remove_all (removals l).

  (** 187-200 __enter__, __exit__ *)
  Definition enter (fuel : nat) (timeout delay : Z) : M unit := start [] ;; wait_until_started fuel timeout delay.
  Definition leave (fuel : nat) (timeout delay : Z) : M unit := stop ;; wait_until_stopped fuel timeout delay.

  (** 468-499 connector, connection and connect; the empty string is false *)
  Definition or_else (a : option text) (b : text) : text := match a with None | Some [] => b | Some a => a end.
  Definition connect (user : text) : M unit :=
    r <- running ;;
    if negb r then raise XNotRunning
    else
      a <- address ;;
      c <- try_connect (Some (or_else (fst a) (str "localhost"))) (Some (or_else (snd a) (str "5432"))) user ;;
      match c with
      | PConnected => ret tt
      | PCannot fs => raise (XCannot fs)
      | POther n => raise (XOther n)
      end.

  (** 202-303 init; the values of the keyword arguments: a text, the arguments of extra_arguments, a file *)
  Inductive kwval := KText (t : text) | KArgs (l : list text) | KFile.
  (** 80-87 initdb_option_map *)
  Definition option_map_ : list (text * text) :=
    [(str "encoding", str "-E"); (str "authentication", str "-A"); (str "user", str "-U")].
  Definition is_text (v : kwval) : option text := match v with KText t => Some t | _ => None end.
  (** 229-238: the options; a value that is not a text makes Popen raise TypeError (after the password
      file was made, which is simplified here) *)
  Fixpoint init_opts (kw : list (text * kwval)) : out (list text) :=
    match kw with
    | [] => Ret []
    | (k, v) :: r =>
        if (seqb k (str "logfile") || seqb k (str "extra_arguments"))%bool then init_opts r
        else match dget k option_map_ with
             | None => Raise XType
             | Some o =>
                 match v, init_opts r with
                 | KText t, Ret l => Ret (o :: t :: l)
                 | _, Raise x => Raise x
                 | _, Ret _ => Raise XType
                 end
             end
    end.
  (** dict.setdefault *)
  Definition setdefault (k : text) (v : kwval) (kw : list (text * kwval)) : list (text * kwval) :=
    if dmem k kw then kw else kw ++ [(k, v)].
  Definition init_cmd (exe opts : list text) (pwfile : list text) (kw : list (text * kwval)) : list text :=
    exe ++ [str "-D"; dir] ++ opts ++ pwfile
        ++ (match dget (str "extra_arguments") kw with Some (KArgs l) => l | _ => [] end).
  Definition run_init (cmd : list text) : M unit :=
    r <- ask (fun h => e_init E h cmd) (EInit cmd) ;;
    match r with
    | inr err => raise (XOS err)
    | inl rc => if rc =? 0 then ret tt else raise (XInitDB rc)
    end.
  Definition init (password : option text) (kw : list (text * kwval)) : M unit :=
    match (match initdb with Some p => Some [p] | None => match pg_ctl with Some p => Some [p; str "initdb"] | None => None end end) with
    | None => raise XInit
    | Some exe =>
        let kw := setdefault (str "encoding") (KText (str "utf-8")) kw in
        match init_opts kw with
        | Raise x => raise x
        | Ret opts =>
            match password with
            | None => run_init (init_cmd exe opts [] kw)
            | Some pw =>
                name <- ask (e_temp E) ETemp ;;
                finally
                  (e <- ask (fun h => e_write E h name pw) (EWrite name pw) ;;
                   match e with
                   | Some n => raise (XOther n)
                   | None => run_init (init_cmd exe opts [str "--pwfile=" ++ name] kw)
                   end)
                  (note (ETempGone name))
            end
        end
    end.
End Clu.
