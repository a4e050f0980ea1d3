(** MesgModel.v: /repo/postgresql/driver/pq3.py 47-65, 167-174, 501-615 and 2603-2662, message.py, encodings/aliases.py,
    python/element.py prime_factor: how errors and messages of the server become Python objects and reach the user. *)
From Verif Require Import Base PyStr PyDict Element3Model ExcModel ExcTable ExcSpec.
Open Scope Z_scope.

(** pq3.py:49-62 notice_field_to_name *)
Definition notice_field_to_name : list (bytes * text) :=
  [ (str "S", str "severity"); (str "C", str "code"); (str "M", str "message"); (str "D", str "detail"); (str "H", str "hint");
    (str "W", str "context"); (str "P", str "position"); (str "p", str "internal_position"); (str "q", str "internal_query");
    (str "F", str "file"); (str "L", str "line"); (str "R", str "function") ].

(** repr() of a bytes object (Python's own): double quotes only when there are single and no double quotes *)
Definition hexd (x : Z) : Z := if x <? 10 then 48 + x else 87 + x.
Definition repr_byte (q b : Z) : text :=
  if (b =? q) || (b =? 92) then [92; b]
  else if b =? 9 then str "\t" else if b =? 10 then str "\n" else if b =? 13 then str "\r"
  else if (b <? 32) || (127 <=? b) then str "\x" ++ [hexd (b / 16); hexd (b mod 16)]
  else [b].
Definition repr_quote (b : bytes) : Z := if existsb (Z.eqb 39) b && negb (existsb (Z.eqb 34) b) then 34 else 39.
Definition repr_bytes (b : bytes) : text := str "b" ++ [repr_quote b] ++ flat_map (repr_byte (repr_quote b)) b ++ [repr_quote b].

(** a Message or an Error.  [m_class]: None is message.Message itself; classes of exceptions.py otherwise.  Objects of the
    program (connections, statements, cursors, ...) are numbers. *)
Record msg := { m_class : option class; m_message : text; m_code : text; m_details : list (text * text); m_source : text;
                m_creator : nat; m_database : nat }.

(** x.pop(k) *)
Definition dpop {V} (k : text) (d : list (text * V)) : res (V * list (text * V)) :=
  match dget k d with Some v => Ok (v, ddel k d) | None => Err KeyError end.

(** message.py:35-36 the attributes code and source of the class, overridden in exceptions.py *)
Definition class_code (c : option class) : text :=
  match c with None => str "00000" | Some c => match attr statements c_code c with Some k => k | None => str "00000" end end.
(** message.py:68-82 Message.__init__ and the attributes one reads afterwards.  An instance attribute that was not set shows
    the class's; [csource] is the class's source (SERVER or CLIENT). *)
Definition new_message (csource : option class -> text) (c : option class) (message : text) (code : option text)
    (details : list (text * text)) (source : option text) (creator database : nat) : msg :=
  {| m_class := c; m_message := message;
     m_code := match code with Some k => if seqb (class_code c) k then class_code c else k | None => class_code c end;
     m_details := details;
     m_source := match source with Some k => if seqb (csource c) k then csource c else k | None => csource c end;
     m_creator := creator; m_database := database |}.

Section mesg.
(** the source attribute of a class; the decoder of a Python codec (None: UnicodeDecodeError); the codecs codecs.lookup
    knows; str.upper of a character; str.lower and isspace; bytes.decode('ascii') *)
Context (csource : option class -> text) (decode_in : text -> bytes -> option text) (known : text -> bool)
        (upper : Z -> text) (U : unicode).
Definition py_upper (t : text) : text := concat (map upper t).
Definition decode_ascii (b : bytes) : option text := if forallb (fun c => (0 <=? c) && (c <? 128)) b then Some b else None.

Section decode.
Context (codec : text).
(** pq3.py:549-565 _decode_failsafe, as consumed by decode_notice: the two for loops share one iterator *)
Fixpoint failsafe_outer (l : list (bytes * bytes)) : list (bytes * text) :=
  match l with
  | [] => []
  | x :: l =>
      match decode_in codec (snd x) with
      | Some t => (fst x, t) :: failsafe_inner l
      | None => (fst x, pyslice (repr_bytes (snd x)) 2 (len (repr_bytes (snd x)) - 1)) :: failsafe_outer l
      end
  end
with failsafe_inner (l : list (bytes * bytes)) : list (bytes * text) :=
  match l with
  | [] => []
  | x :: l =>
      match decode_in codec (snd x) with
      | Some t => (fst x, t) :: failsafe_inner l
      | None => (fst x, pyslice (repr_bytes (snd x)) 2 (len (repr_bytes (snd x)) - 1)) :: failsafe_outer l
      end
  end.
(** the dict comprehension of decode_notice (567-574), raise_client_error (502-507) and emit_client_message (594-599) *)
Definition known_fields (l : list (bytes * text)) : list (text * text) :=
  fold_left (fun d x => match dget (fst x) notice_field_to_name with Some n => dset n (snd x) d | None => d end) l [].
Definition decode_notice (l : list (bytes * bytes)) : list (text * text) := known_fields (failsafe_outer l).

(** an error of the protocol transaction: element.Error with bytes, or element.ClientError with str values *)
Inductive errmsg := FromServer (l : list (bytes * bytes)) | FromClient (l : list (bytes * text)).
(** pq3.py:501-515, 524-534: Ok e: the exception e is raised.  [creator or self.database]: every creator is true. *)
Definition raise_fields (m : list (text * text)) (source : text) (creator database : nat) : res msg :=
  do (c, m) <- dpop (str "code") m;
  do (ms, m) <- dpop (str "message") m;
  Ok (new_message csource (Some (ErrorLookup c)) ms (Some c) m (Some source) creator database).
Definition raise_client_error (l : list (bytes * text)) (creator database : nat) : res msg :=
  raise_fields (known_fields l) (str "CLIENT") creator database.
Definition raise_server_error (l : list (bytes * bytes)) (creator database : nat) : res msg :=
  raise_fields (decode_notice l) (str "SERVER") creator database.
(** pq3.py:536-543; [controller] is the _controller attribute of the connection *)
Definition raise_error (e : errmsg) (creator controller : option nat) (database : nat) : res msg :=
  let creator := match creator with Some c => c | None => match controller with Some c => c | None => database end end in
  match e with
  | FromClient l => raise_client_error l creator database
  | FromServer l => raise_server_error l creator database
  end.

(** pq3.py:576-608 emit_server_message and emit_client_message, up to message.emit() *)
Definition message_of (fields : list (text * text)) (source : text) (creator database : nat) : res msg :=
  do (m, fields) <- dpop (str "message") fields;
  do (c, fields) <- dpop (str "code") fields;
  match dget (str "severity") fields with
  | None => Err KeyError
  | Some s =>
      let cls := if seqb (py_upper s) (str "WARNING") then Some (WarningLookup c) else None in
      Ok (new_message csource cls m (Some c) fields (Some source) creator database)
  end.
End decode.

(** The hooks.  A call is recorded with the object whose msghook it is (None: postgresql.sys.msghook).  What a hook returns
    or raises may depend on all calls before. *)
Definition log := list (option nat * msg).
Context (factor : nat -> option nat)                                    (* prime_factor(f)[1], None when there is none *)
        (hooked : nat -> bool)                                          (* getattr(f, 'msghook', None) is not None *)
        (answer : log -> nat -> msg -> res bool)                        (* f.msghook(m): whether its value is true *)
        (syshook : log -> msg -> option exn)                            (* pg_sys.msghook: what it raises *)
        (fuel : nat).
(** message.py:124-144 Message.emit: the object that trapped it, if any *)
Fixpoint emit_from (n : nat) (g : log) (m : msg) (f : option nat) : log * res (option nat) :=
  match f with
  | None => (g ++ [(None, m)], match syshook g m with Some e => Err e | None => Ok None end)
  | Some o =>
      match n with
      | O => (g, Err OutOfFuel)
      | S n =>
          if hooked o then
            match answer g o m with
            | Err e => (g ++ [(Some o, m)], Err e)
            | Ok true => (g ++ [(Some o, m)], Ok (Some o))
            | Ok false => emit_from n (g ++ [(Some o, m)]) m (factor o)
            end
          else emit_from n g m (factor o)
      end
  end.
Definition emit (g : log) (m : msg) : log * res (option nat) := emit_from fuel g m (Some (m_creator m)).

(** pq3.py:167-174 set_encoding; encodings/aliases.py:18-60 get_python_name *)
Definition postgres_to_python : list (text * text) :=
  [ (str "unicode", str "utf_8"); (str "sql_ascii", str "ascii"); (str "euc_jp", str "eucjp"); (str "euc_cn", str "euccn");
    (str "euc_kr", str "euckr"); (str "shift_jis_2004", str "euc_jis_2004"); (str "sjis", str "shift_jis"); (str "alt", str "cp866");
    (str "abc", str "cp1258"); (str "vscii", str "cp1258"); (str "koi8r", str "koi8_r"); (str "koi8u", str "koi8_u");
    (str "tcvn", str "cp1258"); (str "tcvn5712", str "cp1258") ].
Definition get_python_name (encname : text) : text :=
  match dget encname postgres_to_python with
  | Some l => l
  | None =>
      if py_startswith (str "win") encname then
        let bare := rstrip_by (fun c => (48 <=? c) && (c <=? 57)) encname in
        let b := strip_by (fun c => (c =? 95) || (c =? 45)) bare in
        if seqb b (str "win") || seqb b (str "windows") then str "cp" ++ skipn (length bare) encname else encname
      else encname
  end.

(** what of the connection is at stake: the codec of its typio, _controller, _notifies, the settings messages given to
    settings._notify, the calls of hooks, the exceptions given to sys.excepthook, and [running]: the protocol transaction
    that pq holds, named by the object that pushed it (ghost: the code does not record it) *)
Record conn := { c_encoding : text; c_codec : text; c_controller : option nat; c_notifies : list (Z * bytes * bytes);
                 c_told : list (bytes * bytes); c_log : log; c_excs : list exn; c_running : option nat }.
Context (self : nat)                                                   (* the connection itself *)
        (sett : list (bytes * bytes) -> bytes * bytes -> option exn)    (* what settings._notify raises *)
        (repr_msg : message -> text).
Definition set_encoding (s : conn) (value : text) : conn * option exn :=
  let e := py_strip U (py_lower U value) in
  let enc := get_python_name e in
  let codec := if seqb enc [] then e else enc in
  ({| c_encoding := e; c_codec := if known codec then codec else c_codec s; c_controller := c_controller s; c_notifies := c_notifies s;
      c_told := c_told s; c_log := c_log s; c_excs := c_excs s; c_running := c_running s |},
   if known codec then None else Some (OtherError 1)).                  (* LookupError *)
Definition tell (s : conn) (nv : bytes * bytes) : conn * option exn :=
  ({| c_encoding := c_encoding s; c_codec := c_codec s; c_controller := c_controller s; c_notifies := c_notifies s;
      c_told := c_told s ++ [nv]; c_log := c_log s; c_excs := c_excs s; c_running := c_running s |}, sett (c_told s) nv).
Definition emitted (s : conn) (m : res msg) : conn * option exn :=
  match m with
  | Err e => (s, Some e)
  | Ok m =>
      let '(g, r) := emit (c_log s) m in
      ({| c_encoding := c_encoding s; c_codec := c_codec s; c_controller := c_controller s; c_notifies := c_notifies s;
          c_told := c_told s; c_log := g; c_excs := c_excs s; c_running := c_running s |},
       match r with Err e => Some e | Ok _ => None end)
  end.
(** pq3.py:2638-2662 _receive_async; what it raises *)
Definition receive_async (s : conn) (m : message) : conn * option exn :=
  let c := match c_controller s with Some c => c | None => self end in
  match m with
  | MShowOption name value =>
      if seqb name (str "client_encoding") then
        match decode_ascii value with
        | None => (s, Some ValueError)
        | Some v =>
            let '(s, r) := set_encoding s v in
            match r with Some e => (s, Some e) | None => tell s (name, value) end
        end
      else tell s (name, value)
  | MNotice false l => emitted s (message_of (decode_notice (c_codec s) l) (str "SERVER") c self)
  | MNotify pid channel payload =>
      ({| c_encoding := c_encoding s; c_codec := c_codec s; c_controller := c_controller s; c_notifies := c_notifies s ++ [(pid, channel, payload)];
          c_told := c_told s; c_log := c_log s; c_excs := c_excs s; c_running := c_running s |}, None)
  | _ => emitted s (message_of (known_fields [(str "C", str "-1000"); (str "S", str "WARNING");
                     (str "M", str "cannot process unrecognized asynchronous message"); (str "D", repr_msg m)]) (str "CLIENT") c self)
  end.
(** xact3.py:526-535: an exception of the hook is shown and processing continues *)
Definition deliver1 (s : conn) (m : message) : conn :=
  let '(s, r) := receive_async s m in
  match r with
  | None => s
  | Some e => {| c_encoding := c_encoding s; c_codec := c_codec s; c_controller := c_controller s; c_notifies := c_notifies s;
                 c_told := c_told s; c_log := c_log s; c_excs := c_excs s ++ [e]; c_running := c_running s |}
  end.
Definition deliver (s : conn) (l : list message) : conn := fold_left deliver1 l s.

(** A request on the connection.  What the wire brings: the asynchronous messages processed by pq.complete() (or
    pq.step()), and the error the protocol transaction ended with. *)
Record outcome := { o_asyncs : list message; o_error : option errmsg }.
Definition with_running (s : conn) (controller running : option nat) : conn :=
  {| c_encoding := c_encoding s; c_codec := c_codec s; c_controller := controller; c_notifies := c_notifies s;
     c_told := c_told s; c_log := c_log s; c_excs := c_excs s; c_running := running |}.
(** what a call ends with: nothing, the error raised for the server's message, or another exception *)
Inductive ending := Fine | Raised (e : msg) | Other (e : exn).
Definition raising (s : conn) (e : errmsg) : ending :=
  match raise_error (c_codec s) e None (c_controller s) self with Ok e => Raised e | Err x => Other x end.
(** del self._controller *)
Definition del_controller (s : conn) : conn * ending :=
  match c_controller s with Some _ => (with_running s None (c_running s), Fine) | None => (s, Other AttributeError) end.
(** pq3.py:2603-2611 _pq_push, always called with a controller (884, 1007, 1024, 1110, ...); pq.push (client3.py) does not
    touch what is modelled here: what it sends and raises is the subject of C31, C32 and C48 *)
Definition pq_push (s : conn) (o : outcome) (controller : nat) : conn * ending :=
  match c_running s with
  | None => (with_running s (Some controller) (Some controller), Fine)
  | Some _ =>
      let s := deliver s (o_asyncs o) in
      let s := with_running s (c_controller s) None in
      match o_error o with
      | Some e => (s, raising s e)
      | None => (with_running s (Some controller) (Some controller), Fine)
      end
  end.
(** pq3.py:2614-2623 _pq_complete *)
Definition pq_complete (s : conn) (o : outcome) : conn * ending :=
  match c_running s with
  | None => (s, Fine)
  | Some _ =>
      let s := deliver s (o_asyncs o) in
      let s := with_running s (c_controller s) None in
      match o_error o with
      | Some e => (s, raising s e)
      | None => del_controller s
      end
  end.
(** pq3.py:2626-2636 _pq_step: [done]: the transaction was completed by the step *)
Definition pq_step (s : conn) (o : outcome) (done : bool) : conn * ending :=
  match c_running s with
  | None => (s, Fine)
  | Some _ =>
      let s := deliver s (o_asyncs o) in
      if done then
        let s := with_running s (c_controller s) None in
        match o_error o with
        | Some e => (s, raising s e)
        | None => del_controller s
        end
      else (s, Fine)
  end.
Inductive op := Push (o : outcome) (controller : nat) | Complete (o : outcome) | Step (o : outcome) (done : bool).
Definition run_op (s : conn) (p : op) : conn * ending :=
  match p with
  | Push o c => pq_push s o c
  | Complete o => pq_complete s o
  | Step o done => pq_step s o done
  end.
End mesg.
(** exceptions.py:98-101 Error.fatal *)
Definition error_fatal (e : msg) : option bool :=
  match dget (str "severity") (m_details e) with
  | None => None
  | Some f => Some (existsb (seqb f) [str "PANIC"; str "FATAL"])
  end.
