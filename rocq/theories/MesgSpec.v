(** MesgSpec.v: statement-level definitions for C58 and C59 *)
From Verif Require Import Base PyStr PyDict Element3Model ExcModel ExcTable ExcSpec MesgModel.
Open Scope Z_scope.

(** the fields of ErrorResponse and NoticeResponse (PostgreSQL protocol, version 3.0) and the names the driver's
    documentation gives them *)
Inductive field : Z -> text -> Prop :=
| f_severity : field 83 (str "severity") | f_code : field 67 (str "code") | f_message : field 77 (str "message")
| f_detail : field 68 (str "detail") | f_hint : field 72 (str "hint") | f_context : field 87 (str "context")
| f_position : field 80 (str "position") | f_internal_position : field 112 (str "internal_position")
| f_internal_query : field 113 (str "internal_query") | f_file : field 70 (str "file") | f_line : field 76 (str "line")
| f_function : field 82 (str "function").

(** reading an escaped text back: a backslash introduces t, n, r, xHH, or stands for the next character *)
Definition unhexd (c : Z) : Z := if c <? 58 then c - 48 else c - 87.
Fixpoint unescape (t : text) : bytes :=
  match t with
  | [] => []
  | c :: r =>
      if c =? 92 then
        match r with
        | [] => [c]
        | d :: r =>
            if d =? 116 then 9 :: unescape r else if d =? 110 then 10 :: unescape r else if d =? 114 then 13 :: unescape r
            else if d =? 120 then match r with a :: b :: r => (unhexd a * 16 + unhexd b) :: unescape r | _ => [] end
            else d :: unescape r
        end
      else c :: unescape r
  end.
Definition printable (c : Z) : Prop := 32 <= c <= 126.
(** the text of a field: its bytes decoded, or, if they cannot be, printable characters from which the bytes can be read *)
Definition shows (decode : bytes -> option text) (v : bytes) (t : text) : Prop :=
  decode v = Some t \/ decode v = None /\ unescape t = v /\ Forall printable t.

(** [details] gives exactly the fields of [l] that have a name, other than the code and the message *)
Definition details_of (show : bytes -> text -> Prop) (l : list (bytes * bytes)) (details : list (text * text)) : Prop :=
  NoDup (dkeys details) /\
  (forall name t, dget name details = Some t ->
     exists k v, In ([k], v) l /\ field k name /\ show v t /\ name <> str "code" /\ name <> str "message") /\
  (forall k v name, In ([k], v) l -> field k name -> name <> str "code" -> name <> str "message" -> exists t, dget name details = Some t).
(** a message whose fields are [l]: [c] and [m] are the bytes of its code and message *)
Definition carries (show : bytes -> text -> Prop) (l : list (bytes * bytes)) (c m : bytes) (e : msg) : Prop :=
  show c (m_code e) /\ show m (m_message e) /\ details_of show l (m_details e).

(** the objects asked, in order: the creator, its prime factor, and so on *)
Inductive chain (factor : nat -> option nat) : nat -> list nat -> Prop :=
| chain_last o : factor o = None -> chain factor o [o]
| chain_next o p l : factor o = Some p -> chain factor p l -> chain factor o (o :: l).
Section hooks.
Context (hooked : nat -> bool) (answer : log -> nat -> msg -> res bool) (syshook : log -> msg -> option exn).
(** m given to the hooks of the objects [l], each of which declined it, after the calls [g] *)
Definition given (m : msg) (l : list nat) : log := map (fun o => (Some o, m)) (filter hooked l).
Definition declined (g : log) (m : msg) (l : list nat) : Prop :=
  forall p o r, given m l = p ++ (Some o, m) :: r -> answer (g ++ p) o m = Ok false.
(** the calls one message causes, and its end: trapped by an object, or an exception *)
Inductive emission (g : log) (m : msg) (l : list nat) : log -> res (option nat) -> Prop :=
| em_trapped p o r : l = p ++ o :: r -> hooked o = true -> declined g m p -> answer (g ++ given m p) o m = Ok true ->
    emission g m l (given m p ++ [(Some o, m)]) (Ok (Some o))
| em_raised p o r e : l = p ++ o :: r -> hooked o = true -> declined g m p -> answer (g ++ given m p) o m = Err e ->
    emission g m l (given m p ++ [(Some o, m)]) (Err e)
| em_system : declined g m l -> syshook (g ++ given m l) m = None ->
    emission g m l (given m l ++ [(None, m)]) (Ok None)
| em_system_raised e : declined g m l -> syshook (g ++ given m l) m = Some e ->
    emission g m l (given m l ++ [(None, m)]) (Err e).
(** messages emitted one after the other; [ms] with the end of each *)
Inductive emissions (l : list nat) : log -> list msg -> log -> Prop :=
| ems_nil g : emissions l g [] []
| ems_cons g m c r ms cs : emission g m l c r -> emissions l (g ++ c) ms cs -> emissions l g (m :: ms) (c ++ cs).
End hooks.

(** the Python codec of an encoding of PostgreSQL: renamed, or a Windows code page, or the name itself *)
Inductive codec_of : text -> text -> Prop :=
| co_renamed n p : In (n, p) postgres_to_python -> codec_of n p
| co_windows w s d : In w [str "win"; str "windows"] -> In s [[]; str "-"; str "_"] -> d <> [] -> Forall (fun c => 48 <= c <= 57) d ->
    codec_of (w ++ s ++ d) (str "cp" ++ d)
| co_same n : ~ In n (map fst postgres_to_python) -> py_startswith (str "win") n = false -> codec_of n n.

(** the client encodings of PostgreSQL (documentation, "Supported Character Sets", in lower case, with their aliases) for which Python
    has a codec, and the name of that codec *)
Definition client_encodings : list (text * text) :=
  [ (str "utf8", str "utf8"); (str "unicode", str "utf_8"); (str "sql_ascii", str "ascii"); (str "big5", str "big5"); (str "euc_cn", str "euccn");
    (str "euc_jp", str "eucjp"); (str "euc_jis_2004", str "euc_jis_2004"); (str "euc_kr", str "euckr"); (str "gb18030", str "gb18030"); (str "gbk", str "gbk");
    (str "iso_8859_5", str "iso_8859_5"); (str "iso_8859_6", str "iso_8859_6"); (str "iso_8859_7", str "iso_8859_7"); (str "iso_8859_8", str "iso_8859_8");
    (str "johab", str "johab"); (str "koi8r", str "koi8_r"); (str "koi8u", str "koi8_u"); (str "latin1", str "latin1");
    (str "latin2", str "latin2"); (str "latin3", str "latin3"); (str "latin4", str "latin4"); (str "latin5", str "latin5"); (str "latin6", str "latin6");
    (str "latin7", str "latin7"); (str "latin8", str "latin8"); (str "latin9", str "latin9"); (str "latin10", str "latin10"); (str "sjis", str "shift_jis");
    (str "uhc", str "uhc"); (str "win866", str "cp866"); (str "alt", str "cp866"); (str "win874", str "cp874"); (str "win1250", str "cp1250");
    (str "win1251", str "cp1251"); (str "win1252", str "cp1252"); (str "win1253", str "cp1253"); (str "win1254", str "cp1254"); (str "win1255", str "cp1255");
    (str "win1256", str "cp1256"); (str "win1257", str "cp1257"); (str "win1258", str "cp1258"); (str "abc", str "cp1258"); (str "tcvn", str "cp1258");
    (str "tcvn5712", str "cp1258"); (str "vscii", str "cp1258"); (str "windows949", str "cp949"); (str "windows932", str "cp932"); (str "windows936", str "cp936") ].

Section heard.
Context (decode_in : text -> bytes -> option text) (known : text -> bool) (upper : Z -> text) (U : unicode) (creator database : nat).
(** a notice has what every server sends *)
Definition complete (l : list (bytes * bytes)) : Prop := (exists v, In (str "S", v) l) /\ (exists v, In (str "C", v) l) /\ (exists v, In (str "M", v) l).
(** the Message of a notice: a subclass of Warning, by its code, if the severity is WARNING in any case *)
Definition notice_message (codec : text) (l : list (bytes * bytes)) (m : msg) : Prop :=
  (exists c ms, In (str "C", c) l /\ In (str "M", ms) l /\ carries (shows (decode_in codec)) l c ms m) /\
  (exists s, dget (str "severity") (m_details m) = Some s /\
     m_class m = if seqb (concat (map upper s)) (str "WARNING") then Some (WarningLookup (m_code m)) else None) /\
  m_source m = str "SERVER" /\ m_creator m = creator /\ m_database m = database.
(** the messages heard from what the server sends, each decoded with the encoding reported last *)
Inductive heard : text -> list message -> list msg -> text -> Prop :=
| h_nil codec : heard codec [] [] codec
| h_notice codec l m r ms codec' : complete l -> notice_message codec l m -> heard codec r ms codec' ->
    heard codec (MNotice false l :: r) (m :: ms) codec'
| h_incomplete codec l r ms codec' : ~ complete l -> heard codec r ms codec' -> heard codec (MNotice false l :: r) ms codec'
| h_encoding codec v r ms codec1 codec' : heard (if decode_ascii v then codec1 else codec) r ms codec' ->
    codec1 = (let e := py_strip U (py_lower U v) in let n := get_python_name e in let n := if seqb n [] then e else n in if known n then n else codec) ->
    heard codec (MShowOption (str "client_encoding") v :: r) ms codec'
| h_setting codec n v r ms codec' : n <> str "client_encoding" -> heard codec r ms codec' -> heard codec (MShowOption n v :: r) ms codec'
| h_notify codec p c d r ms codec' : heard codec r ms codec' -> heard codec (MNotify p c d :: r) ms codec'.
End heard.

(** what asynchronous messages there are (element3.AsynchronousMap) *)
Definition asynchronous (m : message) : Prop :=
  match m with MNotice false l => NoDup (map fst l) /\ Forall (fun kv => length (fst kv) = 1%nat /\ is_bytes (snd kv)) l | MNotify _ _ _ | MShowOption _ _ => True | _ => False end.
Definition notifications (l : list message) : list (Z * bytes * bytes) :=
  flat_map (fun m => match m with MNotify p c d => [(p, c, d)] | _ => [] end) l.

(** a connection after any history of requests *)
Definition started (s : conn) : Prop := c_running s = None /\ c_controller s = None /\ c_log s = [].
