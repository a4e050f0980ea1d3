(** CtorModel.v: from the parameters to the connector: driver/pq3.py:2741-3050 (Connector, SocketConnector, IP4, IP6, Unix,
    Host, Driver.fit), api.py:1102-1130 (Connector.__init__), __init__.py:38-94 (open). *)
From Verif Require Import Base PyStr PyInt PyDict StrModel IRIModel ParamModel.

(** the numbers of the address families and of the socket type (Linux) *)
Definition AF_UNSPEC := 0. Definition AF_UNIX := 1. Definition AF_INET := 2. Definition AF_INET6 := 10.
Definition SOCK_STREAM := 1.

(** where a socket is connected to: (host, port), or the path of a unix domain socket *)
Inductive address := Inet (host : text) (port : Z) | Path (p : pval).
(** python/socket.py:89-99 SocketFactory: socket_create, socket_connect, socket_secure (keyfile, certfile, ca_certs) *)
Record factory := { f_create : list Z; f_connect : address; f_secure : pval * pval * pval }.
(** the constant socket of IP4, IP6 and Unix, or what Host looks up each time *)
Inductive target := Fixed (f : factory) | Lookup (host port family : pval).
(** a Connector *)
Record connector := {
  c_user : pval; c_password : pval; c_database : pval; c_settings : pval; c_timeout : pval;
  c_sslmode : pval; c_secure : pval * pval * pval; c_target : target;
  c_startup : list (list Z * list Z);       (* _startup_parameters *)
  c_pw : list Z }.                          (* _password *)

Section ctor.
Context (U : unicode) (dv : decimals) (repr : pval -> text).
(** s.encode(name): LookupError for an unknown name, UnicodeEncodeError *)
Context (encode : text -> text -> res (list Z)).
(** socket.inet_pton(AF_INET6, host), socket.inet_aton(host): is it an address (else socket.error); another exception for a
    zero character or one that cannot be encoded *)
Context (pton6 aton : text -> res bool).
(** socket.getaddrinfo(host, port, family, SOCK_STREAM): (family, type, proto), (address, port) *)
Context (getaddrinfo : pval -> pval -> pval -> res (list (list Z * (text * Z)))).

(** k in kw; kw.get(k) *)
Definition arg (k : text) (kw : cpd) : pval := match dget k kw with Some v => v | None => PNone end.
(** bool(v) *)
Definition truth (v : pval) : bool :=
  match v with
  | PNone | PStr [] | PList [] | PDict [] | PItems [] => false
  | PInt z => negb (z =? 0)
  | PBool b => b
  | _ => true
  end.
(** v or None *)
Definition or_none (v : pval) : pval := if truth v then v else PNone.
Definition is_none (v : pval) : bool := match v with PNone => true | _ => false end.

(** dict(settings) of a true value.  (A sequence of strings of two characters would be taken as well: left out.) *)
Definition dict_of_settings (v : pval) : res cpd :=
  match v with
  | PDict d => Ok d
  | PItems l => Ok (dupdate [] l)
  | PStr _ | PList _ => Err ValueError
  | _ => Err TypeError
  end.
(** pq3.py:2816-2823: the names of the search path joined.  Only a dictionary is asked for its search_path: a sequence of
    pairs has no element equal to that name.  (None stays in the copy; it is removed from the connector's settings only.) *)
Definition joined_path (sp : pval) : res pval :=
  match sp with
  | PNone | PStr _ => Ok sp
  | PList l => Ok (PStr (py_join [44] (map quote_ident l)))
  | PDict d => Ok (PStr (py_join [44] (map quote_ident (dkeys d))))
  | PItems [] => Ok (PStr [])
  | PItems _ => Err AttributeError
  | PInt _ | PBool _ => Err TypeError
  end.
Definition startup_settings (settings : pval) : res cpd :=
  if truth settings then
    do s <- dict_of_settings settings;
    match settings, dget k_search_path s with
    | PDict _, Some sp => do sp <- joined_path sp; Ok (dset k_search_path sp s)
    | _, _ => Ok s
    end
  else Ok [].
(** pq3.py:2810-2844 _startup: (_startup_parameters, _password) *)
Definition encoding_name (server_encoding : pval) : res text :=
  if truth server_encoding then match server_encoding with PStr e => Ok e | _ => Err TypeError end else Ok (str "utf-8").
Definition encode_pair (se : text) (kv : text * pval) : res (list Z * list Z) :=
  do k <- encode (str "utf-8") (fst kv);
  do v <- match snd kv with PStr s => encode se s | v => encode (str "utf-8") (py_str repr v) end;
  Ok (k, v).
Definition startup_dict (user database settings : pval) : res cpd :=
  do s <- startup_settings settings;
  let tnkw := dupdate [(str "client_min_messages", PStr (str "WARNING"))] s in
  let tnkw := dset (str "user") user tnkw in
  Ok (if is_none database then tnkw else dset (str "database") database tnkw).
Definition startup_of (user password database settings server_encoding : pval) : res (list (list Z * list Z) * list Z) :=
  do tnkw <- startup_dict user database settings;
  do se <- encoding_name server_encoding;
  do params <- mapM (encode_pair se) tnkw;
  do pw <- (if truth password then match password with PStr s => encode se s | _ => Err AttributeError end else encode se []);
  Ok (params, pw).

(** api.py:1116-1130 and pq3.py:2783-2808 Connector.__init__, _security, then the class's own part [own] (it gets the
    socket_secure), then _startup.  A category that is not None is not one of our values: TypeError.  The warning about
    sslrootcrlfile has no effect here. *)
Definition connector_init (kw : cpd) (own : pval * pval * pval -> res target) : res connector :=
  if is_none (arg (str "user") kw) then Err TypeError else
  if negb (is_none (arg (str "category") kw)) then Err TypeError else
  let secure := (or_none (arg (str "sslkeyfile") kw), or_none (arg (str "sslcrtfile") kw), or_none (arg (str "sslrootcrtfile") kw)) in
  do t <- own secure;
  do sp <- startup_of (arg (str "user") kw) (arg (str "password") kw) (arg (str "database") kw) (arg (str "settings") kw) (arg (str "server_encoding") kw);
  Ok {| c_user := arg (str "user") kw; c_password := arg (str "password") kw; c_database := arg (str "database") kw;
        c_settings := arg (str "settings") kw; c_timeout := arg (str "connect_timeout") kw;
        c_sslmode := or_none (arg (str "sslmode") kw); c_secure := secure; c_target := t;
        c_startup := fst sp; c_pw := snd sp |}.
(** int(port) *)
Definition int_of (v : pval) : res Z :=
  match v with
  | PInt z => Ok z
  | PBool b => Ok (if b then 1 else 0)
  | PStr s => py_int U dv 10 s
  | _ => Err TypeError
  end.
(** x == n for a number n *)
Definition is_int (v : pval) (n : Z) : bool :=
  match v with PInt z => z =? n | PBool b => (if b then 1 else 0) =? n | _ => false end.
(** pq3.py:2855-2908 IPConnector, IP4, IP6 *)
Definition ip_target (family ipv : Z) (host port : pval) (given : option pval) (secure : pval * pval * pval) : res target :=
  if negb (is_int (match given with Some v => v | None => PInt ipv end) ipv) then Err TypeError else
  match host with
  | PNone => Err TypeError
  | PStr h =>
      if is_none port then Err TypeError else
      do p <- int_of port; Ok (Fixed {| f_create := [family; SOCK_STREAM]; f_connect := Inet h p; f_secure := secure |})
  | _ => Err TypeError
  end.
(** pq3.py:2910-2934 Unix *)
Definition unix_target (unix : pval) (secure : pval * pval * pval) : res target :=
  if is_none unix then Err TypeError else
  Ok (Fixed {| f_create := [AF_UNIX; SOCK_STREAM]; f_connect := Path unix; f_secure := secure |}).
(** pq3.py:2961-2992 Host.__init__ *)
Definition host_target (host port ipv family : pval) : res target :=
  if is_none host then Err TypeError else if is_none port then Err TypeError else
  if negb (is_none family) && negb (is_none ipv) then Err TypeError else
  if is_none ipv then Ok (Lookup host port (if truth family then family else PInt AF_UNSPEC))
  else if is_int ipv 4 then Ok (Lookup host port (PInt AF_INET))
  else if is_int ipv 6 then Ok (Lookup host port (PInt AF_INET6))
  else Err TypeError.
(** pq3.py:3010-3048 Driver.fit.  The keywords driver and self are given by the methods themselves. *)
Definition fit (params : cpd) : res connector :=
  if dmem (str "driver") params || dmem (str "self") params then Err TypeError else
  let unix := arg (str "unix") params in
  let host := arg (str "host") params in
  let port := arg (str "port") params in
  let kw := ddel (str "port") (ddel (str "host") (ddel (str "unix") params)) in
  if negb (is_none unix) then
    if negb (is_none host) then Err TypeError else
    if negb (is_none port) then Err TypeError else
    connector_init kw (unix_target unix)
  else
    if is_none host || is_none port then Err TypeError else
    match host with
    | PStr h =>
        do six <- (if memZ 58 h then pton6 h else Ok false);
        if six then connector_init kw (ip_target AF_INET6 6 host port (dget (str "ipv") kw)) else
        do four <- aton h;
        if four then connector_init kw (ip_target AF_INET 4 host port (dget (str "ipv") kw)) else
        connector_init kw (fun _ => host_target host port (arg (str "ipv") kw) (arg (str "address_family") kw))
    | _ => Err TypeError
    end.
(** socket_factory_sequence: pq3.py:2856-2857, 2914-2915, 2940-2953 *)
Definition factories (c : connector) : res (list factory) :=
  match c_target c with
  | Fixed f => Ok [f]
  | Lookup h p fam =>
      do l <- getaddrinfo h p fam;
      Ok (map (fun x => {| f_create := fst x; f_connect := Inet (fst (snd x)) (snd (snd x)); f_secure := c_secure c |}) l)
  end.

(** ** __init__.py:38-94 open() *)
Context (join : text -> text -> text) (exists_file : text -> bool) (sections : text -> list (text * list (text * text))) (user userdir : text).
Context (passfile : cpd -> pval -> res pval) (prompt : text).
(** clientparameters.collect(prompt_title = None): without resolve_password *)
Definition std_params (env : list (text * text)) : res cpd :=
  do items <- collect_items U join exists_file sections user userdir false [] (Some env) (str "PG") [] None None;
  normalize items.
(** denormalize_parameters gives pairs only: [pairs_of] forgets that an item could be something else *)
Definition pairs_of (l : list pitem) : list (list text * pval) :=
  flat_map (fun i => match i with At p v => [(p, v)] | Special _ _ => [] end) l.
(** an IRI that begins with an ampersand gives the connector only *)
Definition split_amp (iri : text) : bool * text :=
  match iri with c :: r => if c =? 38 then (true, r) else (false, iri) | [] => (false, iri) end.
Definition open_params (iri : option text) (kw : cpd) (env : list (text * text)) : res cpd :=
  do ip <- match iri with
           | Some s => do d <- iri_parse U (snd (split_amp s)); Ok (ddel (str "path") d)
           | None => Ok []
           end;
  do std <- std_params env;
  let std := if dmem (str "unix") kw || dmem (str "unix") ip then ddel (str "port") (ddel (str "host") std) else std in
  do a <- denormalize std;
  do b <- denormalize ip;
  do c <- denormalize kw;
  do d <- normalize (pairs_of (a ++ b ++ c));
  resolve_password passfile prompt d.
End ctor.
