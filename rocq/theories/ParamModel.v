(** ParamModel.v: /repo/postgresql/clientparameters.py *)
From Verif Require Import PyStr PyDict IRIModel.

(** the items of the sources: a key path with its value, or a name (config-..., or that of a callback) with its value *)
Inductive pitem := At (path : list text) (v : pval) | Special (name : text) (v : pval).

(** clientparameters.py:559-570 normalize: rd[k0]...[kn] = v with setdefault(ki, {}) on the way.
    The dictionaries are not shared with the caller's. *)
Fixpoint set_path (p : list text) (v : pval) (d : cpd) : res cpd :=
  match p with
  | [] => Err IndexError
  | [k] => Ok (dset k v d)
  | k :: p =>
      match dget k d with
      | None => do s <- set_path p v []; Ok (dset k (PDict s) d)
      | Some (PDict s) => do s <- set_path p v s; Ok (dset k (PDict s) d)
      | Some _ => Err TypeError
      end
  end.
Fixpoint normalize_go (items : list (list text * pval)) (d : cpd) : res cpd :=
  match items with [] => Ok d | (p, v) :: r => do d <- set_path p v d; normalize_go r d end.
Definition normalize (items : list (list text * pval)) : res cpd := normalize_go items [].

(** clientparameters.py:422-435 denormalize_parameters; dict(v) of the settings *)
Fixpoint denormalize (p : cpd) : res (list pitem) :=
  match p with
  | [] => Ok []
  | (k, v) :: r =>
      do h <- (if seqb k k_settings then
                 match v with
                 | PDict s => Ok (map (fun q => At [k_settings; fst q] (snd q)) s)
                 | PItems s => Ok (map (fun q => At [k_settings; fst q] (snd q)) (dupdate [] s))
                 | PStr [] | PList [] => Ok []
                 | PStr _ | PList _ => Err ValueError
                 | _ => Err TypeError
                 end
               else Ok [At [k] v]);
      do t <- denormalize r; Ok (h ++ t)
  end.
(** clientparameters.py:417-420 x_settings *)
Definition x_settings (v : pval) : res (list pitem) :=
  match v with
  | PDict s => Ok (map (fun q => At [k_settings; fst q] (snd q)) s)
  | PItems s => Ok (map (fun q => At [k_settings; fst q] (snd q)) (dupdate [] s))
  | PStr [] | PList [] => Ok []
  | PStr _ | PList _ => Err ValueError
  | _ => Err TypeError
  end.

(** clientparameters.py:77-92 *)
Definition service_driver_parameters : list text :=
  [str "user"; str "host"; str "database"; str "port"; str "password"; str "sslcrtfile"; str "sslkeyfile"; str "sslrootcrtfile";
   str "sslrootkeyfile"; str "sslmode"; str "server_encoding"; str "connect_timeout"].
(** clientparameters.py:95-123 *)
Definition envvar_settings_map : list (text * text) :=
  [(str "TZ", str "timezone"); (str "DATESTYLE", str "datestyle"); (str "CLIENTENCODING", str "client_encoding");
   (str "GEQO", str "geqo"); (str "OPTIONS", str "options")].
Definition envvar_map : list (text * text) :=
  [(str "USER", str "user"); (str "DATABASE", str "database"); (str "HOST", str "host"); (str "PORT", str "port");
   (str "PASSWORD", str "password"); (str "SSLMODE", str "sslmode"); (str "SSLKEY", str "sslkey");
   (str "CONNECT_TIMEOUT", str "connect_timeout"); (str "REALM", str "kerberos4_realm"); (str "KRBSRVNAME", str "kerberos5_service");
   (str "PASSFILE", str "pgpassfile")].

Section params.
Context (U : unicode).
(** what os.path.join gives, which files exist, and the sections of a service file (configparser) *)
Context (join : text -> text -> text) (exists_file : text -> bool) (sections : text -> list (text * list (text * text))).
(** getuser(), the user's directory, what lookup_pgpass gives, and the answer to a prompt *)
Context (user : text) (userdir : text) (passfile : cpd -> pval -> res pval) (prompt : text).
Notation environ := (list (text * text)).

(** clientparameters.py:126-155 defaults, on posix *)
Definition default_files : list (text * text) :=
  let pgdata := join userdir (str ".postgresql") in
  [(str "sslcrtfile", join pgdata (str "postgresql.crt")); (str "sslkeyfile", join pgdata (str "postgresql.key"));
   (str "sslrootcrtfile", join pgdata (str "root.crt")); (str "sslrootcrlfile", join pgdata (str "root.crl"));
   (str "pgpassfile", join userdir (str ".pgpass"))].
Definition defaults : list pitem :=
  [At [str "user"] (PStr user); At [str "host"] (PStr (str "localhost")); At [str "port"] (PInt 5432)] ++
  map (fun p => At [fst p] (PStr (snd p))) (filter (fun p => exists_file (snd p)) default_files).

(** clientparameters.py:157-214 envvars *)
Definition env_items (env : environ) (prefix : text) : list pitem :=
  let get k := dget (prefix ++ k) env in
  (match get (str "REQUIRESSL") with
   | Some v => if seqb (py_strip U v) (str "1") then [At [str "sslmode"] (PList [str "require"; prefix ++ str "REQUIRESSL" ++ str "=1"])] else []
   | None => []
   end) ++
  flat_map (fun p => match get (fst p) with Some v => [At [snd p] (PStr v)] | None => [] end) envvar_map ++
  (match get (str "HOSTADDR") with Some v => [At [str "host"] (PStr v)] | None => [] end) ++
  (* the settings of lines 200-205 are collected but not yielded *)
  (match dget (str "PGSYSCONFDIR") env with Some v => [Special (str "config-pg_sysconfdir") (PStr v)] | None => [] end) ++
  (match dget (str "PGSERVICEFILE") env with Some v => [Special (str "config-pg_service_file") (PStr v)] | None => [] end) ++
  (match get (str "SERVICE") with Some v => [Special (str "pg_service") (PStr v)] | None => [] end).

(** clientparameters.py:442-505 x_pg_service *)
Definition service_item (p : text * text) : list pitem :=
  let k := py_lower U (fst p) in
  let v := PStr (snd p) in
  if seqb k (str "ldap") then [Special (str "pg_ldap") (PStr (k ++ [58] ++ snd p))]
  else if seqb k (str "pg_service") then []
  else if seqb k (str "hostaddr") then [At [str "host"] v]
  else if seqb k (str "dbname") then [At [str "database"] v]
  else if negb (existsb (seqb k) service_driver_parameters) then [At [k_settings; k] v]
  else [At [k] v].
Definition text_config (k : text) (config : cpd) : option text :=
  match dget k config with Some (PStr s) => Some s | _ => None end.
Definition service_files (config : cpd) : list text :=
  [match text_config (str "pg_service_file") config with Some f => f | None => join userdir (str ".pg_service.conf") end] ++
  (match text_config (str "pg_sysconfdir") config with
   | Some ((_ :: _) as d) => [join d (match text_config (str "pg_service_filename") config with Some f => f | None => str "pg_service.conf" end)]
   | _ => []
   end).
Fixpoint find_service (files : list text) (name : text) : res (list pitem) :=
  match files with
  | [] => Err (OtherError 2)
  | f :: r =>
      if exists_file f then
        match dget name (sections f) with
        | Some entries => Ok (flat_map service_item entries)
        | None => find_service r name
        end
      else find_service r name
  end.
(** clientparameters.py:437-438, 442, 507-508, 510-515: the callbacks *)
Definition callback (name : text) : option (pval -> cpd -> res (list pitem)) :=
  if seqb name k_settings then Some (fun v _ => x_settings v)
  else if seqb name (str "pq_iri") then
    Some (fun v _ => match v with PStr s => do p <- iri_parse U s; denormalize p | _ => Err TypeError end)
  else if seqb name (str "pg_service") then
    Some (fun v config => match v with PStr s => find_service (service_files config) s | _ => Err TypeError end)
  else if seqb name (str "pg_ldap") then Some (fun _ _ => Err (OtherError 3))
  else None.
(** clientparameters.py:517-543 extrapolate; the nesting of the callbacks is at most [fuel].  The items of a
    callback never set the configuration. *)
Definition config_prefix := str "config-".
Fixpoint extrapolate (fuel : nat) (items : list pitem) (config : cpd) : res (list (list text * pval)) :=
  match fuel with
  | O => Err OutOfFuel
  | S fuel =>
      (fix go (items : list pitem) (config : cpd) : res (list (list text * pval)) :=
         match items with
         | [] => Ok []
         | At p v :: r => do t <- go r config; Ok ((p, v) :: t)
         | Special k v :: r =>
             if py_startswith config_prefix k then go r (dset (skipn 7 k) v config)
             else match callback k with
                  | None => go r config
                  | Some cb => do xs <- cb v config; do h <- extrapolate fuel xs config; do t <- go r config; Ok (h ++ t)
                  end
         end) items config
  end.
(** clientparameters.py:374-415 resolve_password; the text of the prompt is left out.  stdin: see [prompt] *)
Definition resolve_password (p : cpd) : res cpd :=
  let prompted := match dget (str "prompt_password") p with Some (PBool true) => true | _ => false end in
  let pgpassfile := dget (str "pgpassfile") p in
  let p := ddel (str "prompt_title") (ddel (str "pgpassfile") (ddel (str "prompt_password") p)) in
  if prompted then Ok (dset (str "password") (PStr prompt) p)
  else match dget (str "password") p with
       | None | Some PNone =>
           match pgpassfile with
           | None | Some PNone => Ok p
           | Some f => do w <- passfile p f; Ok (dset (str "password") w p)
           end
       | Some _ => Ok p
       end.
(** clientparameters.py:582-634 collect *)
Definition config_items (sysconfdir service_file : option text) : list pitem :=
  (match sysconfdir with Some d => [Special (str "config-pg_sysconfdir") (PStr d)] | None => [] end) ++
  (match service_file with Some f => [Special (str "config-pg_service_file") (PStr f)] | None => [] end).
Definition collect_items (no_defaults : bool) (parameters : cpd) (env : option environ) (prefix : text) (options : list pitem)
    (sysconfdir service_file : option text) : res (list (list text * pval)) :=
  do ps <- denormalize parameters;
  extrapolate 3 (config_items sysconfdir service_file ++ (if no_defaults then [] else defaults) ++ ps ++
    (match env with Some e => env_items e prefix | None => [] end) ++ options) [(str "environ", PNone)].
Definition collect (no_defaults : bool) (parameters : cpd) (env : option environ) (prefix : text) (options : list pitem)
    (sysconfdir service_file : option text) : res cpd :=
  do items <- collect_items no_defaults parameters env prefix options sysconfdir service_file;
  do d <- normalize items;
  resolve_password d.
End params.
