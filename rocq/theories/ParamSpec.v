(** ParamSpec.v: statement-level definitions for C43 *)
From Verif Require Import PyStr PyDict IRIModel ParamModel.

(** d[k0][k1]...[kn], if it is there *)
Fixpoint get_path (p : list text) (d : cpd) : option pval :=
  match p with
  | [] => None
  | [k] => dget k d
  | k :: p => match dget k d with Some (PDict s) => get_path p s | _ => None end
  end.
Definition patheqb (p q : list text) : bool := if list_eq_dec (list_eq_dec Z.eq_dec) p q then true else false.
(** the value of the last item for exactly this path *)
Fixpoint last_of (p : list text) (items : list (list text * pval)) : option pval :=
  match items with
  | [] => None
  | (q, v) :: r => match last_of p r with Some w => Some w | None => if patheqb p q then Some v else None end
  end.
Definition or_else {A} (a b : option A) : option A := match a with Some _ => a | None => b end.
(** no path leads through the value of another *)
Definition prefix_free (ps : list (list text)) : Prop :=
  (forall p, In p ps -> p <> []) /\ (forall p q, In p ps -> In q ps -> forall r, q = p ++ r -> r = []).
(** the paths of connection parameters: a parameter, or one of the settings *)
Definition standard (p : list text) : Prop := (exists k, p = [k] /\ k <> k_settings) \/ (exists k, p = [k_settings; k]).
Definition standard_item (i : pitem) : Prop := match i with At p _ => standard p | Special _ _ => True end.
(** the plain items of a source *)
Definition pairs (l : list pitem) : list (list text * pval) :=
  flat_map (fun i => match i with At p v => [(p, v)] | Special _ _ => [] end) l.
(** a dictionary of parameters as they are given to connect() *)
Definition proper (d : cpd) : Prop :=
  NoDup (dkeys d) /\ forall v, In (k_settings, v) d -> exists s, v = PDict s /\ s <> [] /\ NoDup (dkeys s).
(** ** what each source says about a parameter (a path) *)
Section sources.
Context (U : unicode) (join : text -> text -> text) (exists_file : text -> bool) (user userdir : text).
(** the documented variables (clientparameters.py:158-183), without the prefix *)
Definition plain_variables : list (text * text) :=
  [(str "user", str "USER"); (str "database", str "DATABASE"); (str "port", str "PORT"); (str "password", str "PASSWORD");
   (str "pgpassfile", str "PASSFILE"); (str "kerberos4_realm", str "REALM"); (str "kerberos5_service", str "KRBSRVNAME");
   (str "sslkey", str "SSLKEY"); (str "connect_timeout", str "CONNECT_TIMEOUT")].
Definition env_value (env : list (text * text)) (prefix : text) (p : list text) : option pval :=
  let var k := option_map PStr (dget (prefix ++ k) env) in
  match p with
  | [k] =>
      if seqb k (str "host") then or_else (var (str "HOSTADDR")) (var (str "HOST"))
      else if seqb k (str "sslmode") then
        or_else (var (str "SSLMODE"))
          (match dget (prefix ++ str "REQUIRESSL") env with
           | Some v => if seqb (py_strip U v) (str "1") then Some (PList [str "require"; prefix ++ str "REQUIRESSL" ++ str "=1"]) else None
           | None => None
           end)
      else match dget k plain_variables with Some v => var v | None => None end
  | _ => None
  end.
(** the files looked for in the user's directory *)
Definition user_files : list (text * text) :=
  [(str "sslcrtfile", join (join userdir (str ".postgresql")) (str "postgresql.crt"));
   (str "sslkeyfile", join (join userdir (str ".postgresql")) (str "postgresql.key"));
   (str "sslrootcrtfile", join (join userdir (str ".postgresql")) (str "root.crt"));
   (str "sslrootcrlfile", join (join userdir (str ".postgresql")) (str "root.crl"));
   (str "pgpassfile", join userdir (str ".pgpass"))].
Definition default_value (p : list text) : option pval :=
  match p with
  | [k] =>
      if seqb k (str "user") then Some (PStr user)
      else if seqb k (str "host") then Some (PStr (str "localhost"))
      else if seqb k (str "port") then Some (PInt 5432)
      else match dget k user_files with Some f => if exists_file f then Some (PStr f) else None | None => None end
  | _ => None
  end.
(** the parameter named by a key of a section of a service file *)
Definition service_path (key : text) : option (list text) :=
  let k := py_lower U key in
  if seqb k (str "pg_service") then None
  else if seqb k (str "hostaddr") then Some [str "host"]
  else if seqb k (str "dbname") then Some [str "database"]
  else if existsb (seqb k) [str "user"; str "host"; str "database"; str "port"; str "password"; str "sslcrtfile"; str "sslkeyfile";
         str "sslrootcrtfile"; str "sslrootkeyfile"; str "sslmode"; str "server_encoding"; str "connect_timeout"] then Some [k]
  else Some [k_settings; k].
(** the last entry of the section for the parameter *)
Fixpoint service_value (entries : list (text * text)) (p : list text) : option pval :=
  match entries with
  | [] => None
  | (key, v) :: r =>
      or_else (service_value r p)
        (match service_path key with Some q => if patheqb p q then Some (PStr v) else None | None => None end)
  end.
(** the section of the first file that exists and has one of that name *)
Fixpoint first_section (sections : text -> list (text * list (text * text))) (files : list text) (name : text) : option (list (text * text)) :=
  match files with
  | [] => None
  | f :: r => or_else (if exists_file f then dget name (sections f) else None) (first_section sections r name)
  end.
End sources.
(** a dictionary of parameters given to collect *)
Definition given (d : cpd) : Prop :=
  NoDup (dkeys d) /\ forall v, In (k_settings, v) d -> exists s, v = PDict s /\ NoDup (dkeys s).
(** the keys resolve_password deals with *)
Definition password_keys : list text := [str "prompt_password"; str "pgpassfile"; str "prompt_title"; str "password"].

(** the options of the command line: a parameter or setting, or an IRI *)
Definition option_item (i : pitem) : Prop :=
  match i with At p _ => standard p | Special n v => n = str "pq_iri" /\ exists s, v = PStr s end.
Definition option_pairs (U : unicode) (i : pitem) : res (list (list text * pval)) :=
  match i with
  | At p v => Ok [(p, v)]
  | Special _ (PStr iri) => do d <- iri_parse U iri; do l <- denormalize d; Ok (pairs l)
  | Special _ _ => Ok []
  end.
(** the service files, the first one to be looked at first *)
Definition files_of (join : text -> text -> text) (userdir : text) (env : option (list (text * text))) (sysconfdir service_file : option text) : list text :=
  let var k := match env with Some e => dget k e | None => None end in
  [match or_else (var (str "PGSERVICEFILE")) service_file with Some f => f | None => join userdir (str ".pg_service.conf") end] ++
  (match or_else (var (str "PGSYSCONFDIR")) sysconfdir with Some ((_ :: _) as d) => [join d (str "pg_service.conf")] | _ => [] end).
Definition service_named (env : option (list (text * text))) (prefix : text) : option text :=
  match env with Some e => dget (prefix ++ str "SERVICE") e | None => None end.
