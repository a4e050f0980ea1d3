(** CtorSpec.v: statement-level definitions for C75 (addresses), C76 (startup packet) and C77 (open) *)
From Verif Require Import Base PyStr PyDict StrSpec IRIModel ParamModel ParamSpec CtorModel.

(** a keyword that has a value, and one that has none: None is as good as nothing *)
Definition has (k : text) (params : cpd) (v : pval) : Prop := dget k params = Some v /\ v <> PNone.
Definition lacks (k : text) (params : cpd) : Prop := dget k params = None \/ dget k params = Some PNone.
(** the keywords a connector knows *)
Definition known_keywords : list text :=
  map str ["unix"; "host"; "port"; "ipv"; "address_family"; "user"; "password"; "database"; "settings"; "category"; "driver"; "self";
           "connect_timeout"; "server_encoding"; "sslmode"; "sslkeyfile"; "sslcrtfile"; "sslrootcrtfile"]%string.
(** the number of a port that is given as a number, or as decimal digits *)
Inductive port_number : pval -> Z -> Prop :=
| pn_int n : port_number (PInt n) n
| pn_text s : s <> [] -> Forall (fun c => 48 <= c <= 57) s -> port_number (PStr s) (fold_left (fun a c => a * 10 + (c - 48)) s 0).

(** ** what the server reads of a startup packet after the version number (backend/tcop: ProcessStartupPacket): names and
    values, each ended by a zero byte, until an empty name that must be the last byte *)
Inductive packet : list Z -> list (list Z * list Z) -> Prop :=
| pk_end : packet [0] []
| pk_pair k v rest l : k <> [] -> ~ In 0 k -> ~ In 0 v -> packet rest l -> packet (k ++ 0 :: v ++ 0 :: rest) ((k, v) :: l).
(** what the server reads of the value of search_path: names in quotation marks between commas *)
Inductive names : text -> list text -> Prop :=
| nm_last t v : quoted 34 t v [] -> names t [v]
| nm_more t v rest l : quoted 34 t v (44 :: rest) -> names rest l -> names t (v :: l).

(** the settings argument: a dictionary or a sequence of pairs, of which the last one counts *)
Definition setting (settings : pval) (k : text) : option pval :=
  match settings with PDict d => dget k d | PItems l => dget k (rev l) | _ => None end.
(** the bytes of a value: a text in the server's encoding, anything else as str() shows it *)
Definition value_bytes (encode : text -> text -> res (list Z)) (show : pval -> text) (se : text) (v : pval) (b : list Z) : Prop :=
  match v with PStr s => encode se s = Ok b | _ => encode (str "utf-8") (show v) = Ok b end.
(** the encoding that is used: UTF-8 if none is named *)
Definition encoding_used (params : cpd) (se : text) : Prop :=
  (se <> [] /\ dget (str "server_encoding") params = Some (PStr se))
  \/ ((forall e, dget (str "server_encoding") params = Some (PStr e) -> e = []) /\ se = str "utf-8").

(** ** open(): what a source says about a parameter (a path).  The settings may be a sequence of pairs. *)
Definition source_value (p : list text) (d : cpd) : option pval :=
  match p with
  | [k] => dget k d
  | [s; k] => match dget s d with Some v => setting v k | None => None end
  | _ => None
  end.
(** a Python dictionary of parameters *)
Definition real (d : cpd) : Prop := NoDup (dkeys d) /\ forall s, In (k_settings, PDict s) d -> NoDup (dkeys s).
(** the parameters of the IRI *)
Definition iri_given (U : unicode) (iri : option text) (ip : cpd) : Prop :=
  match iri with
  | None => ip = []
  | Some s => exists d, (iri_parse U s = Ok d /\ (forall r, s <> 38 :: r) \/ exists r, s = 38 :: r /\ iri_parse U r = Ok d) /\ ip = ddel (str "path") d
  end.
(** the value of a parameter or setting (a path): the keywords given to open() over the IRI over the service named in the environment
    over the environment over the defaults; when the keywords or the IRI name a socket file, the host and port come from these two only *)
Definition resolved (U : unicode) (join : text -> text -> text) (exists_file : text -> bool) (user userdir : text)
    (kw ip : cpd) (env es : list (text * text)) (p : list text) : option pval :=
  or_else (source_value p kw) (or_else (source_value p ip)
    (if (dmem (str "unix") kw || dmem (str "unix") ip) && (patheqb p [str "host"] || patheqb p [str "port"]) then None
     else or_else (service_value U es p) (or_else (env_value U env (str "PG") p) (default_value join exists_file user userdir p)))).
(** the entries of the service that the environment names, from the first service file that has it *)
Definition service_used (join : text -> text -> text) (exists_file : text -> bool) (sections : text -> list (text * list (text * text))) (userdir : text)
    (env es : list (text * text)) : Prop :=
  match service_named (Some env) (str "PG") with
  | None => es = []
  | Some n => first_section exists_file sections (files_of join userdir (Some env) None None) n = Some es
  end.
(** the password: prompted for if that is asked for, else the one given, else looked up in the password file for the parameters
    that were found; nothing remains of the parameters that control this *)
Definition password_resolved (passfile : cpd -> pval -> res pval) (prompt : text) (value : text -> option pval) (d : cpd) : Prop :=
  dget (str "prompt_password") d = None /\ dget (str "pgpassfile") d = None /\ dget (str "prompt_title") d = None /\
  (value (str "prompt_password") = Some (PBool true) -> dget (str "password") d = Some (PStr prompt)) /\
  (value (str "prompt_password") <> Some (PBool true) ->
     (forall v, value (str "password") = Some v -> v <> PNone -> dget (str "password") d = Some v) /\
     (value (str "password") = None \/ value (str "password") = Some PNone ->
        (forall f, value (str "pgpassfile") = Some f -> f <> PNone -> exists q w, passfile q f = Ok w /\ dget (str "password") d = Some w /\
           (forall k, k <> str "password" -> dget k q = dget k d)) /\
        (value (str "pgpassfile") = None \/ value (str "pgpassfile") = Some PNone -> dget (str "password") d = value (str "password")))).
