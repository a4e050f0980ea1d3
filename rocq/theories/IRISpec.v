(** IRISpec.v: the connection parameters a PQ IRI can express. *)
From Verif Require Import PyStr RIModel RISpec IRIModel PyDict.

(** the string under key [k] of the dictionary *)
Definition text_of (k : text) (x : cpd) : option text := match dget k x with Some (PStr s) => Some s | _ => None end.
Definition is_text (k : text) (x : cpd) : Prop := match dget k x with Some (PStr _) | None => True | Some _ => False end.
Definition absent (k : text) (x : cpd) : Prop := dget k x = None.

(** a host: a name, or an address with colons that needs no escape *)
Definition good_host (user : option text) (h : text) : Prop :=
  h <> [] /\ (user = None -> ~ In 64 h) /\
  (~ In 58 h -> hd 0 h <> 91) /\
  (In 58 h -> ~ In 93 h /\ Forall (fun c => escape_host_re c = false) h /\ py_startswith (str "unix:") h = false).
Definition good_socket (user : option text) (u : text) : Prop :=
  free [58; 63; 35; 37; 93] u /\ Forall (fun c => ~ 0 <= c <= 32) u /\ (user = None -> ~ In 64 u).
(** a component of the path, the database included: it is written as it is *)
Definition good_component (c : text) : Prop := free [47; 63; 35; 92] c.

Definition good_settings (s : cpd) : Prop :=
  s <> [] /\ NoDup (map fst s) /\
  (forall k v, In (k, v) s -> k <> k_search_path -> k <> [] /\ bracketed_key k = false /\ exists t, v = PStr t) /\
  (forall v, In (k_search_path, v) s -> exists l, v = PList l /\ l <> [] /\ l <> [[]]).

Definition expressible (x : cpd) : Prop :=
  NoDup (map fst x) /\
  (* user, password, host, socket, port, database are strings *)
  Forall (fun k => is_text k x) [str "user"; str "password"; str "host"; str "unix"; str "port"; str "database"] /\
  absent (str "ssl") x /\ absent (str "ipv") x /\
  (* no password without a user; one of host and socket; no port without them *)
  (absent (str "user") x -> absent (str "password") x) /\
  (absent (str "host") x \/ absent (str "unix") x) /\
  (absent (str "host") x -> absent (str "unix") x -> absent (str "port") x) /\
  (absent (str "user") x -> on_opt (fun p => ~ In 64 p) (text_of (str "port") x)) /\
  on_opt (good_host (text_of (str "user") x)) (text_of (str "host") x) /\
  on_opt (good_socket (text_of (str "user") x)) (text_of (str "unix") x) /\
  (* the path follows a database *)
  on_opt (fun d => d <> [] /\ good_component d) (text_of (str "database") x) /\
  match dget (str "path") x with
  | None => True
  | Some v => ~ absent (str "database") x /\ exists l, v = PList l /\ l <> [] /\ Forall good_component l
  end /\
  (* the other parameters *)
  (forall k v, In (k, v) x -> is_reserved k = false -> ~ In 37 k /\ exists t, v = PStr t) /\
  match dget k_settings x with None => True | Some v => exists s, v = PDict s /\ good_settings s end.

(** equal dictionaries, whatever the order of the keys in them and in their settings *)
Definition same_value (a b : option pval) : Prop :=
  match a, b with
  | Some (PDict d), Some (PDict e) => forall k, dget k d = dget k e
  | a, b => a = b
  end.
Definition same_params (x y : cpd) : Prop := forall k, same_value (dget k x) (dget k y).
