(** RISpec.v: when the components of a resource indicator are unambiguous. *)
From Verif Require Import PyStr RIModel.

(** the components of the 5-tuple contain none of the markers that end them; a netloc
    is not empty; a scheme is made of scheme characters *)
Definition free (bad s : text) : Prop := Forall (fun c => ~ In c bad) s.
Definition on_opt {A} (P : A -> Prop) (o : option A) : Prop := match o with Some x => P x | None => True end.
Definition proper (t : ri) : Prop :=
  (exists sc, r_scheme t = Some sc /\ forallb scheme_char sc = true) /\
  on_opt (fun n => n <> [] /\ free [47; 63; 35] n) (r_netloc t) /\
  on_opt (free [63; 35]) (r_path t) /\ on_opt (free [35]) (r_query t).

(** a host that can be told from the rest: not empty, and either without a colon (and
    without an at sign when there is no user) and not starting with a bracket, or an
    address in brackets that needs no escape *)
Definition plain_host (user : option text) (h : text) : Prop :=
  h <> [] /\ ~ In 58 h /\ (user = None -> ~ In 64 h) /\ hd 0 h <> 91.
Definition bracketed (user : option text) (h : text) : Prop :=
  exists a, h = [91] ++ a ++ [93] /\ ~ In 93 a /\ Forall (fun c => escape_host_re c = false) a /\ (user = None -> ~ In 64 a).
Definition proper_net (n : netloc) : Prop :=
  match n_host n with
  | Some h => plain_host (n_user n) h \/ bracketed (n_user n) h
  | None => n_port n = None
  end /\ (n_user n = None -> n_password n = None) /\
  (n_host n = None -> n_user n = None -> False) /\
  (n_user n = None -> on_opt (fun p => ~ In 64 p) (n_port n)).
(** a dictionary all parts of which can be written *)
Definition proper_dict (d : rid) : Prop :=
  (exists sc, d_scheme d = Some sc /\ forallb scheme_char sc = true) /\
  (d_net d = no_netloc \/ proper_net (d_net d)) /\
  d_path d <> Some [[]] /\ d_query d <> Some [([], None)].
(** a hexadecimal digit and its value *)
Definition hex_value (c : Z) (v : nat) : Prop := nth_error (str "0123456789abcdef") v = Some c \/ nth_error (str "0123456789ABCDEF") v = Some c.
