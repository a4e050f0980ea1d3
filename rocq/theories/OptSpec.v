(** OptSpec.v: statement-level definitions for C93: what a command line of pg_python says *)
From Verif Require Import PyStr PyDict IRIModel ParamModel PyxModel OptModel.

(** what can be said *)
Inductive given :=
| Host (v : text) | Port (v : text) | User (v : text) | Password | Database (v : text) | Unix (v : text)
| SslMode (v : text) | Setting (k v : text) | Iri (v : text)
| Lib (v : text) | Libpath (v : text) | Trace (v : text) | Context_ (v : text) | Module_ (v : text) | Command (v : text).
(** the letter that says it, and the word *)
Definition letter (g : given) : option Z :=
  match g with
  | Host _ => one "h" | Port _ => one "p" | User _ => one "U" | Password => one "W" | Database _ => one "d" | Setting _ _ => one "s"
  | Iri _ => one "I" | Lib _ => one "l" | Libpath _ => one "L" | Context_ _ => one "C" | Module_ _ => one "m" | Command _ => one "c"
  | Unix _ | SslMode _ | Trace _ => None
  end.
Definition word (g : given) : option text :=
  match g with
  | Host _ => Some (str "host") | Port _ => Some (str "port") | User _ => Some (str "username") | Password => Some (str "password")
  | Database _ => Some (str "database") | Unix _ => Some (str "unix") | SslMode _ => Some (str "ssl-mode")
  | Setting _ _ => Some (str "setting") | Iri _ => Some (str "iri") | Trace _ => Some (str "pq-trace") | Context_ _ => Some (str "context")
  | Lib _ | Libpath _ | Module_ _ | Command _ => None
  end.
Definition words : list text :=
  [str "host"; str "port"; str "username"; str "password"; str "database"; str "unix"; str "ssl-mode"; str "setting"; str "iri";
   str "pq-trace"; str "context"; str "help"; str "version"].
(** the value it is said with *)
Definition argument (g : given) : option text :=
  match g with
  | Password => None
  | Setting k v => Some (k ++ str "=" ++ v)
  | Host v | Port v | User v | Database v | Unix v | SslMode v | Iri v | Lib v | Libpath v | Trace v | Context_ v | Module_ v | Command v => Some v
  end.
(** what can be said at all: the key of a setting ends at the first =, and there are four modes *)
Definition sayable (g : given) : Prop :=
  match g with
  | Setting k _ => ~ In 61 k
  | SslMode v => v = str "require" \/ v = str "prefer" \/ v = str "allow" \/ v = str "disable"
  | _ => True
  end.
(** a beginning of a word that begins no other *)
Definition begins (p w : text) : Prop := exists t, w = p ++ t.
Definition abbreviates (p w : text) : Prop := p = w \/ (begins p w /\ (~ In p words) /\ forall w', In w' words -> begins p w' -> w' = w).
(** one way to write it in arguments, after any number of -W in the same argument *)
Inductive written : list given -> list text -> Prop :=
| w_letter g x v : sayable g -> letter g = Some x -> argument g = Some v -> written [g] [[45; x]; v]
| w_joined g x v : sayable g -> letter g = Some x -> argument g = Some v -> v <> [] -> written [g] [45 :: x :: v]
| w_word g w p v : sayable g -> word g = Some w -> abbreviates p w -> argument g = Some v -> written [g] [str "--" ++ p; v]
| w_word_eq g w p v : sayable g -> word g = Some w -> abbreviates p w -> argument g = Some v -> written [g] [str "--" ++ p ++ str "=" ++ v]
| w_password : written [Password] [str "-W"]
| w_password_word p : abbreviates p (str "password") -> written [Password] [str "--" ++ p]
| w_cluster gs c t r : c <> 45 -> written gs ((45 :: c :: t) :: r) -> written (Password :: gs) ((str "-W" ++ c :: t) :: r).
(** -m and -c end the options *)
Definition is_main (g : given) : bool := match g with Module_ _ | Command _ => true | _ => false end.
(** a whole command line: what it says, and the arguments of the program that is run *)
Inductive line : list text -> list given -> list text -> Prop :=
| l_end : line [] [] []
| l_dashes r : line (str "--" :: r) [] r
| l_arg a r : (forall t, a = 45 :: t -> t = []) -> line (a :: r) [] (a :: r)
| l_main gs g ts r : is_main g = true -> written (gs ++ [g]) ts -> line (ts ++ r) (gs ++ [g]) r
| l_more gs ts r gs' args : forallb (fun g => negb (is_main g)) gs = true -> written gs ts -> line r gs' args -> line (ts ++ r) (gs ++ gs') args.

(** what it means *)
Definition item (g : given) : list pitem :=
  match g with
  | Host v => [At [str "host"] (PStr v)] | Port v => [At [str "port"] (PStr v)] | User v => [At [str "user"] (PStr v)]
  | Password => [At [str "prompt_password"] (PBool true)] | Database v => [At [str "database"] (PStr v)]
  | Unix v => [At [str "unix"] (PStr v)] | SslMode v => [At [str "sslmode"] (PStr v)]
  | Setting k v => [At [str "settings"; k] (PStr v)] | Iri v => [Special (str "pq_iri") (PStr v)]
  | _ => []
  end.
Definition lasts {A} (l : list A) : option A := hd_error (rev l).
Definition meaning (gs : list given) : vals :=
  Vals (flat_map item gs)
       (flat_map (fun g => match g with Lib v => [v] | _ => [] end) gs)
       (flat_map (fun g => match g with Libpath v => [v] | _ => [] end) gs)
       (lasts (flat_map (fun g => match g with Trace v => [v] | _ => [] end) gs))
       (flat_map (fun g => match g with Context_ v => [context_of v] | _ => [] end) gs)
       (lasts (flat_map (fun g => match g with Module_ v => [(v, KModule)] | Command v => [(v, KCommand)] | _ => [] end) gs)).
