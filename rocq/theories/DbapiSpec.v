(** DbapiSpec.v: what the DB-API says about fetching, on result sets as plain lists of the rows left *)
From Verif Require Import Base PyList DbapiModel.
Section rows.
Context {A : Type}.
(** the rows a chunks iterator gives *)
Definition rows_of (s : list (res (list A))) : list A := flat_map (fun c => match c with Ok l => l | Err _ => [] end) s.
Definition error_free (s : list (res (list A))) : Prop := Forall (fun c => is_ok c = true) s.
(** a cursor: the rows left of each result set, the current one first; None when closed *)
Record scursor := { s_sets : option (list (list A)); s_arraysize : Z }.
Definition scursor_init : scursor := {| s_sets := Some []; s_arraysize := 1 |}.
Definition on_set (c : scursor) (f : list A -> list A * cret A) : scursor * cret A :=
  match s_sets c with
  | None => (c, RExn (OtherError 1))
  | Some [] => (c, RExn (OtherError 2))
  | Some (l :: r) => let (l', x) := f l in ({| s_sets := Some (l' :: r); s_arraysize := s_arraysize c |}, x)
  end.
(** the number of rows fetchmany is asked for: its argument, else the arraysize, else one *)
Definition wanted (n : option Z) (arraysize : Z) : nat :=
  Z.to_nat (match n with Some (Zpos p) => Zpos p | _ => if arraysize =? 0 then 1 else arraysize end).
Definition sstep (c : scursor) (o : cop A) : scursor * cret A :=
  match o with
  | Execute s => match s_sets c with None => (c, RExn (OtherError 1)) | Some r => ({| s_sets := Some (rows_of s :: r); s_arraysize := s_arraysize c |}, RDone) end
  | ExecuteNone => match s_sets c with None => (c, RExn (OtherError 1)) | Some r => ({| s_sets := Some (tl r); s_arraysize := s_arraysize c |}, RDone) end
  | FetchOne => on_set c (fun l => match l with [] => ([], RNoRow) | a :: l => (l, RRow a) end)
  | Next => on_set c (fun l => match l with [] => ([], RExn StopIteration) | a :: l => (l, RRow a) end)
  | FetchMany n => on_set c (fun l => let k := wanted n (s_arraysize c) in (skipn k l, RRows (firstn k l)))
  | FetchAll => on_set c (fun l => ([], RRows l))
  | NextSet =>
      match s_sets c with
      | None => (c, RExn (OtherError 1))
      | Some [] => (c, RExn (OtherError 2))
      | Some (_ :: r) => ({| s_sets := Some r; s_arraysize := s_arraysize c |}, RCount (match r with [] => None | _ => Some (len r) end))
      end
  | SetArraysize n => ({| s_sets := s_sets c; s_arraysize := n |}, RDone)
  | Close => match s_sets c with None => (c, RExn (OtherError 1)) | Some _ => ({| s_sets := None; s_arraysize := s_arraysize c |}, RDone) end
  end.
Fixpoint srun (c : scursor) (ops : list (cop A)) : scursor * list (cret A) :=
  match ops with [] => (c, []) | o :: r => let (c, x) := sstep c o in let (c, xs) := srun c r in (c, x :: xs) end.
(** sizes are not negative *)
Definition good_op (o : cop A) : Prop :=
  match o with FetchMany (Some n) | SetArraysize n => 0 <= n | _ => True end.
Definition good_exec (o : cop A) : Prop := match o with Execute s => error_free s | _ => True end.
(** fetching, and the rows that were delivered *)
Definition is_fetch (o : cop A) : Prop :=
  match o with FetchOne | Next | FetchAll | SetArraysize _ | FetchMany _ => True | _ => False end.
Definition delivered (rs : list (cret A)) : list A := flat_map (fun r => match r with RRow a => [a] | RRows l => l | _ => [] end) rs.
End rows.
Arguments scursor : clear implicits.
