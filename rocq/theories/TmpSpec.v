(** TmpSpec.v: the contexts a program has entered and not left. *)
From Verif Require Import PyStr PyDict TmpModel.

(** the names a context provides *)
Definition provided : list text := map str ["db"; "prepare"; "xact"; "sqlexec"; "do"; "settings"; "proc"; "connector"; "new"]%string.
Definition own_name (k : text) : Prop := ~ In k provided /\ k <> str "newdb".

(** [hist es open used]: a program that entered and left contexts as "with" does; [open]: the contexts it is in, the
    innermost first, with the connections made in them by new(); [used]: all the connections there have been *)
Inductive hist : list tev -> list (Z * list Z) -> list Z -> Prop :=
| hi_nil : hist [] [] []
| hi_enter es open used c os : hist es open used -> ~ In c used -> hist (es ++ [Enter c Good Good os]) ((c, []) :: open) (c :: used)
| hi_no_connection es open used c oc o os : hist es open used -> oc <> Good -> hist (es ++ [Enter c oc o os]) open used
| hi_no_schema es open used c e os : hist es open used -> ~ In c used -> hist (es ++ [Enter c Good (Fails e) os]) open (c :: used)
| hi_leave es c xs open used i os : hist es ((c, xs) :: open) used -> hist (es ++ [Exit i os]) open used
| hi_new es c xs open used e : hist es ((c, xs) :: open) used -> ~ In e used -> hist (es ++ [New e]) ((c, xs ++ [e]) :: open) (e :: used)
| hi_set es open used k v : hist es open used -> own_name k -> hist (es ++ [Set_ k v]) open used.

(** what the program itself put under a name last *)
Fixpoint last_set (es : list tev) (k : text) (before : option bval) : option bval :=
  match es with
  | [] => before
  | Set_ j v :: r => last_set r k (if seqb k j then Some (User v) else before)
  | _ :: r => last_set r k before
  end.
