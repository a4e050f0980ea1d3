(** DescModel.v: /repo/postgresql/driver/dbapi20.py 63-80 (dbapi_type), 130-140, 164-183, 255-309: what a DB-API cursor says of its
    statements. The fetching is DbapiModel's. *)
From Verif Require Import Base PyStr DbapiModel.
(** 42-46: STRING is str, BINARY is bytes, NUMBER and ROWID are int, DATETIME is datetime.datetime *)
Inductive type_code := TStr | TBytes | TInt | TDatetime | TNone.
(** 63-80, with the numbers of /repo/postgresql/types/__init__.py 16-59 *)
Definition dbapi_type (typid : Z) : type_code :=
  if existsb (Z.eqb typid) [25; 18; 1043; 19; 2275] then TStr
  else if typid =? 17 then TBytes
  else if existsb (Z.eqb typid) [20; 21; 23] then TInt
  else if existsb (Z.eqb typid) [1114; 1184] then TDatetime
  else if typid =? 26 then TInt
  else TNone.
(** a description: (), None, or the name and type of each column with five Nones *)
Inductive descr := DEmpty | DNone | DCols (l : list (text * type_code)).

Section rows.
Context {A : Type} (decode : list Z -> res text).
Record dcursor := { d_cur : cursor A; d_rowcount : Z; d_descr : descr }.
(** 130-140 *)
Definition dcursor_init : dcursor := {| d_cur := cursor_init; d_rowcount := -1; d_descr := DEmpty |}.
Inductive dop :=
| DExec (output : list (list Z * Z)) (rows : list (res (list A))) (count : option Z)  (* the statement is prepared and executed: its columns, rows and count *)
| DExecFail (e : exn)                                           (* 260-269 raises *)
| DMany (r : option exn)                                        (* executemany; None: it succeeds *)
| DCall (rows : list (res (list A)))                            (* callproc *)
| DCallFail (e : exn)
| DSizes                                                        (* setinputsizes, setoutputsize *)
| DOp (o : cop A).                                              (* fetching, nextset, close, arraysize *)
Definition is_closed (c : dcursor) : bool := match c_portals (d_cur c) with None => true | _ => false end.
Definition closed_error : cret A := RExn (OtherError 1).
Definition dstep (c : dcursor) (o : dop) : dcursor * cret A :=
  match o with
  | DExec output rows count =>
      (* 255-288 *)
      if is_closed c then (c, closed_error) else
      match output with
      | [] =>
          let (cur, _) := cstep (d_cur c) ExecuteNone in
          ({| d_cur := cur; d_rowcount := match count with Some n => n | None => -1 end; d_descr := DNone |}, RDone)
      | _ =>
          match mapM (fun x => decode (fst x)) output with
          | Err e => ({| d_cur := d_cur c; d_rowcount := -1; d_descr := d_descr c |}, RExn e)
          | Ok names =>
              let (cur, r) := cstep (d_cur c) (Execute rows) in
              ({| d_cur := cur; d_rowcount := -1; d_descr := DCols (combine names (map (fun x => dbapi_type (snd x)) output)) |}, r)
          end
      end
  | DExecFail e => if is_closed c then (c, closed_error) else (c, RExn e)
  | DMany r =>
      (* 290-303 *)
      if is_closed c then (c, closed_error) else
      match r with
      | Some e => (c, RExn e)
      | None => ({| d_cur := d_cur c; d_rowcount := -1; d_descr := d_descr c |}, RDone)
      end
  | DCall rows => let (cur, r) := cstep (d_cur c) (Execute rows) in ({| d_cur := cur; d_rowcount := d_rowcount c; d_descr := d_descr c |}, r)  (* 174-185 *)
  | DCallFail e => if is_closed c then (c, closed_error) else (c, RExn e)
  | DSizes => if is_closed c then (c, closed_error) else (c, RDone)
  | DOp o =>
      let (cur, r) := cstep (d_cur c) o in
      ({| d_cur := cur; d_rowcount := d_rowcount c; d_descr := match o, is_closed c with Close, false => DNone | _, _ => d_descr c end |}, r)   (* 305-310 *)
  end.
Fixpoint druns (c : dcursor) (l : list dop) : dcursor := match l with [] => c | o :: r => druns (fst (dstep c o)) r end.
End rows.
Arguments dcursor : clear implicits.
Arguments dop : clear implicits.
