(** CursSpec.v: what cursors have to do. *)
From Verif Require Import Base PyStr CursModel.

(** the position is one of the [n + 2] of a cursor over [n] rows *)
Definition valid {R} (rows : list R) (c : cursor) : Prop := 0 <= c_pos c <= len rows + 1.
(** the cursor over the same rows in reverse order, at the same place, with the other direction *)
Definition mirrored {R} (rows : list R) (c : cursor) : cursor := {| c_direction := negb (c_direction c); c_pos := len rows + 1 - c_pos c |}.
Definition opposite (d : dirarg) : dirarg := match direction_to_bool d with Ok true => DFalse | Ok false => DTrue | Err _ => d end.
(** the same operation, for it: the direction property is set to the opposite *)
Definition mirror_op (o : cop) : cop := match o with CDirection d => CDirection (opposite d) | _ => o end.
(** seeks as documented: absolute and from the end with a position which is not negative, relative with any *)
Definition documented (o : cop) : Prop :=
  match o with
  | CSeek a w =>
      match whence_of w, a with
      | Ok (ABSOLUTE | FROM_END), Count k => 0 <= k
      | Ok (FORWARD | BACKWARD), _ => False
      | _, _ => True
      end
  | _ => True
  end.
(** read(k) for each [k]; the rows of an answer *)
Fixpoint reads (ks : list Z) : list cop := match ks with [] => [] | k :: ks => CRead (Some k) None :: reads ks end.
Definition rows_of {R} (a : cans R) : list R := match a with ARows (Ok l) => l | _ => [] end.
