(** FdtSpec.v: statement-level definitions for the float formats of C08: the values are doubles, counting seconds *)
From Verif Require Import Base TypeIOSpec DatetimeModel DatetimeSpec FltModel FltSpec.

(** the number one, in the units of [units] *)
Definition one : Z := 2 ^ 1074.
(** the number x is a double that differs from that many microseconds by less than n microseconds *)
Definition seconds_near (x : spec_float) (us n : Z) : Prop :=
  python_float x /\ finite x /\ Z.abs (1000000 * units x - us * one) < n * one.
(** a double and further fields of four bytes each *)
Definition float_wire (d : list Z) (x : spec_float) : Prop := double_bytes d x.
Definition float_wire1 (d : list Z) (x : spec_float) (l : Z) : Prop := exists a b, d = a ++ b /\ double_bytes a x /\ twos 4 b l.
Definition float_wire2 (d : list Z) (x : spec_float) (l m : Z) : Prop := exists a b c, d = a ++ b ++ c /\ double_bytes a x /\ twos 4 b l /\ twos 4 c m.
(** the same, or one less *)
Definition same_or_less (a b : Z) : Prop := a = b \/ a = b - 1.
(** 272 years, in microseconds *)
Definition era : Z := 2 ^ 33 * 1000000.
