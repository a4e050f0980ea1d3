(** XmlSpec.v: statement-level definitions for C87. *)
From Verif Require Import Base PyStr XmlModel.
Open Scope Z_scope.

(** a Unicode scalar value: a code point that is no surrogate *)
Definition scalar (c : Z) : Prop := 0 <= c < 1114112 /\ ~ 55296 <= c < 57344.
(** UTF-8 as the Unicode standard's table gives it: x, y, z, u are groups of six bits *)
Inductive utf8_of : Z -> list Z -> Prop :=
| u1 c : 0 <= c < 128 -> utf8_of c [c]
| u2 x y : 2 <= x < 32 -> 0 <= y < 64 -> utf8_of (x * 64 + y) [192 + x; 128 + y]
| u3 x y z : 0 <= x < 16 -> 0 <= y < 64 -> 0 <= z < 64 -> 2048 <= (x * 64 + y) * 64 + z -> scalar ((x * 64 + y) * 64 + z) ->
    utf8_of ((x * 64 + y) * 64 + z) [224 + x; 128 + y; 128 + z]
| u4 x y z u : 0 <= x < 5 -> 0 <= y < 64 -> 0 <= z < 64 -> 0 <= u < 64 -> 65536 <= ((x * 64 + y) * 64 + z) * 64 + u < 1114112 ->
    utf8_of (((x * 64 + y) * 64 + z) * 64 + u) [240 + x; 128 + y; 128 + z; 128 + u].
Inductive utf8_text : text -> list Z -> Prop :=
| ut_nil : utf8_text [] []
| ut_cons c t b bs : utf8_of c b -> utf8_text t bs -> utf8_text (c :: t) (b ++ bs).

(** the XML text of an item and of a value *)
Section xml.
Context {elem : Type} (tostring : elem -> text).
Inductive item_text : @item elem -> text -> Prop :=
| it_str t : item_text (IStr t) t
| it_elem e : item_text (IElem e) (tostring e).
Inductive value_text : @value elem -> text -> Prop :=
| vt_str t : value_text (VStr t) t
| vt_elem e : value_text (VElem e) (tostring e)
| vt_tuple l ts : Forall2 item_text l ts -> value_text (VTuple l) (concat ts).
End xml.
(** a session whose encoding is called UTF-8 has that codec *)
Definition codec_of_name (encoding : text) (encode : text -> res (list Z)) : Prop :=
  encoding = str "utf8" \/ encoding = str "utf-8" -> forall t, encode t = utf8_encode t.
