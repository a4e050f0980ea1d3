(** FirstSpec.v: what first() has to give. *)
From Verif Require Import Base PBufferModel Element3Model NegModel NegSpec InstModel InstSpec IterModel FetchModel FetchSpec FirstModel.

(** the rows and the command tags among the messages of a server *)
Definition rows_in (l : list wmsg) : list wmsg := filter (fun x => fst x =? 68) l.
Definition tags_in (l : list wmsg) : list wmsg := filter (fun x => fst x =? 67) l.
(** a row message has these columns *)
Definition row_is (x : wmsg) (t : list (option bytes)) : Prop := parse KTuple (snd x) = Ok (MTuple t).
(** converted one by one; NULL is None *)
Definition converted {A B} (f : A -> res B) (x : option A) (y : option B) : Prop :=
  match x, y with None, None => True | Some a, Some b => f a = Ok b | _, _ => False end.
Definition all_converted {A B} (fs : list (A -> res B)) (xs : list (option A)) (ys : list (option B)) : Prop :=
  length fs = length xs /\ length ys = length xs /\
  forall i f x y, nth_error fs i = Some f -> nth_error xs i = Some x -> nth_error ys i = Some y -> converted f x y.
(** the request: all the rows are asked for, the portal is closed *)
Definition first_request {V} (p : pstmt V) (params : list (option bytes)) : list message :=
  [MBind [] (ps_id p) (ps_iformats p) params (ps_oformats p); MExecute [] 4294967295; MClose false []; MEmpty ESynchronize].

(** the words of a command tag: runs of characters that are not white space *)
Definition blank (c : Z) : Prop := c = 32 \/ 9 <= c <= 13.
Inductive words : bytes -> list bytes -> Prop :=
| words_nil : words [] []
| words_blank c l ws : blank c -> words l ws -> words (c :: l) ws
| words_last w : w <> [] -> Forall (fun c => ~ blank c) w -> words w [w]
| words_cons w c l ws : w <> [] -> Forall (fun c => ~ blank c) w -> blank c -> words l ws -> words (w ++ c :: l) (w :: ws).
Definition digits (w : bytes) : Prop := Forall (fun c => 48 <= c <= 57) w.
(** the number of the last word that is one *)
Definition tag_count (tag : bytes) (n : Z) : Prop :=
  exists a w b, words tag (a ++ w :: b) /\ digits w /\ Forall (fun x => ~ digits x) b /\ n = digits_value w.
Definition no_count (tag : bytes) : Prop := exists ws, words tag ws /\ Forall (fun x => ~ digits x) ws.
(** a tag without what is white space or digits around it *)
Definition outer (c : Z) : Prop := c = 32 \/ c = 9 \/ c = 10 \/ c = 13 \/ 48 <= c <= 57.
Definition trimmed (tag cmd : bytes) : Prop :=
  exists a b, tag = a ++ cmd ++ b /\ Forall outer a /\ Forall outer b /\
    (forall c r, cmd = c :: r -> ~ outer c) /\ (forall r c, cmd = r ++ [c] -> ~ outer c).

Inductive first_of {V} (p : pstmt V) (l : list wmsg) : fval V -> Prop :=
(* no row *)
| fo_no_row : ps_output p <> [] -> rows_in l = [] -> first_of p l FvNone
(* several columns *)
| fo_row x r t vs : (2 <= length (ps_output p))%nat -> rows_in l = x :: r -> row_is x t -> all_converted (ps_output p) t vs -> first_of p l (FvRow vs)
(* one column *)
| fo_null io x r t : ps_output p = [io] -> rows_in l = x :: r -> row_is x (None :: t) -> first_of p l FvNone
| fo_one io x r d t v : ps_output p = [io] -> rows_in l = x :: r -> row_is x (Some d :: t) -> io d = Ok v -> first_of p l (FvOne v)
(* not a statement that returns rows *)
| fo_no_tag : ps_output p = [] -> tags_in l = [] -> first_of p l FvNone
| fo_count x r n : ps_output p = [] -> tags_in l = x :: r -> tag_count (rstrip0 (snd x)) n -> first_of p l (FvCount n)
| fo_command x r c : ps_output p = [] -> tags_in l = x :: r -> no_count (rstrip0 (snd x)) -> trimmed (rstrip0 (snd x)) c -> c <> [] -> first_of p l (FvCommand c)
| fo_empty x r : ps_output p = [] -> tags_in l = x :: r -> no_count (rstrip0 (snd x)) -> trimmed (rstrip0 (snd x)) [] -> first_of p l FvNone.
