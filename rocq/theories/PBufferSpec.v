(** PBufferSpec.v: what a message stream is, independently of pbuffer.py.

    A frame is a type byte, a 4 byte big-endian length that counts itself and
    the body, then the body.  The stream is a FIFO [q] of the bytes written and
    not yet returned. *)
From Verif Require Import Base PBufferModel.

Definition frame (m : msg) : list Z := fst m :: be 4 (len (snd m) + 4) ++ snd m.
Definition frames (ms : list msg) : list Z := concat (map frame ms).
(** a message that a frame can carry *)
Definition wf_msg (m : msg) : Prop :=
  is_byte (fst m) /\ is_bytes (snd m) /\ len (snd m) + 4 < 2 ^ 32.

(** [q] starts with a complete message *)
Definition complete (q : list Z) : Prop := exists m r, wf_msg m /\ q = frame m ++ r.
(** [q] starts with a header whose declared length does not even cover the length field *)
Definition bad (q : list Z) : Prop :=
  exists t n r, q = t :: be 4 n ++ r /\ 0 <= n < 4.
(** nothing to return yet *)
Definition waiting (q : list Z) : Prop := ~ complete q /\ ~ bad q.

(** [reads q n r q']: reading at most [n] messages from [q] returns [r] and leaves [q'] *)
Definition reads (q : list Z) (n : Z) (r : res (list msg)) (q' : list Z) : Prop :=
  match r with
  | Ok ms => Forall wf_msg ms /\ q = frames ms ++ q' /\ len ms <= Z.max 0 n /\
             (len ms < n -> waiting q')
  | Err e => e = ValueError /\ q' = q /\
             exists ms q0, Forall wf_msg ms /\ q = frames ms ++ q0 /\ bad q0 /\ len ms < n
  end.

Definition spec_step (q : list Z) (o : op) (r : out) (q' : list Z) : Prop :=
  match o, r with
  | OWrite d, RUnit => q' = q ++ d
  | OTruncate, RUnit => q' = []
  | OGetvalue, RBytes v => q' = q /\ v = q
  | ORead n, RMsgs r => reads q n r q'
  | ONextMessage, RMsgOpt (Ok (Some m)) => wf_msg m /\ q = frame m ++ q'
  | ONextMessage, RMsgOpt (Ok None) => waiting q /\ q' = q
  | ONextMessage, RMsgOpt (Err e) => bad q /\ e = ValueError /\ q' = q
  | ONext, RMsg (Ok m) => wf_msg m /\ q = frame m ++ q'
  | ONext, RMsg (Err StopIteration) => waiting q /\ q' = q
  | ONext, RMsg (Err e) => bad q /\ e = ValueError /\ q' = q
  | OHasMessage, RBool (Ok true) => complete q /\ q' = q
  | OHasMessage, RBool (Ok false) => waiting q /\ q' = q
  | OHasMessage, RBool (Err e) => bad q /\ e = ValueError /\ q' = q
  | OLen, RLen (Ok n) => q' = q /\
      exists ms r, Forall wf_msg ms /\ q = frames ms ++ r /\ waiting r /\ n = len ms
  | OLen, RLen (Err e) => q' = q /\ e = ValueError /\
      exists ms r, Forall wf_msg ms /\ q = frames ms ++ r /\ bad r
  | _, _ => False
  end.

(** a whole history from FIFO [q] *)
Inductive spec_run : list Z -> list op -> list out -> list Z -> Prop :=
| sr_nil q : spec_run q [] [] q
| sr_cons q o r q1 os rs q2 :
    spec_step q o r q1 -> spec_run q1 os rs q2 -> spec_run q (o :: os) (r :: rs) q2.

Definition wf_op (o : op) : Prop := match o with OWrite d => is_bytes d | _ => True end.
