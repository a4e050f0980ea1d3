(** Element3Spec.v: the wire constraints of each protocol message, and what a
    batch of outgoing items means to the receiver. *)
From Verif Require Import Base PBufferModel PBufferSpec Element3Model.

Definition u16 (x : Z) := 0 <= x < 2 ^ 16.
Definition u32 (x : Z) := 0 <= x < 2 ^ 32.
Definition s16 (x : Z) := - 2 ^ 15 <= x < 2 ^ 15.
Definition s32 (x : Z) := - 2 ^ 31 <= x < 2 ^ 31.
Definition nonul (l : bytes) := ~ In 0 l.
(** an attribute value: NULL, or fewer than 2^32 - 1 bytes *)
Definition wf_att (a : option bytes) :=
  match a with None => True | Some d => len d < 2 ^ 32 - 1 end.
Definition wf_row (l : list (option bytes)) := len l < 2 ^ 16 /\ Forall wf_att l.
Definition wf_format (f : bytes) := length f = 2%nat.

Definition wf_message (m : message) : Prop :=
  match m with
  | MNotify pid ch pl => u32 pid /\ nonul ch /\ nonul pl
  | MShowOption n v => nonul n /\ nonul v
  | MComplete d => forall r, d <> r ++ [0]
  | MEmpty _ => True
  | MReady s => s = [73] \/ s = [69] \/ s = [84]
  | MNotice _ d => NoDup (map fst d) /\
      Forall (fun kv => length (fst kv) = 1%nat /\ nonul (fst kv) /\ nonul (snd kv)) d
  | MFunctionResult r => wf_att r
  | MAttributeTypes l => len l < 2 ^ 16 /\ Forall u32 l
  | MTupleDescriptor l => len l < 2 ^ 16 /\
      Forall (fun a => nonul (an a) /\ u32 (arel a) /\ s16 (acol a) /\ u32 (atyp a) /\
                       s16 (alen a) /\ s32 (amod a) /\ s16 (afmt a)) l
  | MTuple l => wf_row l
  | MKillInformation p k => u32 p /\ u32 k
  | MCancelRequest p k => u32 p /\ u32 k
  | MNegotiateSSL => True
  | MStartup d => NoDup (map fst d) /\ Forall (fun kv => nonul (fst kv) /\ nonul (snd kv)) d
  | MAuthentication r s => u32 r
  | MString _ _ => True
  | MParse n s a => nonul n /\ nonul s /\ len a < 2 ^ 16 /\ Forall u32 a
  | MBind n s af args rf => nonul n /\ nonul s /\ length af = length args /\ Forall wf_format af /\
      wf_row args /\ len rf < 2 ^ 16 /\ Forall wf_format rf
  | MExecute n mx => nonul n /\ u32 mx
  | MDescribe _ _ => True
  | MClose _ _ => True
  | MFunction oid af args rf => u32 oid /\ length af = length args /\ Forall wf_format af /\ wf_row args
  | MCopyBegin _ f fs => 0 <= f < 2 ^ 8 /\ len fs < 2 ^ 16 /\ Forall u16 fs
  | MCopyData _ => True
  end.

(** what the receiver must see for each item: a type byte and a body *)
Inductive denotes : item -> msg -> Prop :=
| den_msg m t d : type_of (kind_of m) = Some t -> serialize m = Ok d -> denotes (IMsg m) (t, d)
| den_raw d : denotes (IRaw d) (100, d)           (* CopyData *)
| den_tuple l d : serialize (MTuple l) = Ok d -> denotes (ITuple l) (68, d). (* DataRow *)

Definition typed (i : item) : Prop :=
  match i with IMsg m => type_of (kind_of m) <> None | _ => True end.

(** ** the message formats of the protocol (PostgreSQL documentation, chapter
    "Message Formats"), written as fields *)
Inductive field := FByte (b : Z) | FI16 (x : Z) | FI32 (x : Z) | FStr (s : bytes) | FBytes (d : bytes) | FValue (v : option bytes).
Definition field_bytes (f : field) : bytes :=
  match f with
  | FByte b => [b]
  | FI16 x => be 2 (x mod 2 ^ 16)
  | FI32 x => be 4 (x mod 2 ^ 32)
  | FStr s => s ++ [0]
  | FBytes d => d
  | FValue None => be 4 (-1 mod 2 ^ 32)
  | FValue (Some d) => be 4 (len d mod 2 ^ 32) ++ d
  end.
(** the type byte; the messages that open a connection have none *)
Definition wire_type (m : message) : option Z :=
  match m with
  | MNotify _ _ _ => Some 65              (* A *)
  | MShowOption _ _ => Some 83            (* S ParameterStatus *)
  | MComplete _ => Some 67                (* C CommandComplete *)
  | MEmpty ENull => Some 73               (* I EmptyQueryResponse *)
  | MEmpty ENoData => Some 110            (* n *)
  | MEmpty EParseComplete => Some 49      (* 1 *)
  | MEmpty EBindComplete => Some 50       (* 2 *)
  | MEmpty ECloseComplete => Some 51      (* 3 *)
  | MEmpty ESuspension => Some 115        (* s PortalSuspended *)
  | MEmpty EDisconnect => Some 88         (* X Terminate *)
  | MEmpty EFlush => Some 72              (* H *)
  | MEmpty ESynchronize => Some 83        (* S *)
  | MEmpty ECopyDone => Some 99           (* c *)
  | MReady _ => Some 90                   (* Z *)
  | MNotice false _ => Some 78            (* N *)
  | MNotice true _ => Some 69             (* E *)
  | MFunctionResult _ => Some 86          (* V *)
  | MAttributeTypes _ => Some 116         (* t ParameterDescription *)
  | MTupleDescriptor _ => Some 84         (* T RowDescription *)
  | MTuple _ => Some 68                   (* D DataRow *)
  | MKillInformation _ _ => Some 75       (* K BackendKeyData *)
  | MCancelRequest _ _ | MNegotiateSSL | MStartup _ => None
  | MAuthentication _ _ => Some 82        (* R *)
  | MString SPassword _ => Some 112       (* p *)
  | MString SQuery _ => Some 81           (* Q *)
  | MString SCopyFail _ => Some 102       (* f *)
  | MParse _ _ _ => Some 80               (* P *)
  | MBind _ _ _ _ _ => Some 66            (* B *)
  | MExecute _ _ => Some 69               (* E *)
  | MDescribe _ _ => Some 68              (* D *)
  | MClose _ _ => Some 67                 (* C *)
  | MFunction _ _ _ _ => Some 70          (* F *)
  | MCopyBegin true _ _ => Some 72        (* H CopyOutResponse *)
  | MCopyBegin false _ _ => Some 71       (* G CopyInResponse *)
  | MCopyData _ => Some 100               (* d *)
  end.
Definition wire_fields (m : message) : list field :=
  match m with
  | MNotify pid ch pl => [FI32 pid; FStr ch; FStr pl]
  | MShowOption n v => [FStr n; FStr v]
  | MComplete d => [FStr d]
  | MEmpty _ => []
  | MReady s => [FBytes s]
  | MNotice _ d => flat_map (fun kv => [FBytes (fst kv); FStr (snd kv)]) d ++ [FByte 0]
  | MFunctionResult r => [FValue r]
  | MAttributeTypes l => FI16 (len l) :: map FI32 l
  | MTupleDescriptor l => FI16 (len l) ::
      flat_map (fun a => [FStr (an a); FI32 (arel a); FI16 (acol a); FI32 (atyp a); FI16 (alen a); FI32 (amod a); FI16 (afmt a)]) l
  | MTuple l => FI16 (len l) :: map FValue l
  | MKillInformation p k => [FI32 p; FI32 k]
  | MCancelRequest p k => [FI32 80877102; FI32 p; FI32 k]
  | MNegotiateSSL => [FI32 80877103]
  | MStartup d => [FI32 196608] ++ flat_map (fun kv => [FStr (fst kv); FStr (snd kv)]) d ++ [FByte 0]
  | MAuthentication r s => [FI32 r; FBytes s]
  | MString _ d => [FStr d]
  | MParse n s a => [FStr n; FStr s; FI16 (len a)] ++ map FI32 a
  | MBind n s af args rf => [FStr n; FStr s; FI16 (len af)] ++ map FBytes af ++ [FI16 (len args)] ++ map FValue args ++
                            [FI16 (len rf)] ++ map FBytes rf
  | MExecute n mx => [FStr n; FI32 mx]
  | MDescribe stmt d => [FByte (if stmt then 83 else 80); FStr d]     (* 'S' or 'P' *)
  | MClose stmt d => [FByte (if stmt then 83 else 80); FStr d]
  | MFunction oid af args rf => [FI32 oid; FI16 (len af)] ++ map FBytes af ++ [FI16 (len args)] ++ map FValue args ++ [FBytes rf]
  | MCopyBegin _ f fs => [FByte f; FI16 (len fs)] ++ map FI16 fs
  | MCopyData d => [FBytes d]
  end.
Definition wire_body (m : message) : bytes := concat (map field_bytes (wire_fields m)).
Definition wire (m : message) : bytes :=
  let len4 := be 4 (len (wire_body m) + 4) in
  match wire_type m with Some t => t :: len4 ++ wire_body m | None => len4 ++ wire_body m end.
(** what is put on the wire for an item; a row is a DataRow, a COPY line a CopyData *)
Definition item_wire (i : item) : bytes :=
  match i with IMsg m => wire m | IRaw d => wire (MCopyData d) | ITuple l => wire (MTuple l) end.
Definition wf_item (i : item) : Prop :=
  match i with
  | IMsg (MNotice _ _) => False
  | IMsg m => wf_message m
  | IRaw _ => True
  | ITuple l => wf_row l
  end.
