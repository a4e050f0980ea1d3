(** CopyModel.v: /repo/postgresql/copyman.py, the management of COPY: the tracking of the
    wire (WireState, ProtocolProducer), the receivers, and the CopyManager.
    Not modelled: StatementProducer.confiscate (it takes what the connection holds and calls
    track_state, modelled, with it) and StatementReceiver.__enter__/__exit__ (what they do to
    the connection: C25-C28, C47); the element descriptions. *)
From Verif Require Import Base PBufferModel Element3Model.

(** ** 141-246 WireState.  A memoryview is the bytes it shows. *)
Record wstate := { w_rem : Z; w_frag : bytes; w_final : option bytes }.
(** 240-246 __init__ with the default condition: the type of the message is not 'd' *)
Definition wire_init : wstate := {| w_rem := 0; w_frag := []; w_final := None |}.
Definition condition (c : Z) : bool := negb (c =? 100).
(** python/structlib.py:81 ulong_unpack, '!L' *)
Definition getlen (b : bytes) : res Z := if (length b =? 4)%nat then Ok (unbe b) else Err StructError.
(** 190-228 the loop: messages counted, and the new state *)
Fixpoint wire_loop (fuel : nat) (view : bytes) (vlen rem n : Z) (frag : bytes) : res (Z * wstate) :=
  match fuel with
  | O => Err OutOfFuel
  | S fuel =>
      let '(view, vlen, rem, n) :=
        if rem =? 0 then (view, vlen, rem, n)
        else
          let view := slice_from rem view in
          let rb := rem - vlen in
          if rb <=? 0 then (view, - rb, 0, n + 1) else (view, 0, rb, n) in
      match view with
      | [] => Ok (n, {| w_rem := rem; w_frag := frag; w_final := None |})
      | c :: t =>
          if condition c then Ok (n, {| w_rem := rem; w_frag := frag; w_final := Some view |})
          else if vlen <? 5 then Ok (n, {| w_rem := -1; w_frag := frag ++ t; w_final := None |})
          else do l <- getlen (take 4 t); wire_loop fuel view vlen (l + 1) n frag
      end
  end.
(** 156-238 update *)
Definition wire_update (s : wstate) (view : bytes) : res (Z * wstate) :=
  match w_final s with
  | Some _ => Err RuntimeError
  | None =>
      do rf <- (if w_rem s =? -1
                then let o := len (w_frag s) in
                     let frag := w_frag s ++ take (4 - o) view in
                     if len frag =? 4 then do l <- getlen frag; Ok (l - o, []) else Ok (-1, frag)
                else Ok (w_rem s, w_frag s));
      let '(rem, frag) := rf in
      if 0 <=? rem then wire_loop (length view + 2) view (len view) rem 0 frag
      else Ok (0, {| w_rem := rem; w_frag := frag; w_final := None |})
  end.

(** ** 351-454 ProtocolProducer.  What is given to recover() is what goes back to the
    connection (StatementProducer.recover, 493-496). *)
Inductive pnext := NRecv | NConfiscate | NIter (l : list bytes).
Record producer := { p_state : option wstate; p_msgs : Z; p_bytes : Z; p_next : pnext; p_recovered : bytes }.
(** 453 *)
Definition producer_init : producer :=
  {| p_state := None; p_msgs := 0; p_bytes := 0; p_next := NConfiscate; p_recovered := [] |}.
Definition recover (p : producer) (d : bytes) : producer :=
  {| p_state := p_state p; p_msgs := p_msgs p; p_bytes := p_bytes p; p_next := NConfiscate; p_recovered := p_recovered p ++ d |}.
(** 406-418 process_copy_data *)
Definition process_copy_data (p : producer) (view : bytes) : res (producer * bytes) :=
  match p_state p with
  | None => Err AttributeError
  | Some s =>
      do ns <- wire_update s view;
      let '(n, s) := ns in
      let p := {| p_state := Some s; p_msgs := p_msgs p + n; p_bytes := p_bytes p; p_next := p_next p; p_recovered := p_recovered p |} in
      let '(p, view) :=
        match w_final s with
        | None => (p, view)
        | Some fv =>
            let view := take (len view - len fv) view in
            let p := recover p fv in
            ({| p_state := None; p_msgs := p_msgs p; p_bytes := p_bytes p; p_next := p_next p; p_recovered := p_recovered p |}, view)
        end in
      Ok ({| p_state := p_state p; p_msgs := p_msgs p; p_bytes := p_bytes p + len view; p_next := p_next p; p_recovered := p_recovered p |}, view)
  end.
(** 421-424 track_state *)
Definition track_state (p : producer) (view : bytes) : res (producer * bytes) :=
  process_copy_data {| p_state := Some wire_init; p_msgs := p_msgs p; p_bytes := p_bytes p; p_next := NRecv; p_recovered := p_recovered p |} view.
(** 369-404 realign *)
Definition set_next (p : producer) (n : pnext) : producer :=
  {| p_state := p_state p; p_msgs := p_msgs p; p_bytes := p_bytes p; p_next := n; p_recovered := p_recovered p |}.
Definition ulong_pack (x : Z) : res bytes := pack_u 4 x.
(** bytes.ljust(3, b'\x00') *)
Definition ljust3 (b : bytes) : bytes := b ++ repeat 0 (3 - length b).
Definition realign (p : producer) : res producer :=
  match p_state p with
  | None => Ok (set_next p (NIter []))
  | Some s =>
      do fr <- (match w_final s with
        | Some (c :: fv) => Ok (c :: fv, [])
        | _ =>
          if w_rem s =? -1 then
            let header := ljust3 (w_frag s) ++ [4] in
            let buf := skipn (length (w_frag s)) header in
            do l <- getlen header;
            Ok (100 :: w_frag s, buf ++ repeat 0 (Z.to_nat (l - 4)))
          else if 0 <? w_rem s then
            do h <- ulong_pack (w_rem s + 4);
            Ok (100 :: h, repeat 0 (Z.to_nat (w_rem s)))
          else Ok ([], [])
        end);
      let '(for_producer, for_receivers) := fr in
      let p := recover p for_producer in
      Ok (set_next p (NIter (match for_receivers with [] => [] | _ => [for_receivers] end)))
  end.

(** ** the receivers: 515-573, 633-652.  The data given to a PQv3 receiver is a memoryview: of
    the buffer of the producer (offset and length), or of bytes of its own. *)
Inductive view := VBuf (off n : nat) | VOwn (b : bytes).
Definition content (buf : bytes) (v : view) : bytes :=
  match v with VBuf off n => firstn n (skipn off buf) | VOwn b => b end.
(** view[n:] *)
Definition vslice (n : nat) (v : view) : view :=
  match v with VBuf off m => VBuf (off + n) (m - n) | VOwn b => VOwn (skipn n b) end.
(** Null; PQv3: the view, and what was sent; callables: the lines, and the calls made *)
Inductive recv :=
| RNull
| RWire (v : view) (sent : bytes)
| RCall (lines : option (list bytes)) (calls : list (list bytes)).
(** what the socket (or the callable) does: it takes so many bytes (it returns); it raises;
    an interrupt (BaseException) *)
Inductive sres := Sent (n : nat) | SFail | SInterrupt.
Inductive tres := TOk | TFail | TInt.
(** 541-543 while self.view: self.view = self.view[self.send(self.view):] *)
Fixpoint send_all (buf : bytes) (v : view) (sent : bytes) (script : list sres) : recv * tres :=
  match content buf v with
  | [] => (RWire v sent, TOk)
  | _ =>
      match script with
      | Sent n :: script => send_all buf (vslice n v) (sent ++ firstn n (content buf v)) script
      | SInterrupt :: _ => (RWire v sent, TInt)
      | SFail :: _ | [] => (RWire v sent, TFail)
      end
  end.
Definition transmit (buf : bytes) (r : recv) (script : list sres) : recv * tres :=
  match r with
  | RNull => (RNull, TOk)
  | RWire v sent => send_all buf v sent script
  | RCall None calls => (RCall None calls, TOk)
  | RCall (Some l) calls =>
      match script with
      | Sent _ :: _ => (RCall None (calls ++ [l]), TOk)
      | SInterrupt :: _ => (RCall (Some l) calls, TInt)
      | SFail :: _ | [] => (RCall (Some l) calls, TFail)
      end
  end.

(** ** 654-826 CopyManager *)
(** what the producer does: the view of new contents of its buffer (or of bytes of its own)
    with the number of messages counted; a list of lines; its end; an exception; an interrupt *)
Inductive pout := PWire (buf : bytes) (v : view) (msgs : Z) | PLines (l : list bytes) | PStop | PRaise | PInterrupt.
(** the receivers (in the set or not), the buffer of the producer, the transformer from PQv3 to
    chunks, the totals of the producer, the _stats, _seen_stop_iteration *)
Record mgr := { g_all : list (bool * recv); g_buf : bytes; g_chunker : pbuf; g_tot : Z * Z; g_stats : Z * Z; g_seen : bool }.
Definition mgr_init (rs : list recv) : mgr :=
  {| g_all := map (fun r => (true, r)) rs; g_buf := []; g_chunker := pb_init; g_tot := (0, 0); g_stats := (0, 0); g_seen := false |}.
Definition set_all (g : mgr) (l : list (bool * recv)) : mgr :=
  {| g_all := l; g_buf := g_buf g; g_chunker := g_chunker g; g_tot := g_tot g; g_stats := g_stats g; g_seen := g_seen g |}.
Definition set_stats (g : mgr) (s : Z * Z) : mgr :=
  {| g_all := g_all g; g_buf := g_buf g; g_chunker := g_chunker g; g_tot := g_tot g; g_stats := s; g_seen := g_seen g |}.
Definition set_seen (g : mgr) : mgr :=
  {| g_all := g_all g; g_buf := g_buf g; g_chunker := g_chunker g; g_tot := g_tot g; g_stats := g_stats g; g_seen := true |}.
Definition has_receivers (g : mgr) : bool := existsb fst (g_all g).
(** accept *)
Definition accept (v : view) (l : list bytes) (x : bool * recv) : bool * recv :=
  match x with
  | (true, RWire _ sent) => (true, RWire v sent)
  | (true, RCall _ calls) => (true, RCall (Some l) calls)
  | x => x
  end.
(** is there a receiver of chunks (which makes a transformer) *)
Definition is_call (x : bool * recv) : bool := match snd x with RCall _ _ => true | _ => false end.
Definition is_wire (x : bool * recv) : bool := match snd x with RWire _ _ => true | _ => false end.
(** 94-99 ChunkProtocol: the bodies of the messages completed by the data *)
Definition chunk_protocol (p : pbuf) (data : bytes) : pbuf * res (list bytes) :=
  let (r, p) := pb_read 4294967295 (pb_write data p) in
  (p, do ms <- r; Ok (map snd ms)).
Inductive gres := GOk (s : Z * Z) | GStop | GProducerFault | GReceiverFault (l : list nat) | GInterrupt | GError (e : exn).
(** 763-785 _service_producer *)
Definition service_producer (g : mgr) (o : pout) : mgr * option gres :=
  if negb (has_receivers g) then (g, Some GStop)
  else match o with
  | PStop => (set_seen g, Some GStop)
  | PRaise => (g, Some GProducerFault)
  | PInterrupt => (g, Some GInterrupt)
  | PWire buf v n =>
      let tot := (fst (g_tot g) + n, snd (g_tot g) + len (content buf v)) in
      let (ck, lines) := if existsb is_call (g_all g) then chunk_protocol (g_chunker g) (content buf v) else (g_chunker g, Ok []) in
      let g := {| g_all := g_all g; g_buf := buf; g_chunker := ck; g_tot := tot; g_stats := g_stats g; g_seen := g_seen g |} in
      match lines with
      | Err e => (g, Some (GError e))
      | Ok l => (set_all g (map (accept v l) (g_all g)), None)
      end
  | PLines l =>
      let tot := (fst (g_tot g) + len l, snd (g_tot g) + fold_right Z.add 0 (map len l)) in
      let g := {| g_all := g_all g; g_buf := g_buf g; g_chunker := g_chunker g; g_tot := tot; g_stats := g_stats g; g_seen := g_seen g |} in
      match (if existsb is_wire (g_all g) then cat_messages (map IRaw l) else Ok []) with
      | Err e => (g, Some (GError e))
      | Ok b => (set_all g (map (accept (VOwn b) l) (g_all g)), None)
      end
  end.
(** 787-800 _service_receivers: every receiver of the set transmits (the set is in the order of
    the list); the faulted ones are discarded afterwards.  The faults, or None: an interrupt *)
Fixpoint transmit_all (buf : bytes) (i : nat) (l : list (bool * recv)) (script : nat -> list sres) : list (bool * recv) * option (list nat) :=
  match l with
  | [] => ([], Some [])
  | (false, r) :: l => let (l, f) := transmit_all buf (S i) l script in ((false, r) :: l, f)
  | (true, r) :: l0 =>
      match transmit buf r (script i) with
      | (r, TInt) => ((true, r) :: l0, None)
      | (r, TOk) => let (l, f) := transmit_all buf (S i) l0 script in ((true, r) :: l, f)
      | (r, TFail) => let (l, f) := transmit_all buf (S i) l0 script in ((true, r) :: l, match f with Some f => Some (i :: f) | None => None end)
      end
  end.
Fixpoint discard (faults : list nat) (i : nat) (l : list (bool * recv)) : list (bool * recv) :=
  match l with
  | [] => []
  | (b, r) :: l => (b && negb (existsb (Nat.eqb i) faults), r) :: discard faults (S i) l
  end.
Definition service_receivers (g : mgr) (script : nat -> list sres) : mgr * option gres :=
  let (l, f) := transmit_all (g_buf g) 0 (g_all g) script in
  match f with
  | None => (set_all g l, Some GInterrupt)
  | Some [] => (set_all g l, None)
  | Some faults => (set_all g (discard faults 0 l), Some (GReceiverFault faults))
  end.
(** 814-829 __next__ *)
Definition mgr_next (g : mgr) (o : pout) (script : nat -> list sres) : mgr * gres :=
  let before := g_tot g in
  match service_producer g o with
  | (g, Some r) => (g, r)
  | (g, None) =>
      let g := set_stats g (fst (g_stats g) + (fst (g_tot g) - fst before), snd (g_stats g) + (snd (g_tot g) - snd before)) in
      match service_receivers g script with
      | (g, Some r) => (g, r)
      | (g, None) => (set_stats g (0, 0), GOk (g_stats g))
      end
  end.
(** 750-761 reconcile of the i-th receiver; false: an exception of its own *)
Fixpoint upd {A} (i : nat) (x : A) (l : list A) : list A :=
  match l, i with
  | [], _ => []
  | _ :: l, O => x :: l
  | y :: l, S i => y :: upd i x l
  end.
Definition reconcile (g : mgr) (i : nat) (script : list sres) : mgr * bool :=
  match nth_error (g_all g) i with
  | None => (g, false)
  | Some (b, r) =>
      match transmit (g_buf g) r script with
      | (r, TOk) => (set_all g (upd i (true, r) (g_all g)), true)
      | (r, _) => (set_all g (upd i (b, r) (g_all g)), false)
      end
  end.

(** 699-748 __exit__.  [typ]: None, or whether the exception is an Exception; [raligned]:
    realign() raised; [o]: what the producer then gives; [pexit], [rexit]: whether the
    __exit__ of the producer, of the receivers, raise *)
Inductive xres := XOk | XReraise | XFail.
Definition mgr_exit (g : mgr) (typ : option bool) (raligned : bool) (o : pout) (pexit : bool) (rexit : nat -> bool) : mgr * xres :=
  match typ with
  | Some false => (g, XReraise)
  | _ =>
      match (if raligned then (g, Some true)
             else match service_producer g o with
                  | (g, Some GStop) | (g, None) => (g, Some pexit)
                  | (g, Some GInterrupt) => (g, None)
                  | (g, Some _) => (g, Some true)          (* ProducerFault, or an error of the transformer *)
                  end) with
      | (g, None) => (g, XReraise)
      | (g, Some profail) =>
          if negb (has_receivers g) then (g, XFail)
          else
            let faults := existsb (fun x => fst (snd x) && rexit (fst x)) (combine (seq 0 (length (g_all g))) (g_all g)) in
            if match typ with Some _ => true | None => false end || faults || profail || negb (g_seen g)
            then (g, XFail) else (g, XOk)
      end
  end.
(** 427-434, 439-440: what next() of a realigned ProtocolProducer gives *)
Definition realigned_next (p : producer) (buf : bytes) : pout :=
  match p_next p with NIter (d :: _) => PWire buf (VOwn d) 0 | NIter [] => PStop | _ => PRaise end.
