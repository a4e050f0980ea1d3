(** ClsSpec.v: closing a connection. *)
From Verif Require Import Base PBufferModel Element3Model NegModel InstModel ConnModel ConnSpec ClsModel.

(** the bytes of the Terminate message of the protocol: 'X' and the length 4 *)
Definition terminate : bytes := [88; 0; 0; 0; 4].

(** what the socket did so far *)
Definition wire_of (v : drv) : bytes := match v_pq v with PqIs p => c_wire (p_conn p) | _ => [] end.
Definition input_of (v : drv) : bytes := match v_pq v with PqIs p => c_in (p_conn p) | _ => [] end.
Definition socket_open (v : drv) : bool := match v_pq v with PqIs p => p_sock p | _ => false end.
(** how the socket behaves is what the servers give: sane input *)
Definition sane (o : vop) : Prop := match o with VConnect (Some (_, recvs)) _ => Forall rout_ok recvs | _ => True end.
(** not pq.synchronize() *)
Definition plain (o : vop) : Prop := match o with VSync _ => False | _ => True end.
(** pq.synchronize() is not interrupted before it begins to send *)
Definition begun (o : vop) : Prop := match o with VSync fuel => fuel <> O | _ => True end.
(** a request, or the wait for one *)
Definition request (o : vop) : Prop := match o with VPush _ _ _ _ _ | VComplete _ => True | _ => False end.
Definition connected (v : drv) : Prop := exists p, v_pq v = PqIs p.
(** there is no transaction under way and nothing to be closed on the server *)
Definition at_rest (v : drv) : Prop :=
  exists p, v_pq v = PqIs p /\ idle p = true /\ c_curs (p_conn p) = [] /\ c_stms (p_conn p) = [].
(** the next calls of send() take the bytes [b], without failure *)
Inductive takes : bytes -> list sout -> Prop :=
| tk_done l : takes [] l
| tk_some n b l : b <> [] -> takes (skipn n b) l -> takes b (SAccept n :: l).
Definition sends_of (v : drv) : list sout := match v_pq v with PqIs p => c_sends (p_conn p) | _ => [] end.
(** every request made so far was sent in full, in order, and was completed *)
Definition served (v : drv) (w : bytes) : Prop :=
  match v_pq v with
  | PqIs p => c_xact (p_conn p) = None /\ exists bs, mapM cat_messages (batches (p_conn p)) = Ok bs /\ w = concat bs
  | _ => w = []
  end.
(** of the requests made so far a beginning is sent *)
Definition sent_part (v : drv) (w : bytes) : Prop :=
  match v_pq v with
  | PqIs p => exists bs rest, mapM cat_messages (batches (p_conn p)) = Ok bs /\ w ++ rest = concat bs
  | _ => w = []
  end.
