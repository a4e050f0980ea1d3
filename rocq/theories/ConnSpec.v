(** ConnSpec.v: what a connection sends and takes, over its whole life. *)
From Verif Require Import Base PBufferModel PBufferSpec Element3Model NegModel NegSpec InstModel InstSpec ConnModel.

(** the socket gives bytes *)
Definition rout_ok (r : rout) : Prop := match r with RData d => is_bytes d | _ => True end.

(** what was observed of a transaction, as the events of InstSpec.v *)
Definition evs (l : list cev) : list ievent :=
  flat_map (fun e => match e with EOut l => [IOut l] | EIn l => map IIn l end) l.
(** the batches of messages given to the connection for sending, in order: those of the
    former transactions, those of the present one *)
Definition batches (c : conn) : list (list item) :=
  flat_map (fun t => sends (evs (t_evs t)) ++ t_tail t) (c_done c) ++
  match c_xact c with Some x => sends (evs (c_tr c)) ++ (if handed c then [outgoing x] else []) | None => [] end.
(** the messages of the server taken by the transactions, in order *)
Definition taken (c : conn) : list wmsg :=
  flat_map (fun t => recvd (evs (t_evs t))) (c_done c) ++ match c_xact c with Some _ => recvd (evs (c_tr c)) | None => [] end.
(** all transactions, in order: who made them and their commands *)
Definition all_tx (c : conn) : list (who * list message) :=
  map (fun t => (t_who t, i_cmds (t_inst t))) (c_done c) ++ match c_xact c with Some x => [(c_who c, i_cmds x)] | None => [] end.
Definition made_by (w : who) (c : conn) : list (list message) :=
  map snd (filter (fun p => match fst p, w with WUser, WUser | WTrash, WTrash | WSync, WSync => true | _, _ => false end) (all_tx c)).

(** what Close messages close *)
Definition closes (st : bool) (l : list message) : list bytes :=
  flat_map (fun m => match m with MClose b n => if Bool.eqb b st then [n] else [] | _ => [] end) l.
(** the cursors ([false]) and the statements ([true]) closed by take_out_trash *)
Definition closed (st : bool) (c : conn) : list bytes := flat_map (closes st) (made_by WTrash c).
(** what is given up during an operation, in order *)
Definition trashed (o : cop) : arrivals :=
  match o with
  | OPush _ _ a1 a2 a3 => (fst a1 ++ fst a2 ++ fst a3, snd a1 ++ snd a2 ++ snd a3)
  | OTrash a => a
  | _ => ([], [])
  end.
Definition trashed_cursors (ops : list cop) : list bytes := flat_map (fun o => fst (trashed o)) ops.
Definition trashed_statements (ops : list cop) : list bytes := flat_map (fun o => snd (trashed o)) ops.
(** a Close batch *)
Definition close_batch (l : list message) : Prop :=
  exists cs ss, l = map (MClose false) cs ++ map (MClose true) ss ++ [MEmpty ESynchronize].

(** the commands pushed *)
Definition pushed (ops : list cop) : list (list message) :=
  flat_map (fun o => match o with OPush _ cmds _ _ _ => [cmds] | _ => [] end) ops.
