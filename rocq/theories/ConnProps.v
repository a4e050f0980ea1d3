(** ConnProps.v: C31, C32, C48: the connection drives its transactions. *)
From Verif Require Import Base BaseProof PBufferModel PBufferSpec PBufferProof Element3Model NegModel NegSpec InstModel InstSpec InstProof InstProof3 InstProps ConnModel ConnSpec ConnProof ConnProof2 ConnProof3.

Lemma crun_snoc ops : forall c o, crun c (ops ++ [o]) = fst (cstep (crun c ops) o).
Proof. induction ops as [|a ops IH]; intros c o; cbn; [reflexivity|apply IH]. Qed.
Lemma crun_inv sends recvs ops : Forall rout_ok recvs -> cinv (crun (conn_init sends recvs) ops).
Proof.
  intros R. induction ops as [|o ops IH] using rev_ind; [apply cinv_init; exact R|]. rewrite crun_snoc.
  destruct (cstep _ o) as [c r] eqn:E. apply (cstep_inv _ _ _ _ IH E).
Qed.

(** ** C31 *)
(** Whatever the socket does (partial sends, errors, retries) and whatever the user does,
    the bytes taken by the socket are the beginning of the serialisation of the batches of
    messages of the transactions, in order; nothing is missing when there is no transaction
    under way, nor when the present one has turned to receiving over a working connection. *)
Theorem C31_sent_once_in_order : forall sends recvs ops, Forall rout_ok recvs ->
  let c := crun (conn_init sends recvs) ops in
  exists bs rest, mapM cat_messages (batches c) = Ok bs /\ concat bs = c_wire c ++ rest /\
    (c_xact c = None -> rest = []) /\
    (forall x, c_xact c = Some x -> c_down c = false -> receiving x -> rest = []).
Proof.
  intros sends recvs ops R c. pose proof (crun_inv sends recvs ops R) as V. fold c in V. clearbody c.
  destruct (V_out _ V) as (bs & M & W). exists bs, (c_data c). split; [exact M|]. split; [symmetry; exact W|]. pose proof (V_data _ V) as D. split.
  - intros E. rewrite E in D. exact D.
  - intros x E Dn Rv. rewrite E in D. apply D; [exact Dn| |]; destruct Rv as [Rv|[Rv|Rv]]; rewrite Rv; discriminate.
Qed.
(** What is on the wire never changes afterwards: it only grows. *)
Lemma step_wire c o : exists more, c_wire (fst (cstep c o)) = c_wire c ++ more.
Proof.
  assert (SL : forall ss data wire, let '(_, _, w, _) := send_loop data ss wire in exists more, w = wire ++ more).
  { induction ss as [|o0 ss IH]; intros data wire; destruct data as [|b data]; cbn [send_loop]; try (exists []; rewrite app_nil_r; reflexivity).
    destruct o0; try (exists []; rewrite app_nil_r; reflexivity). specialize (IH (skipn n (b :: data)) (wire ++ firstn n (b :: data))).
    destruct (send_loop _ _ _) as [[[d s] w] r]. destruct IH as [m ->]. eexists. rewrite <- app_assoc. reflexivity. }
  assert (G : forall c c', c_wire c' = c_wire c -> exists more, c_wire c' = c_wire c ++ more) by (intros ? ? ->; exists []; rewrite app_nil_r; reflexivity).
  assert (T : forall a b c, (exists more, c_wire b = c_wire a ++ more) -> (exists more, c_wire c = c_wire b ++ more) -> exists more, c_wire c = c_wire a ++ more).
  { intros a b d [m ->] [m' ->]. eexists. rewrite <- app_assoc. reflexivity. }
  assert (SD : forall c, exists more, c_wire (fst (send_message_data c)) = c_wire c ++ more).
  { intros c0. unfold send_message_data. specialize (SL (c_sends c0) (c_data c0) (c_wire c0)). destruct (send_loop _ _ _) as [[[d s] w] r]. exact SL. }
  assert (WM : forall c m, exists more, c_wire (fst (write_messages c m)) = c_wire c ++ more).
  { intros c0 m. unfold write_messages.
    assert (K : forall c1, c_wire c1 = c_wire c0 -> exists more, c_wire (fst (if same_obj (c_writing c1) (Some (fst m)) then send_message_data c1 else
        match cat_messages (snd m) with Err e => (with_out c1 (c_data c1) (Some m) (c_written c1) (c_sends c1) (c_wire c1), CExn (XProto e))
        | Ok b => send_message_data (with_out (with_out c1 (c_data c1) (Some m) (c_written c1) (c_sends c1) (c_wire c1)) (c_data c1 ++ b) (Some m) (Some (fst m)) (c_sends c1) (c_wire c1)) end)) = c_wire c0 ++ more).
    { intros c1 E. destruct (same_obj _ _); [rewrite <- E; apply SD|]. destruct (cat_messages _); [|apply G; exact E]. rewrite <- E. eapply T; [|apply SD]. apply G. reflexivity. }
    destruct (same_obj (c_writing c0) (c_written c0)); [exact (K c0 eq_refl)|]. destruct (c_writing c0) as [[i l]|]; [|apply G; reflexivity].
    destruct (cat_messages l) as [b0|]; [exact (K (with_out c0 (c_data c0 ++ b0) (Some (i, l)) (Some i) (c_sends c0) (c_wire c0)) eq_refl)|apply G; reflexivity]. }
  assert (RI : forall c, c_wire (fst (read_into c)) = c_wire c).
  { intros c0. unfold read_into. destruct (pb_has_message _) as [[[|]|] b]; try reflexivity. destruct (recv_loop _ _ _) as [[[[b1 rd] rr] i] r]. reflexivity. }
  assert (RM : forall c, c_wire (fst (read_messages c)) = c_wire c).
  { intros c0. unfold read_messages. destruct (snd (c_read c0)); [|reflexivity]. specialize (RI c0). destruct (read_into c0) as [c1 [r|e]]; [|exact RI].
    destruct (pb_read _ _) as [[l|e] b]; exact RI. }
  assert (TM : forall c x, c_wire (fst (take_messages c x)) = c_wire c) by (intros c0 x; unfold take_messages; destruct (inst_put _ _ _) as [x' [n|e]]; reflexivity).
  assert (FS : forall c, c_wire (finish_step c) = c_wire c) by (intros c0; unfold finish_step; destruct (c_xact c0); [|reflexivity]; destruct (_ && _); reflexivity).
  assert (ST : forall c, exists more, c_wire (fst (step c)) = c_wire c ++ more).
  { intros c0. unfold step. destruct (c_xact c0) as [x|]; [|apply G; reflexivity].
    assert (S1 : exists more, c_wire (fst (match write_messages c0 (c_mid c0, outgoing x) with
          | (c, CExn XAgain) => (c, CRet tt) | (c, CExn e) => (c, CExn e)
          | (c, CRet true) => (finish_step (sent c x), CRet tt)
          | (c, CRet false) => (finish_step (with_down (sent c x) false), CRet tt) end)) = c_wire c0 ++ more).
    { specialize (WM c0 (c_mid c0, outgoing x)). destruct (write_messages _ _) as [c1 [[|]|[]]]; cbn [fst] in *; rewrite ?FS; exact WM. }
    assert (S2 : exists more, c_wire (fst (match read_messages c0 with
          | (c, CExn XAgain) => (c, CRet tt) | (c, CExn e) => (c, CExn e)
          | (c, CRet r) => match take_messages (if r then c else with_down c true) x with (c, CExn e) => (c, CExn e) | (c, CRet _) => (finish_step c, CRet tt) end
          end)) = c_wire c0 ++ more).
    { apply G. specialize (RM c0). destruct (read_messages c0) as [c1 [r|e]]; cbn [fst] in *; [|destruct e; exact RM].
      set (c2 := if r then c1 else with_down c1 true). assert (E2 : c_wire c2 = c_wire c1) by (subst c2; destruct r; reflexivity). specialize (TM c2 x).
      destruct (take_messages c2 x) as [c3 [u|e]]; cbn [fst] in *; rewrite ?FS; congruence. }
    destruct (x_state c0 x); try exact S1; try exact S2. apply G; reflexivity. }
  assert (C1 : forall c x, exists more, c_wire (fst (complete1 c x)) = c_wire c ++ more).
  { intros c0 x. unfold complete1.
    assert (S1 : exists more, c_wire (fst (match write_messages c0 (c_mid c0, outgoing x) with
      | (c, CExn e) => (c, CExn e) | (c, CRet true) => (sent c x, CRet tt) | (c, CRet false) => (with_down c true, CRet tt) end)) = c_wire c0 ++ more).
    { specialize (WM c0 (c_mid c0, outgoing x)). destruct (write_messages _ _) as [c1 [[|]|e]]; exact WM. }
    assert (S2 : exists more, c_wire (fst (match read_messages c0 with
      | (c, CExn e) => (c, CExn e) | (c, CRet true) => take_messages c x | (c, CRet false) => (with_down c true, CRet tt) end)) = c_wire c0 ++ more).
    { apply G. specialize (RM c0). destruct (read_messages c0) as [c1 [[|]|e]]; cbn [fst] in *; [|exact RM|exact RM]. rewrite TM. exact RM. }
    destruct (x_state c0 x); try exact S1; try exact S2. apply G; reflexivity. }
  assert (CL : forall n c, exists more, c_wire (fst (complete_loop n c)) = c_wire c ++ more).
  { induction n as [|n IH]; intros c0; cbn [complete_loop]; destruct (c_xact c0) as [x|]; try (apply G; reflexivity).
    - destruct (x_state c0 x); apply G; try reflexivity. cbn [fst]. apply FS.
    - assert (L : exists more, c_wire (fst (match complete1 c0 x with
              | (c, CRet _) => complete_loop n c | (c, CExn XAgain) => complete_loop n c
              | (c, CExn (XProto _)) => (with_down c true, CRet tt) | (c, CExn e) => (c, CExn e) end)) = c_wire c0 ++ more).
      { specialize (C1 c0 x). destruct (complete1 c0 x) as [c1 [u|[]]]; cbn [fst] in C1; try exact C1; eapply T; try exact C1; apply IH. }
      destruct (x_state c0 x); try exact L. apply G. cbn [fst]. apply FS. }
  assert (MC : forall n c, exists more, c_wire (fst (match c_xact c with None => (c, CRet tt) | Some _ => complete_loop n c end)) = c_wire c ++ more).
  { intros n c0. destruct (c_xact c0); [apply CL|apply G; reflexivity]. }
  destruct o as [n cmds a1 a2 a3| |n|n|a|lines|]; cbn [cstep].
  - unfold push. destruct (inst_init cmds) as [x|]; [|apply G; reflexivity]. specialize (MC n c).
    destruct (match c_xact c with None => _ | Some _ => _ end) as [c1 [u|e]]; cbn [fst] in MC; [|exact MC].
    destruct (c_xact c1); [exact MC|].
    assert (K : forall c2, (exists more, c_wire c2 = c_wire c ++ more) -> exists more, c_wire (fst (match c_xact c2 with Some _ => (c2, CRet tt) | None => step (set_xact c2 (Some x) WUser) end)) = c_wire c ++ more).
    { intros c2 H2. destruct (c_xact c2); [exact H2|]. eapply T; [exact H2|]. exact (ST (set_xact c2 (Some x) WUser)). }
    destruct (_ || _).
    + assert (TO : exists more, c_wire (fst (take_out_trash n c1 a1 a2 a3)) = c_wire c1 ++ more).
      { unfold take_out_trash. cbv zeta. destruct (inst_init _); [|apply G; reflexivity]. eapply T; [|apply CL]. apply G. reflexivity. }
      destruct (take_out_trash _ _ _ _ _) as [c2 [u2|e2]]; cbn [fst] in TO; [apply K|]; exact (T c c1 c2 MC TO).
    + apply K. exact MC.
  - apply ST.
  - apply CL.
  - unfold synchronize. specialize (MC n c). destruct (match c_xact c with None => _ | Some _ => _ end) as [c1 [u|e]]; cbn [fst] in MC; [|exact MC].
    destruct (inst_init sync_cmds); [|exact MC]. eapply T; [exact MC|]. eapply T; [|apply CL]. apply G. reflexivity.
  - apply G. reflexivity.
  - apply G. cbn [fst]. unfold copy_messages. destruct (c_xact c); [|reflexivity]. destruct (x_state c i); try reflexivity. destruct (i_messages i); try reflexivity. destruct (_ || _); reflexivity.
  - apply G. cbn [fst]. unfold copy_messages. destruct (c_xact c); [|reflexivity]. destruct (x_state c i); try reflexivity. destruct (i_messages i); try reflexivity. destruct (_ || _); reflexivity.
Qed.

(** ** C48 *)
(** Every byte received belongs to a message taken by exactly one transaction, in order, or
    to what has not been taken yet. *)
Theorem C48_input_accounted : forall sends recvs ops, Forall rout_ok recvs ->
  let c := crun (conn_init sends recvs) ops in
  exists rest, c_in c = frames (taken c) ++ frames (snd (c_read c)) ++ rest /\ Forall wf_msg (taken c ++ snd (c_read c)) /\
    fst (pb_getvalue (c_buf c)) = rest.
Proof.
  intros sends recvs ops R c. pose proof (crun_inv sends recvs ops R) as V. fold c in V. clearbody c.
  destruct (V_in _ V) as (q & I & Hq & HF). exists q. split; [exact Hq|]. split; [exact HF|].
  destruct I as (_ & _ & ->). unfold pb_getvalue. cbn [fst]. unfold bio_read_all. cbn [bio_seek bpos bcont]. rewrite slice_from_skipn. reflexivity.
Qed.
(** Every transaction, former or present, has been driven as C25-C28 and C47 say, unless it
    refused a message (its exception is then reported). *)
Theorem C48_transactions_driven : forall sends recvs ops, Forall rout_ok recvs ->
  let c := crun (conn_init sends recvs) ops in
  (forall t, List.In t (c_done c) -> t_bad t = false -> irun (i_cmds (t_inst t)) (t_inst t) (evs (t_evs t))) /\
  (forall x, c_xact c = Some x -> c_bad c = false -> irun (i_cmds x) x (evs (c_tr c))) /\
  (forall t, List.In t (c_done c) -> t_down t = false -> i_state (t_inst t) = IComplete).
Proof.
  intros sends recvs ops R c. pose proof (crun_inv sends recvs ops R) as V. fold c in V. clearbody c. split; [|split].
  - intros t Ht. pose proof (V_done _ V) as D. rewrite Forall_forall in D. apply D. exact Ht.
  - apply (V_run _ V).
  - intros t Ht Hd. pose proof (V_fin _ V) as D. rewrite Forall_forall in D. destruct (D t Ht); [congruence|assumption].
Qed.
(** From the socket to the results: a former transaction without failure has sent its
    commands first, has been answered in full, and its results are the server's messages. *)
Theorem C48_answered : forall sends recvs ops t, Forall rout_ok recvs ->
  let c := crun (conn_init sends recvs) ops in
  List.In t (c_done c) -> t_bad t = false -> t_down t = false -> i_fatal (t_inst t) = None ->
  let got := sync_part (recvd (evs (t_evs t))) in
  (exists more, InstSpec.sends (evs (t_evs t)) = map IMsg (i_cmds (t_inst t)) :: more) /\
  conv (i_cmds (t_inst t)) got None /\ Forall2 msg_is got (messages_received (t_inst t)).
Proof.
  intros sends recvs ops t R c Ht Hb Hd Hf got. destruct (C48_transactions_driven sends recvs ops R) as (A & _ & B). fold c in A, B.
  specialize (A t Ht Hb). specialize (B t Ht Hd). split.
  - pose proof (C47_copy_terminated _ _ _ A) as S. rewrite B in S. destruct S as (X & S & _). eauto.
  - apply (C25_complete _ _ _ A B Hf).
Qed.
(** The transactions of the user are those pushed, in that order, none of them twice. *)
Lemma subseq_app {A} (a b l m : list A) : subseq a l -> subseq b m -> subseq (a ++ b) (l ++ m).
Proof. induction 1 as [|x a0 l0 S IH|x a0 l0 S IH]; cbn; intros Hb; [exact Hb|apply sq_skip; auto|apply sq_take; auto]. Qed.
Lemma subseq_nil {A} (l : list A) : subseq [] l.
Proof. induction l; [constructor|apply sq_skip; auto]. Qed.
Lemma subseq_refl {A} (l : list A) : subseq l l.
Proof. induction l; [constructor|apply sq_take; auto]. Qed.
Lemma made_by_app w c c' l : all_tx c' = all_tx c ++ l ->
  made_by w c' = made_by w c ++ map snd (filter (fun p => match fst p, w with WUser, WUser | WTrash, WTrash | WSync, WSync => true | _, _ => false end) l).
Proof. intros E. unfold made_by. rewrite E, filter_app, map_app. reflexivity. Qed.
Theorem C48_pushed_once : forall sends recvs ops, Forall rout_ok recvs ->
  subseq (made_by WUser (crun (conn_init sends recvs) ops)) (pushed ops).
Proof.
  intros sends recvs ops R. induction ops as [|o ops IH] using rev_ind; [constructor|]. rewrite crun_snoc. unfold pushed. rewrite flat_map_app. fold (pushed ops).
  pose proof (crun_inv sends recvs ops R) as V. destruct (cstep _ o) as [c' r] eqn:E. destruct (cstep_inv _ _ _ _ V E) as (_ & tb & tx & A & B & C).
  cbn [fst]. rewrite (made_by_app _ _ _ _ A). apply subseq_app; [exact IH|]. cbn [flat_map]. rewrite app_nil_r, filter_app, map_app.
  assert (T : map snd (filter (fun p : who * list message => match fst p with WUser => true | _ => false end) tb) = []).
  { destruct B as [(-> & _)|(cs & ss & -> & _)]; reflexivity. }
  rewrite T. cbn [app]. destruct C as [->|[(-> & n & ->)|(n & cmds & a1 & a2 & a3 & -> & -> & _)]]; cbn; [apply subseq_nil|apply subseq_nil|apply subseq_refl].
Qed.
Print Assumptions C31_sent_once_in_order. Print Assumptions C48_input_accounted. Print Assumptions C48_transactions_driven. Print Assumptions C48_answered. Print Assumptions C48_pushed_once.

(** ** C32 *)
Lemma closes_batch cs ss : closes false (batch cs ss) = cs /\ closes true (batch cs ss) = ss.
Proof.
  assert (M1 : forall l, closes false (map (MClose false) l) = l /\ closes true (map (MClose false) l) = []) by (induction l as [|a l [IH1 IH2]]; cbn; [auto|]; unfold closes in *; rewrite IH1, IH2; auto).
  assert (M2 : forall l, closes true (map (MClose true) l) = l /\ closes false (map (MClose true) l) = []) by (induction l as [|a l [IH1 IH2]]; cbn; [auto|]; unfold closes in *; rewrite IH1, IH2; auto).
  unfold batch, closes in *. rewrite !flat_map_app. destruct (M1 cs) as [-> ->]. destruct (M2 ss) as [-> ->]. cbn. rewrite !app_nil_r. auto.
Qed.
Lemma adds_closed c o c' : adds o c c' ->
  closed false c' ++ c_curs c' = closed false c ++ c_curs c ++ fst (trashed o) /\ closed true c' ++ c_stms c' = closed true c ++ c_stms c ++ snd (trashed o).
Proof.
  intros (tb & tx & A & B & C). unfold closed. rewrite (made_by_app _ _ _ _ A), !flat_map_app, filter_app, map_app, !flat_map_app.
  assert (T : map snd (filter (fun p : who * list message => match fst p with WTrash => true | _ => false end) tx) = []).
  { destruct C as [->|[(-> & _)|(n & cmds & a1 & a2 & a3 & _ & -> & _)]]; reflexivity. }
  rewrite T. cbn [flat_map]. rewrite !app_nil_r, <- !app_assoc. destruct B as [(-> & -> & ->)|(cs & ss & -> & B1 & B2 & _)].
  - auto.
  - cbn [filter map fst snd flat_map]. destruct (closes_batch cs ss) as [-> ->]. rewrite !app_nil_r, B1, B2. auto.
Qed.
(** The identifiers closed so far followed by those which wait to be are all the identifiers
    ever given up, in order: each is in exactly one Close batch or still waits. *)
Theorem C32_closed_exactly_once : forall sends recvs ops, Forall rout_ok recvs ->
  let c := crun (conn_init sends recvs) ops in
  closed false c ++ c_curs c = trashed_cursors ops /\ closed true c ++ c_stms c = trashed_statements ops /\
  Forall close_batch (made_by WTrash c).
Proof.
  intros sends recvs ops R. cbv zeta. induction ops as [|o ops (IH1 & IH2 & IH3)] using rev_ind; [cbn; auto|]. rewrite crun_snoc.
  pose proof (crun_inv sends recvs ops R) as V. destruct (cstep _ o) as [c' r] eqn:E. destruct (cstep_inv _ _ _ _ V E) as (_ & Ad). cbn [fst].
  destruct (adds_closed _ _ _ Ad) as [A1 A2]. unfold trashed_cursors, trashed_statements in *. rewrite !flat_map_app. cbn [flat_map]. rewrite !app_nil_r, A1, A2, <- IH1, <- IH2, <- !app_assoc.
  split; [reflexivity|]. split; [reflexivity|]. destruct Ad as (tb & tx & A & B & C). rewrite (made_by_app _ _ _ _ A). apply Forall_app. split; [exact IH3|].
  rewrite filter_app, map_app. apply Forall_app. split.
  - destruct B as [(-> & _)|(cs & ss & -> & _)]; cbn; [constructor|]. constructor; [|constructor]. exists cs, ss. reflexivity.
  - destruct C as [->|[(-> & _)|(n & cmds & a1 & a2 & a3 & _ & -> & _)]]; cbn; constructor.
Qed.
(** When a pushed transaction becomes the present one, all that was given up before has been
    closed before it. *)
Theorem C32_closed_before_push : forall sends recvs ops n cmds a1 a2 a3, Forall rout_ok recvs ->
  let c := crun (conn_init sends recvs) ops in
  let c' := fst (cstep c (OPush n cmds a1 a2 a3)) in
  made_by WUser c' <> made_by WUser c ->
  exists cs ss, closed false c' = closed false c ++ c_curs c ++ cs /\ closed true c' = closed true c ++ c_stms c ++ ss /\
    exists l, all_tx c' = l ++ [(WUser, cmds)].
Proof.
  intros sends recvs ops n cmds a1 a2 a3 R c c' N. pose proof (crun_inv sends recvs ops R) as V. fold c in V. clearbody c.
  unfold c' in *. destruct (cstep c _) as [c1 r] eqn:E. cbn [fst] in *. clear c'. destruct (cstep_inv _ _ _ _ V E) as (_ & tb & tx & A & B & C).
  assert (Tx : tx = [(WUser, cmds)] /\ (c_curs c <> [] \/ c_stms c <> [] -> tb <> [])).
  { destruct C as [->|[(-> & k & ?)|(k & cm & b1 & b2 & b3 & Eo & -> & Cn)]].
    - exfalso. apply N. rewrite (made_by_app _ _ _ _ A), app_nil_r. destruct B as [(-> & _)|(cs & ss & -> & _)]; cbn; apply app_nil_r.
    - discriminate.
    - injection Eo as <- <- <- <- <-. auto. }
  destruct Tx as [-> Tn].
  assert (Cl : forall st, closed st c1 = closed st c ++ flat_map (closes st) (map snd (filter (fun p : who * list message => match fst p with WTrash => true | _ => false end) tb))).
  { intros st. unfold closed. rewrite (made_by_app _ _ _ _ A), flat_map_app, filter_app, map_app, flat_map_app. cbn. rewrite app_nil_r. reflexivity. }
  destruct B as [(-> & _)|(cs & ss & -> & B1 & B2 & B3 & B4)].
  - destruct (c_curs c) as [|a cs]; [|exfalso; apply Tn; [left; discriminate|reflexivity]]. destruct (c_stms c) as [|b ss]; [|exfalso; apply Tn; [right; discriminate|reflexivity]].
    exists [], []. rewrite !Cl. cbn. split; [reflexivity|]. split; [reflexivity|]. exists (all_tx c). exact A.
  - exists (skipn (length (c_curs c)) cs), (skipn (length (c_stms c)) ss). rewrite !Cl. cbn [filter map fst snd flat_map]. destruct (closes_batch cs ss) as [-> ->]. rewrite !app_nil_r.
    assert (Q : forall (a b : list bytes), firstn (length a) b = a -> b = a ++ skipn (length a) b) by (intros a b Q; pose proof (firstn_skipn (length a) b) as F; rewrite Q in F; symmetry; exact F).
    rewrite <- (Q _ _ B3), <- (Q _ _ B4). split; [reflexivity|]. split; [reflexivity|]. exists (all_tx c ++ [(WTrash, batch cs ss)]). rewrite A, <- app_assoc. reflexivity.
Qed.
(** A Close batch which was completed was sent exactly once. *)
Lemma batch_no_copy l X : close_batch l -> copies l X -> X = [].
Proof.
  intros (cs & ss & ->) H. destruct H as [|B e r _ (bf & c & af & E & T & _) _]; [reflexivity|]. exfalso.
  assert (I : List.In c (map (MClose false) cs ++ map (MClose true) ss ++ [MEmpty ESynchronize])) by (rewrite E; apply in_app_iff; right; left; reflexivity).
  apply in_app_iff in I as [I|I]; [apply in_map_iff in I as (b & <- & _); destruct T; discriminate|].
  apply in_app_iff in I as [I|I]; [apply in_map_iff in I as (b & <- & _); destruct T; discriminate|]. destruct I as [<-|[]]. destruct T; discriminate.
Qed.
Theorem C32_batch_sent_once : forall sends recvs ops t, Forall rout_ok recvs ->
  let c := crun (conn_init sends recvs) ops in
  List.In t (c_done c) -> t_who t = WTrash -> t_bad t = false -> t_down t = false ->
  InstSpec.sends (evs (t_evs t)) = [map IMsg (i_cmds (t_inst t))].
Proof.
  intros sends recvs ops t R c Ht Hw Hb Hd. destruct (C48_transactions_driven sends recvs ops R) as (A & _ & B). fold c in A, B.
  specialize (A t Ht Hb). specialize (B t Ht Hd). pose proof (C47_copy_terminated _ _ _ A) as S. rewrite B in S. destruct S as (X & S & Cp).
  destruct (C32_closed_exactly_once sends recvs ops R) as (_ & _ & F). fold c in F.
  assert (CB : close_batch (i_cmds (t_inst t))).
  { rewrite Forall_forall in F. apply F. unfold made_by. apply in_map_iff. exists (WTrash, i_cmds (t_inst t)). split; [reflexivity|]. apply filter_In. split; [|reflexivity].
    unfold all_tx. apply in_app_iff. left. apply in_map_iff. exists t. rewrite Hw. auto. }
  rewrite S, (batch_no_copy _ _ CB Cp). reflexivity.
Qed.
Print Assumptions C32_closed_exactly_once. Print Assumptions C32_closed_before_push. Print Assumptions C32_batch_sent_once.

(** What was taken by the socket stays: more is only appended. *)
Theorem C31_wire_grows : forall c o, exists more, c_wire (fst (cstep c o)) = c_wire c ++ more.
Proof. exact step_wire. Qed.
Print Assumptions C31_wire_grows.

(** ** cases *)
(** a query answered in pieces over a socket which sends byte by byte, interrupted and
    resumed; two statements and a cursor are given up meanwhile, one of them while the batch
    is being made *)
Definition query1 : list message := [MString SQuery [115]].
Definition answer1 : bytes := frames [(84, [0; 0]); (68, [0; 0]); (67, [65; 0]); (90, [73])].
Definition answer2 : bytes := frames [(51, []); (51, []); (90, [73])].
Definition demo_sends : list sout := repeat (SAccept 1) 5 ++ [SAgain; SAccept 2] ++ repeat (SAccept 100) 10.
Definition demo_recvs : list rout :=
  [RData (firstn 3 answer1); RAgain; RData (skipn 3 answer1); RData answer2; RData (firstn 30 answer1); RData (skipn 30 answer1)].
Definition demo_ops : list cop :=
  [OPush 9 query1 ([], []) ([], []) ([], []); OStep; OTrash ([[97]], []); OComplete 9;
   OPush 9 query1 ([], [[98]]) ([[99]], []) ([], [[100]]); OComplete 9].
Example demo_socket : Forall rout_ok demo_recvs.
Proof.
  assert (H : forallb (fun r => match r with RData d => is_bytesb d | _ => true end) demo_recvs = true) by (vm_compute; reflexivity).
  rewrite forallb_forall in H. apply Forall_forall. intros o Ho. specialize (H o Ho). destruct o; cbn; auto. apply is_bytesb_spec; auto.
Qed.
Example demo_done :
  let c := crun (conn_init demo_sends demo_recvs) demo_ops in
  all_tx c = [(WUser, query1); (WTrash, [MClose false [97]; MClose true [98]; MEmpty ESynchronize]); (WUser, query1)] /\
  c_curs c = [[99]] /\ c_stms c = [[100]] /\ c_xact c = None /\ c_in c = answer1 ++ answer2 ++ answer1 /\
  map (fun t => (t_bad t, t_down t)) (c_done c) = [(false, false); (false, false); (false, false)] /\
  len (c_wire c) = 7 + (8 + 8 + 5) + 7.
Proof. vm_compute. repeat split; reflexivity. Qed.
(** a connection lost while sending: the rest of the batch stays unsent *)
Example demo_lost :
  let c := crun (conn_init [SAccept 3; SFatal] []) [OPush 9 query1 ([], []) ([], []) ([], [])] in
  batches c = [map IMsg query1] /\ len (c_wire c) = 3 /\ len (c_data c) = 4 /\ c_down c = true.
Proof. vm_compute. repeat split; reflexivity. Qed.

(** The error of a send within step() is not reported by it: the transaction goes on to
    receive and only the next read fails (step() calls op() although write_messages()
    returned False). *)
Theorem C31_step_ignores_loss_refuted : exists sends recvs ops x, Forall rout_ok recvs /\
  let c := crun (conn_init sends recvs) ops in
  c_xact c = Some x /\ c_down c = true /\ x_state c x <> IComplete /\ receiving x.
Proof.
  exists [SAccept 3; SFatal], [], [OPush 9 query1 ([], []) ([], []) ([], [])].
  eexists. split; [constructor|]. cbv zeta. split; [vm_compute; reflexivity|]. split; [reflexivity|]. split; [vm_compute; discriminate|left; vm_compute; reflexivity].
Qed.
Print Assumptions C31_step_ignores_loss_refuted.
