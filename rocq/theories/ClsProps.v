(** ClsProps.v: C68: the end of a connection. *)
From Verif Require Import Base BaseProof PyStr PBufferModel PBufferSpec PBufferProof Element3Model NegModel NegSpec InstModel InstSpec InstProof InstProof3 ConnModel ConnSpec ConnProof ConnProof2 ConnProof3 ConnProps ClsModel ClsSpec ClsProof ClsProof2 ClsProof3 ClsProof4.

Lemma vrun_app a : forall v b, vrun v (a ++ b) = vrun (vrun v a) b.
Proof. induction a as [|o a IH]; intros v b; cbn; [reflexivity|apply IH]. Qed.
Lemma plain_begun ops : Forall plain ops -> Forall begun ops.
Proof. induction 1 as [|o l P F IH]; constructor; [destruct o; cbn in *; auto; contradiction|exact IH]. Qed.
Lemma reached ops : Forall begun ops -> vinv (vrun drv_init ops).
Proof. intros B. apply vrun_inv; [exact vinv_init|exact B]. Qed.

(** ** close() *)
(** Whenever close() returns, the connection is closed and has no socket. *)
Theorem C68_close_ends : forall ops n a1 a2 a3, Forall begun ops ->
  let r := vstep (vrun drv_init ops) (VClose n a1 a2 a3) in
  snd r = VRet -> is_closed (fst r) = true /\ socket_open (fst r) = false.
Proof.
  intros ops n a1 a2 a3 B r E. subst r. cbn [vstep] in *. destruct (close n a1 a2 a3 _) as [v' r] eqn:Ec. cbn [fst snd] in *. subst r.
  destruct (close_v _ _ _ _ _ _ _ (reached ops B) Ec) as (_ & _ & H). apply H. reflexivity.
Qed.
Print Assumptions C68_close_ends.
(** Then it stays so: nothing is sent, nothing is read, the socket is not closed again,
    requests raise, connect() raises. *)
Theorem C68_after_close : forall ops n a1 a2 a3 more, Forall begun ops -> Forall begun more ->
  let v := vrun drv_init ops in let r := vstep v (VClose n a1 a2 a3) in let w := vrun (fst r) more in
  connected v -> snd r = VRet ->
  is_closed w = true /\ socket_open w = false /\ wire_of w = wire_of (fst r) /\ input_of w = input_of (fst r) /\ v_closes w = 1%nat /\
  (forall o, request o -> snd (vstep w o) <> VRet) /\ (forall o f, vstep w (VConnect o f) = (w, VRaise)) /\
  (forall n' b1 b2 b3, vstep w (VClose n' b1 b2 b3) = (w, VRet)).
Proof.
  intros ops n a1 a2 a3 more B Bm v r w Cn Er. pose proof (reached ops B) as V. fold v in V.
  pose proof (C68_close_ends ops n a1 a2 a3 B Er) as [Hc Hs]. fold v r in Hc, Hs.
  destruct (vstep_inv v (VClose n a1 a2 a3) V Logic.I) as [V1 St1]. fold r in V1, St1.
  assert (Cn1 : connected (fst r)).
  { clear - Cn. destruct Cn as (p & Ep). subst r. cbn [vstep]. unfold close. rewrite Ep. destruct (p_sock p); [|exists p; exact Ep].
    destruct (if negb (idle p) && negb (lost p) then _ else _) as [p1 [u|e]]; [|eexists; reflexivity].
    match goal with |- context [match ?m with (_, _) => _ end] => destruct m as [p2 [u2|e2]] end; eexists; reflexivity. }
  destruct (vrun_inv more (fst r) V1 Bm) as [V2 St2]. fold w in V2, St2. destruct Cn1 as (p1 & E1).
  unfold socket_open in Hs. rewrite E1 in Hs. unfold still in St2. rewrite E1, Hs in St2. destruct St2 as (p2 & E2 & S2 & W2 & I2).
  unfold vinv in V2. rewrite E2, S2 in V2. destruct V2 as [Q2 C2]. pose proof (proj2 (proj2 Q2) S2) as L2.
  unfold is_closed, socket_open, wire_of, input_of. rewrite E1, E2. repeat (split; [assumption|]). split; [|split].
  - intros o Ro. destruct o as [o f|m cmds b1 b2 b3|m| |a|lines| |m|m b1 b2 b3]; try contradiction Ro; cbn [vstep]; rewrite E2.
    + destruct (inst_init cmds) as [x|e]; [|discriminate]. rewrite (lost_busy _ L2). destruct (pq_complete m p2) as [p3 [u|e]] eqn:Ec; [|discriminate].
      destruct (complete_good _ _ _ _ Q2 Ec) as [(Q3 & S3 & _) _]. rewrite S2 in S3. pose proof (proj2 (proj2 Q3) S3) as L3.
      unfold faulted. rewrite (lost_busy _ L3). discriminate.
    + rewrite (lost_busy _ L2). destruct (pq_complete m p2) as [p3 [u|e]] eqn:Ec; [|discriminate].
      destruct (complete_good _ _ _ _ Q2 Ec) as [(Q3 & S3 & _) _]. rewrite S2 in S3. pose proof (proj2 (proj2 Q3) S3) as L3.
      unfold faulted. rewrite (lost_busy _ L3). discriminate.
  - intros o f. cbn [vstep]. unfold connect, is_closed. rewrite E2, L2. reflexivity.
  - intros m b1 b2 b3. cbn [vstep]. unfold close. rewrite E2, S2. reflexivity.
Qed.
Print Assumptions C68_after_close.
(** A closed connection is closed without another word: when its loss is known, close()
    sends nothing, reads nothing and cannot fail. *)
Theorem C68_close_when_lost : forall ops n a1 a2 a3, Forall begun ops ->
  let v := vrun drv_init ops in let r := vstep v (VClose n a1 a2 a3) in
  is_closed v = true -> snd r = VRet /\ wire_of (fst r) = wire_of v /\ input_of (fst r) = input_of v.
Proof.
  intros ops n a1 a2 a3 B v r C. subst r. cbn [vstep]. unfold close, is_closed in *. unfold wire_of, input_of. destruct (v_pq v) as [| |p] eqn:Ep; cbn [fst snd]; rewrite ?Ep; auto.
  destruct (p_sock p); cbn [fst snd]; rewrite ?Ep; auto. rewrite C, (lost_busy p C). cbn. rewrite (lost_busy p C). cbn. auto.
Qed.
Print Assumptions C68_close_when_lost.
(** The socket is closed at most once; it is closed when it is no longer there. *)
Theorem C68_socket_closed_once : forall ops, Forall begun ops -> let v := vrun drv_init ops in
  (v_closes v <= 1)%nat /\ (connected v -> socket_open v = false -> v_closes v = 1%nat) /\ (socket_open v = true -> v_closes v = O).
Proof.
  intros ops B v. pose proof (reached ops B) as V. fold v in V. unfold vinv in V. unfold connected, socket_open. destruct (v_pq v) as [| |p] eqn:Ep.
  1,2: rewrite V; split; [lia|]; split; [intros (p & Q); discriminate|discriminate].
  destruct V as [_ C]. destruct (p_sock p); rewrite C; split; [lia| |lia|]; split; (reflexivity || discriminate || auto).
Qed.
Print Assumptions C68_socket_closed_once.

(** ** what is on the wire *)
Lemma plain_open h : Forall plain h -> Forall sane h -> v_closes (vrun drv_init h) = O ->
  match v_pq (vrun drv_init h) with PqIs p => p_sock p = true /\ sinv p | _ => True end.
Proof.
  induction h as [|o h IH] using rev_ind; intros P S0 C; [exact Logic.I|]. apply Forall_app in P as [P Po]. apply Forall_app in S0 as [S0 So].
  apply Forall_inv in Po. apply Forall_inv in So. rewrite vrun_app in *. cbn [vrun] in *. set (v := vrun drv_init h) in *.
  pose proof (reached h (plain_begun h P)) as V. fold v in V.
  assert (B : begun o) by (destruct o; cbn in *; auto; contradiction). destruct (vstep_inv v o V B) as [V1 St].
  assert (C0 : v_closes v = O).
  { clear - C V St V1. unfold vinv in *. unfold still in St. destruct (v_pq v) as [| |p] eqn:Ep; auto. destruct V as [Q Cv]. destruct (p_sock p); [exact Cv|].
    destruct St as (p' & E' & S' & _). rewrite E', S' in V1. destruct V1. congruence. }
  specialize (IH P S0 C0).
  assert (Op : match v_pq (fst (vstep v o)) with PqIs p => p_sock p = true | _ => True end).
  { unfold vinv in V1. destruct (v_pq (fst (vstep v o))) as [| |p]; auto. destruct V1 as [_ Cv]. destruct (p_sock p); [reflexivity|congruence]. }
  destruct (v_pq v) as [| |p] eqn:Ep.
  1,2: destruct o as [o f|m cmds b1 b2 b3|m| |a|lines| |m|m b1 b2 b3]; cbn [vstep] in *; unfold connect, is_closed, close in *; rewrite ?Ep in *; cbn [fst snd] in *; rewrite ?Ep in *; try exact Logic.I.
  - destruct o as [[ss rr]|]; cbn in *; [|exact Logic.I]. split; [reflexivity|]. unfold sinv. cbn. split; [apply cinv_init; exact So|]. split; [split; discriminate|]. left. reflexivity.
  - destruct IH as [S1 I1]. destruct (vstep_s v o p V Ep S1 I1 Po) as (p' & E' & I'). rewrite E' in *. auto.
Qed.
(** As long as the socket was not closed before the last operation: what was sent is a
    beginning of the requests, in order; followed by a beginning of the Terminate message
    only when all requests were sent and completed.  (After the socket is closed nothing is
    sent: C68_after_close.)  So Terminate is sent at most once, and nothing follows it. *)
Theorem C68_disconnect_last : forall h o, Forall plain (h ++ [o]) -> Forall sane (h ++ [o]) ->
  v_closes (vrun drv_init h) = O ->
  let v := vrun drv_init (h ++ [o]) in
  exists w d rest, wire_of v = w ++ d /\ d ++ rest = terminate /\ sent_part v w /\ (d <> [] -> served v w).
Proof.
  intros h o P S0 C v. subst v. apply Forall_app in P as [P Po]. pose proof S0 as S00. apply Forall_app in S0 as [S0 So]. apply Forall_inv in Po.
  pose proof (plain_open h P S0 C) as I. rewrite vrun_app. cbn [vrun]. set (v := vrun drv_init h) in *.
  pose proof (reached h (plain_begun h P)) as V. fold v in V.
  assert (F : match v_pq (fst (vstep v o)) with PqIs p => sinv p | _ => True end).
  { destruct (v_pq v) as [| |p] eqn:Ep.
    1,2: destruct o as [o f|m cmds b1 b2 b3|m| |a|lines| |m|m b1 b2 b3]; cbn [vstep] in *; unfold connect, is_closed, close in *; rewrite ?Ep in *; cbn [fst snd] in *; rewrite ?Ep in *; try exact Logic.I.
    - destruct o as [[ss rr]|]; cbn in *; [|exact Logic.I]. unfold sinv. cbn. split; [apply cinv_init; exact (Forall_inv So)|]. split; [split; discriminate|]. left. reflexivity.
    - destruct I as [S1 I1]. destruct (vstep_s v o p V Ep S1 I1 Po) as (p' & E' & I'). rewrite E'. exact I'. }
  unfold wire_of, sent_part, served. destruct (v_pq (fst (vstep v o))) as [| |p].
  1,2: exists [], [], terminate; cbn; auto.
  unfold sinv in F. destruct (p_closing p) as [k|].
  - destruct F as (N & bs & M & _ & _ & d & Hw & Hd). exists (concat bs), d, (c_data (p_conn p)). split; [exact Hw|]. split; [exact Hd|]. split.
    + exists bs, []. rewrite app_nil_r. auto.
    + intros _. split; [exact N|]. exists bs. auto.
  - destruct F as (Vc & _). destruct (V_out _ Vc) as (bs & M & W). exists (c_wire (p_conn p)), [], terminate. rewrite app_nil_r. split; [reflexivity|]. split; [reflexivity|].
    split; [exists bs, (c_data (p_conn p)); auto|congruence].
Qed.
Print Assumptions C68_disconnect_last.
(** close() of a connection at rest, on a socket that takes five bytes more, sends exactly
    the Terminate message, and returns. *)
Lemma takes_loop b l : takes b l -> forall w, exists ss, send_loop b l w = ([], ss, w ++ b, CRet true).
Proof.
  induction 1 as [l|n b l Nb T IH]; intros w.
  - exists l. destruct l; cbn; rewrite app_nil_r; reflexivity.
  - destruct b as [|x b]; [congruence|]. destruct (IH (w ++ firstn n (x :: b))) as [ss E]. exists ss. cbn [send_loop]. rewrite E, <- app_assoc, firstn_skipn. reflexivity.
Qed.
Theorem C68_farewell : forall h n, Forall plain h -> Forall sane h -> n <> O ->
  let v := vrun drv_init h in
  at_rest v -> socket_open v = true -> takes terminate (sends_of v) ->
  let r := vstep v (VClose n ([], []) ([], []) ([], [])) in
  snd r = VRet /\ wire_of (fst r) = wire_of v ++ terminate /\ socket_open (fst r) = false.
Proof.
  intros h n P S0 Nz v (p & Ep & Id & Nc & Ns) So T r. pose proof (reached h (plain_begun h P)) as V. fold v in V.
  assert (C0 : v_closes v = O). { unfold vinv in V. unfold socket_open in So. rewrite Ep in *. rewrite So in V. apply V. }
  pose proof (plain_open h P S0 C0) as I. fold v in I. rewrite Ep in I. destruct I as [Sk I]. unfold sends_of in T. rewrite Ep in T.
  destruct (idle_spec p Id) as [Ik Ix]. unfold sinv in I. rewrite Ik in I. destruct I as (Vc & Fc & Zc).
  subst r. cbn [vstep]. unfold close. rewrite Ep, Sk, Id. cbn [negb andb]. rewrite Id. unfold pq_push. rewrite Id. cbv beta zeta. rewrite Id, Nc, Ns. cbn [nonempty orb].
  set (c := p_conn p) in *.
  assert (Ea : arrive c ([], []) ([], []) ([], []) = with_trash c [] []) by (unfold arrive; cbn; fold c in Nc, Ns; rewrite Nc, Ns; reflexivity).
  rewrite Ea. assert (Ii : idle (with_conn p (with_trash c [] [])) = true) by (unfold idle; cbn; fold c in Ix; rewrite Ik, Ix; reflexivity). rewrite Ii.
  unfold start_closing, pq_step. cbn [p_closing p_sock p_conn with_conn]. rewrite Sk. unfold closing_step. cbn [k_over wr k_id].
  assert (W : exists c', write_messages (set_xact (with_trash c [] []) None WUser) (c_next (with_trash c [] []), disconnect) = (c', CRet true) /\ c_wire c' = c_wire c ++ terminate).
  { unfold write_messages. cbn [set_xact with_trash c_writing c_written]. rewrite (idle_same c Zc Ix).
    assert (Fresh : same_obj (c_writing c) (Some (c_next c)) = false).
    { pose proof (V_wok _ Vc) as Wk. unfold wok in Wk. destruct (c_writing c) as [[i l]|]; [|reflexivity]. cbn. apply Z.eqb_neq. lia. }
    cbn [set_xact with_trash c_writing c_next fst snd]. rewrite Fresh. cbv zeta. rewrite cat_disconnect. unfold send_message_data.
    cbn [with_out set_xact with_trash c_data c_sends c_wire c_writing c_written]. pose proof (V_data _ Vc) as D. rewrite Ix in D. rewrite D. cbn [app].
    destruct (takes_loop _ _ T (c_wire c)) as [ss E]. fold c in E. rewrite E. eexists. split; [reflexivity|]. reflexivity. }
  destruct W as (c' & -> & W). cbn [with_k p_sock].
  unfold pq_complete. cbn [p_closing p_sock p_conn]. rewrite closing_complete_over by reflexivity. cbn [with_k p_sock p_closing p_conn]. rewrite closing_complete_over by reflexivity. cbn.
  unfold wire_of. rewrite Ep. cbn. auto.
Qed.
Print Assumptions C68_farewell.

(** ** losing a connection *)
(** When the wait for a request ended and the connection is closed (it was lost), it stays
    closed, whatever is done (but for pq.synchronize()), and nothing more is sent or read. *)
Theorem C68_loss_final : forall ops n more, Forall begun ops -> Forall plain more ->
  let r := vstep (vrun drv_init ops) (VComplete n) in let w := vrun (fst r) more in
  connected (vrun drv_init ops) -> (forall e, snd r <> VExn e) -> is_closed (fst r) = true ->
  is_closed w = true /\ wire_of w = wire_of (fst r) /\ input_of w = input_of (fst r).
Proof.
  intros ops n more B P r w (p & Ep) Ne Cl. pose proof (reached ops B) as V. destruct (vstep_inv _ (VComplete n) V Logic.I) as [V1 _].
  assert (D : dead (fst r)).
  { subst r. cbn [vstep] in *. rewrite Ep in *. pose proof V as Vq. unfold vinv in Vq. rewrite Ep in Vq. destruct Vq as [Q _]. destruct (idle p) eqn:Id.
    - cbn [fst] in Cl. unfold is_closed in Cl. rewrite Ep in Cl. rewrite (lost_busy p Cl) in Id. discriminate.
    - destruct (pq_complete n p) as [p1 [u|e]] eqn:Ec; [|exfalso; apply (Ne e); reflexivity]. destruct (complete_good _ _ _ _ Q Ec) as [_ R].
      unfold dead, is_closed in *. cbn [fst set_pq v_pq] in *. destruct (R u eq_refl) as [I1|O1]; [|exact O1]. rewrite (lost_busy p1 Cl) in I1. discriminate. }
  clear Ne Cl. fold r in V1. revert D V1. subst w. generalize (fst r). clear r. induction more as [|o more IH]; intros v D V1; cbn [vrun].
  - unfold dead in D. unfold is_closed. destruct (v_pq v) as [| |q]; try contradiction. split; [apply overp_lost; exact D|auto].
  - destruct (vstep_dead v o V1 (Forall_inv P) D) as (D1 & W1 & I1). destruct (vstep_inv v o V1) as [V2 _]; [pose proof (Forall_inv P); destruct o; cbn in *; auto; contradiction|].
    destruct (IH (Forall_inv_tail P) _ D1 V2) as (A1 & A2 & A3). rewrite A2, A3. auto.
Qed.
Print Assumptions C68_loss_final.

(** ** connect() *)
(** A connection object is connected at most once: connect() changes nothing afterwards; it
    returns when the connection is there, and raises when it is not any more. *)
Theorem C68_connect_once : forall ops o f, let v := vrun drv_init ops in v_pq v <> PqAbsent ->
  fst (vstep v (VConnect o f)) = v /\ (is_closed v = false -> snd (vstep v (VConnect o f)) = VRet) /\ (is_closed v = true -> snd (vstep v (VConnect o f)) <> VRet).
Proof.
  intros ops o f v N. cbn [vstep]. unfold connect. destruct (is_closed v) eqn:C.
  - destruct (v_pq v) as [| |p]; [congruence| |]; cbn; (split; [reflexivity|split; [discriminate|intros _; discriminate]]).
  - cbn. split; [reflexivity|]. split; [reflexivity|discriminate].
Qed.
Print Assumptions C68_connect_once.
(** state: before connect(); after close(); after the servers failed *)
Theorem C68_state : forall v st,
  (v_pq v = PqAbsent -> state_of v st = str "initialized") /\
  (connected v -> v_failures v = false -> is_closed v = true -> state_of v st = str "closed") /\
  (v_pq v <> PqAbsent -> v_failures v = true -> state_of v st = str "failed") /\
  (connected v -> v_failures v = false -> is_closed v = false -> 
     (at_rest v -> st = [73] -> state_of v st = str "idle") /\ (at_rest v -> st = [84] -> state_of v st = str "idle in block") /\
     (at_rest v -> st = [69] -> state_of v st = str "failed block")).
Proof.
  intros v st. unfold state_of, is_closed, connected, at_rest. split; [intros ->; reflexivity|]. split; [|split].
  - intros (p & ->) -> ->. reflexivity.
  - intros N ->. destruct (v_pq v); [congruence|reflexivity|reflexivity].
  - intros (p & Ep) -> C. rewrite Ep in *. rewrite C. repeat split; intros (q & Eq & Id & _) ->; injection Eq as <-; rewrite Id; reflexivity.
Qed.
Print Assumptions C68_state.

Lemma connectedb_ok v : match v_pq v with PqIs _ => true | _ => false end = true -> connected v.
Proof. unfold connected. destruct (v_pq v) as [| |p]; try discriminate. eauto. Qed.
Lemma at_restb_ok v : match v_pq v with PqIs p => idle p && negb (nonempty (c_curs (p_conn p))) && negb (nonempty (c_stms (p_conn p))) | _ => false end = true -> at_rest v.
Proof.
  unfold at_rest. destruct (v_pq v) as [| |p]; try discriminate. intros H. exists p. apply andb_prop in H as [H H2]. apply andb_prop in H as [H H1].
  split; [reflexivity|]. split; [exact H|]. destruct (c_curs (p_conn p)); [|discriminate]. destruct (c_stms (p_conn p)); [auto|discriminate].
Qed.
(** ** what does not hold *)
(** connect() after a failed connect(): not the connection error, but an AttributeError *)
Theorem C68_reconnect_refuted : exists ops o f, Forall plain ops /\ snd (vstep (vrun drv_init ops) (VConnect o f)) = VAttribute.
Proof. exists [VConnect None true], None, true. split; [repeat constructor|reflexivity]. Qed.
(** pq.synchronize(), as called by load_rows() when something was raised, revives a
    connection that was reported closed: here after an unexpected message *)
Definition odd_server : list rout := [RData [68; 0; 0; 0; 6; 0; 0]; RData [90; 0; 0; 0; 5; 73]].
Definition lost_ops : list vop :=
  [VConnect (Some ([SAccept 5; SAccept 5; SAccept 5], odd_server)) false; VPush 5 [MEmpty ESynchronize] ([], []) ([], []) ([], []); VComplete 5].
Theorem C68_revived_refuted : exists ops n, Forall begun (ops ++ [VSync n]) /\ connected (vrun drv_init ops) /\
  is_closed (vrun drv_init ops) = true /\ is_closed (vrun drv_init (ops ++ [VSync n])) = false.
Proof. exists lost_ops, 5%nat. split; [repeat constructor; discriminate|]. split; [apply connectedb_ok; vm_compute; reflexivity|]. vm_compute. auto. Qed.
Print Assumptions C68_revived_refuted.

(** ** examples *)
Definition talk : list vop :=
  [VConnect (Some ([SAccept 3; SAccept 9; SAgain; SAccept 2; SAccept 9], [RData [90; 0; 0; 0; 5; 73]])) false;
   VPush 5 [MEmpty ESynchronize] ([], []) ([], []) ([], [])].
(** the request is completed first, then Terminate is sent (with a retry), the socket closed *)
Example close_ex : let r := vstep (vrun drv_init talk) (VClose 9 ([], []) ([], []) ([], [])) in
  snd r = VRet /\ wire_of (fst r) = [83; 0; 0; 0; 4] ++ terminate /\ v_closes (fst r) = 1%nat /\ is_closed (fst r) = true.
Proof. vm_compute. auto. Qed.
Example close_ex_begun : Forall begun talk /\ Forall plain talk /\ Forall sane talk.
Proof. split; [repeat constructor|]. split; [repeat constructor|]. constructor; [|repeat constructor]. cbn. repeat constructor. all: unfold is_byte; lia. Qed.
(** after the wait for the request: at rest, and the socket takes five more *)
Example farewell_ex : let v := vrun drv_init [VConnect (Some ([SAccept 5; SAccept 2; SAccept 9], [RData [90; 0; 0; 0; 5; 73]])) false;
   VPush 5 [MEmpty ESynchronize] ([], []) ([], []) ([], []); VComplete 5] in
  at_rest v /\ socket_open v = true /\ takes terminate (sends_of v).
Proof.
  split; [apply at_restb_ok; vm_compute; reflexivity|]. split; [vm_compute; reflexivity|].
  match goal with |- takes _ ?s => let s' := eval vm_compute in s in replace s with s' by (vm_compute; reflexivity) end.
  apply tk_some; [discriminate|]. cbn. apply tk_some; [discriminate|]. cbn. apply tk_done.
Qed.
(** an interrupted close() can be called again: Terminate is not repeated *)
Example again_ex : let v := vrun drv_init [VConnect (Some ([SAccept 2; SError; SAccept 9], [])) false; VClose 9 ([], []) ([], []) ([], []); VClose 9 ([], []) ([], []) ([], [])] in
  wire_of v = terminate /\ v_closes v = 1%nat /\ is_closed v = true.
Proof. vm_compute. auto. Qed.
Example loss_ex : let r := vstep (vrun drv_init (firstn 2 lost_ops)) (VComplete 5) in snd r = VRaise /\ is_closed (fst r) = true.
Proof. vm_compute. auto. Qed.
