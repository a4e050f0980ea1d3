(** ClsProof4.v: what is on the wire. *)
From Verif Require Import Base BaseProof PBufferModel PBufferSpec PBufferProof Element3Model NegModel NegSpec InstModel InstSpec InstProof InstProof3 ConnModel ConnSpec ConnProof ConnProof2 ConnProof3 ConnProps ClsModel ClsSpec ClsProof ClsProof2 ClsProof3.

Lemma cat_disconnect : cat_messages disconnect = Ok terminate. Proof. reflexivity. Qed.
(** what is unserialised belongs to a transaction under way *)
Definition Z (c : conn) : Prop :=
  same_obj (c_writing c) (c_written c) = true \/ exists x, c_xact c = Some x /\ (i_state x = ISend \/ i_state x = ISendStdin).
Lemma Z_same c c' : c_writing c' = c_writing c -> c_written c' = c_written c -> same_obj (c_writing c) (c_written c) = true -> Z c'.
Proof. intros A B C. left. rewrite A, B. exact C. Qed.
Lemma send_same c : same_obj (c_writing (fst (send_message_data c))) (c_written (fst (send_message_data c))) = same_obj (c_writing c) (c_written c).
Proof. unfold send_message_data. destruct (send_loop _ _ _) as [[[d ss] w] r]. reflexivity. Qed.
(** write_messages that does not raise an exception of the serialisation *)
Lemma write_same c m c' r : write_messages c m = (c', r) ->
  same_obj (c_writing c') (c_written c') = true \/ exists e, r = CExn (XProto e).
Proof.
  unfold write_messages.
  assert (K : forall c1, same_obj (c_writing c1) (c_written c1) = true -> (if same_obj (c_writing c1) (Some (fst m)) then send_message_data c1
      else let c2 := with_out c1 (c_data c1) (Some m) (c_written c1) (c_sends c1) (c_wire c1) in
           match cat_messages (snd m) with
           | Err e => (c2, CExn (XProto e))
           | Ok b => send_message_data (with_out c2 (c_data c2 ++ b) (Some m) (Some (fst m)) (c_sends c2) (c_wire c2))
           end) = (c', r) -> same_obj (c_writing c') (c_written c') = true \/ exists e, r = CExn (XProto e)).
  { intros c1 H E. destruct (same_obj (c_writing c1) (Some (fst m))).
    - left. pose proof (send_same c1) as Q. rewrite E in Q. cbn [fst] in Q. congruence.
    - cbv zeta in E. destruct (cat_messages (snd m)) as [b|e]; [|injection E as <- <-; right; eauto].
      match type of E with send_message_data ?d = _ => pose proof (send_same d) as Q end. rewrite E in Q. cbn [fst] in Q. left. rewrite Q. destruct m as [i l]. cbn. apply Z.eqb_refl. }
  destruct (same_obj (c_writing c) (c_written c)) eqn:S0; [apply (K c S0)|].
  destruct (c_writing c) as [[i l]|] eqn:Ew; [|intros E; injection E as <- <-; right; eauto].
  destruct (cat_messages l) as [b|e]; [|intros E; injection E as <- <-; right; eauto]. cbn [bind].
  apply (K (with_out c (c_data c ++ b) (Some (i, l)) (Some i) (c_sends c) (c_wire c))). cbn. apply Z.eqb_refl.
Qed.
Lemma Z_finish c : Z c -> (forall x, c_xact c = Some x -> i_state x = ISend \/ i_state x = ISendStdin -> is_complete (x_state c x) && negb (x_fatal c x) = false) -> Z (finish_step c).
Proof.
  intros Zc N. unfold finish_step. destruct (c_xact c) as [x|] eqn:Ex; [|exact Zc]. destruct (is_complete (x_state c x) && negb (x_fatal c x)) eqn:B; [|exact Zc].
  destruct Zc as [S0|(y & Ey & St)]; [left; exact S0|]. rewrite Ex in Ey. injection Ey as <-. rewrite (N x eq_refl St) in B. discriminate.
Qed.
Lemma Z_take c x : same_obj (c_writing c) (c_written c) = true -> Z (fst (take_messages c x)).
Proof. intros S0. left. unfold take_messages. destruct (inst_put _ _ _) as [x' [n|e]]; exact S0. Qed.
(** write_messages when the writing is not serialised: nothing happens *)
Lemma write_stuck c m : cinv c -> same_obj (c_writing c) (c_written c) = false -> exists e, write_messages c m = (c, CExn (XProto e)).
Proof.
  intros V S0. pose proof (V_wok _ V) as W. unfold wok in W. unfold write_messages. rewrite S0. destruct (c_writing c) as [[i l]|] eqn:Ew.
  - destruct W as (_ & [W|((e & W) & _)]); [rewrite W in S0; cbn in S0; rewrite Z.eqb_refl in S0; discriminate|]. rewrite W. cbn. eauto.
  - rewrite W in S0. discriminate.
Qed.
Lemma step_Z c : cinv c -> FC c -> Z c -> Z (fst (step c)).
Proof.
  intros V F Zc. unfold step. destruct (c_xact c) as [x|] eqn:Ex; [|exact Zc].
  assert (SS : forall st, x_state c x = st -> st <> IComplete -> i_state x = st).
  { intros st E N. unfold x_state in E. destruct (c_over c); congruence. }
  destruct (x_state c x) eqn:Es; try exact Zc.
  1,2: pose proof (SS _ eq_refl ltac:(discriminate)) as Si;
    destruct (write_messages c (c_mid c, outgoing x)) as [c1 r] eqn:Ew; pose proof (write_fr c (c_mid c, outgoing x)) as Fr; rewrite Ew in Fr; cbn [fst] in Fr;
    assert (Z1 : Z c1 /\ forall b, r = CRet b -> same_obj (c_writing c1) (c_written c1) = true);
    [ destruct (write_same _ _ _ _ Ew) as [S1|(e & ->)]; [split; [left; exact S1|auto]|];
      split; [right; exists x; rewrite (proj1 Fr); auto|discriminate]
    | destruct Z1 as [Z1 S1]; destruct r as [[|]|[| | |e]]; cbn [fst]; try exact Z1; specialize (S1 _ eq_refl);
      unfold finish_step, sent; cbn [with_xact with_down c_xact];
      match goal with |- Z (if ?b then _ else _) => destruct b end; left; exact S1 ].
  all: destruct Zc as [S0|(y & Ey & St)]; [|rewrite Ex in Ey; injection Ey as <-; rewrite (SS _ eq_refl ltac:(discriminate)) in St; destruct St; discriminate].
  all: assert (R0 : same_obj (c_writing (fst (read_messages c))) (c_written (fst (read_messages c))) = true)
    by (clear - S0; unfold read_messages, read_into; destruct (snd (c_read c)); [|exact S0]; destruct (pb_has_message _) as [[[|]|] b]; try exact S0;
        [destruct (pb_read _ _) as [[l|e] b2]; exact S0|destruct (recv_loop _ _ _) as [[[[b1 rd] rr] i] [r|e]]; [|exact S0]; destruct (pb_read _ _) as [[l|e] b2]; exact S0]);
    destruct (read_messages c) as [c1 [b|[| | |e]]]; cbn [fst] in R0; cbn [fst]; try (left; exact R0);
    assert (R1 : same_obj (c_writing (if b then c1 else with_down c1 true)) (c_written (if b then c1 else with_down c1 true)) = true) by (destruct b; exact R0);
    unfold take_messages; destruct (inst_put _ _ _) as [x' [k|e]]; cbn [fst]; try (left; exact R1);
    unfold finish_step; cbn [with_read with_xact c_xact]; match goal with |- Z (if ?q then _ else _) => destruct q end; left; exact R1.
Qed.
Lemma complete1_Z c x : cinv c -> c_xact c = Some x -> Z c -> Z (fst (complete1 c x)).
Proof.
  intros V Ex Zc. unfold complete1.
  assert (SS : forall st, x_state c x = st -> st <> IComplete -> i_state x = st).
  { intros st E N. unfold x_state in E. destruct (c_over c); congruence. }
  destruct (x_state c x) eqn:Es; try exact Zc.
  1,2: pose proof (SS _ eq_refl ltac:(discriminate)) as Si;
    destruct (write_messages c (c_mid c, outgoing x)) as [c1 r] eqn:Ew; pose proof (write_fr c (c_mid c, outgoing x)) as Fr; rewrite Ew in Fr; cbn [fst] in Fr;
    assert (Z1 : Z c1 /\ forall b, r = CRet b -> same_obj (c_writing c1) (c_written c1) = true);
    [ destruct (write_same _ _ _ _ Ew) as [S1|(e & ->)]; [split; [left; exact S1|auto]|];
      split; [right; exists x; rewrite (proj1 Fr); auto|discriminate]
    | destruct Z1 as [Z1 S1]; destruct r as [[|]|e]; cbn [fst]; try exact Z1; specialize (S1 _ eq_refl); left; exact S1 ].
  all: destruct Zc as [S0|(y & Ey & St)]; [|rewrite Ex in Ey; injection Ey as <-; rewrite (SS _ eq_refl ltac:(discriminate)) in St; destruct St; discriminate].
  all: assert (R0 : same_obj (c_writing (fst (read_messages c))) (c_written (fst (read_messages c))) = true)
    by (clear - S0; unfold read_messages, read_into; destruct (snd (c_read c)); [|exact S0]; destruct (pb_has_message _) as [[[|]|] b]; try exact S0;
        [destruct (pb_read _ _) as [[l|e] b2]; exact S0|destruct (recv_loop _ _ _) as [[[[b1 rd] rr] i] [r|e]]; [|exact S0]; destruct (pb_read _ _) as [[l|e] b2]; exact S0]);
    destruct (read_messages c) as [c1 [[|]|e]]; cbn [fst] in R0; cbn [fst]; try (left; exact R0);
    unfold take_messages; destruct (inst_put _ _ _) as [x' [k|e]]; cbn [fst]; left; exact R0.
Qed.
Lemma complete_Z n : forall c c' r, cinv c -> FC c -> Z c -> complete_loop n c = (c', r) -> Z c'.
Proof.
  assert (Fi : forall c x, FC c -> c_xact c = Some x -> x_state c x = IComplete -> Z c -> Z (finish_step c)).
  { intros c x F Ex Es Zc. apply Z_finish; [exact Zc|]. intros y Ey St. rewrite Ex in Ey. injection Ey as <-. rewrite Es. cbn [is_complete].
    unfold x_state in Es. destruct (c_over c) eqn:Eo; [|destruct St; congruence]. unfold x_fatal. rewrite (proj2 F Eo). reflexivity. }
  induction n as [|n IH]; intros c c' r V F Zc E; cbn [complete_loop] in E; (destruct (c_xact c) as [x|] eqn:Ex; [|injection E as <- <-; exact Zc]).
  - destruct (x_state c x) eqn:Es; injection E as <- <-; try exact Zc. apply (Fi c x F Ex Es Zc).
  - assert (Go : match complete1 c x with
              | (c, CRet _) => complete_loop n c
              | (c, CExn XAgain) => complete_loop n c
              | (c, CExn (XProto _)) => (with_down c true, CRet tt)
              | (c, CExn e) => (c, CExn e)
              end = (c', r) -> Z c').
    { intros E1. pose proof (complete1_Z c x V Ex Zc) as Z1. destruct (complete1_FC true c x F Ex) as (F1 & _). change (complete1_s true c x) with (complete1 c x) in F1.
      destruct (complete1 c x) as [c1 r1] eqn:Ec. destruct (complete1_inv _ _ _ _ V Ex Ec) as (V1 & _). cbn [fst] in *.
      destruct r1 as [u|[| | |e]]; try (apply (IH _ _ _ V1 F1 Z1 E1)); injection E1 as <- <-; exact Z1. }
    destruct (x_state c x) eqn:Es; try exact (Go E). injection E as <- <-. apply (Fi c x F Ex Es Zc).
Qed.
Lemma idle_same c : Z c -> c_xact c = None -> same_obj (c_writing c) (c_written c) = true.
Proof. intros [S0|(x & Ex & _)] N; [exact S0|congruence]. Qed.

(** ** the invariant of plain histories while the socket is open *)
Definition closing_part (c : conn) (k : closing) : Prop :=
  c_xact c = None /\ exists bs, mapM cat_messages (batches c) = Ok bs /\
    c_writing c = Some (k_id k, disconnect) /\ c_written c = Some (k_id k) /\ exists d, c_wire c = concat bs ++ d /\ d ++ c_data c = terminate.
Definition sinv (p : pq) : Prop :=
  match p_closing p with None => cinv (p_conn p) /\ FC (p_conn p) /\ Z (p_conn p) | Some k => closing_part (p_conn p) k end.
Lemma send_grow ss : forall data wire data' ss' wire' r, send_loop data ss wire = (data', ss', wire', r) ->
  (exists more, wire' = wire ++ more /\ more ++ data' = data) /\ (r = CRet true -> data' = []) /\ (forall e, r <> CExn (XProto e)).
Proof.
  induction ss as [|o ss IH]; intros data wire data' ss' wire' r H; destruct data as [|b data]; cbn [send_loop] in H;
    try (injection H as <- <- <- <-; split; [exists []; rewrite app_nil_r; auto|split; [auto|discriminate]]; fail);
    try (injection H as <- <- <- <-; split; [exists []; rewrite app_nil_r; auto|split; discriminate]; fail).
  destruct o; try (injection H as <- <- <- <-; split; [exists []; rewrite app_nil_r; auto|split; discriminate]; fail).
  apply IH in H as ((more & -> & B) & C). split; [|exact C]. exists (firstn n (b :: data) ++ more). rewrite !app_assoc. split; [reflexivity|]. rewrite <- app_assoc, B. apply firstn_skipn.
Qed.
Lemma closing_send c k c' r : closing_part c k -> write_messages c (k_id k, disconnect) = (c', r) -> closing_part c' k /\ (forall e, r <> CExn (XProto e)).
Proof.
  intros (N & bs & M & W1 & W2 & d & Hw & Hd) E. unfold write_messages in E. rewrite W1, W2 in E. cbn [same_obj fst] in E. rewrite Z.eqb_refl, W1 in E. cbn [same_obj] in E. rewrite Z.eqb_refl in E.
  unfold send_message_data in E. destruct (send_loop (c_data c) (c_sends c) (c_wire c)) as [[[data ss] wire] r0] eqn:Es. injection E as <- <-.
  destruct (send_grow _ _ _ _ _ _ _ Es) as ((more & -> & Hm) & _ & Np). split; [|exact Np].
  split; [exact N|]. exists bs. cbn. split; [exact M|]. split; [exact W1|]. split; [exact W2|].
  exists (d ++ more). rewrite Hw, <- !app_assoc, Hm. auto.
Qed.
Lemma closing_step_part c k : closing_part c k -> let '(c', k', r) := closing_step true c k in closing_part c' k'.
Proof.
  intros P. unfold closing_step. destruct (k_over k); [exact P|]. cbn [wr]. destruct (write_messages c (k_id k, disconnect)) as [c1 r] eqn:E. destruct (closing_send _ _ _ _ P E) as [P1 _].
  destruct r as [b|[| | |e]]; exact P1.
Qed.
Lemma closing_complete_part n : forall c k, closing_part c k -> let '(c', k', r) := closing_complete true n c k in closing_part c' k'.
Proof.
  induction n as [|n IH]; intros c k P; cbn [closing_complete]; (destruct (k_over k); [exact P|]); [exact P|].
  cbn [wr]. destruct (write_messages c (k_id k, disconnect)) as [c1 r] eqn:E. destruct (closing_send _ _ _ _ P E) as [P1 Np].
  destruct r as [b|[| | |e]]; [|apply (IH c1 k P1)|exact P1|exact P1|]; rewrite closing_complete_over by reflexivity; exact P1.
Qed.
Lemma batches_set c o w : batches (set_xact c o w) = batches c ++ match o with Some x => sends (evs []) ++ (if handed (set_xact c o w) then [outgoing x] else []) | None => [] end.
Proof. unfold batches at 1. cbn [set_xact c_done c_xact c_tr]. rewrite batches_record. reflexivity. Qed.
Lemma start_closing_part p p' r : p_sock p = true -> sinv p -> idle p = true -> start_closing p = (p', r) -> sinv p'.
Proof.
  intros S0 I Id E. destruct (idle_spec p Id) as [Ik Ix]. unfold sinv in I. rewrite Ik in I. destruct I as (V & F & Zc).
  unfold start_closing, pq_step in E. cbn [p_closing p_sock p_conn] in E. rewrite S0 in E. set (c := p_conn p) in *. unfold closing_step in E. cbn [k_over] in E.
  destruct (V_out _ V) as (bs & M & W). pose proof (V_data _ V) as D. rewrite Ix in D. rewrite D, app_nil_r in W.
  assert (Ew : forall q, write_messages (set_xact c None WUser) (c_next c, disconnect) = q -> closing_part (fst q) {| k_id := c_next c; k_over := false |} /\ forall e, snd q <> CExn (XProto e)).
  { intros q Eq. unfold write_messages in Eq. cbn [set_xact c_writing c_written] in Eq. rewrite (idle_same c Zc Ix) in Eq.
    assert (Fresh : same_obj (c_writing c) (Some (c_next c)) = false).
    { pose proof (V_wok _ V) as Wk. unfold wok in Wk. destruct (c_writing c) as [[i l]|]; [|reflexivity]. cbn. apply Z.eqb_neq. lia. }
    cbn [set_xact c_writing fst] in Eq. rewrite Fresh in Eq. cbv zeta in Eq. cbn [snd] in Eq. rewrite cat_disconnect in Eq. unfold send_message_data in Eq.
    cbn [with_out set_xact c_data c_sends c_wire c_writing c_written] in Eq.
    destruct (send_loop (c_data c ++ terminate) (c_sends c) (c_wire c)) as [[[data ss] wire] r0] eqn:Es.
    destruct (send_grow _ _ _ _ _ _ _ Es) as ((more & -> & Hm) & _ & Np). subst q. split; [|exact Np]. cbn [fst].
    split; [reflexivity|]. exists bs. cbn [with_out c_writing c_written c_wire c_data k_id]. split; [|split; [reflexivity|split; [reflexivity|]]].
    - unfold batches. cbn [with_out set_xact c_done c_xact]. rewrite batches_record, app_nil_r. exact M.
    - exists more. rewrite W. split; [reflexivity|]. rewrite Hm, D. reflexivity. }
  specialize (Ew _ eq_refl). cbn [wr k_id] in E. destruct (write_messages (set_xact c None WUser) (c_next c, disconnect)) as [c1 r1]. destruct Ew as [P _]. cbn [fst] in P.
  destruct r1 as [b|[| | |e]]; cbn [with_k] in E; injection E as <- <-; exact P.
Qed.

(** ** every operation *)
Lemma complete_s n p p' r : p_sock p = true -> sinv p -> pq_complete n p = (p', r) -> sinv p'.
Proof.
  intros S0 I E. unfold pq_complete in E. unfold sinv in *. destruct (p_closing p) as [k|] eqn:Ek.
  - rewrite S0 in E. pose proof (closing_complete_part n _ _ I) as P. destruct (closing_complete true n (p_conn p) k) as [[c' k'] r']. cbn [with_k] in E. injection E as <- <-. exact P.
  - rewrite S0 in E. destruct I as (V & F & Zc). unfold with_c in E. destruct (ClsModel.complete_s true n (p_conn p)) as [c' r'] eqn:Ec. cbn [fst snd] in E. injection E as <- <-.
    cbn [with_conn p_closing p_conn]. rewrite Ek. destruct (complete_end _ _ _ _ _ F Ec) as (F1 & _). rewrite complete_true in Ec. destruct (complete_inv _ _ _ _ V Ec) as [V1 _].
    split; [exact V1|]. split; [exact F1|exact (complete_Z _ _ _ _ V F Zc Ec)].
Qed.
Lemma step_s p p' r : p_sock p = true -> sinv p -> pq_step p = (p', r) -> sinv p'.
Proof.
  intros S0 I E. unfold pq_step in E. unfold sinv in *. destruct (p_closing p) as [k|] eqn:Ek.
  - rewrite S0 in E. pose proof (closing_step_part _ _ I) as P. destruct (closing_step true (p_conn p) k) as [[c' k'] r']. cbn [with_k] in E. injection E as <- <-. exact P.
  - rewrite S0 in E. destruct I as (V & F & Zc). unfold with_c in E. pose proof (step_FC true _ F) as F1. pose proof (step_Z _ V F Zc) as Z1. rewrite step_true in *.
    destruct (step (p_conn p)) as [c' r'] eqn:Ec. destruct (step_inv _ _ _ V Ec) as [V1 _]. cbn [fst snd] in *. injection E as <- <-. cbn [with_conn p_closing p_conn]. rewrite Ek. auto.
Qed.
Lemma set_Z c x cmds w : inst_init cmds = Ok x -> Z (set_xact c (Some x) w).
Proof. intros E. right. exists x. split; [reflexivity|]. left. unfold inst_init in E. destruct (all_ok cmds); [injection E as <-; reflexivity|discriminate]. Qed.
Lemma set_ok c x cmds w : cinv c -> c_xact c = None -> inst_init cmds = Ok x -> cinv (set_xact c (Some x) w) /\ FC (set_xact c (Some x) w) /\ Z (set_xact c (Some x) w).
Proof.
  intros V N E. split; [|split; [apply FC_set; intros y Q; injection Q as <-; apply (init_fatal _ _ E)|apply (set_Z _ _ _ _ E)]].
  apply set_inv; [exact V|intros y Q; injection Q as <-; eauto|discriminate|congruence].
Qed.
Lemma keep_sinv p c : sinv p -> cinv c \/ p_closing p <> None -> c_xact c = c_xact (p_conn p) -> c_writing c = c_writing (p_conn p) -> c_written c = c_written (p_conn p) -> 
  c_wire c = c_wire (p_conn p) -> c_data c = c_data (p_conn p) -> c_done c = c_done (p_conn p) -> FC c -> sinv (with_conn p c).
Proof.
  intros I V A1 A2 A3 A4 A5 A6 F. unfold sinv in *. cbn [with_conn p_closing p_conn]. destruct (p_closing p) as [k|].
  - destruct I as (N & bs & M & W1 & W2 & d & Hw & Hd). split; [congruence|]. exists bs. split.
    + unfold batches in *. rewrite N in M. rewrite A1, N, A6. exact M.
    + split; [congruence|]. split; [congruence|]. exists d. rewrite A4, A5. auto.
  - destruct V as [V|V]; [|congruence]. split; [exact V|]. split; [exact F|]. destruct I as (_ & _ & Zc). unfold Z in *. rewrite A1, A2, A3. exact Zc.
Qed.
Lemma trash_sinv p a b : qinv p -> sinv p -> sinv (with_conn p (with_trash (p_conn p) a b)).
Proof.
  intros (F & _) I. apply keep_sinv; try reflexivity; [exact I| |exact F]. unfold sinv in I. destruct (p_closing p); [right; discriminate|left]. apply trash_inv. apply I.
Qed.
Lemma push_s n p a1 a2 a3 start p' r : qinv p -> p_sock p = true -> sinv p ->
  (forall q p' r, qinv q -> p_sock q = true -> sinv q -> idle q = true -> start q = (p', r) -> sinv p') ->
  pq_push n p a1 a2 a3 start = (p', r) -> sinv p'.
Proof.
  intros Q S0 I St E. unfold pq_push in E.
  assert (B : forall p1, qinv p1 -> p_sock p1 = true -> sinv p1 ->
     (if idle p1 then
        let c := p_conn p1 in
        match (if nonempty (c_stms c) || nonempty (c_curs c) then trash_s (p_sock p1) n c a1 a2 a3 else (arrive c a1 a2 a3, CRet tt)) with
        | (c, CExn e) => (with_conn p1 c, CExn e)
        | (c, CRet _) => if idle (with_conn p1 c) then start (with_conn p1 c) else (with_conn p1 c, CRet tt)
        end
      else (with_conn p1 (arrive (p_conn p1) a1 a2 a3), CRet tt)) = (p', r) -> sinv p').
  { intros p1 Q1 S1 I1 E1. destruct (idle p1) eqn:Id; [|injection E1 as <- <-; apply trash_sinv; assumption].
    destruct (idle_spec p1 Id) as [Ik Ix]. cbv zeta in E1. destruct (nonempty _ || nonempty _).
    - destruct (trash_s _ _ _ _ _ _) as [c r1] eqn:Et. destruct (trash_good _ _ _ _ _ _ _ Q1 Id Et) as [Q2 _].
      assert (I2 : sinv (with_conn p1 c)).
      { unfold sinv in *. cbn [with_conn p_closing p_conn]. rewrite Ik in *. destruct I1 as (V & F & Zc). rewrite S1, trash_true in Et.
        destruct (take_out_inv _ _ _ _ _ _ _ V Ix Et) as [V2 _]. split; [exact V2|]. split; [exact (proj1 Q2)|].
        unfold take_out_trash in Et. cbv zeta in Et. destruct (inst_init _) as [x|e] eqn:Ei; [|injection Et as <- <-; exact Zc].
        destruct (set_ok (p_conn p1) x _ WTrash V Ix Ei) as (V3 & F3 & Z3). eapply complete_Z; [| | |exact Et]; [apply trash_inv; exact V3|exact F3|exact Z3]. }
      destruct r1 as [u|e]; [|injection E1 as <- <-; exact I2]. destruct (idle (with_conn p1 c)) eqn:Id2; [|injection E1 as <- <-; exact I2].
      refine (St _ _ _ Q2 _ I2 Id2 E1). exact S1.
    - destruct (keep_good p1 _ Q1 (arrive_keep (p_conn p1) a1 a2 a3)) as (Q2 & _). pose proof (trash_sinv p1 (c_curs (p_conn p1) ++ fst a1 ++ fst a2 ++ fst a3) (c_stms (p_conn p1) ++ snd a1 ++ snd a2 ++ snd a3) Q1 I1) as I2.
      fold (arrive (p_conn p1) a1 a2 a3) in I2. destruct (idle (with_conn p1 _)) eqn:Id2; [|injection E1 as <- <-; exact I2].
      refine (St _ _ _ Q2 _ I2 Id2 E1). exact S1. }
  destruct (idle p) eqn:I0; [exact (B p Q S0 I E)|].
  destruct (pq_complete n p) as [p1 [u|e]] eqn:Ec; destruct (complete_good _ _ _ _ Q Ec) as [G _]; pose proof (complete_s _ _ _ _ S0 I Ec) as I1; destruct G as (Q1 & S1 & _).
  - apply (B p1 Q1); [congruence|exact I1|exact E].
  - injection E as <- <-. apply trash_sinv; assumption.
Qed.
Lemma start_inst_s x cmds : inst_init cmds = Ok x -> forall q p' r, qinv q -> p_sock q = true -> sinv q -> idle q = true -> start_inst x q = (p', r) -> sinv p'.
Proof.
  intros Ei q p' r Q S0 I Id E. destruct (idle_spec q Id) as [Ik Ix]. unfold start_inst in E. eapply step_s; [| |exact E]; [exact S0|].
  unfold sinv in *. cbn [with_conn p_closing p_conn]. rewrite Ik in *. apply (set_ok _ _ cmds); [apply I|exact Ix|exact Ei].
Qed.
Lemma copy_s p m : qinv p -> sinv p -> m = PDone \/ (exists lines, m = PList (map IRaw lines)) -> sinv (with_conn p (copy_messages (p_conn p) m)).
Proof.
  intros Q I Hm. destruct (copy_good p m Q) as (Q1 & _). unfold sinv in *. cbn [with_conn p_closing p_conn]. destruct (p_closing p) as [k|] eqn:Ek.
  - replace (copy_messages (p_conn p) m) with (p_conn p); [exact I|]. unfold copy_messages. destruct I as (N & _). rewrite N. reflexivity.
  - destruct I as (V & F & Zc). split; [apply copy_inv; assumption|]. split; [exact (proj1 Q1)|].
    unfold copy_messages. destruct (c_xact (p_conn p)) as [x|] eqn:Ex; [|exact Zc]. destruct (x_state (p_conn p) x) eqn:Es; try exact Zc. destruct (i_messages x); try exact Zc.
    destruct (_ || _); [exact Zc|]. right. eexists. split; [reflexivity|]. cbn. right. unfold x_state in Es. destruct (c_over (p_conn p)); [discriminate|exact Es].
Qed.
Lemma vstep_s v o p : vinv v -> v_pq v = PqIs p -> p_sock p = true -> sinv p -> plain o ->
  exists p', v_pq (fst (vstep v o)) = PqIs p' /\ sinv p'.
Proof.
  intros V Ep S0 I Pl. pose proof V as V0. unfold vinv in V. rewrite Ep in V. destruct V as [Q _].
  assert (Id : exists p', v_pq v = PqIs p' /\ sinv p') by eauto.
  assert (Ex : forall q r, sinv q -> exists p', v_pq (fst (set_pq v q, r : vres)) = PqIs p' /\ sinv p') by (intros q r H; exists q; split; [reflexivity|exact H]).
  destruct o as [o f|n cmds a1 a2 a3|n| |a|lines| |n|n a1 a2 a3]; cbn [vstep]; rewrite ?Ep; try contradiction Pl.
  - unfold connect, is_closed. rewrite Ep. destruct (lost p); exact Id.
  - destruct (inst_init cmds) as [x|e] eqn:Ei; [|apply Ex, trash_sinv; assumption].
    destruct (idle p) eqn:I0.
    + destruct (pq_push _ _ _ _ _ _) as [p1 r1] eqn:E1. apply Ex. apply (push_s _ _ _ _ _ _ _ _ Q S0 I (start_inst_s x cmds Ei) E1).
    + destruct (pq_complete n p) as [p1 [u|e]] eqn:Ec; destruct (complete_good _ _ _ _ Q Ec) as [(Q1 & S1 & _) R]; pose proof (complete_s _ _ _ _ S0 I Ec) as I1.
      * destruct (faulted p1); [apply Ex, trash_sinv; assumption|]. destruct (pq_push _ _ _ _ _ _) as [p2 r1] eqn:E1. apply Ex.
        refine (push_s _ _ _ _ _ _ _ _ Q1 _ I1 (start_inst_s x cmds Ei) E1). congruence.
      * apply Ex, trash_sinv; assumption.
  - destruct (idle p); [exact Id|]. destruct (pq_complete n p) as [p1 [u|e]] eqn:Ec; apply Ex; exact (complete_s _ _ _ _ S0 I Ec).
  - destruct (idle p); [exact Id|]. destruct (pq_step p) as [p1 [u|e]] eqn:Ec; apply Ex; exact (step_s _ _ _ S0 I Ec).
  - apply Ex, trash_sinv; assumption.
  - apply Ex, copy_s; [exact Q|exact I|right; eauto].
  - apply Ex, copy_s; [exact Q|exact I|left; reflexivity].
  - unfold close. rewrite Ep, S0.
    assert (B : forall p1, qinv p1 -> p_sock p1 = true -> sinv p1 -> exists p', v_pq (fst match (if idle p1 then
                     match pq_push n p1 a1 a2 a3 start_closing with
                     | (p, CExn e) => (p, CExn e)
                     | (p, CRet _) =>
                         match pq_complete n p with
                         | (p, CExn e) => (p, CExn e)
                         | (p, CRet _) => pq_complete n p
                         end
                     end
                   else (p1, CRet tt)) with
            | (p, CExn e) => (set_pq v p, VExn e)
            | (p, CRet _) => (shut v p, VRet)
            end) = PqIs p' /\ sinv p').
    { intros p1 Q1 S1 I1. assert (Sh : forall q, sinv q -> exists p', v_pq (shut v q) = PqIs p' /\ sinv p') by (intros q H; eexists; split; [reflexivity|exact H]).
      destruct (idle p1) eqn:Id1; [|apply Sh; exact I1].
      destruct (pq_push _ _ _ _ _ _) as [p2 r2] eqn:E2. pose proof (push_good _ _ _ _ _ _ _ _ Q1 start_closing_ok E2) as (Q2 & S2 & _).
      assert (I2 : sinv p2). { refine (push_s _ _ _ _ _ _ _ _ Q1 S1 I1 _ E2). intros q p3 r3 _ Sq Iq Idq Eq. exact (start_closing_part q p3 r3 Sq Iq Idq Eq). }
      rewrite S1 in S2. destruct r2 as [u|e]; [|eexists; split; [reflexivity|exact I2]].
      destruct (pq_complete n p2) as [p3 r3] eqn:E3. pose proof (complete_s _ _ _ _ S2 I2 E3) as I3. destruct (complete_good _ _ _ _ Q2 E3) as [(Q3 & S3 & _) _]. rewrite S2 in S3.
      destruct r3 as [u3|e]; [|eexists; split; [reflexivity|exact I3]].
      destruct (pq_complete n p3) as [p4 r4] eqn:E4. pose proof (complete_s _ _ _ _ S3 I3 E4) as I4. destruct r4 as [u4|e]; [apply Sh; exact I4|eexists; split; [reflexivity|exact I4]]. }
    destruct (negb (idle p) && negb (lost p)); [|apply (B p Q S0 I)].
    destruct (pq_complete n p) as [p1 r1] eqn:E1. pose proof (complete_s _ _ _ _ S0 I E1) as I1. destruct (complete_good _ _ _ _ Q E1) as [(Q1 & S1 & _) _].
    destruct r1 as [u|e]; [|eexists; split; [reflexivity|exact I1]]. apply (B p1 Q1); [congruence|exact I1].
Qed.
