(** ClsProof.v: the end of a connection. *)
From Verif Require Import Base BaseProof PBufferModel PBufferSpec PBufferProof Element3Model NegModel NegSpec InstModel InstSpec InstProof InstProof3 ConnModel ConnSpec ConnProof ConnProof2 ConnProof3 ConnProps ClsModel ClsSpec.

(** with a socket it is ConnModel's connection *)
Lemma step_true c : step_s true c = step c. Proof. reflexivity. Qed.
Lemma complete_true n : forall c, complete_s true n c = complete_loop n c.
Proof. induction n as [|n IH]; intros c; cbn [complete_s complete_loop]; destruct (c_xact c) as [x|]; try reflexivity; destruct (x_state c x); try reflexivity;
  change (complete1_s true c x) with (complete1 c x); destruct (complete1 c x) as [c1 [u|[| | |e]]]; auto. Qed.
Lemma trash_true n c a1 a2 a3 : trash_s true n c a1 a2 a3 = take_out_trash n c a1 a2 a3.
Proof. unfold trash_s, take_out_trash. destruct (inst_init _); [apply complete_true|reflexivity]. Qed.

(** ** fatal only with the state Complete *)
Definition fcomp (x : inst) : Prop := i_fatal x = Some true -> i_state x = IComplete.
Lemma loop_fatal l : forall s o st p c, i_fatal s <> Some true ->
  let '(s', r) := put_loop s o st p c l in
  (i_fatal s' = Some true -> i_state s' = IComplete) /\ (match r with LEnd _ _ _ _ => i_fatal s' <> Some true | _ => True end).
Proof.
  induction l as [|x l IH]; intros s o st p c N; cbn [put_loop]; [split; [congruence|exact N]|].
  destruct (nth_error (i_cmds s) o) as [cmd|]; [|split; [congruence|exact Logic.I]].
  destruct (cmd_paths cmd) as [[paths|]|]; try (split; [congruence|exact Logic.I]).
  destruct (nth_error paths st) as [tb|]; [|split; [congruence|exact Logic.I]].
  destruct (lookup (fst x) tb) as [[k next]|].
  - destruct (parse k (snd x)) as [m|]; [|split; [congruence|exact Logic.I]]. destruct next as [st'|]; [apply IH; exact N|].
    cbv zeta. match goal with |- context [length (i_cmds ?s1)] => set (s1' := s1) in * end.
    assert (N1 : i_fatal s1' <> Some true) by (unfold s1'; destruct m; exact N). clearbody s1'.
    destruct (_ =? _)%nat; [split; [congruence|exact N1]|apply IH; exact N1].
  - destruct (fst x =? 69).
    + destruct (parse (KNotice true) (snd x)) as [em|]; [|split; [congruence|exact Logic.I]].
      destruct (err_fatal em) as [f|]; [|split; [congruence|exact Logic.I]]. cbv zeta.
      destruct f; [split; [reflexivity|exact Logic.I]|]. destruct (match ctype cmd with Some t => (t =? 70) || (t =? 81) | None => false end); [apply IH; discriminate|].
      cbn [set_error i_cmds]. destruct (find_sync _) as [n|]; [apply IH; discriminate|split; [reflexivity|exact Logic.I]].
    + destruct (async_kind (fst x)) as [k|]; [|split; [reflexivity|exact Logic.I]].
      destruct (mem_async x (i_asyncs s)); [apply IH; exact N|]. destruct (parse k (snd x)); [apply IH; exact N|split; [congruence|exact Logic.I]].
Qed.
Lemma standard_fatal s id l : i_fatal s <> Some true -> fcomp (fst (standard_put s id l)).
Proof.
  intros N. unfold standard_put. destruct (if id =? i_last s then i_prev s else i_cur s) as [o st]. cbv zeta.
  set (s1 := if id =? i_last s then s else set_async s [] (i_delivered s)).
  assert (N1 : i_fatal s1 <> Some true) by (unfold s1; destruct (id =? i_last s); exact N). clearbody s1.
  destruct (nth_error (i_cmds s1) o) as [cmd|]; [|intros E; exfalso; exact (N1 E)].
  destruct (cmd_paths cmd) as [paths|]; [|intros E; exfalso; exact (N1 E)].
  pose proof (loop_fatal l s1 o st [] 0 N1) as L. destruct (put_loop s1 o st [] 0 l) as [s2 [e|n|o' st' p c]]; destruct L as [L1 L2]; try exact L1.
  cbn [set_done i_cmds]. destruct (_ =? _)%nat; [intros _; reflexivity|]. unfold fcomp. cbn [fst]. unfold switch.
  destruct (nth_error _ _) as [cm|]; [|intros E; exfalso; exact (L2 E)]. destruct (ctype cm) as [t|]; [|intros E; exfalso; exact (L2 E)].
  destruct (_ || _); [|intros E; exfalso; exact (L2 E)]. destruct (rev p) as [|m ?]; [intros E; exfalso; exact (L2 E)|].
  destruct m; try (intros E; exfalso; exact (L2 E)). match goal with |- context [match ?b with true => _ | false => _ end] => destruct b end; intros E; exfalso; exact (L2 E).
Qed.
Lemma put_fatal s id l : fcomp s -> i_state s <> IComplete -> fcomp (fst (inst_put s id l)).
Proof.
  intros F Nc. assert (N : i_fatal s <> Some true) by (intros E; apply Nc, F, E). unfold inst_put.
  destruct (i_state s) eqn:Es; try exact F.
  - apply standard_fatal; exact N.
  - unfold put_copydata. destruct (rev l) as [|lm ?]; [exact F|]. destruct (negb (fst lm =? 100)); [apply standard_fatal; exact N|]. cbv zeta.
    destruct (negb _); [apply standard_fatal; exact N|]. intros E. exfalso. exact (N E).
  - unfold put_tupledata. destruct (rev l) as [|lm ?]; [exact F|]. destruct (negb (fst lm =? 68)); [apply standard_fatal; exact N|].
    destruct (mapM _ _) as [tl|]; [|exact F]. destruct (negb _); [apply standard_fatal; exact N|]. intros E. exfalso. exact (N E).
Qed.
Lemma sent_fatal s : fcomp s -> fcomp (inst_sent s).
Proof. intros F. unfold inst_sent. destruct (i_state s) eqn:Es; try exact F; [|destruct (i_messages s)]; unfold fcomp in *; cbn; intros E; apply F in E; congruence. Qed.
Lemma init_fatal cmds x : inst_init cmds = Ok x -> fcomp x.
Proof. unfold inst_init, fcomp. destruct (all_ok cmds); [|discriminate]. intros E. injection E as <-. discriminate. Qed.

(** ** frames *)
Definition fr (c c' : conn) : Prop :=
  c_xact c' = c_xact c /\ c_down c' = c_down c /\ c_over c' = c_over c /\ c_curs c' = c_curs c /\ c_stms c' = c_stms c /\ c_done c' = c_done c /\ c_who c' = c_who c.
Lemma fr_refl c : fr c c. Proof. unfold fr; auto 10. Qed.
Lemma fr_trans a b c : fr a b -> fr b c -> fr a c.
Proof. unfold fr. intros (A1 & A2 & A3 & A4 & A5 & A6 & A7) (B1 & B2 & B3 & B4 & B5 & B6 & B7). repeat split; congruence. Qed.
Lemma fr_out c d w wr ss wi : fr c (with_out c d w wr ss wi). Proof. unfold fr; cbn; auto 10. Qed.
Lemma send_fr c : fr c (fst (send_message_data c)).
Proof. unfold send_message_data. destruct (send_loop _ _ _) as [[[d ss] w] r]. apply fr_out. Qed.
Lemma write_fr c m : fr c (fst (write_messages c m)).
Proof.
  unfold write_messages.
  assert (K : forall c1, fr c c1 -> fr c (fst (if same_obj (c_writing c1) (Some (fst m)) then send_message_data c1
      else let c2 := with_out c1 (c_data c1) (Some m) (c_written c1) (c_sends c1) (c_wire c1) in
           match cat_messages (snd m) with
           | Err e => (c2, CExn (XProto e))
           | Ok b => send_message_data (with_out c2 (c_data c2 ++ b) (Some m) (Some (fst m)) (c_sends c2) (c_wire c2))
           end))).
  { intros c1 F. destruct (same_obj _ _); [eapply fr_trans; [exact F|apply send_fr]|]. cbv zeta. destruct (cat_messages _) as [b|e].
    - eapply fr_trans; [exact F|]. eapply fr_trans; [apply fr_out|]. eapply fr_trans; [apply fr_out|]. apply send_fr.
    - cbn [fst]. eapply fr_trans; [exact F|apply fr_out]. }
  destruct (same_obj (c_writing c) (c_written c)); [apply (K c (fr_refl c))|].
  destruct (c_writing c) as [[i l]|] eqn:Ew; [|apply fr_refl]. destruct (cat_messages l) as [b|e]; [|apply fr_refl].
  cbn [bind]. exact (K (with_out c (c_data c ++ b) (Some (i, l)) (Some i) (c_sends c) (c_wire c)) (fr_out _ _ _ _ _ _)).
Qed.
Lemma send_nil c : c_sends c = [] -> c_wire (fst (send_message_data c)) = c_wire c.
Proof. intros E. unfold send_message_data. rewrite E. destruct (c_data c); reflexivity. Qed.
Lemma write_nil c m : c_sends c = [] -> c_wire (fst (write_messages c m)) = c_wire c.
Proof.
  intros E. unfold write_messages.
  assert (K : forall c1, c_sends c1 = [] -> c_wire (fst (if same_obj (c_writing c1) (Some (fst m)) then send_message_data c1
      else let c2 := with_out c1 (c_data c1) (Some m) (c_written c1) (c_sends c1) (c_wire c1) in
           match cat_messages (snd m) with
           | Err e => (c2, CExn (XProto e))
           | Ok b => send_message_data (with_out c2 (c_data c2 ++ b) (Some m) (Some (fst m)) (c_sends c2) (c_wire c2))
           end)) = c_wire c1).
  { intros c1 F. destruct (same_obj _ _); [apply send_nil; exact F|]. cbv zeta. destruct (cat_messages _) as [b|e]; [|reflexivity]. rewrite send_nil by exact F. reflexivity. }
  destruct (same_obj (c_writing c) (c_written c)); [apply (K c E)|].
  destruct (c_writing c) as [[i l]|] eqn:Ew; [|reflexivity]. destruct (cat_messages l) as [b|e]; [|reflexivity].
  cbn [bind]. exact (K (with_out c (c_data c ++ b) (Some (i, l)) (Some i) (c_sends c) (c_wire c)) E).
Qed.
Lemma no_write_spec c m : exists c' e, no_write c m = (c', CExn (XProto e)) /\ fr c c' /\ c_wire c' = c_wire c /\ c_in c' = c_in c.
Proof.
  unfold no_write. set (c0 := with_out c (c_data c) (c_writing c) (c_written c) [] (c_wire c)).
  pose proof (write_fr c0 m) as F. pose proof (write_nil c0 m eq_refl) as W.
  assert (I : c_in (fst (write_messages c0 m)) = c_in c).
  { clear. unfold write_messages. assert (S : forall c, c_in (fst (send_message_data c)) = c_in c) by (intros c1; unfold send_message_data; destruct (send_loop _ _ _) as [[[? ?] ?] ?]; reflexivity).
    change (c_in c) with (c_in c0). clearbody c0. clear c. rename c0 into c.
    destruct (same_obj (c_writing c) (c_written c)); [|destruct (c_writing c) as [[i l]|]; [destruct (cat_messages l); [|reflexivity]|reflexivity]]; cbn [bind];
      (destruct (same_obj _ _); [rewrite S; reflexivity|]); destruct (cat_messages (snd m)); try reflexivity; cbv zeta; rewrite S; reflexivity. }
  destruct (write_messages c0 m) as [c1 r]. cbn [fst] in *.
  assert (F1 : fr c (with_out c1 (c_data c1) (c_writing c1) (c_written c1) (c_sends c) (c_wire c1))).
  { eapply fr_trans; [|apply fr_out]. eapply fr_trans; [|exact F]. apply fr_out. }
  destruct r as [b|[| | |e]]; eexists; eexists; (split; [reflexivity|]); cbn; auto.
Qed.
Lemma wr_fr s c m : fr c (fst (wr s c m)).
Proof. unfold wr. destruct s; [apply write_fr|]. destruct (no_write_spec c m) as (c' & e & -> & F & _). exact F. Qed.
Lemma read_fr c : fr c (fst (read_messages c)).
Proof.
  unfold read_messages. destruct (snd (c_read c)); [|apply fr_refl].
  assert (RI : fr c (fst (read_into c))).
  { unfold read_into. destruct (pb_has_message _) as [[[|]|] b]; try (unfold fr; cbn; auto 10; fail). destruct (recv_loop _ _ _) as [[[[b1 rd] rr] i] r]. unfold fr; cbn; auto 10. }
  destruct (read_into c) as [c1 [r|e]]; [|exact RI]. cbn [fst] in RI. destruct (pb_read _ _) as [[l|e] b]; (eapply fr_trans; [exact RI|]); unfold fr; cbn; auto 10.
Qed.
Lemma rd_fr s c : fr c (fst (rd s c)).
Proof. unfold rd. destruct s; [apply read_fr|]. unfold no_read. destruct (snd (c_read c)); apply fr_refl. Qed.

(** ** the general invariant *)
Definition FC (c : conn) : Prop := (forall x, c_xact c = Some x -> fcomp x) /\ (c_over c = true -> c_down c = true).
Lemma FC_fr c c' : fr c c' -> FC c -> FC c'.
Proof. intros (A & B & C & _) [F Ov]. split; [rewrite A; exact F|rewrite B, C; exact Ov]. Qed.
Lemma FC_down c b : FC c -> FC (with_down c b). Proof. intros [F Ov]. split; [exact F|reflexivity]. Qed.
Lemma FC_set c o w : (forall x, o = Some x -> fcomp x) -> FC (set_xact c o w).
Proof. intros F. split; [exact F|discriminate]. Qed.
Lemma FC_finish c : FC c -> FC (finish_step c).
Proof. intros F. unfold finish_step. destruct (c_xact c) as [x|]; [|exact F]. destruct (_ && _); [apply FC_set; discriminate|exact F]. Qed.
Lemma FC_sent c x : fcomp x -> FC c -> FC (sent c x).
Proof. intros Fx [F Ov]. split; [|exact Ov]. cbn. intros y E. injection E as <-. apply sent_fatal; exact Fx. Qed.
Lemma FC_take c x : fcomp x -> i_state x <> IComplete -> FC c -> FC (fst (take_messages c x)).
Proof.
  intros Fx N [F Ov]. unfold take_messages. pose proof (put_fatal x (fst (c_read c)) (snd (c_read c)) Fx N) as P.
  destruct (inst_put _ _ _) as [x' [n|e]]; (split; [|exact Ov]); cbn; intros y E; injection E as <-; exact P.
Qed.
Lemma x_state_not c x st : x_state c x = st -> st <> IComplete -> i_state x <> IComplete.
Proof. unfold x_state. destruct (c_over c); congruence. Qed.

Lemma step_FC s c : FC c -> FC (fst (step_s s c)).
Proof.
  intros F. unfold step_s. destruct (c_xact c) as [x|] eqn:Ex; [|exact F]. pose proof (proj1 F x Ex) as Fx.
  destruct (x_state c x) eqn:Es; try exact F.
  1,2: pose proof (wr_fr s c (c_mid c, outgoing x)) as W; destruct (wr s c (c_mid c, outgoing x)) as [c1 r]; cbn [fst] in W; pose proof (FC_fr _ _ W F) as F1;
    destruct r as [[|]|[| | |e]]; try exact F1; apply FC_finish; try (apply FC_down); apply FC_sent; assumption.
  all: pose proof (rd_fr s c) as W; destruct (rd s c) as [c1 r]; cbn [fst] in W; pose proof (FC_fr _ _ W F) as F1;
    destruct r as [b|[| | |e]]; try exact F1;
    assert (F2 : FC (if b then c1 else with_down c1 true)) by (destruct b; [exact F1|apply FC_down; exact F1]);
    pose proof (FC_take _ x Fx (x_state_not _ _ _ Es ltac:(discriminate)) F2) as F3;
    destruct (take_messages _ x) as [c2 [u|e]]; [apply FC_finish; exact F3|exact F3].
Qed.
Lemma complete1_FC s c x : FC c -> c_xact c = Some x -> FC (fst (complete1_s s c x)) /\ c_xact (fst (complete1_s s c x)) <> None /\
  (c_down c = true -> c_down (fst (complete1_s s c x)) = true).
Proof.
  intros F Ex. unfold complete1_s. pose proof (proj1 F x Ex) as Fx.
  destruct (x_state c x) eqn:Es.
  1,2: pose proof (wr_fr s c (c_mid c, outgoing x)) as W; destruct (wr s c (c_mid c, outgoing x)) as [c1 r]; cbn [fst] in W; pose proof (FC_fr _ _ W F) as F1;
    destruct W as (W1 & W2 & _);
    destruct r as [[|]|e]; cbn [fst]; (split; [first [exact F1 | apply FC_down; exact F1 | apply FC_sent; assumption]|]); cbn; split; congruence.
  all: try (cbn [fst]; split; [exact F|split; [congruence|auto]]; fail).
  all: pose proof (rd_fr s c) as W; destruct (rd s c) as [c1 r]; cbn [fst] in W; pose proof (FC_fr _ _ W F) as F1; destruct W as (W1 & W2 & _);
    destruct r as [[|]|e]; cbn [fst]; [|split; [apply FC_down; exact F1|cbn; split; congruence]|split; [exact F1|split; congruence]];
    (split; [apply FC_take; [exact Fx|apply (x_state_not _ _ _ Es); discriminate|exact F1]|]);
    unfold take_messages; destruct (inst_put _ _ _) as [x' [n|e]]; cbn; split; congruence.
Qed.
(** complete() that returns: there is no transaction any more, or it is over and fatal *)
Definition over (c : conn) : Prop := exists x, c_xact c = Some x /\ x_state c x = IComplete /\ x_fatal c x = true.
Lemma complete_end s n : forall c c' r, FC c -> complete_s s n c = (c', r) ->
  FC c' /\ (forall u, r = CRet u -> c_xact c' = None \/ over c') /\ (forall e, r = CExn e -> c_xact c <> None -> c_xact c' <> None) /\
  (c_down c = true -> c_xact c <> None -> c_down c' = true /\ c_xact c' <> None).
Proof.
  assert (B : forall c c' r x, FC c -> c_xact c = Some x -> x_state c x = IComplete -> (finish_step c, CRet tt) = (c', r) ->
     FC c' /\ (forall u : unit, r = CRet u -> c_xact c' = None \/ over c') /\ (forall e, r = CExn e -> c_xact c <> None -> c_xact c' <> None) /\
     (c_down c = true -> c_xact c <> None -> c_down c' = true /\ c_xact c' <> None)).
  { intros c c' r x F Ex Es E. injection E as <- <-. split; [apply FC_finish; exact F|]. split; [|split; [discriminate|]].
    - intros _ _. unfold finish_step. rewrite Ex, Es. cbn [is_complete]. rewrite andb_true_l. destruct (x_fatal c x) eqn:Ef; cbn [negb]; [|left; reflexivity].
      right. exists x. auto.
    - intros D _. unfold finish_step. rewrite Ex, Es. cbn [is_complete]. unfold x_fatal. rewrite D. cbn. split; [exact D|congruence]. }
  induction n as [|n IH]; intros c c' r F E; cbn [complete_s] in E.
  - destruct (c_xact c) as [x|] eqn:Ex; [|injection E as <- <-; split; [exact F|]; split; [discriminate|]; split; congruence].
    destruct (x_state c x) eqn:Es; try (injection E as <- <-; split; [exact F|]; split; [discriminate|]; split; intros; [congruence|split; [assumption|congruence]]).
    rewrite <- Ex. apply (B _ _ _ x F Ex Es E).
  - destruct (c_xact c) as [x|] eqn:Ex; [|injection E as <- <-; split; [exact F|]; split; [discriminate|]; split; congruence].
    rewrite <- Ex.
    destruct (x_state c x) eqn:Es; try (apply (B _ _ _ x F Ex Es E)).
    all: destruct (complete1_FC s c x F Ex) as (F1 & N1 & D1); destruct (complete1_s s c x) as [c1 [u|[| | |e]]]; cbn [fst] in *;
      try (destruct (IH _ _ _ F1 E) as (G1 & G2 & G3 & G4); split; [exact G1|]; split; [exact G2|]; split; [intros e Q _; apply (G3 e Q N1)|]; intros D _; apply G4; auto; fail);
      try (injection E as <- <-; split; [exact F1|]; split; [discriminate|]; split; [intros; assumption|]; intros D _; split; [apply D1; exact D|exact N1]; fail).
    all: injection E as <- <-; split; [apply FC_down; exact F1|]; split; [|split; [discriminate|intros _ _; split; [reflexivity|exact N1]]].
    all: intros _ _; right; destruct (c_xact c1) as [y|] eqn:Ey; [|congruence]; exists y; split; [exact Ey|]; split; reflexivity.
Qed.
