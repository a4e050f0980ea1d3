(** InstProps.v: C25-C28, C47: what a transaction says about the server's answers. *)
From Verif Require Import Base BaseProof PBufferModel PBufferProof Element3Model Element3Proof NegModel NegSpec NegProof InstModel InstSpec InstProof InstProof2 InstProof3.

(** ** C25 *)
(** Complete without a fatal condition: the server answered every command, in order, and
    nothing else was received; the results are its messages, each of them once. *)
Theorem C25_complete cmds s tr : irun cmds s tr -> i_state s = IComplete -> i_fatal s = None ->
  conv cmds (sync_part (recvd tr)) None /\ Forall2 msg_is (sync_part (recvd tr)) (messages_received s).
Proof.
  intros H C F. pose proof (irun_inv _ _ _ H) as (_ & _ & _ & M). specialize (M (or_introl F)). unfold main in M.
  destruct (rrun _ _ _ _) as [r f] eqn:E. cbn [fst snd] in M. destruct M as (M1 & M2 & M3). rewrite F in M1. subst f.
  destruct r.
  - destruct M3 as (_ & N & _). contradiction.
  - assert (V := fin_conv _ _ _ _ (irun_ok _ _ _ H) E (or_introl eq_refl)). split; [exact V|].
    destruct M3 as (_ & M3). rewrite (conv_noerr _ _ V) in M3. exact M3.
  - destruct M3 as (_ & N & _). contradiction.
  - contradiction.
Qed.
(** At any time, when no fatal condition was met: what was received is the beginning of
    such a conversation, and all of it is in the results, each message once, in order. *)
Theorem C25_accounted cmds s tr : irun cmds s tr -> starts cmds -> i_fatal s = None ->
  conforms cmds (recvd tr) /\ Forall2 msg_is (sync_part (recvd tr)) (messages_received s).
Proof.
  intros H St F. pose proof (irun_inv _ _ _ H) as (_ & _ & _ & M). specialize (M (or_introl F)). unfold main in M.
  pose proof (errors_spec cmds (sync_part (recvd tr)) (RAt 0 0) None None) as ES.
  assert (W := rrun_wf cmds (sync_part (recvd tr)) (irun_ok _ _ _ H) (RAt 0 0) None (starts_wf _ (irun_ok _ _ _ H) St)).
  destruct (rrun _ _ _ _) as [r f] eqn:E. cbn [fst snd] in *. destruct M as (M1 & M2 & M3). rewrite F in M1. subst f.
  destruct St as (c & cs & Ec & Nc).
  assert (V : r <> RViol) by (intros ->; exact M3). destruct (ES V) as [(N & _ & _)|(? & ? & ? & _ & _ & _ & Q & _)]; [|discriminate]. rewrite N in M3.
  destruct r.
  - destruct M3 as (_ & _ & _ & M3). split; [|exact M3]. destruct (finish cmds o st None (irun_ok _ _ _ H) W) as [l' R].
    exists c, cs, l', None. split; [exact Ec|]. split; [exact Nc|].
    apply (fin_conv cmds _ RFin None (irun_ok _ _ _ H)); [|auto]. rewrite rrun_app, E. exact R.
  - destruct M3 as (_ & M3). split; [|exact M3]. exists c, cs, [], None. rewrite app_nil_r. split; [exact Ec|]. split; [exact Nc|].
    apply (fin_conv cmds _ RFin None (irun_ok _ _ _ H)); auto.
  - destruct M3 as (_ & X & _). contradiction.
  - contradiction.
Qed.
(** and once the server has answered everything, the transaction is complete. *)
Theorem C25_answered cmds s tr g : irun cmds s tr -> starts cmds -> conv cmds (sync_part (recvd tr)) g ->
  i_state s = IComplete /\ i_fatal s = g.
Proof.
  intros H (c & cs & Ec & Nc) V. destruct (conv_fin _ _ _ _ _ Ec Nc V) as (r & R & Hr).
  pose proof (irun_inv _ _ _ H) as (_ & _ & _ & M). unfold good, main in M. rewrite R in M. cbn [fst snd] in M.
  destruct M as (M1 & _ & M3); [right; destruct Hr; subst; discriminate|]. split; [|auto]. destruct Hr; subst r; apply M3.
Qed.
(** A transaction takes every batch of readable messages, whatever they are: all of it, or
    up to the message which completes it. *)
Theorem C25_progress cmds s tr id l : irun cmds s tr -> starts cmds -> receiving s -> id <> i_last s -> l <> [] -> Forall well_formed l ->
  exists s' c, inst_put s id l = (s', Ok c) /\ 0 <= c <= len l /\ (c = len l \/ i_state s' = IComplete).
Proof.
  intros H St R Nid Nl W. pose proof (put_prog_ok s id l cmds (irun_ok _ _ _ H) (irun_pos _ _ _ H St) R Nid (or_introl Nl)) as P.
  unfold put_prog in P. destruct (inst_put s id l) as [s' [c|e]] eqn:E; cbn [snd] in P; [|contradiction].
  exists s', c. split; [reflexivity|]. destruct (inst_put_ok _ _ _ _ _ E Nid) as [Q|(_ & -> & _)]; [|pose proof (len_nonneg l); split; [lia|auto]].
  unfold put_ok in Q. cbn [i_cur i_cmds i_fatal set_state] in Q. destruct (i_cur s) as [o st]. destruct Q as (k & -> & K & _ & _ & _ & Q).
  split; [unfold len; lia|]. destruct Q as [(Q & _)|(o' & st' & ms & _ & _ & _ & _ & _ & _ & _ & Q1 & Q2 & _)]; [auto|].
  destruct (Nat.eq_dec o' (length (i_cmds s))) as [E1|E1]; [auto|]. left. rewrite (Q1 E1). reflexivity.
Qed.
Print Assumptions C25_complete. Print Assumptions C25_accounted. Print Assumptions C25_answered. Print Assumptions C25_progress.

(** ** C26 *)
(** The same messages in other batches: the same outcome; the same results unless an
    error response ended the transaction. *)
Theorem C26_batching_partial cmds s1 tr1 s2 tr2 : irun cmds s1 tr1 -> irun cmds s2 tr2 -> recvd tr1 = recvd tr2 -> conforms cmds (recvd tr1) ->
  i_fatal s1 = i_fatal s2 /\ i_error s1 = i_error s2 /\ (i_state s1 = IComplete <-> i_state s2 = IComplete) /\
  (i_state s1 <> IComplete \/ (forall l body, sync_part (recvd tr1) <> l ++ [(69, body)]) -> messages_received s1 = messages_received s2) /\
  (i_state s1 <> IComplete -> i_cur s1 = i_cur s2) /\
  (NoDup (async_part (recvd tr1)) -> i_delivered s1 = i_delivered s2).
Proof.
  intros H1 H2 E Cf. pose proof (conforms_good _ _ Cf) as G.
  pose proof (irun_inv _ _ _ H1) as (_ & _ & (A1 & Sq1 & I1 & F1) & M1). pose proof (irun_inv _ _ _ H2) as (_ & _ & (A2 & Sq2 & I2 & F2) & M2).
  rewrite <- E in *. specialize (M1 (or_intror G)). specialize (M2 (or_intror G)). unfold main in *.
  destruct (rrun _ _ _ _) as [r f] eqn:Er. cbn [fst snd] in *. destruct M1 as (X1 & Y1 & Z1), M2 as (X2 & Y2 & Z2).
  split; [congruence|]. split; [congruence|].
  assert (D : NoDup (async_part (recvd tr1)) -> i_delivered s1 = i_delivered s2).
  { intros N. rewrite (subseq_nodup _ _ Sq1 N I1) in F1. rewrite (subseq_nodup _ _ Sq2 N I2) in F2. eapply Forall2_det; [exact async_is_det|eauto|eauto]. }
  destruct r.
  - destruct Z1 as (Z1 & N1 & _ & R1), Z2 as (Z2 & N2 & _ & R2). split; [split; contradiction|]. split; [|split; [congruence|exact D]].
    intros _. eapply Forall2_det; [exact msg_is_det|eauto|eauto].
  - destruct Z1 as (N1 & R1), Z2 as (N2 & R2). split; [split; auto|]. split; [|split; [contradiction|exact D]].
    intros _. eapply Forall2_det; [exact msg_is_det|eauto|eauto].
  - destruct Z1 as (N1 & _), Z2 as (N2 & _). split; [split; auto|]. split; [|split; [contradiction|exact D]].
    intros [Q|Q]; [contradiction|]. apply rrun_stop_last in Er as (l1 & body & Er); [|discriminate]. exfalso. eapply Q; eauto.
  - contradiction.
Qed.
(** even then, the results are a prefix of the messages *)
Theorem C26_prefix cmds s tr : irun cmds s tr -> conforms cmds (recvd tr) ->
  exists n, Forall2 msg_is (firstn n (no_errors (sync_part (recvd tr)))) (messages_received s).
Proof.
  intros H Cf. pose proof (conforms_good _ _ Cf) as G. pose proof (irun_inv _ _ _ H) as (_ & _ & _ & M). specialize (M (or_intror G)).
  unfold main in M. destruct M as (_ & _ & M). destruct (fst _).
  - exists (length (no_errors (sync_part (recvd tr)))). rewrite firstn_all. apply M.
  - exists (length (no_errors (sync_part (recvd tr)))). rewrite firstn_all. apply M.
  - apply M.
  - contradiction.
Qed.
Print Assumptions C26_batching_partial. Print Assumptions C26_prefix.

(** ** C27 *)
(** The server keeping to the protocol, with errors ([conv]: an error makes the commands up
    to the next Sync be skipped; a query goes on to its Ready): complete exactly when
    the conversation is over, and the fatal condition is as [conv] says. *)
Theorem C27_complete cmds s tr : irun cmds s tr -> conforms cmds (recvd tr) ->
  (i_state s = IComplete <-> exists g, conv cmds (sync_part (recvd tr)) g) /\
  (forall g, conv cmds (sync_part (recvd tr)) g -> i_fatal s = g).
Proof.
  intros H Cf. assert (St : starts cmds) by (destruct Cf as (c & cs & l & g & E & N & _); exists c, cs; auto).
  split; [split|].
  - intros C. pose proof (conforms_good _ _ Cf) as G. pose proof (irun_inv _ _ _ H) as (_ & _ & _ & M). specialize (M (or_intror G)). unfold main in M.
    destruct (rrun _ _ _ _) as [r f] eqn:E. cbn [fst snd] in *. destruct M as (_ & _ & M). exists f. destruct r.
    + destruct M as (_ & N & _). contradiction.
    + apply (fin_conv _ _ _ _ (irun_ok _ _ _ H) E). auto.
    + apply (fin_conv _ _ _ _ (irun_ok _ _ _ H) E). auto.
    + contradiction.
  - intros [g V]. apply (C25_answered _ _ _ _ H St V).
  - intros g V. apply (C25_answered _ _ _ _ H St V).
Qed.
(** the last error response is recorded, with its severity *)
Theorem C27_recorded cmds s tr : irun cmds s tr -> conforms cmds (recvd tr) ->
  (no_errors (sync_part (recvd tr)) = sync_part (recvd tr) /\ i_fatal s = None /\ i_error s = None) \/
  (exists body b m, last_reported (sync_part (recvd tr)) body /\ severity body b /\ parse (KNotice true) body = Ok m /\
     i_fatal s = Some b /\ i_error s = Some (IEServer m)).
Proof.
  intros H Cf. pose proof (conforms_good _ _ Cf) as G. pose proof (irun_inv _ _ _ H) as (_ & _ & _ & M). specialize (M (or_intror G)).
  unfold main in M. destruct M as (M1 & M2 & _).
  destruct (errors_spec cmds (sync_part (recvd tr)) (RAt 0 0) None None G) as [(N & S & L)|(body & b & m & R & V & P & S & L)].
  - left. split; [exact N|]. split; congruence.
  - right. exists body, b, m. split; [exact R|]. split; [exact V|]. split; [exact P|]. split; congruence.
Qed.
(** A server not keeping to the protocol never goes unnoticed; and if it is the first thing
    to go wrong, the transaction is ended at once by a fatal condition. *)
Theorem C27_violation cmds s tr : irun cmds s tr -> starts cmds -> ~ conforms cmds (recvd tr) ->
  i_fatal s <> None /\ ((forall b, ~ List.In (69, b) (recvd tr)) -> i_state s = IComplete /\ i_fatal s = Some true).
Proof.
  intros H St N. assert (F : i_fatal s <> None) by (intros F; apply N; apply (C25_accounted _ _ _ H St F)).
  split; [exact F|]. intros Q. destruct (irun_quiet _ _ _ H Q) as [E|[E1 E2]]; [contradiction|auto].
Qed.
Print Assumptions C27_complete. Print Assumptions C27_recorded. Print Assumptions C27_violation.

(** ** C28 *)
(** Every asynchronous message is delivered, in order; only repetitions may be left out. *)
Theorem C28_delivered_partial cmds s tr : irun cmds s tr ->
  exists A, subseq A (async_part (recvd tr)) /\ incl (async_part (recvd tr)) A /\ Forall2 async_is A (i_delivered s).
Proof. intros H. apply (irun_inv _ _ _ H). Qed.
(** Each exactly once when they are different. *)
Theorem C28_exactly_once cmds s tr : irun cmds s tr -> NoDup (async_part (recvd tr)) -> Forall2 async_is (async_part (recvd tr)) (i_delivered s).
Proof.
  intros H N. destruct (C28_delivered_partial _ _ _ H) as (A & S & I & F). rewrite (subseq_nodup _ _ S N I) in F. exact F.
Qed.
(** It is enough that they be different in each batch. *)
Theorem C28_batch cmds s tr id l s' c : irun cmds s tr -> id <> i_last s -> inst_put s id l = (s', Ok c) ->
  NoDup (async_part (firstn (Z.to_nat c) l)) ->
  exists ds, i_delivered s' = i_delivered s ++ ds /\ Forall2 async_is (async_part (firstn (Z.to_nat c) l)) ds.
Proof.
  intros H Nid E ND. destruct (inst_put_ok _ _ _ _ _ E Nid) as [Q|Q].
  - unfold put_ok in Q. cbn [i_cur i_cmds i_fatal set_state i_delivered] in Q. destruct (i_cur s) as [o st]. destruct Q as (k & -> & K & _ & _ & (ds & F & D) & _).
    rewrite Nat2Z.id in *. exists ds. split; [exact D|]. rewrite (subseq_nodup (fresh [] (async_part (firstn k l))) (async_part (firstn k l))) in F; auto using fresh_subseq.
    intros x Hx. destruct (fresh_incl (async_part (firstn k l)) [] x Hx) as [[]|Hf]; exact Hf.
  - destruct Q as (_ & -> & ms & _ & -> & Q). cbn [i_delivered set_done]. exists []. rewrite app_nil_r. split; [reflexivity|].
    rewrite len_nat, firstn_all. destruct Q as [[_ Q]|[_ Q]]; [rewrite (proj2 (all_nonasync 100 l Q ltac:(lia) ltac:(lia) ltac:(lia)))|rewrite (proj2 (all_nonasync 68 l Q ltac:(lia) ltac:(lia) ltac:(lia)))]; constructor.
Qed.
(** A batch given again after it was taken changes nothing: the position, the results and
    the deliveries are those of the first time. *)
Theorem C28_again cmds s tr id l s1 c : irun cmds s tr -> id <> i_last s -> i_state s = IPut -> inst_put s id l = (s1, Ok c) ->
  i_state s1 = IPut ->
  exists s2, inst_put s1 id l = (s2, Ok c) /\ i_delivered s2 = i_delivered s1 /\ messages_received s2 = messages_received s1 /\ i_cur s2 = i_cur s1.
Proof.
  intros _ Nid Es E E1. unfold inst_put in *. rewrite Es in E. rewrite E1. unfold standard_put in E.
  apply Z.eqb_neq in Nid. rewrite Nid in E. destruct (i_cur s) as [o st] eqn:Ec.
  destruct (nth_error _ o) as [cmd|] eqn:En in E; [|discriminate]. destruct (cmd_paths cmd) as [ps|] eqn:Ep; [|discriminate].
  set (s0 := set_async s [] (i_delivered s)) in *. assert (C0 : i_cur s0 = (o, st)) by exact Ec. assert (L0 : i_state s0 = IPut) by exact Es. clearbody s0.
  pose proof (put_loop_frame l s0 o st [] 0) as F. cbv zeta in F. pose proof (put_loop_again l s0 o st [] 0) as A.
  assert (F2 : i_cur (fst (put_loop s0 o st [] 0 l)) = i_cur s0).
  { clear. generalize (@nil message) 0. revert s0 o st. induction l as [|x l IH]; intros s o st p c; cbn [put_loop]; [reflexivity|].
    destruct (nth_error _ _) as [cmd|]; [|reflexivity]. destruct (cmd_paths cmd) as [[ps|]|]; try reflexivity.
    destruct (nth_error ps st) as [tb|]; [|reflexivity]. destruct (lookup _ _) as [[k [n|]]|].
    - destruct (parse _ _); [|reflexivity]. apply IH.
    - destruct (parse _ _) as [m|]; [|reflexivity]. set (s1 := match m with MReady st0 => set_ready s st0 | _ => s end).
      assert (E : i_cur s1 = i_cur s) by (subst s1; destruct m; reflexivity). clearbody s1. destruct (_ =? _)%nat; [exact E|rewrite IH; exact E].
    - destruct (_ =? _).
      + destruct (parse _ _) as [em|]; [|reflexivity]. destruct (err_fatal em) as [[|]|]; try reflexivity.
        match goal with |- context [if ?b then _ else _] => destruct b end; [rewrite IH; reflexivity|]. destruct (find_sync _); [rewrite IH; reflexivity|reflexivity].
      + destruct (async_kind _); [|reflexivity]. destruct (mem_async _ _); [apply IH|]. destruct (parse _ _); [rewrite IH; reflexivity|reflexivity]. }
  destruct (put_loop s0 o st [] 0 l) as [t [e|k|o' st' p k]] eqn:El; cbn [fst] in *; destruct F as (F1 & _ & _ & F4); [discriminate| |].
  { injection E as <- <-. exfalso. clear -El E1 L0.
    revert El. generalize (@nil message) 0. revert s0 o st L0. induction l as [|x l IH]; intros s o st L0 p c; cbn [put_loop]; [discriminate|].
    destruct (nth_error _ _) as [cmd|]; [|discriminate]. destruct (cmd_paths cmd) as [[ps|]|]; try discriminate.
    destruct (nth_error ps st) as [tb|]; [|discriminate]. destruct (lookup _ _) as [[n [m|]]|].
    - destruct (parse _ _); [|discriminate]. apply IH; auto.
    - destruct (parse _ _) as [m|]; [|discriminate]. set (s1 := match m with MReady st0 => set_ready s st0 | _ => s end).
      assert (E : i_state s1 = IPut) by (subst s1; destruct m; auto). clearbody s1. destruct (_ =? _)%nat; [discriminate|apply IH; exact E].
    - destruct (_ =? _).
      + destruct (parse _ _) as [em|]; [|discriminate]. destruct (err_fatal em) as [[|]|]; try discriminate.
        * intros X. injection X as <- _. discriminate.
        * match goal with |- context [if ?b then _ else _] => destruct b end; [apply IH; auto|]. destruct (find_sync _); [apply IH; auto|]. intros X. injection X as <- _. discriminate.
      + destruct (async_kind _); [|intros X; injection X as <- _; discriminate]. destruct (mem_async _ _); [apply IH; auto|]. destruct (parse _ _); [apply IH; auto|discriminate]. }
  cbn [i_cmds set_done] in E. destruct (Nat.eqb_spec o' (length (i_cmds t))) as [X|X]; injection E as Es1 Ec1.
  { rewrite <- Es1 in E1. discriminate. }
  set (t1 := set_done t (add_completed t id p) id (i_cur t) (o', st')) in *.
  assert (SW : switch t1 o' p = t1).
  { clear -Es1 E1. subst s1. unfold switch in *. destruct (nth_error _ o') as [c0|]; auto. destruct (ctype c0) as [t0|]; auto.
    destruct (_ || _); auto. destruct (rev p) as [|m0 r0]; auto. destruct m0; auto; try discriminate. match goal with |- context [if ?b then _ else _] => destruct b end; discriminate. }
  rewrite SW in Es1. subst s1 c. cbn [i_last t1 set_done i_prev i_cmds]. unfold standard_put. change (i_last t1) with id. rewrite Z.eqb_refl.
  change (i_prev t1) with (i_cur t). rewrite F2, C0. change (i_cmds t1) with (i_cmds t). rewrite F1. cbn [set_async] in En.
  rewrite F1 in X. 
  assert (En' : nth_error (i_cmds s0) o = Some cmd) by exact En. rewrite En', Ep.
  destruct (A _ _ _ _ _ eq_refl t1) as (u & U1 & U2); [exact F1|apply incl_refl|]. rewrite U1. destruct U2 as (V1 & V2 & V3 & V4 & V5 & V6 & V7).
  cbn [i_cmds set_done]. rewrite V1. change (i_cmds t1) with (i_cmds t). rewrite F1. destruct (Nat.eqb_spec o' (length (i_cmds s0))); [contradiction|].
  set (u1 := set_done u (add_completed u id p) id (i_cur u) (o', st')).
  assert (SWC : forall a, i_cmds a = i_cmds t1 -> i_state a = i_state t1 -> i_delivered (switch a o' p) = i_delivered a /\ i_completed (switch a o' p) = i_completed a /\ i_cur (switch a o' p) = i_cur a).
  { intros a _ _. unfold switch. destruct (nth_error _ o') as [c0|]; auto. destruct (ctype c0) as [t0|]; auto.
    destruct (_ || _); auto. destruct (rev p) as [|m0 r0]; auto. destruct m0; auto. match goal with |- context [if ?b then _ else _] => destruct b end; auto. }
  destruct (SWC u1 V1 V7) as (W1 & W2 & W3).
  exists (switch u1 o' p). split; [reflexivity|]. rewrite W1, W3. split; [exact V6|]. split; [|reflexivity].
  unfold messages_received. rewrite W2. subst u1. cbn [i_completed set_done]. unfold add_completed at 1. rewrite V2. change (i_completed t1) with (add_completed t id p).
  unfold add_completed. destruct (rev (i_completed t)) as [|[i y] r] eqn:Er.
  - rewrite rev_unit, Z.eqb_refl. reflexivity.
  - destruct (Z.eqb_spec i id) as [->|Ni]; [rewrite Er, Z.eqb_refl; reflexivity|rewrite rev_unit, Z.eqb_refl; reflexivity].
Qed.
Print Assumptions C28_delivered_partial. Print Assumptions C28_exactly_once. Print Assumptions C28_batch. Print Assumptions C28_again.

(** ** C47 *)
(** What a transaction sends: its commands, then for each COPY FROM STDIN the lines given
    and exactly one CopyDone or CopyFail, followed by the commands after the COPY. *)
Theorem C47_copy_terminated cmds s tr : irun cmds s tr ->
  match i_state s with
  | ISend => sends tr = []
  | ISendStdin => exists X B, sends tr = map IMsg cmds :: X ++ B /\ copies cmds X /\ Forall data_batch B
  | _ => exists X, sends tr = map IMsg cmds :: X /\ copies cmds X
  end.
Proof.
  intros H. pose proof (irun_sends _ _ _ H) as [_ P]. destruct (i_state s); try (destruct P as (X & P1 & P2 & _); eauto; fail).
  - apply P.
  - destruct P as (X & B & P1 & P2 & P3 & _). eauto.
Qed.
(** No more data: the copy is failed. *)
Theorem C47_fails_by_default cmds s tr : irun cmds s tr -> i_state s = ISendStdin ->
  (exists lines, i_messages s = PList lines) -> exists rest, outgoing (inst_sent s) = IMsg copy_fail_message :: rest.
Proof. intros _ E [lines E2]. unfold inst_sent. rewrite E, E2. cbn. eauto. Qed.
Print Assumptions C47_copy_terminated. Print Assumptions C47_fails_by_default.

(** ** cases *)
Inductive act := ASend | AData (p : list bytes) | ADone | APut (id : Z) (l : list wmsg).
Definition act_ok (s : inst) (a : act) : bool :=
  match a, i_state s with
  | ASend, ISend | ASend, ISendStdin | AData _, ISendStdin | ADone, ISendStdin => true
  | APut id _, _ => negb (id =? i_last s)
  | _, _ => false
  end.
Definition do_act (s : inst) (a : act) : option (inst * list ievent) :=
  if act_ok s a then
    match a with
    | ASend => Some (inst_sent s, [IOut (outgoing s)])
    | AData p => Some (set_messages s (PList (map IRaw p)), [])
    | ADone => Some (set_messages s PDone, [])
    | APut id l => match inst_put s id l with (s', Ok c) => Some (s', map IIn (firstn (Z.to_nat c) l)) | (_, Err _) => None end
    end
  else None.
Fixpoint do_acts (s : inst) (tr : list ievent) (l : list act) : option (inst * list ievent) :=
  match l with [] => Some (s, tr) | a :: r => match do_act s a with Some (s', e) => do_acts s' (tr ++ e) r | None => None end end.
Definition exec (cmds : list message) (l : list act) : option (inst * list ievent) :=
  match inst_init cmds with Ok s => do_acts s [] l | Err _ => None end.
Lemma exec_run cmds l s tr : exec cmds l = Some (s, tr) -> irun cmds s tr.
Proof.
  unfold exec. destruct (inst_init cmds) as [s0|] eqn:E0; [|discriminate].
  assert (R : irun cmds s0 []) by (constructor; exact E0). revert R. generalize (@nil ievent). clear E0. revert s0.
  induction l as [|a l IH]; intros s0 tr0 R H; cbn [do_acts] in H; [injection H as <- <-; exact R|].
  destruct (do_act s0 a) as [[s1 e]|] eqn:E; [|discriminate]. apply (IH s1 (tr0 ++ e)); [|exact H]. clear IH H.
  unfold do_act in E. destruct (act_ok s0 a) eqn:Ea; [|discriminate]. destruct a as [|p| |id b].
  - injection E as <- <-. apply ir_send; [exact R|]. unfold act_ok in Ea. destruct (i_state s0); try discriminate; auto.
  - injection E as <- <-. rewrite app_nil_r. apply ir_data; [exact R| |right; eauto]. unfold act_ok in Ea. destruct (i_state s0); try discriminate; auto.
  - injection E as <- <-. rewrite app_nil_r. apply ir_data; [exact R| |auto]. unfold act_ok in Ea. destruct (i_state s0); try discriminate; auto.
  - destruct (inst_put s0 id b) as [s' [c|e0]] eqn:Ep; [|discriminate]. injection E as <- <-. eapply ir_put; [exact R| |exact Ep].
    unfold act_ok in Ea. destruct (i_state s0); apply negb_true_iff, Z.eqb_neq in Ea; exact Ea.
Qed.

Definition sync := MEmpty ESynchronize.
Definition pipeline := [MParse [] [49] []; MBind [] [] [] [] []; MExecute [] 0; sync].
Definition err (w : bytes) : wmsg := (69, 83 :: w ++ [0; 0]).
Definition eERROR := err [69; 82; 82; 79; 82].
Definition eFATAL := err [70; 65; 84; 65; 76].
Definition row : wmsg := (68, [0; 0]).
Definition done : wmsg := (67, [65; 0]).
Definition ready : wmsg := (90, [73]).
Definition notice : wmsg := (78, [0]).

(** rows in several batches, the fast path included, a notice in between *)
Example pipeline_case : match exec pipeline [ASend; APut 1 [(49, []); (50, []); row]; APut 2 [row; row]; APut 3 [row; notice; row]; APut 4 [done; ready; ready]] with
  | Some (s, tr) => i_state s = IComplete /\ i_fatal s = None /\ length (messages_received s) = 9%nat /\ length (recvd tr) = 10%nat
  | None => False end.
Proof. vm_compute. auto. Qed.
(** an error skips to the Sync *)
Example error_case : match exec (pipeline ++ pipeline) [ASend; APut 1 [(49, []); eERROR; ready; (49, []); (50, [])]; APut 2 [done; ready]] with
  | Some (s, tr) => i_state s = IComplete /\ i_fatal s = Some false /\ length (messages_received s) = 6%nat
  | None => False end.
Proof. vm_compute. auto. Qed.
Example error_conforms : conforms (pipeline ++ pipeline) [(49, []); eERROR; ready; (49, []); (50, []); done; ready].
Proof.
  exists (MParse [] [49] []), (tl (pipeline ++ pipeline)), [], (after_error None). split; [reflexivity|]. split; [discriminate|].
  change (sync_part _ ++ []) with ([(49, [])] ++ [] ++ eERROR :: [ready] ++ [(49, [])] ++ [(50, [])] ++ [done] ++ [ready] ++ []).
  apply (cv_answer _ 80); [reflexivity|constructor|].
  apply (cv_error _ 66 _ [sync; MParse [] [49] []; MBind [] [] [] [] []; MExecute [] 0; sync]); [reflexivity|lia|lia| | | |].
  - exists [50]. split; [discriminate|constructor].
  - exists [([83], [69; 82; 82; 79; 82])], [69; 82; 82; 79; 82]. split; [vm_compute; reflexivity|]. split; [reflexivity|]. split; reflexivity.
  - exists [MBind [] [] [] [] []; MExecute [] 0], [MParse [] [49] []; MBind [] [] [] [] []; MExecute [] 0; sync]. split; [reflexivity|]. split; [reflexivity|].
    intros [X|[X|[]]]; discriminate.
  - do 5 (eapply cv_answer; [reflexivity|constructor|]). constructor.
Qed.
(** COPY FROM STDIN *)
Example copy_case : match exec [MString SQuery [99]; sync] [ASend; APut 1 [(71, [0; 0; 0])]; ASend; AData [[49]; [50]]; ASend; ADone; ASend; APut 2 [done; ready]; APut 3 [ready]] with
  | Some (s, tr) => i_state s = IComplete /\ i_fatal s = None /\
      sends tr = [[IMsg (MString SQuery [99]); IMsg sync]; []; [IRaw [49]; IRaw [50]]; [IMsg (MEmpty ECopyDone); IMsg sync]]
  | None => False end.
Proof. vm_compute. auto. Qed.
(** nobody gave data *)
Example copy_fail_case : match exec [MString SQuery [99]] [ASend; APut 1 [(71, [0; 0; 0])]; ASend; ASend; APut 2 [eERROR; ready]] with
  | Some (s, tr) => i_state s = IComplete /\ i_fatal s = Some false /\
      sends tr = [[IMsg (MString SQuery [99])]; []; [IMsg copy_fail_message]]
  | None => False end.
Proof. vm_compute. auto. Qed.

(** ** what does not hold *)
(** C26: an error which ends the transaction discards the other messages of its batch. *)
Theorem C26_results_refuted : exists cmds s1 tr1 s2 tr2, irun cmds s1 tr1 /\ irun cmds s2 tr2 /\ recvd tr1 = recvd tr2 /\ conforms cmds (recvd tr1) /\
  messages_received s1 <> messages_received s2.
Proof.
  set (a1 := [ASend; APut 1 [(49, []); eFATAL]]). set (a2 := [ASend; APut 1 [(49, [])]; APut 2 [eFATAL]]).
  assert (E : match exec pipeline a1, exec pipeline a2 with Some (s1, tr1), Some (s2, tr2) => recvd tr1 = [(49, []); eFATAL] /\ recvd tr2 = [(49, []); eFATAL] /\ messages_received s1 <> messages_received s2 | _, _ => False end).
  { vm_compute. split; [reflexivity|]. split; [reflexivity|discriminate]. }
  destruct (exec pipeline a1) as [[s1 tr1]|] eqn:E1; [|destruct E]. destruct (exec pipeline a2) as [[s2 tr2]|] eqn:E2; [|destruct E].
  destruct E as (E3 & E4 & E5). exists pipeline, s1, tr1, s2, tr2.
  split; [apply (exec_run _ _ _ _ E1)|]. split; [apply (exec_run _ _ _ _ E2)|]. split; [congruence|]. split; [|exact E5].
  rewrite E3. exists (MParse [] [49] []), (tl pipeline), [], (Some true). split; [reflexivity|]. split; [discriminate|].
  change (sync_part _ ++ []) with ([(49, [])] ++ [] ++ [eFATAL]).
  apply (cv_answer _ 80); [reflexivity|constructor|]. apply (cv_fatal _ 66); [reflexivity| |].
  - exists [50]. split; [discriminate|constructor].
  - exists [([83], [70; 65; 84; 65; 76])], [70; 65; 84; 65; 76]. split; [vm_compute; reflexivity|]. split; [reflexivity|]. split; discriminate.
Qed.
(** C28: two equal notices (or notifications) in one batch: one is delivered. *)
Theorem C28_exactly_once_refuted : exists cmds s tr, irun cmds s tr /\ conforms cmds (recvd tr) /\ async_part (recvd tr) = [notice; notice] /\ length (i_delivered s) = 1%nat.
Proof.
  set (a1 := [ASend; APut 1 [notice; notice; ready]]).
  assert (E : match exec [sync] a1 with Some (s1, tr1) => recvd tr1 = [notice; notice; ready] /\ length (i_delivered s1) = 1%nat | _ => False end).
  { vm_compute. split; reflexivity. }
  destruct (exec [sync] a1) as [[s1 tr1]|] eqn:E1; [|destruct E]. destruct E as (E3 & E4). exists [sync], s1, tr1.
  split; [apply (exec_run _ _ _ _ E1)|]. rewrite E3. split; [|split; [reflexivity|exact E4]].
  exists sync, [], [], None. split; [reflexivity|]. split; [discriminate|]. change (sync_part _ ++ []) with ([ready] ++ []). apply (cv_answer _ 83); [reflexivity|constructor|constructor].
Qed.
(** C28: a batch whose processing was cut short by an exception, given again: what was
    delivered is delivered again (C28_again is about batches that were taken). *)
Theorem C28_interrupted_refuted : exists cmds s tr s1 s2 e e', irun cmds s tr /\ inst_put s 1 [notice; (90, [])] = (s1, Err e) /\
  inst_put s1 1 [notice; (90, [])] = (s2, Err e') /\ length (i_delivered s2) = 2%nat.
Proof.
  assert (E : match exec [sync] [ASend] with Some (s, tr) => match inst_put s 1 [notice; (90, [])] with (s1, Err _) => match inst_put s1 1 [notice; (90, [])] with (s2, Err _) => length (i_delivered s2) = 2%nat | _ => False end | _ => False end | None => False end).
  { vm_compute. reflexivity. }
  destruct (exec [sync] [ASend]) as [[s tr]|] eqn:E1; [|destruct E].
  destruct (inst_put s 1 _) as [s1 [c|e]] eqn:P1; [destruct E|]. destruct (inst_put s1 1 _) as [s2 [c|e']] eqn:P2; [destruct E|].
  exists [sync], s, tr, s1, s2, e, e'. split; [apply (exec_run _ _ _ _ E1)|]. split; [exact P1|]. split; [exact P2|]. exact E.
Qed.
(** C27: after the error of a function call the Ready which follows is taken for a violation *)
Theorem C27_function_refuted : exists s tr, irun [MFunction 1 [] [] []] s tr /\ recvd tr = [eERROR; ready] /\ i_fatal s = Some true.
Proof.
  set (a1 := [ASend; APut 1 [eERROR; ready]]).
  assert (E : match exec [MFunction 1 [] [] []] a1 with Some (s1, tr1) => recvd tr1 = [eERROR; ready] /\ i_fatal s1 = Some true | _ => False end).
  { vm_compute. split; reflexivity. }
  destruct (exec _ a1) as [[s1 tr1]|] eqn:E1; [|destruct E]. exists s1, tr1. split; [apply (exec_run _ _ _ _ E1)|exact E].
Qed.
(** C27: NoData in answer to the description of a portal is taken for a violation *)
Theorem C27_portal_nodata_refuted : exists s tr, irun [MDescribe false [97]] s tr /\ recvd tr = [(110, [])] /\ i_fatal s = Some true.
Proof.
  set (a1 := [ASend; APut 1 [(110, [])]]).
  assert (E : match exec [MDescribe false [97]] a1 with Some (s1, tr1) => recvd tr1 = [(110, [])] /\ i_fatal s1 = Some true | _ => False end).
  { vm_compute. split; reflexivity. }
  destruct (exec _ a1) as [[s1 tr1]|] eqn:E1; [|destruct E]. exists s1, tr1. split; [apply (exec_run _ _ _ _ E1)|exact E].
Qed.
(** C25: a transaction begun by a Flush cannot receive anything *)
Theorem C25_flush_refuted : exists s tr, irun [MEmpty EFlush; sync] s tr /\ receiving s /\ forall x, snd (inst_put s 1 [x]) = Err TypeError.
Proof.
  set (a1 := [ASend]).
  destruct (exec [MEmpty EFlush; sync] a1) as [[s1 tr1]|] eqn:E1; [|discriminate]. exists s1, tr1. split; [apply (exec_run _ _ _ _ E1)|].
  vm_compute in E1. injection E1 as <- <-. split; [left; reflexivity|]. intros x. reflexivity.
Qed.
Print Assumptions C26_results_refuted. Print Assumptions C28_exactly_once_refuted. Print Assumptions C28_interrupted_refuted.
Print Assumptions C27_function_refuted. Print Assumptions C27_portal_nodata_refuted. Print Assumptions C25_flush_refuted.
