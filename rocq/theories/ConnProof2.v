(** ConnProof2.v: an invariant of the connection. *)
From Verif Require Import Base BaseProof PBufferModel PBufferSpec PBufferProof Element3Model NegModel NegSpec InstModel InstSpec InstProof InstProof3 ConnModel ConnSpec ConnProof.
From Verif Require Import StrProof3.

Definition wok (c : conn) : Prop :=
  match c_writing c with
  | None => c_written c = None
  | Some (i, l) => i < c_next c /\ (c_written c = Some i \/ (exists e, cat_messages l = Err e) /\ c_written c <> Some i)
  end.
Record cinv (c : conn) : Prop := {
  V_out : exists bs, mapM cat_messages (batches c) = Ok bs /\ c_wire c ++ c_data c = concat bs;
  V_wok : wok c;
  V_cur : forall i l x, c_writing c = Some (i, l) -> c_xact c = Some x -> i = c_mid c -> l = outgoing x;
  V_mid : c_mid c < c_next c;
  V_msg : forall x, c_xact c = Some x -> i_state x = ISend \/ i_state x = ISendStdin \/ i_messages x = PList [];
  V_over : c_over c = true -> c_down c = true;
  V_data : match c_xact c with None => c_data c = [] | Some x => c_down c = false -> i_state x <> ISend -> i_state x <> ISendStdin -> c_data c = [] end;
  V_read : fst (c_read c) < c_next c /\ (snd (c_read c) <> [] -> 0 < fst (c_read c));
  V_pos : 0 < c_next c;
  V_last : forall x, c_xact c = Some x -> i_last x < c_next c /\ (c_bad c = false -> snd (c_read c) <> [] -> i_last x < fst (c_read c));
  V_in : exists q, Inv (c_buf c) q /\ c_in c = frames (taken c) ++ frames (snd (c_read c)) ++ q /\ Forall wf_msg (taken c ++ snd (c_read c));
  V_rd : c_rdata c = None \/ c_rdata c = Some [];
  V_recvs : Forall rout_ok (c_recvs c);
  V_run : forall x, c_xact c = Some x -> c_bad c = false -> irun (i_cmds x) x (evs (c_tr c));
  V_done : Forall (fun t => t_bad t = false -> irun (i_cmds (t_inst t)) (t_inst t) (evs (t_evs t))) (c_done c);
  V_fin : Forall (fun t => t_down t = true \/ i_state (t_inst t) = IComplete) (c_done c) }.

Lemma cinv_init sends recvs : Forall rout_ok recvs -> cinv (conn_init sends recvs).
Proof.
  intros R. constructor; cbn; try discriminate; auto; try lia.
  - exists []. auto.
  - split; [lia|congruence].
  - exists []. split; [apply Inv_init|]. split; [reflexivity|constructor].
Qed.

(** ** fields untouched *)
Definition sametx (c c' : conn) : Prop :=
  c_xact c' = c_xact c /\ c_mid c' = c_mid c /\ c_down c' = c_down c /\ c_over c' = c_over c /\ c_curs c' = c_curs c /\ c_stms c' = c_stms c /\
  c_tr c' = c_tr c /\ c_bad c' = c_bad c /\ c_who c' = c_who c /\ c_done c' = c_done c.
Lemma sametx_refl c : sametx c c. Proof. unfold sametx; repeat split; reflexivity. Qed.
Lemma sametx_trans a b c : sametx a b -> sametx b c -> sametx a c.
Proof. unfold sametx. intros H1 H2. repeat match goal with H : _ /\ _ |- _ => destruct H end. repeat split; congruence. Qed.
Lemma sametx_out c d w wr ss wi : sametx c (with_out c d w wr ss wi). Proof. unfold sametx; repeat split; reflexivity. Qed.
Lemma sametx_in c b rd rr i : sametx c (with_in c b rd rr i). Proof. unfold sametx; repeat split; reflexivity. Qed.
Lemma sametx_read c l : sametx c (with_read c l). Proof. unfold sametx; repeat split; reflexivity. Qed.

(** ** sending *)
Lemma send_loop_spec ss : forall data wire data' ss' wire' r, send_loop data ss wire = (data', ss', wire', r) ->
  wire' ++ data' = wire ++ data /\ (r = CRet true -> data' = []).
Proof.
  induction ss as [|o ss IH]; intros data wire data' ss' wire' r H; destruct data as [|b data]; cbn [send_loop] in H.
  - injection H as <- <- <- <-. auto.
  - injection H as <- <- <- <-. split; [reflexivity|discriminate].
  - injection H as <- <- <- <-. auto.
  - destruct o.
    + apply IH in H as [A B]. split; [|exact B]. rewrite A, <- app_assoc, firstn_skipn. reflexivity.
    + injection H as <- <- <- <-. split; [reflexivity|discriminate].
    + injection H as <- <- <- <-. split; [reflexivity|discriminate].
    + injection H as <- <- <- <-. split; [reflexivity|discriminate].
Qed.
Lemma batches_out c d w wr ss wi : batches (with_out c d w wr ss wi) =
  flat_map (fun t => sends (evs (t_evs t)) ++ t_tail t) (c_done c) ++
  match c_xact c with Some x => sends (evs (c_tr c)) ++ (if handed (with_out c d w wr ss wi) then [outgoing x] else []) | None => [] end.
Proof. reflexivity. Qed.
Lemma cinv_out c d w wr ss wi : cinv c -> 
  (exists bs, mapM cat_messages (batches (with_out c d w wr ss wi)) = Ok bs /\ wi ++ d = concat bs) ->
  wok (with_out c d w wr ss wi) ->
  (forall i l x, w = Some (i, l) -> c_xact c = Some x -> i = c_mid c -> l = outgoing x) ->
  (match c_xact c with None => d = [] | Some x => c_down c = false -> i_state x <> ISend -> i_state x <> ISendStdin -> d = [] end) ->
  cinv (with_out c d w wr ss wi).
Proof.
  intros [] H1 H2 H3 H4. constructor; cbn; auto.
Qed.
Lemma send_data_inv c x c' r : cinv c -> c_xact c = Some x -> i_state x = ISend \/ i_state x = ISendStdin -> send_message_data c = (c', r) ->
  cinv c' /\ sametx c c' /\ (r = CRet true -> c_data c' = []) /\ handed c' = handed c.
Proof.
  intros V Ex Es H. unfold send_message_data in H. destruct (send_loop _ _ _) as [[[data ss] wire] rr] eqn:E.
  injection H as <- <-. apply send_loop_spec in E as [A B]. split; [|split; [apply sametx_out|split; [exact B|reflexivity]]].
  apply cinv_out; auto.
  - destruct (V_out _ V) as (bs & M & W). exists bs. split; [exact M|]. rewrite A. exact W.
  - exact (V_wok _ V).
  - exact (V_cur _ V).
  - rewrite Ex. intros _ N1 N2. destruct Es; contradiction.
Qed.
Lemma mapM_snoc {A B} (f : A -> res B) l a bs b : mapM f l = Ok bs -> f a = Ok b -> mapM f (l ++ [a]) = Ok (bs ++ [b]).
Proof. intros H1 H2. rewrite mapM_app, H1. cbn. rewrite H2. reflexivity. Qed.
Lemma write_inv c x c' r : cinv c -> c_xact c = Some x -> i_state x = ISend \/ i_state x = ISendStdin -> write_messages c (c_mid c, outgoing x) = (c', r) ->
  cinv c' /\ sametx c c' /\ (r = CRet true -> c_data c' = []) /\ (forall b, r = CRet b -> handed c' = true).
Proof.
  intros V Ex Es H. unfold write_messages in H.
  assert (ND : match c_xact c with None => c_data c = [] | Some x => c_down c = false -> i_state x <> ISend -> i_state x <> ISendStdin -> c_data c = [] end) by exact (V_data _ V).
  assert (Bad : forall e, (c, CExn (XProto e)) = (c', r) -> cinv c' /\ sametx c c' /\ (r = CRet true -> c_data c' = []) /\ (forall b, r = CRet b -> handed c' = true)).
  { intros e E. injection E as <- <-. split; [exact V|]. split; [apply sametx_refl|]. split; [discriminate|]. discriminate. }
  assert (New : match c_writing c with None => True | Some (i, _) => i <> c_mid c end -> handed c = false -> 
     (let c := with_out c (c_data c) (Some (c_mid c, outgoing x)) (c_written c) (c_sends c) (c_wire c) in
        match cat_messages (outgoing x) with
        | Err e => (c, CExn (XProto e))
        | Ok b => send_message_data (with_out c (c_data c ++ b) (Some (c_mid c, outgoing x)) (Some (c_mid c)) (c_sends c) (c_wire c))
        end) = (c', r) -> c_written c <> Some (c_mid c) ->
     cinv c' /\ sametx c c' /\ (r = CRet true -> c_data c' = []) /\ (forall b, r = CRet b -> handed c' = true)).
  { intros Nw Hh E Nwr. cbv zeta in E. destruct (cat_messages (outgoing x)) as [b|e] eqn:Ec.
    - change (with_out (with_out c (c_data c) (Some (c_mid c, outgoing x)) (c_written c) (c_sends c) (c_wire c))
        (c_data (with_out c (c_data c) (Some (c_mid c, outgoing x)) (c_written c) (c_sends c) (c_wire c)) ++ b)
        (Some (c_mid (with_out c (c_data c) (Some (c_mid c, outgoing x)) (c_written c) (c_sends c) (c_wire c)), outgoing x))
        (Some (c_mid (with_out c (c_data c) (Some (c_mid c, outgoing x)) (c_written c) (c_sends c) (c_wire c))))
        (c_sends (with_out c (c_data c) (Some (c_mid c, outgoing x)) (c_written c) (c_sends c) (c_wire c)))
        (c_wire (with_out c (c_data c) (Some (c_mid c, outgoing x)) (c_written c) (c_sends c) (c_wire c))))
      with (with_out c (c_data c ++ b) (Some (c_mid c, outgoing x)) (Some (c_mid c)) (c_sends c) (c_wire c)) in E.
      set (c1 := with_out c (c_data c ++ b) (Some (c_mid c, outgoing x)) (Some (c_mid c)) (c_sends c) (c_wire c)) in *.
      assert (Hd : handed c1 = true) by (unfold handed; cbn; rewrite Z.eqb_refl; reflexivity).
      assert (V1 : cinv c1).
      { apply cinv_out; auto.
        - destruct (V_out _ V) as (bs & M & W). exists (bs ++ [b]). split; [|rewrite app_assoc, W, concat_app; cbn; rewrite app_nil_r; reflexivity].
          rewrite batches_out. fold c1. rewrite Hd, Ex. unfold batches in M. rewrite Ex, Hh, app_nil_r in M.
          rewrite app_assoc. apply mapM_snoc; assumption.
        - unfold wok; cbn. split; [apply (V_mid _ V)|auto].
        - intros i l x0 Ei Ex0 _. injection Ei as <- <-. congruence.
        - rewrite Ex. intros _ N1 N2. destruct Es; contradiction. }
      destruct (send_data_inv c1 x c' r V1 Ex Es E) as (A & B & C & D).
      split; [exact A|]. split; [eapply sametx_trans; [apply sametx_out|exact B]|]. split; [exact C|]. intros _ _. congruence.
    - injection E as <- <-. split; [|split; [apply sametx_out|split; [discriminate|discriminate]]].
      apply cinv_out; auto.
      + destruct (V_out _ V) as (bs & M & W). exists bs. split; [|exact W]. rewrite batches_out, Ex.
        unfold batches in M. rewrite Ex, Hh in M. 
        replace (handed _) with false; [exact M|]. unfold handed; cbn. destruct (c_written c); [|reflexivity].
        destruct (Z.eqb_spec (c_mid c) z); [|reflexivity]. subst. congruence.
      + unfold wok; cbn. split; [apply (V_mid _ V)|]. right. split; [eauto|exact Nwr].
      + intros i l x0 Ei Ex0 _. injection Ei as <- <-. congruence. }
  pose proof (V_wok _ V) as W. unfold wok in W. destruct (c_writing c) as [[i l]|] eqn:Ew.
  - destruct W as [Wn W]. cbn [same_obj fst snd] in H. destruct W as [W|[[e W] W']].
    + rewrite W, Z.eqb_refl in H. rewrite Ew in H. cbn [same_obj fst] in H. destruct (Z.eqb_spec i (c_mid c)) as [Ei|Ei].
      * destruct (send_data_inv c x c' r V Ex Es H) as (A & B & C & D). split; [exact A|]. split; [exact B|]. split; [exact C|]. intros _ _. rewrite D.
        unfold handed. rewrite Ew, W, Z.eqb_refl, Ei, Z.eqb_refl. reflexivity.
      * apply New; auto; [|rewrite W; congruence]. unfold handed. rewrite Ew, W, Z.eqb_refl. apply Z.eqb_neq in Ei. rewrite Ei. reflexivity.
    + assert (N : match c_written c with Some j => i =? j | None => false end = false).
      { destruct (c_written c); [|reflexivity]. apply Z.eqb_neq. congruence. }
      rewrite N in H. rewrite W in H. cbn [bind] in H. apply (Bad e H).
  - rewrite W in H. cbn [same_obj] in H. rewrite Ew in H. cbn [same_obj] in H. apply New; auto; [|rewrite W; discriminate]. unfold handed. rewrite Ew. reflexivity.
Qed.

(** ** reading *)
Lemma write_buf b q d : Inv b q -> is_bytes d -> Inv (pb_write d b) (q ++ d).
Proof.
  intros HI Hd. destruct (pb_step_sim b q (OWrite d) RUnit (pb_write d b) Hd HI eq_refl) as (q' & S & I). cbn in S. subst. exact I.
Qed.
Lemma has_buf b q r b' : Inv b q -> pb_has_message b = (r, b') -> Inv b' q /\ (r = Ok false -> waiting q).
Proof.
  intros HI H. destruct (pb_has_message_sim _ _ _ _ HI H) as (q' & S & I). cbn in S. destruct r as [[]|e]; [destruct S as [S0 ->]|destruct S as [S0 ->]|destruct S as (S0 & S1 & ->)].
  all: split; [exact I|try discriminate]; auto.
Qed.
Local Ltac fin := split; [assumption|split; [reflexivity|split; [assumption|split; [auto|try discriminate; auto]]]].
Lemma recv_loop_spec rr : forall b input q b' rd rr' input' r, Inv b q -> Forall rout_ok rr ->
  recv_loop b rr input = (b', rd, rr', input', r) ->
  exists more, Inv b' (q ++ more) /\ input' = input ++ more /\ Forall rout_ok rr' /\ (rd = None \/ rd = Some []) /\ (r = CRet false -> waiting (q ++ more)).
Proof.
  induction rr as [|o rr IH]; intros b input q b' rd rr' input' r HI HR H; cbn [recv_loop] in H;
  destruct (pb_has_message b) as [[[|]|e] b1] eqn:E; destruct (has_buf _ _ _ _ HI E) as [I1 Wt].
  all: try (injection H as <- <- <- <- <-; exists []; rewrite !app_nil_r; fin; fail).
  inversion HR as [|? ? Ho HR']; subst. destruct o as [d| | | |];
    try (injection H as <- <- <- <- <-; exists []; rewrite !app_nil_r; fin; fail).
  destruct d as [|z d]; [injection H as <- <- <- <- <-; exists []; rewrite !app_nil_r; fin|].
  apply (IH _ _ (q ++ z :: d)) in H; [|apply write_buf; auto|exact HR'].
  destruct H as (more & A & B & C & D & F). exists ((z :: d) ++ more). rewrite !app_assoc. split; [exact A|]. split; [exact B|]. auto.
Qed.
Lemma cinv_in c b rd rr input q more : cinv c -> c_in c = frames (taken c) ++ frames (snd (c_read c)) ++ q -> Inv b (q ++ more) ->
  input = c_in c ++ more -> rd = None \/ rd = Some [] -> Forall rout_ok rr -> cinv (with_in c b rd rr input).
Proof.
  intros [] Hq HI Hi Hrd Hrr. constructor; cbn; auto.
  destruct V_in0 as (q' & I' & E' & F'). exists (q ++ more). split; [exact HI|]. split; [|exact F']. rewrite Hi, Hq, <- !app_assoc. reflexivity.
Qed.
Lemma read_into_inv c c' r : cinv c -> snd (c_read c) = [] -> read_into c = (c', r) ->
  cinv c' /\ sametx c c' /\ c_read c' = c_read c /\ (r = CRet false -> exists q, Inv (c_buf c') q /\ waiting q).
Proof.
  intros V Er H. unfold read_into in H. destruct (V_in _ V) as (q & HI & Hq & HF).
  destruct (pb_has_message (c_buf c)) as [[[|]|e] b1] eqn:E; destruct (has_buf _ _ _ _ HI E) as [I1 Wt].
  - injection H as <- <-. split; [|split; [apply sametx_in|split; [reflexivity|discriminate]]].
    apply (cinv_in _ _ _ _ _ q []); auto; rewrite ?app_nil_r; auto; apply V.
  - set (b2 := match c_rdata c with Some d => pb_write d b1 | None => b1 end) in H.
    assert (I2 : Inv b2 q).
    { subst b2. destruct (V_rd _ V) as [->| ->]; [exact I1|]. rewrite <- (app_nil_r q). apply write_buf; [exact I1|constructor]. }
    clearbody b2. destruct (recv_loop _ _ _) as [[[[b3 rd] rr] input] r0] eqn:El. injection H as <- <-.
    destruct (recv_loop_spec _ _ _ _ _ _ _ _ _ I2 (V_recvs _ V) El) as (more & A & B & C & D & F).
    split; [|split; [apply sametx_in|split; [reflexivity|]]].
    + eapply (cinv_in _ _ _ _ _ q more); eauto.
    + intros Hr. exists (q ++ more). cbn. auto.
  - injection H as <- <-. split; [|split; [apply sametx_in|split; [reflexivity|discriminate]]].
    apply (cinv_in _ _ _ _ _ q []); auto; rewrite ?app_nil_r; auto; apply V.
Qed.
Lemma read_inv c c' r : cinv c -> read_messages c = (c', r) ->
  cinv c' /\ sametx c c' /\ (forall b, r = CRet b -> c_read c' = c_read c /\ snd (c_read c) <> [] \/ fst (c_read c') = c_next c' - 1 /\ (forall x, c_xact c' = Some x -> i_last x < fst (c_read c'))) /\
  (r = CRet false -> snd (c_read c') = []).
Proof.
  intros V H. unfold read_messages in H. destruct (snd (c_read c)) as [|m ms] eqn:Er.
  2:{ injection H as <- <-. split; [exact V|]. split; [apply sametx_refl|]. split; [|discriminate]. intros b _. left. split; [reflexivity|discriminate]. }
  destruct (read_into c) as [c1 [r1|e1]] eqn:Ei; destruct (read_into_inv _ _ _ V Er Ei) as (V1 & S1 & R1 & W1).
  2:{ injection H as <- <-. split; [exact V1|]. split; [exact S1|]. split; discriminate. }
  destruct (V_in _ V1) as (q & HI & Hq & HF). rewrite R1, Er in Hq, HF. cbn [frames map concat app] in Hq. rewrite app_nil_r in HF.
  destruct (pb_read 4294967295 (c_buf c1)) as [[l|e] b] eqn:Ep; destruct (pb_read_sim _ _ _ _ _ HI Ep) as (q' & Rd & I').
  - injection H as <- <-. cbn in Rd. destruct Rd as (F1 & F2 & F3 & F4).
    set (c2 := with_in c1 b (c_rdata c1) (c_recvs c1) (c_in c1)).
    assert (S2 : sametx c1 (with_read c2 l)) by (eapply sametx_trans; [apply sametx_in|apply sametx_read]).
    split; [|split; [eapply sametx_trans; eassumption|split]].
    + destruct V1. constructor; try (cbn; auto; lia); try (cbn; auto; fail).
      * unfold wok in *. cbn. destruct (c_writing c1) as [[i0 l0]|]; [|exact V_wok0]. destruct V_wok0. split; [lia|assumption].
      * exists q'. split; [exact I'|]. change (taken (with_read c2 l)) with (taken c1). split; [change (c_in (with_read c2 l)) with (c_in c1); rewrite Hq, F2; reflexivity|]. apply Forall_app; auto.
    + intros b0 _. right. cbn. split; [lia|]. intros x Ex. destruct (V_last _ V1 x Ex). lia.
    + intros Hr. injection Hr as ->. destruct (W1 eq_refl) as (q0 & A & Wq). cbn.
      assert (Eq : q0 = q) by (destruct A as (_ & _ & ->); destruct HI as (_ & _ & ->); reflexivity). subst q0.
      destruct l as [|m l]; [reflexivity|]. exfalso. destruct Wq as [Wq _]. apply Wq. rewrite F2. inversion F1; subst. apply frames_wf_complete; assumption.
  - injection H as <- <-. cbn in Rd. split; [|split; [eapply sametx_trans; [exact S1|apply sametx_in]|split; discriminate]].
    destruct Rd as (-> & -> & _). 
    apply (cinv_in _ _ _ _ _ q []); auto; rewrite ?app_nil_r; auto; try apply V1.
    rewrite R1, Er. exact Hq.
Qed.

(** ** the transaction moves *)
Lemma taken_xact c x f e : c_xact c <> None -> taken (with_xact c x f e) = taken c ++ recvd (evs e).
Proof. intros N. unfold taken. cbn. destruct (c_xact c); [|contradiction]. rewrite evs_app, recvd_app, app_assoc. reflexivity. Qed.
Lemma recv_state x : i_state x = IPut \/ i_state x = IPutCopy \/ i_state x = IPutTuple -> i_state x <> ISend /\ i_state x <> ISendStdin.
Proof. intros [H|[H|H]]; rewrite H; split; discriminate. Qed.
Lemma outgoing_plist x l : i_messages x = PList l -> outgoing x = l.
Proof. unfold outgoing. intros ->. reflexivity. Qed.
Lemma take_inv c x c' r : cinv c -> c_xact c = Some x -> i_state x = IPut \/ i_state x = IPutCopy \/ i_state x = IPutTuple ->
  (c_bad c = false -> fst (c_read c) <> i_last x) ->
  take_messages c x = (c', r) ->
  cinv c' /\ (forall y, c_xact c' = Some y -> i_cmds y = i_cmds x) /\ c_xact c' <> None /\ c_done c' = c_done c /\ c_who c' = c_who c /\ c_curs c' = c_curs c /\ c_stms c' = c_stms c /\ c_down c' = c_down c /\ c_over c' = c_over c.
Proof.
  intros V Ex Es Nid H. unfold take_messages in H. destruct (inst_put x _ _) as [x' r0] eqn:E.
  destruct (inst_put_kept _ _ _ _ _ E) as (K1 & K2 & K3 & K4). destruct (recv_state x Es) as [Ns1 Ns2].
  destruct (V_msg _ V x Ex) as [Em|[Em|Em]]; try contradiction.
  assert (Ox : outgoing x' = outgoing x) by (rewrite !(outgoing_plist _ []); congruence).
  destruct (V_last _ V x Ex) as [L1 L2]. destruct (V_read _ V) as [R1 R2]. pose proof (V_mid _ V) as Hm. pose proof (V_pos _ V) as Hp.
  destruct r0 as [n|e].
  - injection H as <- <-. specialize (K4 n eq_refl). split; [|repeat split; try reflexivity; try discriminate; cbn; intros y Ey; injection Ey as <-; exact K1].
    assert (Hd : handed (with_read (with_xact c x' false [EIn (firstn (Z.to_nat n) (snd (c_read c)))]) (skipn (Z.to_nat n) (snd (c_read c)))) = handed c) by reflexivity.
    constructor.
    + destruct (V_out _ V) as (bs & M & W). exists bs. split; [|exact W]. unfold batches in *. rewrite Hd. cbn [c_done c_xact c_tr with_read with_xact]. rewrite Ex in M.
      rewrite evs_app. unfold evs at 3. cbn [flat_map app]. rewrite app_nil_r, sends_app, sends_in, app_nil_r, Ox. exact M.
    + pose proof (V_wok _ V) as W. unfold wok in *. cbn. destruct (c_writing c) as [[i l]|]; [|exact W]. destruct W. split; [lia|assumption].
    + cbn. intros i l y Ew Ey Ei. injection Ey as <-. rewrite Ox. eapply V; eauto.
    + cbn. lia.
    + cbn. intros y Ey. injection Ey as <-. right. right. congruence.
    + exact (V_over _ V).
    + cbn. intros Hdn _ _. pose proof (V_data _ V) as D. rewrite Ex in D. auto.
    + cbn. split; [lia|]. intros _. lia.
    + cbn. lia.
    + cbn. intros y Ey. injection Ey as <-. destruct K3 as [-> | ->]; split; try lia; intros _ _; lia.
    + destruct (V_in _ V) as (q & I & Hq & HF). exists q. split; [exact I|].
      change (taken (with_read (with_xact c x' false [EIn (firstn (Z.to_nat n) (snd (c_read c)))]) (skipn (Z.to_nat n) (snd (c_read c))))) with (taken (with_xact c x' false [EIn (firstn (Z.to_nat n) (snd (c_read c)))])).
      rewrite taken_xact by congruence. unfold evs. cbn [flat_map app]. rewrite app_nil_r, recvd_in. cbn [c_in c_read with_read with_xact snd].
      split; [|rewrite <- app_assoc, firstn_skipn; exact HF].
      rewrite Hq. rewrite <- (firstn_skipn (Z.to_nat n) (snd (c_read c))) at 1. unfold frames. rewrite !map_app, !concat_app, <- !app_assoc. reflexivity.
    + exact (V_rd _ V).
    + exact (V_recvs _ V).
    + cbn. intros y Ey Hb. injection Ey as <-. rewrite evs_app. unfold evs at 2. cbn [flat_map app]. rewrite app_nil_r, K1.
      eapply ir_put; [apply (V_run _ V x Ex Hb)|apply Nid; exact Hb|exact E].
    + exact (V_done _ V).
    + exact (V_fin _ V).
  - injection H as <- <-. split; [|repeat split; try reflexivity; try discriminate; cbn; intros y Ey; injection Ey as <-; exact K1].
    constructor.
    + destruct (V_out _ V) as (bs & M & W). exists bs. split; [|exact W]. unfold batches in *.
      change (handed (with_bad (with_xact c x' false []))) with (handed c). cbn [c_done c_xact c_tr with_bad with_xact]. rewrite Ex in M.
      rewrite app_nil_r, Ox. exact M.
    + exact (V_wok _ V).
    + cbn. intros i l y Ew Ey Ei. injection Ey as <-. rewrite Ox. eapply V; eauto.
    + exact Hm.
    + cbn. intros y Ey. injection Ey as <-. right. right. congruence.
    + exact (V_over _ V).
    + cbn. intros Hdn _ _. pose proof (V_data _ V) as D. rewrite Ex in D. auto.
    + exact (V_read _ V).
    + exact Hp.
    + cbn. intros y Ey. injection Ey as <-. destruct K3 as [-> | ->]; split; try lia; discriminate.
    + destruct (V_in _ V) as (q & I & Hq & HF). exists q. split; [exact I|].
      change (taken (with_bad (with_xact c x' false []))) with (taken (with_xact c x' false [])). rewrite taken_xact by congruence. cbn [evs flat_map recvd]. rewrite app_nil_r. auto.
    + exact (V_rd _ V).
    + exact (V_recvs _ V).
    + cbn. discriminate.
    + exact (V_done _ V).
    + exact (V_fin _ V).
Qed.
Lemma sent_inv c x : cinv c -> c_xact c = Some x -> i_state x = ISend \/ i_state x = ISendStdin -> handed c = true -> c_data c = [] \/ c_down c = true ->
  cinv (sent c x).
Proof.
  intros V Ex Es Hh Hd. unfold sent. pose proof (V_wok _ V) as W. pose proof (V_mid _ V) as Hm. pose proof (V_pos _ V) as Hp. destruct (V_last _ V x Ex) as [L1 L2].
  assert (K : i_cmds (inst_sent x) = i_cmds x /\ i_last (inst_sent x) = i_last x /\ (i_state (inst_sent x) = ISend \/ i_state (inst_sent x) = ISendStdin \/ i_messages (inst_sent x) = PList [])).
  { unfold inst_sent. destruct Es as [Es|Es]; rewrite Es; [cbn; auto|]. destruct (i_messages x); cbn; auto. }
  destruct K as (K1 & K2 & K3).
  assert (Fw : match c_writing c with Some (i, _) => i < c_next c | None => True end) by (unfold wok in W; destruct (c_writing c) as [[i l]|]; [apply W|exact I]).
  constructor.
  - destruct (V_out _ V) as (bs & M & Wi). exists bs. split; [|exact Wi]. unfold batches in *. rewrite Ex, Hh in M.
    replace (handed (with_xact c (inst_sent x) true [EOut (outgoing x)])) with false.
    + cbn [c_done c_xact c_tr with_xact]. rewrite evs_app. unfold evs at 3. cbn [flat_map app]. rewrite sends_app. cbn [sends]. rewrite app_nil_r. exact M.
    + symmetry. unfold handed. cbn. destruct (c_writing c) as [[i l]|]; [|reflexivity]. destruct (c_written c); [|reflexivity].
      apply andb_false_intro2. apply Z.eqb_neq. lia.
  - unfold wok in *. cbn. destruct (c_writing c) as [[i l]|]; [|exact W]. destruct W. split; [lia|assumption].
  - cbn. intros i l y Ew _ Ei. rewrite Ew in Fw. lia.
  - cbn. lia.
  - cbn. intros y Ey. injection Ey as <-. exact K3.
  - exact (V_over _ V).
  - cbn. intros Hdn _ _. destruct Hd; [assumption|congruence].
  - cbn. destruct (V_read _ V). split; [lia|assumption].
  - cbn. lia.
  - cbn. intros y Ey. injection Ey as <-. rewrite K2. split; [lia|exact L2].
  - destruct (V_in _ V) as (q & I & Hq & HF). exists q. split; [exact I|]. rewrite taken_xact by congruence. cbn [evs flat_map app recvd]. rewrite app_nil_r. auto.
  - exact (V_rd _ V).
  - exact (V_recvs _ V).
  - cbn. intros y Ey Hb. injection Ey as <-. rewrite evs_app, K1. unfold evs at 2. cbn [flat_map app]. apply ir_send; [apply (V_run _ V x Ex Hb)|exact Es].
  - exact (V_done _ V).
  - exact (V_fin _ V).
Qed.
Lemma down_inv c b : cinv c -> c_xact c <> None -> cinv (with_down c b).
Proof. intros [] N. constructor; cbn; auto. destruct (c_xact c); [discriminate|contradiction]. Qed.
Lemma trash_inv c a b : cinv c -> cinv (with_trash c a b).
Proof. intros []. constructor; cbn; auto. Qed.

(** a new transaction *)
Lemma batches_record c : flat_map (fun t => sends (evs (t_evs t)) ++ t_tail t) (record c) = batches c.
Proof.
  unfold record, batches. destruct (c_xact c); [|rewrite app_nil_r; reflexivity]. rewrite flat_map_app. cbn [flat_map t_evs t_tail].
  rewrite app_nil_r. reflexivity.
Qed.
Lemma taken_record c : flat_map (fun t => recvd (evs (t_evs t))) (record c) = taken c.
Proof.
  unfold record, taken. destruct (c_xact c); [|rewrite app_nil_r; reflexivity]. rewrite flat_map_app. cbn [flat_map t_evs].
  rewrite app_nil_r. reflexivity.
Qed.
Lemma set_inv c o w : cinv c -> (forall x, o = Some x -> exists cmds, inst_init cmds = Ok x) -> (o = None -> c_data c = []) ->
  (forall x, c_xact c = Some x -> c_down c = true \/ i_state x = IComplete) -> cinv (set_xact c o w).
Proof.
  intros V Ho Hd Hf. pose proof (V_wok _ V) as W. pose proof (V_mid _ V) as Hm. pose proof (V_pos _ V) as Hp. 
  assert (Fw : match c_writing c with Some (i, _) => i < c_next c | None => True end) by (unfold wok in W; destruct (c_writing c) as [[i l]|]; [apply W|exact I]).
  assert (Hi : forall x, o = Some x -> i_state x = ISend /\ i_last x = 0 /\ irun (i_cmds x) x []).
  { intros x Ex. destruct (Ho x Ex) as (cmds & E). pose proof E as E'. unfold inst_init in E'. destruct (all_ok cmds); [|discriminate]. apply Ok_inj in E'. 
    split; [rewrite <- E'; reflexivity|]. split; [rewrite <- E'; reflexivity|]. apply ir_init. rewrite <- E'. cbn. rewrite E'. exact E. }
  assert (Hh : handed (set_xact c o w) = false).
  { unfold handed. cbn. destruct (c_writing c) as [[i l]|]; [|reflexivity]. destruct (c_written c); [|reflexivity]. apply andb_false_intro2. apply Z.eqb_neq. lia. }
  constructor.
  - destruct (V_out _ V) as (bs & M & Wi). exists bs. split; [|exact Wi]. rewrite <- batches_record in M. unfold batches. rewrite Hh. cbn.
    destruct o; rewrite ?app_nil_r; exact M.
  - unfold wok in *. cbn. destruct (c_writing c) as [[i l]|]; [|exact W]. destruct W. split; [lia|assumption].
  - cbn. intros i l y Ew _ Ei. rewrite Ew in Fw. lia.
  - cbn. lia.
  - cbn. intros y Ey. left. apply Hi. exact Ey.
  - cbn. discriminate.
  - cbn. destruct o as [y|]; [|auto]. intros _ N. destruct (Hi y eq_refl) as [A _]. contradiction.
  - cbn. destruct (V_read _ V). split; [lia|assumption].
  - cbn. lia.
  - cbn. intros y Ey. destruct (Hi y Ey) as (_ & -> & _). split; [lia|]. intros _. apply (V_read _ V).
  - destruct (V_in _ V) as (q & I & Hq & HF). exists q. split; [exact I|]. replace (taken (set_xact c o w)) with (taken c); [auto|].
    rewrite <- taken_record. unfold taken at 1. cbn. destruct o; rewrite app_nil_r; reflexivity.
  - exact (V_rd _ V).
  - exact (V_recvs _ V).
  - cbn. intros y Ey _. apply Hi. exact Ey.
  - cbn. unfold record. destruct (c_xact c) as [x|] eqn:Ex; [|exact (V_done _ V)]. apply Forall_app. split; [exact (V_done _ V)|].
    constructor; [|constructor]. cbn. apply (V_run _ V x Ex).
  - cbn. unfold record. destruct (c_xact c) as [x|] eqn:Ex; [|exact (V_fin _ V)]. apply Forall_app. split; [exact (V_fin _ V)|].
    constructor; [|constructor]. cbn. apply Hf. reflexivity.
Qed.
