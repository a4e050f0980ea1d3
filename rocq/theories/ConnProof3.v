(** ConnProof3.v: the operations of the connection keep the invariant. *)
From Verif Require Import Base BaseProof PBufferModel PBufferSpec PBufferProof Element3Model NegModel NegSpec InstModel InstSpec InstProof InstProof3 ConnModel ConnSpec ConnProof ConnProof2.

Definition same (c c' : conn) : Prop := all_tx c' = all_tx c /\ c_curs c' = c_curs c /\ c_stms c' = c_stms c.
Lemma same_refl c : same c c. Proof. unfold same; auto. Qed.
Lemma same_trans a b c : same a b -> same b c -> same a c.
Proof. unfold same. intros (A & B & C) (A' & B' & C'). repeat split; congruence. Qed.
Lemma sametx_same c c' : sametx c c' -> same c c'.
Proof. unfold sametx, same, all_tx. intros (A & _ & _ & _ & B & C & _ & _ & D & E). rewrite A, D, E. auto. Qed.
Lemma all_tx_set c o w : all_tx (set_xact c o w) = all_tx c ++ match o with Some x => [(w, i_cmds x)] | None => [] end.
Proof.
  unfold all_tx. cbn. unfold record. destruct (c_xact c) as [x|]; [|rewrite app_nil_r; reflexivity].
  rewrite map_app. cbn. rewrite <- !app_assoc. reflexivity.
Qed.
Lemma same_down c b : same c (with_down c b). Proof. unfold same; auto. Qed.

Definition sending (x : inst) : Prop := i_state x = ISend \/ i_state x = ISendStdin.
Definition recving (x : inst) : Prop := i_state x = IPut \/ i_state x = IPutCopy \/ i_state x = IPutTuple.
Lemma x_state_cases c x : x_state c x = IComplete \/ (c_over c = false /\ x_state c x = i_state x).
Proof. unfold x_state. destruct (c_over c); auto. Qed.
Lemma finish_inv c : cinv c -> cinv (finish_step c) /\ same c (finish_step c).
Proof.
  intros V. unfold finish_step. destruct (c_xact c) as [x|] eqn:Ex; [|split; [exact V|apply same_refl]].
  destruct (is_complete (x_state c x)) eqn:Ec; [|split; [exact V|apply same_refl]].
  destruct (x_fatal c x) eqn:Ef; cbn [andb negb]; [split; [exact V|apply same_refl]|]. split.
  - apply set_inv; [exact V|discriminate| |].
    2:{ intros y Ey. rewrite Ex in Ey. injection Ey as <-. unfold x_state in Ec. destruct (c_over c) eqn:Eo; [left; apply (V_over _ V Eo)|]. right. destruct (i_state x); try discriminate; reflexivity. }
    intros _. unfold x_fatal in Ef. apply orb_false_iff in Ef as [Ef _].
    pose proof (V_data _ V) as D. rewrite Ex in D. apply D; [exact Ef| |];
    (unfold x_state in Ec; destruct (c_over c) eqn:Eo; [pose proof (V_over _ V Eo); congruence|]; destruct (i_state x); discriminate).
  - split; [rewrite all_tx_set, app_nil_r; reflexivity|auto].
Qed.
Lemma sent_same c x : c_xact c = Some x -> same c (sent c x).
Proof.
  intros Ex. unfold same, all_tx, sent. cbn. rewrite Ex. split; [|auto]. f_equal. f_equal. f_equal. unfold inst_sent. destruct (i_state x); auto. destruct (i_messages x); reflexivity.
Qed.
Lemma take_same c x c' : c_xact c = Some x -> (forall y, c_xact c' = Some y -> i_cmds y = i_cmds x) /\ c_xact c' <> None /\ c_done c' = c_done c /\ c_who c' = c_who c /\ c_curs c' = c_curs c /\ c_stms c' = c_stms c /\ c_down c' = c_down c /\ c_over c' = c_over c ->
  same c c'.
Proof.
  intros Ex (A & B & C & D & E & F & _). unfold same, all_tx. rewrite C, D, Ex. split; [|auto]. destruct (c_xact c') as [y|]; [|contradiction].
  rewrite (A y eq_refl). reflexivity.
Qed.
Lemma write_step c x c' r : cinv c -> c_xact c = Some x -> sending x -> write_messages c (c_mid c, outgoing x) = (c', r) ->
  cinv c' /\ same c c' /\ c_xact c' = Some x /\ (r = CRet true -> cinv (sent c' x) /\ same c (sent c' x)) /\ 
  (r = CRet false -> cinv (with_down (sent c' x) false) /\ same c (with_down (sent c' x) false)).
Proof.
  intros V Ex Es H. destruct (write_inv _ _ _ _ V Ex Es H) as (V1 & S1 & D1 & H1).
  assert (Ex1 : c_xact c' = Some x) by (destruct S1 as [-> _]; exact Ex).
  split; [exact V1|]. split; [apply sametx_same; exact S1|]. split; [exact Ex1|]. split; intros ->.
  - split; [apply sent_inv; auto; eauto|]. eapply same_trans; [apply sametx_same; exact S1|apply sent_same; exact Ex1].
  - split; [|eapply same_trans; [apply sametx_same; exact S1|eapply same_trans; [apply sent_same; exact Ex1|apply same_down]]].
    (* the flag makes the remaining data harmless *)
    assert (V2 : cinv (with_down c' false)) by (apply down_inv; [exact V1|congruence]).
    change (with_down (sent c' x) false) with (sent (with_down c' false) x).
    apply sent_inv; auto. apply (H1 false eq_refl).
Qed.
Lemma read_step c x c' r : cinv c -> c_xact c = Some x -> read_messages c = (c', r) ->
  cinv c' /\ same c c' /\ c_xact c' = Some x /\ (forall b, r = CRet b -> c_bad c' = false -> fst (c_read c') <> i_last x).
Proof.
  intros V Ex H. destruct (read_inv _ _ _ V H) as (V1 & S1 & R1 & _).
  assert (Ex1 : c_xact c' = Some x) by (destruct S1 as [-> _]; exact Ex).
  split; [exact V1|]. split; [apply sametx_same; exact S1|]. split; [exact Ex1|]. intros b -> Hb.
  destruct (R1 b eq_refl) as [[E N]|[_ E]].
  - destruct (V_last _ V1 x Ex1) as [_ L]. specialize (L Hb). rewrite E in *. specialize (L N). lia.
  - specialize (E x Ex1). lia.
Qed.
Lemma step_inv c c' r : cinv c -> step c = (c', r) -> cinv c' /\ same c c'.
Proof.
  intros V H. unfold step in H. destruct (c_xact c) as [x|] eqn:Ex; [|injection H as <- <-; split; [exact V|apply same_refl]].
  assert (SS : sending x -> (match write_messages c (c_mid c, outgoing x) with
          | (c, CExn XAgain) => (c, CRet tt) | (c, CExn e) => (c, CExn e)
          | (c, CRet true) => (finish_step (sent c x), CRet tt)
          | (c, CRet false) => (finish_step (with_down (sent c x) false), CRet tt) end) = (c', r) -> cinv c' /\ same c c').
  { intros Es H0. destruct (write_messages c _) as [c1 [[|]|e]] eqn:Ew; destruct (write_step _ _ _ _ V Ex Es Ew) as (V1 & S1 & Ex1 & T & F).
    - injection H0 as <- <-. destruct (T eq_refl) as [V2 S2]. destruct (finish_inv _ V2) as [V3 S3]. split; [exact V3|eapply same_trans; eassumption].
    - injection H0 as <- <-. destruct (F eq_refl) as [V2 S2]. destruct (finish_inv _ V2) as [V3 S3]. split; [exact V3|eapply same_trans; eassumption].
    - destruct e; injection H0 as <- <-; auto. }
  assert (RR : recving x -> (match read_messages c with
          | (c, CExn XAgain) => (c, CRet tt) | (c, CExn e) => (c, CExn e)
          | (c, CRet r) => match take_messages (if r then c else with_down c true) x with (c, CExn e) => (c, CExn e) | (c, CRet _) => (finish_step c, CRet tt) end
          end) = (c', r) -> cinv c' /\ same c c').
  { intros Es H0. destruct (read_messages c) as [c1 [b|e]] eqn:Er; destruct (read_step _ _ _ _ V Ex Er) as (V1 & S1 & Ex1 & I1).
    - specialize (I1 b eq_refl). set (c2 := if b then c1 else with_down c1 true) in *.
      assert (K : cinv c2 /\ c_xact c2 = Some x /\ same c c2 /\ (c_bad c2 = false -> fst (c_read c2) <> i_last x)).
      { subst c2. destruct b; [auto|]. split; [apply down_inv; [exact V1|congruence]|]. split; [exact Ex1|]. split; [|exact I1]. eapply same_trans; [exact S1|apply same_down]. }
      destruct K as (V2 & Ex2 & S2 & I2). clearbody c2.
      destruct (take_messages c2 x) as [c3 [u|e]] eqn:Et; destruct (take_inv _ _ _ _ V2 Ex2 Es I2 Et) as (V3 & F3); apply (take_same _ _ _ Ex2) in F3.
      + injection H0 as <- <-. destruct (finish_inv _ V3) as [V4 S4]. split; [exact V4|]. eapply same_trans; [exact S2|eapply same_trans; eassumption].
      + injection H0 as <- <-. split; [exact V3|eapply same_trans; eassumption].
    - destruct e; injection H0 as <- <-; auto. }
  destruct (x_state_cases c x) as [E|[_ E]]; rewrite E in H; [injection H as <- <-; split; [exact V|apply same_refl]|].
  destruct (i_state x) eqn:Es; try (apply SS; [unfold sending; auto|exact H]); try (apply RR; [unfold recving; auto|exact H]).
  injection H as <- <-. split; [exact V|apply same_refl].
Qed.
Lemma complete1_inv c x c' r : cinv c -> c_xact c = Some x -> complete1 c x = (c', r) -> cinv c' /\ same c c' /\ c_xact c' <> None.
Proof.
  intros V Ex H. unfold complete1 in H.
  assert (SS : sending x -> (match write_messages c (c_mid c, outgoing x) with
      | (c, CExn e) => (c, CExn e) | (c, CRet true) => (sent c x, CRet tt) | (c, CRet false) => (with_down c true, CRet tt) end) = (c', r) -> cinv c' /\ same c c' /\ c_xact c' <> None).
  { intros Es H0. destruct (write_messages c _) as [c1 [[|]|e]] eqn:Ew; destruct (write_step _ _ _ _ V Ex Es Ew) as (V1 & S1 & Ex1 & T & F).
    - injection H0 as <- <-. destruct (T eq_refl) as [V2 S2]. split; [exact V2|]. split; [exact S2|discriminate].
    - injection H0 as <- <-. split; [apply down_inv; [exact V1|congruence]|]. split; [eapply same_trans; [exact S1|apply same_down]|cbn; congruence].
    - injection H0 as <- <-. split; [exact V1|]. split; [exact S1|congruence]. }
  assert (RR : recving x -> (match read_messages c with
      | (c, CExn e) => (c, CExn e) | (c, CRet true) => take_messages c x | (c, CRet false) => (with_down c true, CRet tt) end) = (c', r) -> cinv c' /\ same c c' /\ c_xact c' <> None).
  { intros Es H0. destruct (read_messages c) as [c1 [[|]|e]] eqn:Er; destruct (read_step _ _ _ _ V Ex Er) as (V1 & S1 & Ex1 & I1).
    - destruct (take_inv _ _ _ _ V1 Ex1 Es (I1 _ eq_refl) H0) as (V3 & F3). split; [exact V3|]. split; [|apply F3]. apply (take_same _ _ _ Ex1) in F3. eapply same_trans; eassumption.
    - injection H0 as <- <-. split; [apply down_inv; [exact V1|congruence]|]. split; [eapply same_trans; [exact S1|apply same_down]|cbn; congruence].
    - injection H0 as <- <-. split; [exact V1|]. split; [exact S1|congruence]. }
  destruct (x_state_cases c x) as [E|[_ E]]; rewrite E in H; [injection H as <- <-; split; [exact V|split; [apply same_refl|congruence]]|].
  destruct (i_state x) eqn:Es; try (apply SS; [unfold sending; auto|exact H]); try (apply RR; [unfold recving; auto|exact H]).
  injection H as <- <-. split; [exact V|split; [apply same_refl|congruence]].
Qed.
Lemma complete_inv n : forall c c' r, cinv c -> complete_loop n c = (c', r) -> cinv c' /\ same c c'.
Proof.
  induction n as [|n IH]; intros c c' r V H; cbn [complete_loop] in H;
  (destruct (c_xact c) as [x|] eqn:Ex; [|injection H as <- <-; split; [exact V|apply same_refl]]).
  - destruct (x_state c x); injection H as <- <-; try (split; [exact V|apply same_refl]). apply finish_inv; exact V.
  - assert (L : (match complete1 c x with
              | (c, CRet _) => complete_loop n c | (c, CExn XAgain) => complete_loop n c
              | (c, CExn (XProto _)) => (with_down c true, CRet tt) | (c, CExn e) => (c, CExn e) end) = (c', r) -> cinv c' /\ same c c').
    { intros H0. destruct (complete1 c x) as [c1 [u|e]] eqn:E1; destruct (complete1_inv _ _ _ _ V Ex E1) as (V1 & S1 & N1).
      - destruct (IH _ _ _ V1 H0) as [V2 S2]. split; [exact V2|eapply same_trans; eassumption].
      - destruct e; try (injection H0 as <- <-; auto; fail).
        + destruct (IH _ _ _ V1 H0) as [V2 S2]. split; [exact V2|eapply same_trans; eassumption].
        + injection H0 as <- <-. split; [apply down_inv; assumption|eapply same_trans; [exact S1|apply same_down]]. }
    destruct (x_state c x); try (apply L; exact H). injection H as <- <-. apply finish_inv; exact V.
Qed.
Definition ended (c : conn) : Prop := forall x, c_xact c = Some x -> c_down c = true \/ i_state x = IComplete.
Lemma finish_ended c x : cinv c -> c_xact c = Some x -> x_state c x = IComplete -> ended (finish_step c).
Proof.
  intros V Ex E. unfold finish_step. rewrite Ex. assert (D : c_down c = true \/ i_state x = IComplete).
  { unfold x_state in E. destruct (c_over c) eqn:Eo; [left; apply (V_over _ V Eo)|auto]. }
  destruct (_ && _); intros y Ey; [discriminate|]. rewrite Ex in Ey. injection Ey as <-. exact D.
Qed.
Lemma complete_ended n : forall c c' u, cinv c -> complete_loop n c = (c', CRet u) -> ended c'.
Proof.
  induction n as [|n IH]; intros c c' u V H; cbn [complete_loop] in H; (destruct (c_xact c) as [x|] eqn:Ex; [|discriminate]).
  - destruct (x_state c x) eqn:E; try discriminate. injection H as <-. eapply finish_ended; eassumption.
  - assert (L : (match complete1 c x with
              | (c, CRet _) => complete_loop n c | (c, CExn XAgain) => complete_loop n c
              | (c, CExn (XProto _)) => (with_down c true, CRet tt) | (c, CExn e) => (c, CExn e) end) = (c', CRet u) -> ended c').
    { intros H0. destruct (complete1 c x) as [c1 [u1|e]] eqn:E1; destruct (complete1_inv _ _ _ _ V Ex E1) as (V1 & S1 & N1).
      - eapply IH; eassumption.
      - destruct e; try discriminate; [eapply IH; eassumption|]. injection H0 as <-. intros y _. left. reflexivity. }
    destruct (x_state c x) eqn:E; try (apply L; exact H). injection H as <-. eapply finish_ended; eassumption.
Qed.
Lemma maybe_ended n c c' u : cinv c -> (match c_xact c with None => (c, CRet tt) | Some _ => complete_loop n c end) = (c', CRet u) -> ended c'.
Proof.
  intros V H. destruct (c_xact c) eqn:E; [eapply complete_ended; eassumption|]. injection H as <-. intros x Ex. congruence.
Qed.
Lemma maybe_complete_inv n c c' r : cinv c -> (match c_xact c with None => (c, CRet tt) | Some _ => complete_loop n c end) = (c', r) -> cinv c' /\ same c c'.
Proof. intros V H. destruct (c_xact c); [eapply complete_inv; eassumption|]. injection H as <- <-. split; [exact V|apply same_refl]. Qed.

Lemma init_cmds cmds x : inst_init cmds = Ok x -> i_cmds x = cmds.
Proof. unfold inst_init. destruct (all_ok cmds); [|discriminate]. intros H. apply Ok_inj in H. subst. reflexivity. Qed.
Lemma sync_inv n c c' r : cinv c -> synchronize n c = (c', r) -> cinv c' /\ c_curs c' = c_curs c /\ c_stms c' = c_stms c /\
  (all_tx c' = all_tx c \/ all_tx c' = all_tx c ++ [(WSync, sync_cmds)]).
Proof.
  intros V H. unfold synchronize in H. destruct (match c_xact c with None => _ | Some _ => _ end) as [c1 [u|e]] eqn:E1.
  - destruct (maybe_complete_inv _ _ _ _ V E1) as [V1 (S1 & S2 & S3)]. destruct (inst_init sync_cmds) as [x|] eqn:Ei; [|injection H as <- <-; auto].
    assert (V2 : cinv (set_xact c1 (Some x) WSync)).
    { apply set_inv; [exact V1| |discriminate|exact (maybe_ended _ _ _ _ V E1)]. intros y Ey. injection Ey as <-. eauto. }
    destruct (complete_inv _ _ _ _ V2 H) as [V3 (T1 & T2 & T3)]. split; [exact V3|]. split; [rewrite T2; exact S2|]. split; [rewrite T3; exact S3|].
    right. rewrite T1, all_tx_set, S1, (init_cmds _ _ Ei). reflexivity.
  - destruct (maybe_complete_inv _ _ _ _ V E1) as [V1 (S1 & S2 & S3)]. injection H as <- <-. auto.
Qed.
Definition batch (cs ss : list bytes) : list message := map (MClose false) cs ++ map (MClose true) ss ++ [MEmpty ESynchronize].
Lemma trash_ok cs ss : exists x, inst_init (batch cs ss) = Ok x.
Proof.
  assert (E : all_ok (batch cs ss) = true).
  { unfold all_ok. apply forallb_forall. intros m Hm. unfold batch in Hm. apply in_app_iff in Hm as [Hm|Hm].
    - apply in_map_iff in Hm as (b & <- & _). reflexivity.
    - apply in_app_iff in Hm as [Hm|Hm]; [apply in_map_iff in Hm as (b & <- & _); reflexivity|]. destruct Hm as [<-|[]]. reflexivity. }
  unfold inst_init. rewrite E. eauto.
Qed.
Lemma skipn_app_exact {A} (a b : list A) : skipn (length a) (a ++ b) = b.
Proof. rewrite skipn_app, skipn_all, Nat.sub_diag. reflexivity. Qed.
Lemma take_out_inv n c a1 a2 a3 c' r : cinv c -> c_xact c = None -> take_out_trash n c a1 a2 a3 = (c', r) -> cinv c' /\ 
  all_tx c' = all_tx c ++ [(WTrash, batch (c_curs c ++ fst a1) (c_stms c ++ snd a1 ++ snd a2))] /\
  c_curs c' = fst a2 ++ fst a3 /\ c_stms c' = snd a3.
Proof.
  intros V Nx H. unfold take_out_trash in H. cbv zeta in H.
  destruct (trash_ok (c_curs c ++ fst a1) (c_stms c ++ snd a1 ++ snd a2)) as [x Ei].
  unfold batch in Ei. rewrite Ei in H.
  set (c1 := with_trash _ _ _) in H.
  assert (V1 : cinv c1).
  { apply trash_inv. apply set_inv; [exact V| |discriminate|intros y Ey; congruence]. intros y Ey. injection Ey as <-. eauto. }
  destruct (complete_inv _ _ _ _ V1 H) as [V2 (T1 & T2 & T3)]. split; [exact V2|]. rewrite T1, T2, T3. subst c1. cbn [c_curs c_stms with_trash].
  rewrite !skipn_app_exact. split; [|auto].
  change (all_tx (with_trash ?c _ _)) with (all_tx c). rewrite all_tx_set, (init_cmds _ _ Ei). reflexivity.
Qed.
(** ** what an operation adds *)
Definition adds (o : cop) (c c' : conn) : Prop := exists tb tx,
  all_tx c' = all_tx c ++ tb ++ tx /\
  (tb = [] /\ c_curs c' = c_curs c ++ fst (trashed o) /\ c_stms c' = c_stms c ++ snd (trashed o) \/
   exists cs ss, tb = [(WTrash, batch cs ss)] /\ cs ++ c_curs c' = c_curs c ++ fst (trashed o) /\ ss ++ c_stms c' = c_stms c ++ snd (trashed o) /\
     firstn (length (c_curs c)) cs = c_curs c /\ firstn (length (c_stms c)) ss = c_stms c) /\
  (tx = [] \/ tx = [(WSync, sync_cmds)] /\ (exists n, o = OSync n) \/ exists n cmds a1 a2 a3, o = OPush n cmds a1 a2 a3 /\ tx = [(WUser, cmds)] /\
     (c_curs c <> [] \/ c_stms c <> [] -> tb <> [])).
Lemma arrive_inv c a1 a2 a3 : cinv c -> cinv (arrive c a1 a2 a3).
Proof. apply trash_inv. Qed.
Lemma same_adds o c c' : same c c' -> fst (trashed o) = [] -> snd (trashed o) = [] -> adds o c c'.
Proof. intros (A & B & C) T1 T2. exists [], []. rewrite T1, T2, !app_nil_r. split; [exact A|]. split; [left; auto|left; reflexivity]. Qed.
Lemma firstn_app_exact {A} (a b : list A) : firstn (length a) (a ++ b) = a.
Proof. rewrite firstn_app, firstn_all, Nat.sub_diag. cbn. apply app_nil_r. Qed.
Lemma copy_inv c p : cinv c -> p = PDone \/ (exists lines, p = PList (map IRaw lines)) -> cinv (copy_messages c p) /\ same c (copy_messages c p).
Proof.
  intros V Hp. unfold copy_messages. destruct (c_xact c) as [x|] eqn:Ex; [|split; [exact V|apply same_refl]].
  destruct (x_state_cases c x) as [E|[_ E]]; rewrite E; [split; [exact V|apply same_refl]|].
  destruct (i_state x) eqn:Es; try (split; [exact V|apply same_refl]). destruct (i_messages x); try (split; [exact V|apply same_refl]).
  destruct (handed c || _) eqn:Eh; [split; [exact V|apply same_refl]|]. apply orb_false_iff in Eh as [Eh _].
  split; [|unfold same, all_tx; cbn; rewrite Ex; auto].
  pose proof (V_wok _ V) as W. pose proof (V_mid _ V) as Hm. pose proof (V_pos _ V) as Hpp. destruct (V_last _ V x Ex) as [L1 L2].
  assert (Fw : match c_writing c with Some (i, _) => i < c_next c | None => True end) by (unfold wok in W; destruct (c_writing c) as [[i l]|]; [apply W|exact I]).
  constructor.
  - destruct (V_out _ V) as (bs & M & Wi). exists bs. split; [|exact Wi]. unfold batches in *. rewrite Ex, Eh in M.
    replace (handed (with_xact c (set_messages x p) true [])) with false.
    + cbn [c_done c_xact c_tr with_xact]. rewrite !app_nil_r in *. exact M.
    + symmetry. unfold handed. cbn. destruct (c_writing c) as [[i l]|]; [|reflexivity]. destruct (c_written c); [|reflexivity].
      apply andb_false_intro2. apply Z.eqb_neq. lia.
  - unfold wok in *. cbn. destruct (c_writing c) as [[i l]|]; [|exact W]. destruct W. split; [lia|assumption].
  - cbn. intros i l y Ew _ Ei. rewrite Ew in Fw. lia.
  - cbn. lia.
  - cbn. intros y Ey. injection Ey as <-. cbn. rewrite Es. auto.
  - exact (V_over _ V).
  - cbn. rewrite Es. congruence.
  - cbn. destruct (V_read _ V). split; [lia|assumption].
  - cbn. lia.
  - cbn. intros y Ey. injection Ey as <-. cbn. split; [lia|exact L2].
  - destruct (V_in _ V) as (q & I & Hq & HF). exists q. split; [exact I|]. rewrite taken_xact by congruence. cbn [evs flat_map app recvd]. rewrite app_nil_r. auto.
  - exact (V_rd _ V).
  - exact (V_recvs _ V).
  - cbn. intros y Ey Hb. injection Ey as <-. rewrite app_nil_r. cbn [i_cmds set_messages]. apply ir_data; auto. apply (V_run _ V x Ex Hb).
  - exact (V_done _ V).
  - exact (V_fin _ V).
Qed.
Lemma arrive_adds n cmds c c1 a1 a2 a3 : same c c1 -> adds (OPush n cmds a1 a2 a3) c (arrive c1 a1 a2 a3).
Proof.
  intros (A & B & C). exists [], []. change (all_tx (arrive c1 a1 a2 a3)) with (all_tx c1). rewrite A. cbn [app]. rewrite app_nil_r.
  split; [reflexivity|]. split; [left|left; reflexivity]. cbn. rewrite B, C. auto.
Qed.
Lemma cstep_inv c o c' r : cinv c -> cstep c o = (c', r) -> cinv c' /\ adds o c c'.
Proof.
  intros V H. destruct o as [n cmds a1 a2 a3| |n|n|a|lines|]; cbn [cstep] in H.
  - unfold push in H. destruct (inst_init cmds) as [x|] eqn:Ei.
    2:{ injection H as <- <-. split; [apply arrive_inv; exact V|]. apply arrive_adds, same_refl. }
    destruct (match c_xact c with None => _ | Some _ => _ end) as [c1 [u|e]] eqn:E1; destruct (maybe_complete_inv _ _ _ _ V E1) as [V1 (S1 & S2 & S3)].
    2:{ injection H as <- <-. split; [apply arrive_inv; exact V1|]. apply arrive_adds. unfold same; auto. }
    destruct (c_xact c1) as [y|] eqn:Ex1.
    { injection H as <- <-. split; [apply arrive_inv; exact V1|]. apply arrive_adds. unfold same; auto. }
    (* the garbage, then x *)
    assert (P : forall c2 c' r, cinv c2 -> match c_xact c2 with Some _ => (c2, CRet tt) | None => step (set_xact c2 (Some x) WUser) end = (c', r) ->
        cinv c' /\ c_curs c' = c_curs c2 /\ c_stms c' = c_stms c2 /\ (all_tx c' = all_tx c2 \/ all_tx c' = all_tx c2 ++ [(WUser, cmds)])).
    { intros c2 c3 r3 V2 H2. destruct (c_xact c2) eqn:Ex2.
      - injection H2 as <- <-. auto.
      - assert (V3 : cinv (set_xact c2 (Some x) WUser)) by (apply set_inv; [exact V2| |discriminate|intros y Ey; congruence]; intros y Ey; injection Ey as <-; eauto).
        destruct (step_inv _ _ _ V3 H2) as [V4 (T1 & T2 & T3)]. split; [exact V4|]. rewrite T1, T2, T3, all_tx_set, (init_cmds _ _ Ei). auto. }
    destruct (nonempty (c_stms c1) || nonempty (c_curs c1)) eqn:En.
    + destruct (take_out_trash n c1 a1 a2 a3) as [c2 [u2|e2]] eqn:E2; destruct (take_out_inv _ _ _ _ _ _ _ V1 Ex1 E2) as (V2 & T1 & T2 & T3).
      * destruct (P _ _ _ V2 H) as (V3 & P1 & P2 & P3). split; [exact V3|].
        assert (Q : exists tx, (tx = [] \/ tx = [(WUser, cmds)]) /\ all_tx c' = all_tx c2 ++ tx) by (destruct P3 as [P3|P3]; [exists []; rewrite app_nil_r|exists [(WUser, cmds)]]; auto).
        destruct Q as (tx & Q & P4). clear P3.
        exists [(WTrash, batch (c_curs c1 ++ fst a1) (c_stms c1 ++ snd a1 ++ snd a2))], tx.
        split; [rewrite P4, T1, S1, <- app_assoc; reflexivity|]. split.
        -- right. exists (c_curs c1 ++ fst a1), (c_stms c1 ++ snd a1 ++ snd a2). cbn [trashed fst snd]. rewrite P1, P2, T2, T3, S2, S3. split; [reflexivity|].
           rewrite <- !app_assoc, !firstn_app_exact. auto.
        -- destruct Q as [->| ->]; [left; reflexivity|]. right. right. exists n, cmds, a1, a2, a3. split; [reflexivity|]. split; [reflexivity|discriminate].
      * injection H as <- <-. split; [exact V2|]. exists [(WTrash, batch (c_curs c1 ++ fst a1) (c_stms c1 ++ snd a1 ++ snd a2))], [].
        split; [rewrite T1, S1, app_nil_r; reflexivity|]. split; [|left; reflexivity].
        right. exists (c_curs c1 ++ fst a1), (c_stms c1 ++ snd a1 ++ snd a2). cbn [trashed fst snd]. rewrite T2, T3, S2, S3. split; [reflexivity|].
           rewrite <- !app_assoc, !firstn_app_exact. auto.
    + destruct (P (arrive c1 a1 a2 a3) _ _ (arrive_inv _ _ _ _ V1) H) as (V3 & P1 & P2 & P3). split; [exact V3|].
      change (all_tx (arrive c1 a1 a2 a3)) with (all_tx c1) in P3.
      assert (Q : exists tx, (tx = [] \/ tx = [(WUser, cmds)]) /\ all_tx c' = all_tx c1 ++ tx) by (destruct P3 as [P3|P3]; [exists []; rewrite app_nil_r|exists [(WUser, cmds)]]; auto).
      destruct Q as (tx & Q & P4). clear P3. exists [], tx.
      split; [rewrite P4, S1; reflexivity|]. split.
      * left. rewrite P1, P2. cbn. rewrite S2, S3. auto.
      * destruct Q as [->| ->]; [left; reflexivity|]. right. right. exists n, cmds, a1, a2, a3. split; [reflexivity|]. split; [reflexivity|].
        rewrite S2, S3 in En. apply orb_false_iff in En as [En1 En2]. destruct (c_stms c); [|discriminate]. destruct (c_curs c); [|discriminate]. intros [N|N]; contradiction.
  - destruct (step_inv _ _ _ V H) as [V1 S]. split; [exact V1|]. apply same_adds; auto.
  - destruct (complete_inv _ _ _ _ V H) as [V1 S]. split; [exact V1|]. apply same_adds; auto.
  - destruct (sync_inv _ _ _ _ V H) as (V1 & S1 & S2 & S3). split; [exact V1|].
    destruct S3 as [S3|S3]; [exists [], []|exists [], [(WSync, sync_cmds)]]; (split; [rewrite S3, ?app_nil_r; reflexivity|]); (split; [left; cbn; rewrite !app_nil_r; auto|]); [left; reflexivity|].
    right. left. split; [reflexivity|exists n; reflexivity].
  - injection H as <- <-. split; [apply trash_inv; exact V|]. exists [], []. split; [rewrite app_nil_r; reflexivity|]. split; [left|left; reflexivity]. cbn. auto.
  - injection H as <- <-. destruct (copy_inv c (PList (map IRaw lines)) V) as [V1 S]; [eauto|]. split; [exact V1|]. apply same_adds; auto.
  - injection H as <- <-. destruct (copy_inv c PDone V) as [V1 S]; [auto|]. split; [exact V1|]. apply same_adds; auto.
Qed.
