(** CopyProof2.v: the ProtocolProducer, the realignment, the lines of a stream *)
From Verif Require Import Base BaseProof PBufferModel PBufferSpec PBufferProof Element3Model CopyModel CopySpec CopyProof.
Local Notation frame_len := CopyProof.frame_len.

Lemma cover q view ms t : unfinished q -> q ++ view = copy_frames ms ++ t -> Forall line_ok ms -> other_message t ->
  (length q <= length (copy_frames ms))%nat.
Proof.
  intros U E F (c & r & -> & N). destruct ms as [|l ms].
  - cbn in E. destruct (unfinished_head _ U) as [-> |(q' & ->)]; [cbn; lia|]. cbn in E. injection E as <- _. contradiction.
  - pose proof (Forall_inv F) as K. rewrite copy_cons, <- app_assoc in E. rewrite copy_cons, app_length.
    destruct (Nat.le_gt_cases (length q) (length (frame (100%Z, l)))) as [L|L]; [lia|]. exfalso.
    destruct (app_pre _ _ _ _ (eq_sym E) ltac:(lia)) as (e & Eq & _).
    pose proof (frame_len l) as FL. pose proof (len_nonneg l).
    assert (Lq : len l + 5 < len q) by (unfold len in *; lia).
    pose proof (unfinished_len q U ltac:(lia)) as UL. rewrite Eq, hlen_frame in UL by auto. rewrite <- Eq in UL. lia.
Qed.

Definition receiving_at (p : producer) (q : bytes) : Prop := p_state p = Some (at_state q) /\ p_next p = NRecv.

Lemma at_final q : w_final (at_state q) = None.
Proof. unfold at_state. destruct q; [reflexivity|]. destruct (_ <? _); reflexivity. Qed.
Lemma process_more p q view ms t : receiving_at p q -> unfinished q -> q ++ view = copy_frames ms ++ t -> Forall line_ok ms -> unfinished t ->
  exists p', process_copy_data p view = Ok (p', view) /\ receiving_at p' t /\ p_msgs p' = p_msgs p + len ms /\ p_bytes p' = p_bytes p + len view /\ p_recovered p' = p_recovered p.
Proof.
  intros (S & Nx) U E F T. unfold process_copy_data. rewrite S, (update_at q view ms t (at_state t)); auto; [|left; auto].
  cbn [bind]. rewrite at_final. eexists. split; [reflexivity|]. cbn. unfold receiving_at. cbn. auto.
Qed.
Lemma process_end p q view ms t : receiving_at p q -> unfinished q -> q ++ view = copy_frames ms ++ t -> Forall line_ok ms -> other_message t ->
  exists p' v, process_copy_data p view = Ok (p', v) /\ q ++ v = copy_frames ms /\ p_msgs p' = p_msgs p + len ms /\ p_bytes p' = p_bytes p + len v /\
    p_recovered p' = p_recovered p ++ t /\ p_state p' = None /\ p_next p' = NConfiscate.
Proof.
  intros (S & Nx) U E F T. pose proof (cover _ _ _ _ U E F T) as C. destruct (app_pre _ _ _ _ E C) as (e & Ee & Ev).
  unfold process_copy_data. rewrite S, (update_at q view ms t {| w_rem := 0; w_frag := []; w_final := Some t |}); auto; [|right; auto].
  cbn [bind w_final]. eexists. eexists. split; [reflexivity|]. cbn.
  assert (Q : take (len view - len t) view = e).
  { rewrite take_firstn, Ev, len_app. replace (len e + len t - len t) with (len e) by lia. unfold len. rewrite Nat2Z.id.
    rewrite BaseProof.firstn_app_exact; reflexivity. }
  rewrite Q. auto 8.
Qed.

Lemma recv_more chunks : forall p q ms t, receiving_at p q -> unfinished q -> q ++ concat chunks = copy_frames ms ++ t -> Forall line_ok ms -> unfinished t ->
  exists p', recv_run p chunks = Ok (p', chunks) /\ receiving_at p' t /\ p_msgs p' = p_msgs p + len ms /\ p_bytes p' = p_bytes p + len (concat chunks) /\ p_recovered p' = p_recovered p.
Proof.
  induction chunks as [|c chunks IH]; intros p q ms t R U E F T.
  - pose proof (run_at [] q ms t U E F T) as W. cbn in W. injection W as W1 W2.
    assert (M : ms = []) by (destruct ms; [auto|rewrite len_cons in W1; pose proof (len_nonneg ms); lia]). subst ms. cbn in E. rewrite app_nil_r in E. subst q.
    exists p. cbn. change (len (@nil bytes)) with 0. change (len (@nil Z)) with 0. rewrite !Z.add_0_r. auto.
  - cbn [concat] in E. rewrite app_assoc in E. destruct (prefix_split ms (q ++ c) (concat chunks) t E F (or_introl T)) as (ms1 & ms2 & x & -> & E1 & Ux & E2).
    apply Forall_app in F as (F1 & F2). destruct (process_more p q c ms1 x R U E1 F1 Ux) as (p1 & P & R1 & A & B & C).
    destruct (IH p1 x ms2 t R1 Ux E2 F2 T) as (p2 & P2 & R2 & A2 & B2 & C2).
    exists p2. cbn [recv_run]. destruct R as (_ & ->). rewrite P. cbn [bind fst snd]. rewrite P2. cbn [bind fst snd concat]. rewrite !len_app. split; [reflexivity|]. split; auto. repeat split; try lia; congruence.
Qed.
Lemma recv_app a : forall p b p' outs, recv_run p a = Ok (p', outs) -> recv_run p (a ++ b) = (do r <- recv_run p' b; Ok (fst r, outs ++ snd r)).
Proof.
  induction a as [|c a IH]; intros p b p' outs E.
  - cbn in E. injection E as <- <-. cbn. destruct (recv_run p b) as [[? ?]|]; reflexivity.
  - cbn [app recv_run] in *. destruct (p_next p); try discriminate. destruct (process_copy_data p c) as [[p1 v]|]; [|discriminate]. cbn [bind fst snd] in *.
    destruct (recv_run p1 a) as [[p2 o]|] eqn:Q; [|discriminate]. cbn in E. injection E as <- <-. rewrite (IH _ _ _ _ Q).
    cbn [fst snd]. destruct (recv_run p2 b) as [[? ?]|]; reflexivity.
Qed.

Lemma produce_recv p first chunks : produce p first chunks =
  recv_run {| p_state := Some wire_init; p_msgs := p_msgs p; p_bytes := p_bytes p; p_next := NRecv; p_recovered := p_recovered p |} (first :: chunks).
Proof. reflexivity. Qed.

(** ** realign *)
Lemma zeros_bytes n : is_bytes (repeat 0 n).
Proof. apply Forall_forall. intros x H. apply repeat_spec in H. subst. split; lia. Qed.
Lemma zeros_len n : len (repeat 0 n) = Z.of_nat n.
Proof. unfold len. now rewrite repeat_length. Qed.
Lemma line_sub a b : is_bytes (a ++ b) <-> is_bytes a /\ is_bytes b. Proof. apply Forall_app. Qed.

Lemma split5 t l r : frame (100, l) = t ++ r -> 5 <= len t -> exists a, t = 100 :: be 4 (len l + 4) ++ a /\ l = a ++ r.
Proof.
  intros E L. change (frame (100, l)) with ((100 :: be 4 (len l + 4)) ++ l) in E.
  assert (Lh : length (100 :: be 4 (len l + 4)) = 5%nat) by (cbn [length]; now rewrite be_length).
  destruct (app_pre _ _ _ _ E) as (a & -> & ->); [rewrite Lh; unfold len in L; lia|]. exists a. auto.
Qed.

Lemma realign_at p t : receiving_at p t -> unfinished t ->
  exists p' l d, realign p = Ok p' /\ p_next p' = NIter l /\ p_recovered p' = p_recovered p ++ d /\
    (exists ls, Forall line_ok ls /\ t ++ concat l = copy_frames ls) /\
    (forall l0 r, line_ok l0 -> frame (100, l0) = t ++ r -> exists s, line_ok s /\ d ++ r = frame (100, s)).
Proof.
  intros (S & _) U. unfold realign. rewrite S, at_final.
  destruct (unfinished_head _ U) as [-> |(q & Et)].
  - cbn [at_state wire_init w_rem Z.eqb bind]. cbn. eexists _, [], []. split; [reflexivity|]. cbn. split; [reflexivity|]. split; [reflexivity|].
    split; [exists []; split; [constructor|reflexivity]|]. intros l0 r K E. exists l0. auto.
  - assert (At : at_state t = if len t <? 5 then {| w_rem := -1; w_frag := tl t; w_final := None |}
         else {| w_rem := hlen t + 1 - len t; w_frag := []; w_final := None |}) by (rewrite Et; reflexivity). rewrite At. clear At.
    destruct (Z.ltb_spec (len t) 5) as [L|L].
    + cbn [w_rem w_frag]. change (-1 =? -1) with true. cbv iota zeta. subst t. cbn [tl]. rewrite len_cons in L.
      assert (Lq : (length q <= 3)%nat) by (unfold len in L; lia).
      assert (Lh : length (ljust3 q ++ [4]) = 4%nat) by (unfold ljust3; rewrite !app_length, repeat_length; cbn [length]; lia).
      unfold getlen. rewrite Lh. cbn [Nat.eqb bind].
      set (hd := ljust3 q ++ [4]) in *. set (L4 := unbe hd).
      assert (Bq : is_bytes q).
      { destruct U as (l & r & K & _ & E). apply (f_equal (@tl Z)) in E. change (be 4 (len l + 4) ++ l = q ++ r) in E.
        assert (B : is_bytes (q ++ r)) by (rewrite <- E; apply line_sub; split; [apply be_bytes|apply K]). apply line_sub in B. tauto. }
      assert (Bh : is_bytes hd).
      { unfold hd, ljust3. apply line_sub. split; [apply line_sub; split; [exact Bq|apply zeros_bytes]|]. constructor; [split; lia|constructor]. }
      pose proof (unbe_range _ Bh) as Rg. rewrite Lh in Rg. fold L4 in Rg.
      assert (L4' : 4 <= L4).
      { unfold L4, hd. rewrite unbe_snoc. assert (B3 : is_bytes (ljust3 q)) by (unfold hd in Bh; apply line_sub in Bh; tauto). pose proof (unbe_range _ B3). lia. }
      pose proof (be_unbe _ Bh) as BU. rewrite Lh in BU. fold L4 in BU.
      assert (Nb : skipn (length q) hd <> []) by (intros Q; apply (f_equal (@length Z)) in Q; rewrite skipn_length, Lh in Q; cbn [length] in Q; lia).
      eexists _, [skipn (length q) hd ++ repeat 0 (Z.to_nat (L4 - 4))], (100 :: q).
      split; [reflexivity|]. cbn [p_next set_next recover p_recovered].
      split; [destruct (skipn (length q) hd); [congruence|reflexivity]|]. split; [reflexivity|]. split.
      * exists [repeat 0 (Z.to_nat (L4 - 4))]. split.
        { constructor; [|constructor]. split; [apply zeros_bytes|]. rewrite zeros_len. cbn in Rg. lia. }
        cbn [concat]. rewrite app_nil_r. unfold copy_frames, frames, frame. cbn [map fst snd concat]. rewrite app_nil_r, zeros_len.
        replace (Z.of_nat (Z.to_nat (L4 - 4)) + 4) with L4 by lia. rewrite BU. cbn [app]. f_equal. rewrite app_assoc. f_equal.
        unfold hd at 2. unfold ljust3. rewrite <- app_assoc. unfold hd, ljust3. rewrite <- app_assoc. rewrite skipn_app, skipn_all, Nat.sub_diag. reflexivity.
      * intros l0 r K E. exists l0. auto.
    + cbn [w_rem w_frag]. pose proof (unfinished_len _ U L) as UL.
      replace (hlen t + 1 - len t =? -1) with false by (symmetry; apply Z.eqb_neq; lia).
      replace (0 <? hlen t + 1 - len t) with true by (symmetry; apply Z.ltb_lt; lia).
      set (rem := hlen t + 1 - len t) in *.
      assert (Hr : forall l0 r, line_ok l0 -> frame (100, l0) = t ++ r -> len r = rem /\ hlen t = len l0 + 4).
      { intros l0 r K E. pose proof (hlen_frame l0 [] K) as H. rewrite app_nil_r, E, hlen_pre in H by (unfold len in L; lia).
        pose proof (frame_len l0) as FL. rewrite E, len_app in FL. unfold rem. lia. }
      assert (U' := U). destruct U' as (l & r & K & N & E). destruct (Hr l r K E) as (Hl & Hh).
      destruct (split5 _ _ _ E L) as (a & Ea & El).
      assert (R4 : 0 <= rem + 4 < 256 ^ Z.of_nat 4) by (destruct K as (_ & K); rewrite El, len_app in K; pose proof (len_nonneg a); cbn; lia).
      unfold ulong_pack, pack_u. replace ((0 <=? rem + 4) && (rem + 4 <? 256 ^ Z.of_nat 4)) with true by (symmetry; apply andb_true_iff; split; [apply Z.leb_le|apply Z.ltb_lt]; lia).
      cbn [bind]. eexists _, [repeat 0 (Z.to_nat rem)], (100 :: be 4 (rem + 4)). split; [reflexivity|]. cbn [p_next set_next recover p_recovered].
      split; [destruct (Z.to_nat rem) eqn:Q; [lia|reflexivity]|]. split; [reflexivity|]. split.
      * exists [a ++ repeat 0 (Z.to_nat rem)]. split.
        { constructor; [|constructor]. destruct K as (K1 & K2). rewrite El in K1, K2. apply line_sub in K1. rewrite len_app in K2. split; [apply line_sub; split; [tauto|apply zeros_bytes]|].
          rewrite len_app, zeros_len. lia. }
        cbn [concat]. rewrite app_nil_r. unfold copy_frames, frames, frame. cbn [map fst snd concat]. rewrite app_nil_r, len_app, zeros_len.
        replace (len a + Z.of_nat (Z.to_nat rem) + 4) with (len l + 4) by (rewrite El, len_app; lia). rewrite Ea. cbn [app]. now rewrite <- app_assoc.
      * intros l0 r0 K0 E0. destruct (Hr l0 r0 K0 E0) as (Hl0 & _). exists r0. split.
        { destruct (split5 _ _ _ E0 L) as (a0 & _ & E1). destruct K0 as (K1 & K2). rewrite E1 in K1, K2. apply line_sub in K1. rewrite len_app in K2. split; [tauto|]. pose proof (len_nonneg a0). lia. }
        unfold frame. cbn [fst snd app]. now rewrite Hl0.
Qed.

(** ** 94-99 ChunkProtocol *)
Lemma unfinished_waiting t : unfinished t -> waiting t.
Proof.
  intros (l & r & K & N & E). assert (Wl : wf_msg (100, l)) by (destruct K; repeat split; auto; cbn; lia). split.
  - intros (m & q & Wm & Em). rewrite Em, <- app_assoc in E. rewrite <- (app_nil_r (frame (100, l))) in E.
    destruct (frame_inj _ _ _ _ Wl Wm E) as (_ & Q). destruct q; [|discriminate]. cbn in Q. congruence.
  - intros (c & n & q & Em & Hn). rewrite Em in E. apply (f_equal (@tl Z)) in E. change (be 4 (len l + 4) ++ l = (be 4 n ++ q) ++ r) in E.
    rewrite <- app_assoc in E. apply (f_equal (firstn 4)) in E. rewrite !BaseProof.firstn_app_exact in E by apply be_length.
    apply (f_equal unbe) in E. pose proof (len_nonneg l). destruct K as (_ & K). rewrite !unbe_be in E by (cbn; lia). lia.
Qed.
Lemma line_wf ls : Forall line_ok ls -> Forall wf_msg (map (fun l => (100, l)) ls).
Proof. intros F. apply Forall_map. eapply Forall_impl; [|exact F]. intros l (A & B). repeat split; auto; cbn; lia. Qed.
Lemma lines_at chunks : forall p q ms t, Inv p q -> unfinished q -> Forall is_bytes chunks -> q ++ concat chunks = copy_frames ms ++ t ->
  Forall line_ok ms -> unfinished t -> len ms < 4294967295 -> exists r, lines_run p chunks = Ok r /\ concat r = ms /\ length r = length chunks.
Proof.
  induction chunks as [|c chunks IH]; intros p q ms t I U B E F T L.
  - pose proof (run_at [] q ms t U E F T) as W. cbn in W. injection W as W1 W2. exists []. split; auto. split; [|reflexivity].
    destruct ms; [auto|rewrite len_cons in W1; pose proof (len_nonneg ms); lia].
  - inversion B as [|? ? Bc B']; subst. cbn [concat] in E. rewrite app_assoc in E.
    destruct (prefix_split ms (q ++ c) (concat chunks) t E F (or_introl T)) as (ms1 & ms2 & x & -> & E1 & Ux & E2).
    apply Forall_app in F as (F1 & F2). rewrite len_app in L. pose proof (len_nonneg ms2). pose proof (len_nonneg ms1).
    cbn [lines_run]. unfold chunk_protocol.
    destruct (pb_step_sim p q (OWrite c) RUnit (pb_write c p) Bc I eq_refl) as (q1 & Q1 & I1). cbn in Q1. subst q1.
    destruct (pb_read 4294967295 (pb_write c p)) as [r p'] eqn:ER.
    assert (St : pb_step (pb_write c p) (ORead 4294967295) = (RMsgs r, p')) by (cbn; now rewrite ER).
    destruct (pb_step_sim _ _ (ORead 4294967295) _ _ Logic.I I1 St) as (q2 & Q2 & I2).
    assert (Mine : spec_step (q ++ c) (ORead 4294967295) (RMsgs (Ok (map (fun l => (100, l)) ms1))) x).
    { cbn. split; [apply line_wf; auto|]. split; [exact E1|]. unfold len in *. rewrite map_length. split; [lia|]. intros _. now apply unfinished_waiting. }
    destruct (spec_step_det _ _ _ _ _ _ (Inv_bytes _ _ I1) Q2 Mine) as (Er & ->). injection Er as ->. cbn [bind].
    destruct (IH p' x ms2 t I2 Ux B' E2 F2 T ltac:(lia)) as (r & Hr & Hc & Hn). rewrite Hr. cbn [bind]. exists (map snd (map (fun l => (100, l)) ms1) :: r).
    split; auto. cbn [concat length]. rewrite map_map. cbn [snd]. rewrite map_id, Hc, Hn. auto.
Qed.
