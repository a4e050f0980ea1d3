(** CopyProof4.v: the CopyManager: the faulted receivers *)
From Verif Require Import Base BaseProof PBufferModel PBufferSpec PBufferProof Element3Model CopyModel CopySpec CopyProof3.

(** got a prefix *)
Definition pre (B : bytes) (L : list (list bytes)) (r : recv) : Prop :=
  match r with
  | RNull => True
  | RWire v sent => exists x, sent ++ x = B
  | RCall ls calls => exists x, calls ++ x = L
  end.
Lemma holds_pre buf B L r : holds buf B L r -> pre B L r.
Proof. destruct r; cbn; eauto. Qed.
Lemma pre_app B L B' L' r : pre B L r -> pre (B ++ B') (L ++ L') r.
Proof. destruct r; cbn; auto; intros (x & <-); [exists (x ++ B')|exists (x ++ L')]; now rewrite app_assoc. Qed.
Definition pinv (i : nat) (g : mgr) (tr : list event) : Prop :=
  not_tried i tr -> match nth_error (g_all g) i with
  | None => True
  | Some (true, r) => attended i true tr
  | Some (false, r) => pre (bytes_of tr) (lines_of tr) r
  end.
Lemma not_tried_app i a b : not_tried i (a ++ b) -> not_tried i a /\ not_tried i b.
Proof. intros H. split; intros e E; apply H, in_or_app; auto. Qed.

Lemma next_data g o script g' r : mgr_next g o script = (g', r) -> (forall e, r <> GError e) -> r <> GStop -> r <> GProducerFault -> r <> GInterrupt ->
  exists g1 b l v l' f, service_producer g o = (g1, None) /\ chunk_of g o = [EChunk b l] /\
    g_all g1 = map (accept v (if existsb is_call (g_all g) then l else [])) (g_all g) /\
    (existsb is_wire (g_all g) = true -> content (g_buf g1) v = b) /\
    transmit_all (g_buf g1) 0 (g_all g1) script = (l', Some f) /\ g_all g' = discard f 0 l' /\ g_buf g' = g_buf g1 /\
    ((f = [] /\ exists s, r = GOk s) \/ (f <> [] /\ r = GReceiverFault f)).
Proof.
  intros E N1 N2 N3 N4. unfold mgr_next in E. destruct (service_producer g o) as [g1 [r1|]] eqn:SP.
  { injection E as <- ->. exfalso. clear - SP N1 N2 N3 N4. unfold service_producer in SP. destruct (negb _); [injection SP as _ <-; now apply N2|].
    destruct o; [destruct (existsb is_call _); [destruct (chunk_protocol _ _) as [? [?|?]]|]|destruct (existsb is_wire _); [destruct (cat_messages _)|]| | |];
      try discriminate SP; injection SP as _ <-; try congruence; now eapply N1. }
  destruct (producer_ok _ _ _ SP) as (b & l & v & Ch & G & W & St & _).
  set (g2 := set_stats g1 _) in E. unfold service_receivers in E. change (g_all g2) with (g_all g1) in E. change (g_buf g2) with (g_buf g1) in E.
  destruct (transmit_all (g_buf g1) 0 (g_all g1) script) as [l' f] eqn:TA.
  destruct f as [f|]; [|injection E as _ <-; congruence]. exists g1, b, l, v, l', f. split; auto. split; auto. split; auto. split; auto. split; auto.
  destruct f as [|k f]; injection E as <- <-; cbn [set_stats set_all g_all g_buf].
  - split; [|split; [reflexivity|left; eauto]]. clear. generalize 0%nat. induction l' as [|[b r] l' IH]; intros n; cbn [discard]; [reflexivity|]. rewrite <- IH. cbn. now rewrite andb_true_r.
  - split; [reflexivity|]. split; [reflexivity|right; split; [discriminate|reflexivity]].
Qed.

Lemma prefix_data rs i g tr o script g' r ev : cinv rs g tr -> cinv rs g' (tr ++ chunk_of g o ++ [ev]) -> pinv i g tr ->
  mgr_next g o script = (g', r) -> (exists s, r = GOk s /\ ev = EStats s) \/ (exists f, r = GReceiverFault f /\ ev = EFaults f) ->
  pinv i g' (tr ++ chunk_of g o ++ [ev]).
Proof.
  intros C C' P E Hr NT. destruct (not_tried_app _ _ _ NT) as (NT1 & _). specialize (P NT1).
  destruct (next_data _ _ _ _ _ E) as (g1 & b & l & v & l' & f & SP & Ch & G & W & TA & G' & B' & Cf);
    try (destruct Hr as [(s & -> & _)|(f & -> & _)]; intros; discriminate).
  rewrite G', discard_nth. cbn [Nat.add]. destruct (transmit_all_ok _ _ _ _ _ _ TA) as (A & _). specialize (A i). cbn [Nat.add] in A.
  rewrite G, nth_error_map in A. destruct C as (C & _). specialize (C i). destruct C' as (C' & _). specialize (C' i).
  destruct (nth_error rs i) as [r0|]; [|rewrite C in A; cbn in A; rewrite A; exact Logic.I].
  destruct C as (r1 & R1 & K & H & Em). rewrite R1 in *. cbn [option_map] in A.
  destruct C' as (r2 & R2 & K2 & H2 & Em2).
  destruct (present i true tr) eqn:Pt.
  - assert (At : attended i true (tr ++ chunk_of g o ++ [ev])).
    { rewrite Ch, attended_app, Pt. split; [exact P|]. cbn. split; auto. destruct Hr as [(s & _ & ->)|(f0 & _ & ->)]; exact Logic.I. }
    rewrite G', discard_nth in R2. cbn [Nat.add] in R2. destruct (nth_error l' i) as [[b1 r3]|]; [|discriminate].
    injection R2 as Eb ->. destruct (b1 && negb _); [exact At|]. eapply holds_pre; eauto.
  - replace (accept v (if existsb is_call (g_all g) then l else []) (false, r1)) with (false, r1) in A by (destruct r1; reflexivity).
    destruct A as (A & _). rewrite A. cbn [andb]. rewrite bytes_app, lines_app. now apply pre_app.
Qed.
Lemma prefix_inv rs g tr : Forall fresh_recv rs -> crun rs g tr -> forall i, pinv i g tr.
Proof.
  intros F R. induction R as [|g tr o script g' s R IH E|g tr o script g' f R IH E|g tr o script g' r R IH E Hr|g tr j script g' R IH E|g tr j script g' R IH E]; intros i.
  - intros _. cbn [mgr_init g_all]. rewrite nth_error_map. destruct (nth_error rs i); cbn; auto.
  - refine (prefix_data rs i g tr o script g' _ _ (crun_inv _ _ _ F R) (crun_inv _ _ _ F (cr_ok _ _ _ _ _ _ _ R E)) (IH i) E _). left; eauto.
  - refine (prefix_data rs i g tr o script g' _ _ (crun_inv _ _ _ F R) (crun_inv _ _ _ F (cr_fault _ _ _ _ _ _ _ R E)) (IH i) E _). right; eauto.
  - assert (G : g_all g' = g_all g); [|unfold pinv; rewrite G; apply IH].
    unfold mgr_next in E. destruct (service_producer g o) as [g1 [r1|]] eqn:SP.
    + injection E as <- <-. unfold service_producer in SP. destruct (negb _); [injection SP as <- _; reflexivity|].
      destruct o; try (injection SP as <- _; reflexivity).
      * destruct (existsb is_call _); [destruct (chunk_protocol _ _) as [? [?|?]]|]; try discriminate SP; injection SP as <- <-; destruct Hr; discriminate.
      * destruct (existsb is_wire _); [destruct (cat_messages _)|]; try discriminate SP; injection SP as <- <-; destruct Hr; discriminate.
    + exfalso. unfold service_receivers in E. destruct (transmit_all _ _ _ _) as [l' [[|? ?]|]]; injection E as _ <-; destruct Hr; discriminate.
  - intros NT. destruct (not_tried_app _ _ _ NT) as (NT1 & NT2). assert (N : i <> j) by (intros ->; destruct (NT2 (EBack j)); [now left|congruence]).
    specialize (IH i NT1). unfold reconcile in E. destruct (nth_error (g_all g) j) as [[b r]|] eqn:Ej; [|discriminate].
    assert (Lj : (j < length (g_all g))%nat) by (apply nth_error_Some; congruence).
    destruct (transmit (g_buf g) r script) as [r' [| |]]; injection E as <-; try discriminate.
    cbn [set_all g_all]. rewrite upd_nth by auto. replace (i =? j)%nat with false by (symmetry; now apply Nat.eqb_neq).
    rewrite bytes_app, lines_app. cbn [bytes_of lines_of]. rewrite !app_nil_r. destruct (nth_error (g_all g) i) as [[[|] r1]|]; auto.
    apply attended_app. split; auto. exact Logic.I.
  - intros NT. destruct (not_tried_app _ _ _ NT) as (NT1 & NT2). assert (N : i <> j) by (intros ->; destruct (NT2 (ENotBack j)); [now left|congruence]).
    specialize (IH i NT1). unfold reconcile in E.
    assert (G : nth_error (g_all g') i = nth_error (g_all g) i).
    { destruct (nth_error (g_all g) j) as [[b r]|] eqn:Ej; [|now injection E as <-].
      assert (Lj : (j < length (g_all g))%nat) by (apply nth_error_Some; congruence).
      destruct (transmit (g_buf g) r script) as [r' [| |]]; injection E as <-; try discriminate;
        cbn [set_all g_all]; rewrite upd_nth by auto; replace (i =? j)%nat with false by (symmetry; now apply Nat.eqb_neq); reflexivity. }
    rewrite G, bytes_app, lines_app. cbn [bytes_of lines_of]. rewrite !app_nil_r. destruct (nth_error (g_all g) i) as [[[|] r1]|]; auto.
    apply attended_app. split; auto. exact Logic.I.
Qed.
