(** CopyProof3.v: the CopyManager *)
From Verif Require Import Base BaseProof PBufferModel PBufferSpec PBufferProof Element3Model CopyModel CopySpec.

Lemma content_slice buf n v : content buf (vslice n v) = skipn n (content buf v).
Proof.
  destruct v as [off m|b]; cbn [vslice content]; [|reflexivity].
  rewrite skipn_plus. revert m. generalize (skipn off buf). intros l. revert n. induction l as [|x l IH]; intros n m.
  - now rewrite !skipn_nil, !firstn_nil, skipn_nil.
  - destruct n as [|n]; [cbn [skipn]; now rewrite Nat.sub_0_r|]. destruct m as [|m]; [reflexivity|]. cbn [skipn Nat.sub firstn]. apply IH.
Qed.
Lemma send_all_ok buf script : forall v sent r t, send_all buf v sent script = (r, t) ->
  exists v' sent', r = RWire v' sent' /\ sent' ++ content buf v' = sent ++ content buf v /\ (t = TOk -> content buf v' = []).
Proof.
  induction script as [|x script IH]; intros v sent r t; cbn [send_all]; destruct (content buf v) as [|c0 c1] eqn:E.
  - intros [= <- <-]. exists v, sent. rewrite E. auto.
  - intros [= <- <-]. exists v, sent. rewrite E. split; auto. split; [auto|discriminate].
  - intros [= <- <-]. exists v, sent. rewrite E. auto.
  - rewrite <- E. destruct x as [n| |].
    + intros H. destruct (IH _ _ _ _ H) as (v' & s' & -> & Q & T). exists v', s'. split; auto. split; auto.
      rewrite Q, content_slice, <- app_assoc, firstn_skipn. reflexivity.
    + intros [= <- <-]. exists v, sent. split; auto. split; [auto|discriminate].
    + intros [= <- <-]. exists v, sent. split; auto. split; [auto|discriminate].
Qed.
(** what a receiver got and holds *)
Definition holds (buf : bytes) (B : bytes) (L : list (list bytes)) (r : recv) : Prop :=
  match r with
  | RNull => True
  | RWire v sent => sent ++ content buf v = B
  | RCall ls calls => calls ++ pending_lines ls = L
  end.
Definition empty_of (buf : bytes) (r : recv) : Prop :=
  match r with RNull => True | RWire v _ => content buf v = [] | RCall ls _ => ls = None end.
Definition same_kind (a b : recv) : Prop :=
  match a, b with RNull, RNull | RWire _ _, RWire _ _ | RCall _ _, RCall _ _ => True | _, _ => False end.
Lemma same_refl a : same_kind a a. Proof. destruct a; exact I. Qed.
Lemma same_trans a b c : same_kind a b -> same_kind b c -> same_kind a c.
Proof. destruct a, b, c; cbn; tauto. Qed.

Lemma transmit_ok buf r script r' t : transmit buf r script = (r', t) ->
  same_kind r r' /\ (forall B L, holds buf B L r -> holds buf B L r') /\ (t = TOk -> empty_of buf r').
Proof.
  destruct r as [|v sent|[l|] calls]; cbn [transmit].
  - intros [= <- <-]. repeat split; auto.
  - intros H. destruct (send_all_ok _ _ _ _ _ _ H) as (v' & s' & -> & E & T). split; [exact I|]. split; [intros B L; cbn; congruence|exact T].
  - destruct script as [|[n| |] script]; intros [= <- <-]; (split; [exact I|]); (split; [intros B L; cbn; auto|]); try discriminate.
    + rewrite app_nil_r. auto.
    + reflexivity.
  - intros [= <- <-]. split; [exact I|]. split; auto. reflexivity.
Qed.

Lemma transmit_all_ok buf script l : forall i l' f, transmit_all buf i l script = (l', Some f) ->
  (forall j, match nth_error l j with
   | None => nth_error l' j = None
   | Some (false, r) => nth_error l' j = Some (false, r) /\ ~ List.In (i + j)%nat f
   | Some (true, r) => exists r' t, nth_error l' j = Some (true, r') /\ transmit buf r (script (i + j)%nat) = (r', t) /\
       ((t = TOk /\ ~ List.In (i + j)%nat f) \/ (t = TFail /\ List.In (i + j)%nat f))
   end) /\ (forall k, List.In k f -> (i <= k)%nat).
Proof.
  induction l as [|[b r] l IH]; intros i l' f; cbn [transmit_all].
  - intros [= <- <-]. split; [intros [|j]; reflexivity|intros k []].
  - destruct b.
    + destruct (transmit buf r (script i)) as [r1 t] eqn:T. destruct t.
      * destruct (transmit_all buf (S i) l script) as [l1 f1] eqn:E. intros [= <- ->]. destruct (IH _ _ _ E) as (A & B). split.
        { intros [|j]; cbn [nth_error].
          - exists r1, TOk. rewrite Nat.add_0_r. split; auto. split; auto. left. split; auto. intros Q. specialize (B _ Q). lia.
          - specialize (A j). rewrite <- Nat.add_succ_comm. exact A. }
        intros k Q. specialize (B _ Q). lia.
      * destruct (transmit_all buf (S i) l script) as [l1 [f1|]] eqn:E; [|discriminate]. intros [= <- <-]. destruct (IH _ _ _ E) as (A & B). split.
        { intros [|j]; cbn [nth_error].
          - exists r1, TFail. rewrite Nat.add_0_r. split; auto. split; auto. right. split; auto. now left.
          - specialize (A j). rewrite <- Nat.add_succ_comm. destruct (nth_error l j) as [[[|] r0]|]; auto.
            + destruct A as (r' & t & A1 & A2 & [(A3 & A4)|(A3 & A4)]); exists r', t; split; auto; split; auto; [left|right]; split; auto.
              * intros [Q|Q]; [lia|auto].
              * now right.
            + destruct A as (A1 & A2). split; auto. intros [Q|Q]; [lia|auto]. }
        intros k [Q|Q]; [lia|]. specialize (B _ Q). lia.
      * discriminate.
    + destruct (transmit_all buf (S i) l script) as [l1 f1] eqn:E. intros [= <- ->]. destruct (IH _ _ _ E) as (A & B). split.
      { intros [|j]; cbn [nth_error].
        - split; auto. rewrite Nat.add_0_r. intros Q. specialize (B _ Q). lia.
        - specialize (A j). rewrite <- Nat.add_succ_comm. exact A. }
      intros k Q. specialize (B _ Q). lia.
Qed.
Lemma transmit_all_bound buf script l : forall i l' f, transmit_all buf i l script = (l', Some f) -> forall k, List.In k f -> (k < i + length l)%nat.
Proof.
  induction l as [|[b r] l IH]; intros i l' f; cbn [transmit_all]; [intros [= <- <-] k []|].
  destruct b; [destruct (transmit buf r (script i)) as [r1 [| |]]; [| |discriminate]|];
    destruct (transmit_all buf (S i) l script) as [l1 [f1|]] eqn:E; try discriminate; intros [= <- <-] k Q; cbn [length];
    pose proof (IH _ _ _ E k) as B; try (destruct Q as [Q|Q]; [lia|]); specialize (B Q); lia.
Qed.
Lemma discard_nth f l : forall i j, nth_error (discard f i l) j =
  match nth_error l j with Some (b, r) => Some (b && negb (existsb (Nat.eqb (i + j)) f), r) | None => None end.
Proof.
  induction l as [|[b r] l IH]; intros i [|j]; cbn [discard nth_error]; auto.
  - rewrite Nat.add_0_r. reflexivity.
  - rewrite IH, Nat.add_succ_comm. reflexivity.
Qed.
Lemma upd_nth {A} i x (l : list A) j : (i < length l)%nat -> nth_error (upd i x l) j = if (j =? i)%nat then Some x else nth_error l j.
Proof.
  revert i j. induction l as [|y l IH]; intros [|i] [|j] L; cbn in *; auto; try lia. apply IH. lia.
Qed.
Lemma existsb_In i f : existsb (Nat.eqb i) f = true <-> List.In i f.
Proof. rewrite existsb_exists. split; [intros (x & H & E); apply Nat.eqb_eq in E; now subst|intros H; exists i; split; auto; apply Nat.eqb_refl]. Qed.

(** ** the trace *)
Lemma present_app i a : forall b c, present i b (a ++ c) = present i (present i b a) c.
Proof. induction a as [|[] a IH]; intros; cbn [present app]; auto. Qed.
Lemma attended_app i a : forall b c, attended i b (a ++ c) <-> attended i b a /\ attended i (present i b a) c.
Proof. induction a as [|[] a IH]; intros; cbn [present app attended]; rewrite ?IH; tauto. Qed.
Lemma bytes_app a b : bytes_of (a ++ b) = bytes_of a ++ bytes_of b.
Proof. induction a as [|[] a IH]; cbn; auto. now rewrite IH, app_assoc. Qed.
Lemma lines_app a b : lines_of (a ++ b) = lines_of a ++ lines_of b.
Proof. induction a as [|[] a IH]; cbn; auto. now rewrite IH. Qed.
Lemma reported_app a b : reported (a ++ b) = (fst (reported a) + fst (reported b), snd (reported a) + snd (reported b)).
Proof. induction a as [|[? ?|[? ?]| | |] a IH]; cbn; rewrite ?IH; cbn; try (f_equal; lia). now destruct (reported b). Qed.

Definition cinv (rs : list recv) (g : mgr) (tr : list event) : Prop :=
  (forall i, match nth_error rs i with
    | None => nth_error (g_all g) i = None
    | Some r0 => exists r, nth_error (g_all g) i = Some (present i true tr, r) /\ same_kind r0 r /\
        (attended i true tr -> holds (g_buf g) (bytes_of tr) (lines_of tr) r) /\
        (attended i true tr -> present i true tr = true -> empty_of (g_buf g) r)
    end) /\
  (fst (reported tr) + fst (g_stats g) = fst (g_tot g) /\ snd (reported tr) + snd (g_stats g) = snd (g_tot g)).

Lemma cinv_init rs : Forall fresh_recv rs -> cinv rs (mgr_init rs) [].
Proof.
  intros F. split; [|cbn; auto]. intros i. cbn [mgr_init g_all g_buf present bytes_of lines_of]. rewrite nth_error_map.
  destruct (nth_error rs i) as [r|] eqn:E; [|reflexivity]. exists r. cbn. split; auto. split; [apply same_refl|].
  apply nth_error_In in E. rewrite Forall_forall in F. destruct (F _ E) as [->|[->| ->]]; cbn; auto.
Qed.

(** _service_producer gives data *)
Lemma producer_ok g o g1 : service_producer g o = (g1, None) ->
  exists b l v, chunk_of g o = [EChunk b l] /\ g_all g1 = map (accept v (if existsb is_call (g_all g) then l else [])) (g_all g) /\
    (existsb is_wire (g_all g) = true -> content (g_buf g1) v = b) /\ g_stats g1 = g_stats g /\
    (g_buf g1 = g_buf g \/ True).
Proof.
  unfold service_producer. destruct (negb _); [discriminate|]. destruct o as [buf v n|l| | |]; try discriminate.
  - intros H. unfold chunk_of. destruct (existsb is_call (g_all g)) eqn:C.
    + destruct (chunk_protocol (g_chunker g) (content buf v)) as [ck [l|e]]; [|discriminate]. injection H as <-. cbn [snd].
      exists (content buf v), l, v. cbn. auto 6.
    + injection H as <-. eexists _, _, v. split; [reflexivity|]. cbn. auto 6.
  - intros H. cbn [set_all g_all] in H. unfold chunk_of. destruct (existsb is_wire (g_all g)) eqn:W.
    + destruct (cat_messages (map IRaw l)) as [b|e]; [|discriminate]. injection H as <-. exists b, l, (VOwn b). cbn. split; auto. split; [|auto].
      apply map_ext_in. intros [[|] r] Hr; [|reflexivity]. unfold accept. destruct r as [| |ls calls]; try reflexivity.
      replace (existsb is_call (g_all g)) with true; [reflexivity|]. symmetry. apply existsb_exists. exists (true, RCall ls calls). auto.
    + injection H as <-. eexists _, l, (VOwn []). split; [reflexivity|]. cbn. split; [|split; [discriminate|auto]].
      apply map_ext_in. intros [[|] r] Hr; [|reflexivity]. unfold accept. destruct r as [| |ls calls]; try reflexivity.
      replace (existsb is_call (g_all g)) with true; [reflexivity|]. symmetry. apply existsb_exists. exists (true, RCall ls calls). auto.
Qed.
Lemma nth_existsb {A} (f : A -> bool) l i x : nth_error l i = Some x -> f x = true -> existsb f l = true.
Proof. intros E F. apply existsb_exists. exists x. split; auto. eapply nth_error_In; eauto. Qed.

(** a receiver, before its transmission *)
Lemma accepted rs g tr o g1 b l v i r0 : cinv rs g tr -> service_producer g o = (g1, None) -> chunk_of g o = [EChunk b l] ->
  g_all g1 = map (accept v (if existsb is_call (g_all g) then l else [])) (g_all g) ->
  (existsb is_wire (g_all g) = true -> content (g_buf g1) v = b) ->
  nth_error rs i = Some r0 ->
  exists r, nth_error (g_all g1) i = Some (present i true tr, r) /\ same_kind r0 r /\
    (attended i true tr -> present i true tr = true -> holds (g_buf g1) (bytes_of tr ++ b) (lines_of tr ++ [l]) r).
Proof.
  intros (I & _) _ _ G W E. specialize (I i). rewrite E in I. destruct I as (r & R & K & H & Em).
  rewrite G, nth_error_map, R. cbn [option_map]. destruct (present i true tr) eqn:P.
  2:{ exists r. cbn [accept]. destruct r; cbn; split; auto; split; auto; discriminate. }
  destruct r as [|v0 sent|ls calls]; cbn [accept].
  - exists RNull. cbn. auto.
  - eexists. split; [reflexivity|]. split; [destruct r0; cbn in *; auto|]. intros A _. specialize (H A). specialize (Em A eq_refl). cbn in *.
    rewrite Em, app_nil_r in H. rewrite H, W; auto. eapply nth_existsb; [exact R|reflexivity].
  - eexists. split; [reflexivity|]. split; [destruct r0; cbn in *; auto|]. intros A _. specialize (H A). specialize (Em A eq_refl). cbn in *. subst ls.
    rewrite app_nil_r in H. rewrite H. replace (existsb is_call (g_all g)) with true; [reflexivity|]. symmetry. eapply nth_existsb; [exact R|reflexivity].
Qed.
Lemma producer_none rs g tr g1 l v i : cinv rs g tr -> g_all g1 = map (accept v l) (g_all g) -> nth_error rs i = None ->
  nth_error (g_all g1) i = None.
Proof. intros (I & _) G E. specialize (I i). rewrite E in I. rewrite G, nth_error_map, I. reflexivity. Qed.

Lemma cinv_ok rs g tr o script g' s : cinv rs g tr -> mgr_next g o script = (g', GOk s) -> cinv rs g' (tr ++ chunk_of g o ++ [EStats s]).
Proof.
  intros I E. unfold mgr_next in E. destruct (service_producer g o) as [g1 [r|]] eqn:SP.
  { injection E as <- ->. exfalso. clear - SP. unfold service_producer in SP. destruct (negb _); [discriminate|].
    destruct o; try discriminate; [destruct (existsb is_call _); [destruct (chunk_protocol _ _) as [? [?|?]]|]|destruct (existsb is_wire _); [destruct (cat_messages _)|]]; discriminate. }
  destruct (producer_ok _ _ _ SP) as (b & l & v & Ch & G & W & St & _).
  set (g2 := set_stats g1 _) in E. unfold service_receivers in E. change (g_all g2) with (g_all g1) in E. change (g_buf g2) with (g_buf g1) in E.
  destruct (transmit_all (g_buf g1) 0 (g_all g1) script) as [l' f] eqn:TA. destruct f as [[|k f]|]; try discriminate. injection E as <- <-.
  destruct (transmit_all_ok _ _ _ _ _ _ TA) as (A & _). rewrite Ch. split.
  - intros i. cbn [set_stats set_all g_all g_buf]. change (g_buf g2) with (g_buf g1). specialize (A i). destruct (nth_error rs i) as [r0|] eqn:Ei.
    + destruct (accepted _ _ _ _ _ _ _ _ _ _ I SP Ch G W Ei) as (r & R & K & H). rewrite R in A.
      rewrite present_app. cbn [present app]. assert (At : attended i true (tr ++ [EChunk b l; EStats (g_stats g2)]) -> attended i true tr /\ present i true tr = true).
      { rewrite attended_app. cbn. tauto. }
      rewrite bytes_app, lines_app. cbn [bytes_of lines_of]. rewrite app_nil_r.
      destruct (present i true tr).
      * destruct A as (r' & t & R' & T & [(-> & _)|(_ & [])]). destruct (transmit_ok _ _ _ _ _ T) as (K' & H' & Em').
        exists r'. split; auto. split; [eapply same_trans; eauto|]. split; [|auto]. intros Q. apply H', H; apply At; auto.
      * destruct A as (R' & _). exists r. split; auto. split; auto. split; intros Q; destruct (At Q); discriminate.
    + rewrite (producer_none _ _ _ _ _ _ _ I G Ei) in A; auto.
  - destruct I as (_ & I1 & I2). rewrite reported_app. cbn [app reported fst snd set_stats g_stats set_all g_tot].
    destruct (g_stats g2) as [s1 s2] eqn:Es. cbn [fst snd]. unfold g2 in Es. cbn [set_stats g_stats] in Es. injection Es as <- <-.
    rewrite St. change (g_tot g2) with (g_tot g1). lia.
Qed.
Lemma cinv_fault rs g tr o script g' f : cinv rs g tr -> mgr_next g o script = (g', GReceiverFault f) -> cinv rs g' (tr ++ chunk_of g o ++ [EFaults f]).
Proof.
  intros I E. unfold mgr_next in E. destruct (service_producer g o) as [g1 [r|]] eqn:SP.
  { injection E as <- ->. exfalso. clear - SP. unfold service_producer in SP. destruct (negb _); [discriminate|].
    destruct o; try discriminate; [destruct (existsb is_call _); [destruct (chunk_protocol _ _) as [? [?|?]]|]|destruct (existsb is_wire _); [destruct (cat_messages _)|]]; discriminate. }
  destruct (producer_ok _ _ _ SP) as (b & l & v & Ch & G & W & St & _).
  set (g2 := set_stats g1 _) in E. unfold service_receivers in E. change (g_all g2) with (g_all g1) in E. change (g_buf g2) with (g_buf g1) in E.
  destruct (transmit_all (g_buf g1) 0 (g_all g1) script) as [l' f'] eqn:TA. destruct f' as [[|k f']|]; try discriminate. injection E as <- <-.
  set (fs := k :: f') in *. clearbody fs. clear k f'.
  destruct (transmit_all_ok _ _ _ _ _ _ TA) as (A & _). rewrite Ch. split.
  - intros i. cbn [set_all g_all g_buf]. change (g_buf g2) with (g_buf g1). rewrite discard_nth. cbn [Nat.add]. specialize (A i). destruct (nth_error rs i) as [r0|] eqn:Ei.
    + destruct (accepted _ _ _ _ _ _ _ _ _ _ I SP Ch G W Ei) as (r & R & K & H). rewrite R in A.
      rewrite present_app. cbn [present app]. assert (At : attended i true (tr ++ [EChunk b l; EFaults fs]) -> attended i true tr /\ present i true tr = true).
      { rewrite attended_app. cbn. tauto. }
      rewrite bytes_app, lines_app. cbn [bytes_of lines_of]. rewrite app_nil_r.
      destruct (present i true tr).
      * destruct A as (r' & t & R' & T & C). destruct (transmit_ok _ _ _ _ _ T) as (K' & H' & Em'). rewrite R'.
        exists r'. split; auto. split; [eapply same_trans; eauto|]. split; [intros Q; apply H', H; apply At; auto|].
        intros Q P. destruct C as [(-> & _)|(-> & C)]; [auto|]. cbn [Nat.add] in C. apply existsb_In in C. rewrite C in P. discriminate.
      * destruct A as (R' & _). rewrite R'. exists r. split; auto. split; auto. split; intros Q; destruct (At Q); discriminate.
    + rewrite (producer_none _ _ _ _ _ _ _ I G Ei) in A; auto. now rewrite A.
  - destruct I as (_ & I1 & I2). rewrite reported_app. cbn [app reported fst snd set_stats g_stats set_all g_tot].
    change (g_tot g2) with (g_tot g1). unfold g2. cbn [set_stats g_stats fst snd]. rewrite St. lia.
Qed.
Lemma cinv_stop rs g tr o script g' r : cinv rs g tr -> mgr_next g o script = (g', r) -> r = GStop \/ r = GProducerFault -> cinv rs g' tr.
Proof.
  intros I E Hr. unfold mgr_next in E. destruct (service_producer g o) as [g1 [r1|]] eqn:SP.
  - injection E as <- <-. unfold service_producer in SP. destruct (negb _); [injection SP as <- _; exact I|].
    destruct o; try (injection SP as <- _; exact I).
    + destruct (existsb is_call _); [destruct (chunk_protocol _ _) as [? [?|?]]|]; try discriminate SP; injection SP as <- <-; destruct Hr; discriminate.
    + destruct (existsb is_wire _); [destruct (cat_messages _)|]; try discriminate SP; injection SP as <- <-; destruct Hr; discriminate.
  - exfalso. unfold service_receivers in E. destruct (transmit_all _ _ _ _) as [l' [[|? ?]|]]; injection E as _ <-; destruct Hr; discriminate.
Qed.
Lemma cinv_reconcile rs g tr i script g' ok : cinv rs g tr -> reconcile g i script = (g', ok) ->
  cinv rs g' (tr ++ [if ok then EBack i else ENotBack i]).
Proof.
  intros (I & S) E. unfold reconcile in E.
  assert (S' : forall e, (forall s, e <> EStats s) -> reported (tr ++ [e]) = reported tr).
  { intros e N. rewrite reported_app. replace (reported [e]) with (0, 0) by (destruct e as [| | | |]; try reflexivity; now destruct (N s)). cbn. rewrite !Z.add_0_r. now destruct (reported tr). }
  destruct (nth_error (g_all g) i) as [[b r]|] eqn:Ei.
  2:{ injection E as <- <-. split; [|rewrite S' by discriminate; exact S]. intros j. specialize (I j). destruct (nth_error rs j) as [r0|]; auto.
      destruct I as (r & R & K & H & Em). exists r. rewrite present_app, bytes_app, lines_app, !app_nil_r. cbn [present]. split; auto. split; auto.
      split; intros Q; apply attended_app in Q as (Q & _); auto. }
  assert (Li : (i < length (g_all g))%nat) by (apply nth_error_Some; congruence).
  destruct (transmit (g_buf g) r script) as [r' t] eqn:T. destruct (transmit_ok _ _ _ _ _ T) as (K' & H' & Em').
  assert (Hb : forall ev bb, g' = set_all g (upd i (bb, r') (g_all g)) -> (forall s, ev <> EStats s) -> bytes_of [ev] = [] -> lines_of [ev] = [] ->
    (forall j pb, j <> i -> present j pb [ev] = pb) -> present i b [ev] = bb ->
    (b = false -> bb = false \/ t = TOk) ->
    cinv rs g' (tr ++ [ev])).
  { intros ev bb -> Ns Eb El Pr Pi Bf. split; [|rewrite S' by auto; exact S]. intros j. specialize (I j). cbn [set_all g_all g_buf]. rewrite upd_nth by auto.
    rewrite present_app, bytes_app, lines_app, Eb, El, !app_nil_r.
    destruct (Nat.eqb_spec j i) as [->|Nj].
    - rewrite Ei in I. destruct (nth_error rs i) as [r0|] eqn:E0; [|discriminate]. destruct I as (r2 & R & K & H & Em). injection R as -> ->.
      rewrite Pi. exists r'. split; [reflexivity|]. split; [eapply same_trans; eauto|].
      split; intros Q; apply attended_app in Q as (Q & _); [auto|]. intros P.
      destruct (present i true tr) eqn:Pt.
      + specialize (Em Q eq_refl). clear - Em T. destruct r2 as [|v sent|[?|] calls]; cbn in *; [injection T as <- _; exact Logic.I| |discriminate|injection T as <- _; reflexivity].
        destruct script; cbn in T; rewrite Em in T; injection T as <- _; exact Em.
      + destruct (Bf eq_refl) as [Q'|Q']; [congruence|auto].
    - rewrite Pr by auto. destruct (nth_error rs j) as [r0|]; auto. destruct I as (r2 & R & K & H & Em). exists r2. split; auto. split; auto.
      split; intros Q; apply attended_app in Q as (Q & _); auto. }
  destruct t; injection E as <- <-.
  - apply (Hb (EBack i) true); auto; try discriminate; cbn [present].
    + intros j pb N. apply Nat.eqb_neq in N. rewrite N. apply orb_false_r.
    + rewrite Nat.eqb_refl. apply orb_true_r.
  - apply (Hb (ENotBack i) b); auto; discriminate.
  - apply (Hb (ENotBack i) b); auto; discriminate.
Qed.
Theorem crun_inv rs g tr : Forall fresh_recv rs -> crun rs g tr -> cinv rs g tr.
Proof.
  intros F R. induction R.
  - now apply cinv_init.
  - eapply cinv_ok; eauto.
  - eapply cinv_fault; eauto.
  - eapply cinv_stop; eauto.
  - exact (cinv_reconcile _ _ _ _ _ _ _ IHR H).
  - exact (cinv_reconcile _ _ _ _ _ _ _ IHR H).
Qed.
