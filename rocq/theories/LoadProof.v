(** LoadProof.v *)
From Verif Require Import Base BaseProof Element3Model IterModel IterProof LoadModel LoadSpec.

Section P.
  Context {D S V : Type}.
  Context (exec : D -> bytes -> list (option bytes) -> Z -> option D).
  Context (serve : S -> list message -> S * answer) (view : S -> server D).
  Context (LAW : lawful exec serve view).
  Context (p : stmt V).
  Notation params := (list (option bytes)).
  Notation executed := (executed exec (st_id p)).
  Notation row := (list (option V)).

  Lemma executed_app d l1 l2 d2 : executed d (l1 ++ l2) d2 <-> exists d1, executed d l1 d1 /\ executed d1 l2 d2.
  Proof.
    revert d. induction l1 as [|a l1 IH]; intros d; cbn.
    - split; [intros H; exists d; split; [constructor|exact H]|intros (d1 & A & B); inversion A; subst; exact B].
    - split.
      + intros H. inversion H as [|? ? ? e ? E R]; subst. apply IH in R as (d1 & A & B). exists d1. split; [econstructor; eauto|exact B].
      + intros (d1 & A & B). inversion A as [|? ? ? e ? E R]; subst. econstructor; [exact E|]. apply IH. eauto.
  Qed.
  Lemma executed_det d l d1 d2 : executed d l d1 -> executed d l d2 -> d1 = d2.
  Proof.
    intros A. revert d2. induction A; intros d3 B; inversion B; subst; auto.
    rewrite H in H3. injection H3 as <-. auto.
  Qed.

  Definition rowmsgs (ps : params) : list message := [MBind [] (st_id p) (st_formats p) ps []; MExecute [] 1].
  Lemma packs_pt row ps : packs p row ps <-> process_tuple (st_io p) row (st_err p) = Ok ps.
  Proof. symmetry. unfold packs. apply process_tuple_ok. Qed.

  (** bindings *)
  Lemma bindings_ok ch req : bindings p ch = Ok req ->
    ending ch = None /\ exists q, Forall2 (packs p) (items ch) q /\ req = concat (map rowmsgs q) ++ [MEmpty ESynchronize].
  Proof.
    revert req. induction ch as [|e|t ch IH]; intros req H; cbn [bindings] in H.
    - injection H as <-. split; [reflexivity|]. exists []. split; [constructor|reflexivity].
    - discriminate.
    - unfold row_messages in H. destruct (process_tuple _ t _) as [ps|] eqn:E; [|discriminate]. cbn [bind] in H.
      apply bind_Ok in H as (r & Hr & H). destruct (IH _ Hr) as (A & q & B & C). injection H as <-. split; [exact A|].
      exists (ps :: q). split; [constructor; [apply packs_pt; exact E|exact B]|]. rewrite C. reflexivity.
  Qed.
  Lemma bindings_all ch q : ending ch = None -> Forall2 (packs p) (items ch) q ->
    bindings p ch = Ok (concat (map rowmsgs q) ++ [MEmpty ESynchronize]).
  Proof.
    revert q. induction ch as [|e|t ch IH]; intros q E F; cbn [items ending] in *.
    - inversion F; subst. reflexivity.
    - discriminate.
    - inversion F as [|? ps ? q' A B]; subst. cbn [bindings]. unfold row_messages.
      apply packs_pt in A. rewrite A. cbn [bind]. rewrite (IH _ E B). reflexivity.
  Qed.

  (** the server and one request *)
  Lemma serve_rows st d q : st = TIdle \/ st = TBlock -> forall po,
    exists d' po' f, fold_left (serve_message exec st) (concat (map rowmsgs q)) (d, po, false) = (d', po', f) /\
      (f = false -> executed d q d') /\ (f = true -> forall d2, ~ executed d q d2).
  Proof.
    intros St. revert d. induction q as [|ps q IH]; intros d po.
    - exists d, po, false. split; [reflexivity|]. split; [constructor|discriminate].
    - assert (Fx : forall l d po, fold_left (serve_message exec st) l (d, po, true) = (d, po, true))
        by (induction l as [|m l IHl]; intros; [reflexivity|apply IHl]).
      change (concat (map rowmsgs (ps :: q))) with (rowmsgs ps ++ concat (map rowmsgs q)). rewrite fold_left_app.
      destruct (exec d (st_id p) ps 1) as [d1|] eqn:E.
      + assert (X : fold_left (serve_message exec st) (rowmsgs ps) (d, po, false) = (d1, Some (st_id p, ps), false))
          by (destruct St as [-> | ->]; cbn; rewrite E; reflexivity).
        rewrite X. destruct (IH d1 (Some (st_id p, ps))) as (d' & po' & f & A & B & C). exists d', po', f. split; [exact A|]. split.
        * intros F. econstructor; [exact E|auto].
        * intros F d2 Z. inversion Z as [|? ? ? e ? E' R]; subst. rewrite E in E'. injection E' as <-. exact (C eq_refl _ R).
      + assert (X : fold_left (serve_message exec st) (rowmsgs ps) (d, po, false) = (d, Some (st_id p, ps), true))
          by (destruct St as [-> | ->]; cbn; rewrite E; reflexivity).
        rewrite X, Fx. exists d, (Some (st_id p, ps)), true. split; [reflexivity|]. split; [discriminate|].
        intros _ d2 Z. inversion Z as [|? ? ? e ? E' R]; subst. congruence.
  Qed.
  Lemma serve_rows_failed d q po : exists d' po' f, fold_left (serve_message exec TFailed) (concat (map rowmsgs q)) (d, po, false) = (d', po', f) /\
      (f = false <-> q = []) /\ d' = d.
  Proof.
    destruct q as [|ps q]; [exists d, po, false; cbn; tauto|].
    assert (Fx : forall l d po, fold_left (serve_message exec TFailed) l (d, po, true) = (d, po, true))
        by (induction l as [|m l IHl]; intros; [reflexivity|apply IHl]).
    exists d, po, true. split; [|split; [split; discriminate|reflexivity]].
    change (concat (map rowmsgs (ps :: q))) with (rowmsgs ps ++ concat (map rowmsgs q)). rewrite fold_left_app. cbn. apply Fx.
  Qed.

  (** after the chunks [qs] the server is [v] *)
  Definition after (v0 : server D) (qs : list (list params)) (v : server D) : Prop :=
    executed (sv_now v0) (concat qs) (sv_now v) /\ sv_state v = sv_state v0 /\
    (sv_state v0 = TIdle -> sv_committed v = sv_now v) /\ (sv_state v0 <> TIdle -> sv_committed v = sv_committed v0).
  Definition sound (v : server D) : Prop := sv_state v = TIdle -> sv_committed v = sv_now v.
  Lemma after_nil v0 : sound v0 -> after v0 [] v0.
  Proof. intros H. repeat split; auto. constructor. Qed.
  Lemma after_det v0 qs v1 v2 : after v0 qs v1 -> after v0 qs v2 -> v1 = v2.
  Proof.
    intros (A & B & C & E) (A' & B' & C' & E'). pose proof (executed_det _ _ _ _ A A') as N.
    destruct v1 as [c1 n1 s1], v2 as [c2 n2 s2]. cbn in *. subst.
    destruct (sv_state v0); f_equal; (rewrite C, C' by reflexivity; reflexivity) || (rewrite E, E' by discriminate; reflexivity).
  Qed.

  Inductive stat (v0 : server D) : list (list params) -> option answer -> server D -> Prop :=
  | stat_ok qs a v : after v0 qs v -> a = None \/ a = Some AOk -> stat v0 qs a v
  | stat_err qs q v1 v : after v0 qs v1 -> (sv_state v0 <> TFailed -> forall d, ~ executed (sv_now v1) q d) ->
      (sv_state v0 = TIdle -> v = v1) -> sv_committed v = sv_committed v1 -> sv_state v0 <> TDead ->
      (sv_state v0 <> TIdle -> sv_state v = TFailed) -> stat v0 (qs ++ [q]) (Some AError) v
  | stat_lost qs v qs' : sv_state v = TDead ->
      (qs' = qs \/ exists q, qs = qs' ++ [q]) ->
      (sv_state v0 = TIdle -> executed (sv_now v0) (concat qs') (sv_committed v)) ->
      (sv_state v0 <> TIdle -> sv_committed v = sv_committed v0) -> stat v0 qs (Some ALost) v.

  Lemma rowmsgs_nosync q : Forall (fun m => m <> MEmpty ESynchronize) (concat (map rowmsgs q)).
  Proof. induction q as [|ps q IH]; [constructor|]. change (concat (map rowmsgs (ps :: q))) with (rowmsgs ps ++ concat (map rowmsgs q)). apply Forall_app. split; [|exact IH]. repeat (constructor; [discriminate|]). constructor. Qed.

  Lemma serve_chunk v0 qs s q s' a : after v0 qs (view s) ->
    serve s (concat (map rowmsgs q) ++ [MEmpty ESynchronize]) = (s', a) ->
    stat v0 (qs ++ [q]) (Some a) (view s').
  Proof.
    intros A E.
    pose proof (LAW s (concat (map rowmsgs q) ++ [MEmpty ESynchronize])) as L. rewrite E in L. cbn [fst snd] in L.
    rewrite removelast_last, last_last in L.
    specialize (L (rowmsgs_nosync q) eq_refl ltac:(destruct (concat (map rowmsgs q)); discriminate)).
    remember (concat (map rowmsgs q) ++ [MEmpty ESynchronize]) as req eqn:R. remember (view s) as v eqn:Ev. remember (view s') as v' eqn:Ev'.
    assert (RQ : forall ms s1 f, ms = concat (map rowmsgs q) -> sv_state v <> TDead -> serve_request exec v ms = (s1, f) ->
      (f = false -> after v0 (qs ++ [q]) s1) /\ (f = true -> stat v0 (qs ++ [q]) (Some AError) s1) /\ (sv_state v0 <> TIdle -> sv_committed s1 = sv_committed v0)
      /\ (sv_state v0 = TIdle -> executed (sv_now v0) (concat (qs ++ [q])) (sv_committed s1) \/ sv_committed s1 = sv_committed v)).
    { intros ms s1 f -> ND Q. unfold serve_request in Q. destruct A as (A1 & A2 & A3 & A4).
      destruct (sv_state v) eqn:Sv; try congruence.
      - destruct (serve_rows TIdle (sv_now v) q (or_introl eq_refl) None) as (d' & po' & f' & B & C & G). rewrite B in Q.
        destruct f'; injection Q as <- <-.
        + repeat split; try discriminate; try congruence; auto. intros _.
          apply (stat_err v0 qs q v v); [repeat split; auto; congruence|intros _; apply G; auto|auto|auto|congruence|congruence].
        + cbn. assert (X : executed (sv_now v0) (concat (qs ++ [q])) d') by (rewrite concat_app; cbn [concat]; rewrite app_nil_r; apply executed_app; eauto).
          split; [intros _; unfold after; cbn; repeat split; auto; congruence|]. split; [discriminate|]. split; [congruence|auto].
      - destruct (serve_rows TBlock (sv_now v) q (or_intror eq_refl) None) as (d' & po' & f' & B & C & G). rewrite B in Q.
        destruct f'; injection Q as <- <-; cbn.
        + repeat split; try discriminate; try congruence; auto. intros _.
          apply (stat_err v0 qs q v); cbn; [repeat split; auto; congruence|intros _; apply G; auto|congruence|auto|congruence|auto].
        + assert (X : executed (sv_now v0) (concat (qs ++ [q])) d') by (rewrite concat_app; cbn [concat]; rewrite app_nil_r; apply executed_app; eauto).
          split; [intros _; unfold after; cbn; repeat split; auto; congruence|]. split; [discriminate|]. split; [intros _; apply A4; congruence|congruence].
      - destruct (serve_rows_failed (sv_now v) q None) as (d' & po' & f' & B & C & ->). rewrite B in Q.
        destruct f'; injection Q as <- <-; cbn.
        + repeat split; try discriminate; try congruence; auto. intros _.
          apply (stat_err v0 qs q v); cbn; [repeat split; auto; congruence|congruence|congruence|auto|congruence|auto].
        + rewrite (proj1 C eq_refl). split; [intros _|repeat split; try discriminate; try congruence; auto].
          unfold after. rewrite concat_app. cbn [concat]. rewrite !app_nil_r. repeat split; auto; congruence. }
    inversion L as [v1 ms s1 ND Q X1 X2 X3 X4|v1 ms s1 ND Q X1 X2 X3 X4|v1 rq X1 X2 X3 X4|v1 ms s1 f ND Q X1 X2 X3 X4]; subst v1.
    - rewrite R in X2. apply app_inj_tail in X2 as (X2 & _). apply stat_ok; [|auto]. subst s1. apply (RQ ms v' false X2 ND Q); reflexivity.
    - rewrite R in X2. apply app_inj_tail in X2 as (X2 & _). subst s1. apply (RQ ms v' true X2 ND Q); reflexivity.
    - destruct A as (A1 & A2 & A3 & A4). apply (stat_lost v0 _ (dead v) qs); [reflexivity|eauto| |]; cbn; auto. intros I0. rewrite A3 by exact I0. exact A1.
    - rewrite R in X2. apply app_inj_tail in X2 as (X2 & _). destruct (RQ ms s1 f X2 ND Q) as (_ & _ & B & C).
      destruct A as (A1 & A2 & A3 & A4).
      assert (Z : sv_state v0 = TIdle -> exists qs', (qs' = qs ++ [q] \/ exists q0, qs ++ [q] = qs' ++ [q0]) /\ executed (sv_now v0) (concat qs') (sv_committed (dead s1))).
      { intros I0. destruct (C I0) as [Z|Z]; [exists (qs ++ [q]); split; [auto|exact Z]|].
        exists qs. split; [right; eauto|]. cbn. rewrite Z, A3 by exact I0. exact A1. }
      destruct (sv_state v0) eqn:S0.
      + destruct (Z eq_refl) as (qs' & Z1 & Z2). apply (stat_lost v0 _ (dead s1) qs'); [reflexivity|exact Z1|intros _; exact Z2|congruence].
      + apply (stat_lost v0 _ (dead s1) (qs ++ [q])); [reflexivity|auto|congruence|intros _; apply B; congruence].
      + apply (stat_lost v0 _ (dead s1) (qs ++ [q])); [reflexivity|auto|congruence|intros _; apply B; congruence].
      + apply (stat_lost v0 _ (dead s1) (qs ++ [q])); [reflexivity|auto|congruence|intros _; apply B; congruence].
  Qed.

  (** a chunk of rows, packed *)
  Definition chunk_packs (ch : src row) (q : list params) : Prop := ending ch = None /\ Forall2 (packs p) (items ch) q.

  Lemma loop_inv v0 : forall chunks c c' r qs, stat v0 qs (c_xact c) (view (c_srv c)) ->
    load_loop serve p c chunks = (c', r) ->
    exists k qs', (k <= length (items chunks))%nat /\ Forall2 chunk_packs (firstn k (items chunks)) qs' /\
      match r with
      | LDone => k = length (items chunks) /\ ending chunks = None /\ c_xact c' = None /\ after v0 (qs ++ qs') (view (c_srv c'))
      | LRaise e => stat v0 (qs ++ qs') (c_xact c') (view (c_srv c')) /\
          ((k = length (items chunks) /\ ending chunks = Some e) \/ exists ch, nth_error (items chunks) k = Some ch /\ bindings p ch = Err e)
      | LServer a => stat v0 (qs ++ qs') (Some a) (view (c_srv c')) /\
          ((a = AError /\ c_xact c' = None) \/ (a = ALost /\ c_xact c' = Some ALost))
      | LNever => False
      end.
  Proof.
    induction chunks as [|e|ch chunks IH]; intros c c' r qs St E; cbn [load_loop] in E.
    - exists O, []. cbn [firstn items length ending]. split; [lia|]. split; [constructor|]. rewrite app_nil_r.
      unfold pq_complete, pq_finish in E. destruct (c_xact c) as [[]|] eqn:X; injection E as <- <-; cbn [c_srv c_xact].
      + inversion St; subst. auto.
      + split; [exact St|auto].
      + split; [exact St|auto].
      + inversion St; subst. auto.
    - injection E as <- <-. exists O, []. split; [cbn; lia|]. split; [constructor|]. rewrite app_nil_r. split; [exact St|left; auto].
    - destruct (bindings p ch) as [req|e] eqn:B.
      2:{ injection E as <- <-. exists O, []. split; [cbn; lia|]. split; [constructor|]. rewrite app_nil_r. split; [exact St|right; exists ch; auto]. }
      unfold pq_push in E. destruct (bindings_ok _ _ B) as (B1 & q & B2 & ->).
      assert (G : forall c1, after v0 qs (view (c_srv c1)) ->
         load_loop serve p (pq_send serve (pq_finish c1) (concat (map rowmsgs q) ++ [MEmpty ESynchronize])) chunks = (c', r) ->
         exists k qs', (k <= length (items (SCons ch chunks)))%nat /\ Forall2 chunk_packs (firstn k (items (SCons ch chunks))) qs' /\
          match r with
          | LDone => k = length (items (SCons ch chunks)) /\ ending (SCons ch chunks) = None /\ c_xact c' = None /\ after v0 (qs ++ qs') (view (c_srv c'))
          | LRaise e => stat v0 (qs ++ qs') (c_xact c') (view (c_srv c')) /\
              ((k = length (items (SCons ch chunks)) /\ ending (SCons ch chunks) = Some e) \/ exists ch0, nth_error (items (SCons ch chunks)) k = Some ch0 /\ bindings p ch0 = Err e)
          | LServer a => stat v0 (qs ++ qs') (Some a) (view (c_srv c')) /\
              ((a = AError /\ c_xact c' = None) \/ (a = ALost /\ c_xact c' = Some ALost))
          | LNever => False
          end).
      { intros c1 A Z. unfold pq_send in Z. cbn [pq_finish c_srv] in Z.
        destruct (serve (c_srv c1) _) as [s' a] eqn:Sv. 
        destruct (IH {| c_srv := s'; c_xact := Some a |} c' r (qs ++ [q]) (serve_chunk v0 qs _ q _ _ A Sv) Z) as (k & qs' & K1 & K2 & K3).
        exists (Datatypes.S k), (q :: qs'). rewrite <- app_assoc in K3. cbn [app] in K3.
        split; [cbn; lia|]. split; [cbn [items firstn]; constructor; [split; assumption|exact K2]|].
        destruct r as [|e|a'|]; cbn [items length ending nth_error]; try exact K3.
        - destruct K3 as (? & ? & ? & ?). auto.
        - destruct K3 as (? & [(? & ?)|?]); split; auto. }
      destruct (c_xact c) as [[]|] eqn:X.
      + inversion St; subst. apply (G c); auto.
      + injection E as <- <-. exists O, []. split; [cbn; lia|]. split; [constructor|]. rewrite app_nil_r. unfold pq_finish. rewrite X. cbn. split; [exact St|auto].
      + injection E as <- <-. exists O, []. split; [cbn; lia|]. split; [constructor|]. rewrite app_nil_r. unfold pq_finish. rewrite X. cbn. split; [exact St|auto].
      + inversion St; subst. apply (G c); auto.
  Qed.

  (** synchronize *)
  Lemma sync_spec c : exists v', view (c_srv (pq_synchronize serve c)) = v' /\
    let v := view (c_srv c) in
    (v' = v \/ (sv_state v = TIdle /\ v' = {| sv_committed := sv_now v; sv_now := sv_now v; sv_state := TIdle |})
     \/ v' = dead v \/ v' = dead {| sv_committed := sv_now v; sv_now := sv_now v; sv_state := TIdle |} /\ sv_state v = TIdle) /\
    ((c_xact (pq_synchronize serve c) = None /\ sv_state v' <> TDead) \/ (c_xact (pq_synchronize serve c) = Some ALost /\ sv_state v' = TDead)).
  Proof.
    unfold pq_synchronize, pq_send. cbn [pq_finish c_srv].
    destruct (serve (c_srv c) [MEmpty ESynchronize]) as [s' a] eqn:E. unfold pq_finish. cbn [c_srv c_xact].
    pose proof (LAW (c_srv c) [MEmpty ESynchronize]) as L. rewrite E in L. cbn [fst snd removelast last] in L.
    specialize (L (Forall_nil _) eq_refl ltac:(discriminate)). exists (view s'). split; [reflexivity|]. cbv zeta.
    remember [MEmpty ESynchronize] as req eqn:R.
    inversion L as [v1 ms s1 ND Q X1 X2 X3 X4|v1 ms s1 ND Q X1 X2 X3 X4|v1 rq X1 X2 X3 X4|v1 ms s1 f ND Q X1 X2 X3 X4]; subst v1;
      try (rewrite R in X2; change [MEmpty ESynchronize] with ([] ++ [MEmpty ESynchronize]) in X2; apply app_inj_tail in X2 as (-> & _)).
    - unfold serve_request in Q. cbn in Q. destruct (sv_state (view (c_srv c))) eqn:T; injection Q as Q.
      + rewrite <- Q. split; [auto|left; split; [reflexivity|discriminate]].
      + assert (Z : view s' = view (c_srv c)) by (rewrite <- Q; destruct (view (c_srv c)) as [? ? ?]; cbn in *; congruence). rewrite Z, T.
        split; [auto|left; split; [reflexivity|discriminate]].
      + rewrite <- Q, T. split; [auto|left; split; [reflexivity|discriminate]].
      + congruence.
    - unfold serve_request in Q. cbn in Q. discriminate.
    - split; [auto|right; auto].
    - split; [|right; auto]. unfold serve_request in Q. cbn in Q. destruct (sv_state (view (c_srv c))) eqn:T; injection Q as Q _; rewrite <- Q.
      + right. right. right. auto.
      + auto.
      + auto.
      + congruence.
  Qed.
End P.
