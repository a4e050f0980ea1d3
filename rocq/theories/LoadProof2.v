(** LoadProof2.v *)
From Verif Require Import Base BaseProof Element3Model IterModel IterProof LoadModel LoadSpec LoadProof.

Lemma items_of_list {A} (l : list A) : items (of_list l) = l.
Proof. induction l as [|a l IH]; [reflexivity|]. cbn. now rewrite IH. Qed.
Lemma ending_of_list {A} (l : list A) : ending (of_list l) = None.
Proof. induction l; auto. Qed.

Lemma chunk_src_ok {A} n (s : src A) : forall acc k, (0 < k)%nat -> (length acc + k = n)%nat ->
  exists cl rest, items (chunk_src n acc k s) = map of_list cl /\ ending (chunk_src n acc k s) = ending s /\
    match ending s with
    | None => exists cs last, cl = cs ++ [last] /\ rest = [] /\ Forall (fun c => length c = n) cs /\ (length last < n)%nat
    | Some _ => Forall (fun c => length c = n) cl /\ (length rest < n)%nat
    end /\ acc ++ items s = concat cl ++ rest.
Proof.
  induction s as [|e|a s IH]; intros acc k K L; cbn [chunk_src].
  - exists [acc], []. cbn [items ending map concat]. split; [reflexivity|]. split; [reflexivity|]. split; [|rewrite !app_nil_r; reflexivity].
    exists [], acc. split; [reflexivity|]. split; [reflexivity|]. split; [constructor|lia].
  - exists [], acc. cbn. rewrite app_nil_r. split; [reflexivity|]. split; [reflexivity|]. split; [split; [constructor|lia]|reflexivity].
  - destruct k as [|[|k]]; [lia| |].
    + destruct (IH [] n ltac:(lia) eq_refl) as (cl & rest & H1 & H2 & H3 & H4).
      exists ((acc ++ [a]) :: cl), rest. cbn [items ending map]. rewrite H1. split; [reflexivity|]. split; [exact H2|]. split.
      * destruct (ending s).
        -- destruct H3. split; auto. constructor; auto. rewrite app_length. cbn. lia.
        -- destruct H3 as (cs & last & -> & -> & F & G). exists ((acc ++ [a]) :: cs), last. split; [reflexivity|]. split; [reflexivity|]. split; [|exact G]. constructor; auto. rewrite app_length. cbn. lia.
      * cbn [concat]. rewrite <- app_assoc, <- H4. cbn. now rewrite <- app_assoc.
    + destruct (IH (acc ++ [a]) (S k) ltac:(lia)) as (cl & rest & H1 & H2 & H3 & H4); [rewrite app_length; cbn; lia|].
      exists cl, rest. split; [exact H1|]. split; [exact H2|]. split; [exact H3|]. cbn [items]. rewrite <- H4, <- app_assoc. reflexivity.
Qed.

Lemma full_chunks {A} n (cl : list (list A)) rest : Forall (fun c => length c = n) cl -> forall j, (j <= length cl)%nat ->
  concat (firstn j cl) = firstn (j * n) (concat cl ++ rest).
Proof.
  intros F. induction F as [|c cl L F IH]; intros j J.
  - cbn in J. replace j with O by lia. reflexivity.
  - destruct j as [|j]; [reflexivity|]. cbn [firstn concat]. cbn in J. rewrite IH by lia.
    rewrite <- app_assoc. cbn [Nat.mul]. rewrite <- L. rewrite firstn_app_2. reflexivity.
Qed.
Lemma concat_len {A} n (cl : list (list A)) : Forall (fun c => length c = n) cl -> length (concat cl) = (length cl * n)%nat.
Proof. induction 1 as [|c cl L F IH]; [reflexivity|]. cbn [concat length]. rewrite app_length, IH, L. lia. Qed.

(** the chunks of the rows, all that is needed *)
Record cut {A} (n : nat) (s : src A) (cl : list (list A)) : Prop := {
  cut_items : items (chunk_src n [] n s) = map of_list cl;
  cut_ending : ending (chunk_src n [] n s) = ending s;
  cut_first : forall j, (j <= length cl)%nat -> concat (firstn j cl) = firstn (j * n) (items s);
  cut_whole : forall j, (j <= length cl)%nat -> (j * n <= length (items s))%nat \/ ending s = None;
  cut_all : ending s = None -> concat cl = items s;
  cut_size : forall j c, nth_error cl j = Some c -> (length c <= n)%nat;
  cut_count : length cl = (length (items s) / n + match ending s with None => 1 | Some _ => 0 end)%nat }.
Lemma cut_ex {A} n (s : src A) : (0 < n)%nat -> exists cl, cut n s cl.
Proof.
  intros N. destruct (chunk_src_ok n s [] n N eq_refl) as (cl & rest & H1 & H2 & H3 & H4). cbn [app] in H4.
  exists cl. destruct (ending s) as [e|] eqn:E.
  - destruct H3 as (F & G). constructor; rewrite ?E; [exact H1|exact H2|..].
    + intros j J. rewrite H4. now apply full_chunks.
    + intros j J. left. rewrite H4, app_length, (concat_len n) by auto. nia.
    + discriminate.
    + intros j c Q. apply nth_error_In in Q. rewrite Forall_forall in F. rewrite (F _ Q). lia.
    + rewrite H4, app_length, (concat_len n) by auto. rewrite Nat.add_0_r. rewrite Nat.div_add_l by lia. rewrite Nat.div_small by lia. lia.
  - destruct H3 as (cs & last & -> & -> & F & G). rewrite app_nil_r in H4. constructor; rewrite ?E; [exact H1|exact H2| |auto|auto| |].
    + intros j J. rewrite H4, concat_app. cbn [concat]. rewrite app_nil_r. rewrite app_length in J. cbn in J.
      destruct (Nat.eq_dec j (length cs + 1)%nat) as [->|Ne].
      * rewrite firstn_all2 by (rewrite app_length; cbn; lia). rewrite concat_app. cbn [concat]. rewrite app_nil_r.
        symmetry. apply firstn_all2. rewrite app_length, (concat_len n) by auto. nia.
      * rewrite firstn_app. replace (j - length cs)%nat with O by lia. cbn [firstn]. rewrite app_nil_r. apply full_chunks; auto. lia.
    + intros j c Q. apply nth_error_In in Q. apply in_app_or in Q as [Q|[<-|[]]]; [|lia]. rewrite Forall_forall in F. rewrite (F _ Q). lia.
    + rewrite H4, concat_app, !app_length. cbn [concat length]. rewrite app_nil_r, (concat_len n) by auto.
      rewrite Nat.div_add_l by lia. rewrite Nat.div_small by lia. lia.
Qed.

Section Q.
  Context {D S V : Type}.
  Context (exec : D -> bytes -> list (option bytes) -> Z -> option D).
  Context (serve : S -> list message -> S * answer) (view : S -> server D).
  Context (LAW : lawful exec serve view).
  Context (p : stmt V).
  Notation params := (list (option bytes)).
  Notation row := (list (option V)).
  Notation run := (LoadSpec.executed exec (st_id p)).

  Lemma packs_fun (r : row) ps ps' : packs p r ps -> packs p r ps' -> ps = ps'.
  Proof. intros A B. apply packs_pt in A, B. congruence. Qed.
  Lemma packs_fun_list (rs : list row) a b : Forall2 (packs p) rs a -> Forall2 (packs p) rs b -> a = b.
  Proof.
    intros A. revert b. induction A; intros b B; inversion B; subst; [reflexivity|]. f_equal; [eapply packs_fun; eauto|auto].
  Qed.
  Lemma chunk_packs_concat cl qs : Forall2 (chunk_packs p) (map of_list cl) qs -> Forall2 (packs p) (concat cl) (concat qs).
  Proof.
    revert qs. induction cl as [|c cl IH]; intros qs F; inversion F as [|? q ? qs' (A & B) C]; subst; [constructor|].
    cbn. apply Forall2_app; [rewrite items_of_list in B; exact B|auto].
  Qed.

  (** the state of the server after synchronize, from what it was before *)
  Lemma after_sync v0 qs c v : after exec p v0 qs (view (c_srv c)) -> v = view (c_srv (pq_synchronize serve c)) ->
    sound v0 ->
    (after exec p v0 qs v \/ (sv_state v = TDead /\ (sv_state v0 = TIdle -> run (sv_now v0) (concat qs) (sv_committed v)) /\
       (sv_state v0 <> TIdle -> sv_committed v = sv_committed v0))).
  Proof.
    intros A E So. destruct (sync_spec exec serve view LAW c) as (v' & E' & H & _). rewrite <- E in E'. subst v'. cbv zeta in H.
    destruct A as (A1 & A2 & A3 & A4). destruct H as [H|[(T & H)|[H|(H & T)]]]; rewrite H; clear H E; cbn.
    - left. repeat split; auto.
    - left. repeat split; auto; cbn; congruence.
    - right. repeat split; auto. intros T. rewrite A3 by exact T. exact A1.
    - right. repeat split; auto. congruence.
  Qed.

  (** what is known at the end *)
  Definition final (v0 v : server D) (qs : list (list params)) : Prop :=
    exists qs' b, qs = qs' ++ b /\ (length b <= 1)%nat /\
      (sv_state v0 = TIdle -> run (sv_now v0) (concat qs') (sv_committed v) /\ (sv_state v = TIdle /\ sv_now v = sv_committed v \/ sv_state v = TDead)) /\
      (sv_state v0 = TBlock -> sv_committed v = sv_committed v0 /\
         (sv_state v = TBlock /\ run (sv_now v0) (concat qs') (sv_now v) \/ sv_state v = TFailed \/ sv_state v = TDead)).
  Lemma final_after v0 qs v : after exec p v0 qs v -> final v0 v qs.
  Proof.
    intros (A1 & A2 & A3 & A4). exists qs, []. rewrite app_nil_r. split; [reflexivity|]. split; [cbn; lia|]. split.
    - intros T. rewrite A3 by exact T. split; [exact A1|]. left. split; [congruence|reflexivity].
    - intros T. split; [apply A4; congruence|]. left. split; [congruence|exact A1].
  Qed.
  Lemma final_stat v0 qs a v : stat exec p v0 qs a v -> final v0 v qs.
  Proof.
    intros St. inversion St as [q1 a1 v1 A _ E1 E2 E3|q1 q v1 v2 A NE I0 Cm ND Fl E1 E2 E3|q1 v1 qs' De Q I0 B0 E1 E2 E3]; subst.
    - now apply final_after.
    - exists q1, [q]. split; [reflexivity|]. split; [cbn; lia|]. destruct A as (A1 & A2 & A3 & A4). split.
      + intros T. rewrite (I0 T), A3 by exact T. split; [exact A1|]. left. split; [congruence|reflexivity].
      + intros T. rewrite Cm. split; [apply A4; congruence|]. right. left. apply Fl. congruence.
    - exists qs'. destruct Q as [->|(q & ->)]; [exists []; rewrite app_nil_r|exists [q]]; (split; [reflexivity|]; split; [cbn; lia|]; split;
        [intros T; split; [auto|auto]|intros T; split; [apply B0; congruence|auto]]).
  Qed.
  Lemma final_sync v0 qs c : final v0 (view (c_srv c)) qs -> final v0 (view (c_srv (pq_synchronize serve c))) qs.
  Proof.
    intros (qs' & b & E & L & I0 & B0). exists qs', b. split; [exact E|]. split; [exact L|].
    destruct (sync_spec exec serve view LAW c) as (v' & E' & H & _). rewrite E'. cbv zeta in H. split.
    - intros T. destruct (I0 T) as (X & Y).
      destruct H as [H|[(T' & H)|[H|(H & T')]]]; rewrite H; cbn.
      + auto.
      + destruct Y as [(_ & Y)|Y]; [rewrite Y; auto|congruence].
      + auto.
      + destruct Y as [(_ & Y)|Y]; [rewrite Y; auto|congruence].
    - intros T. destruct (B0 T) as (X & Y).
      destruct H as [H|[(T' & H)|[H|(H & T')]]]; rewrite H; cbn; auto; destruct Y as [(Y & _)|[Y|Y]]; congruence.
  Qed.

  Lemma ready_stat c : ready view c -> stat exec p (view (c_srv c)) [] (c_xact c) (view (c_srv c)) /\ sound (view (c_srv c)) /\
    (sv_state (view (c_srv c)) = TIdle \/ sv_state (view (c_srv c)) = TBlock).
  Proof.
    intros (A & B). cbv zeta in B. split; [|split].
    - apply stat_ok; [|exact A]. apply after_nil. intros T. destruct B as [(_ & B)|B]; [exact B|congruence].
    - intros T. destruct B as [(_ & B)|B]; [exact B|congruence].
    - tauto.
  Qed.

  (** load_tuple_chunks: everything *)
  Lemma chunks_inv c chunks c' r : ready view c -> load_tuple_chunks serve p c chunks = (c', r) ->
    let v0 := view (c_srv c) in let v' := view (c_srv c') in
    exists k qs, (k <= length (items chunks))%nat /\ Forall2 (chunk_packs p) (firstn k (items chunks)) qs /\
      final v0 v' qs /\
      (c_xact c' = None \/ c_xact c' = Some ALost /\ sv_state v' = TDead) /\
      match r with
      | LDone => k = length (items chunks) /\ ending chunks = None /\ c_xact c' = None /\ after exec p v0 qs v'
      | LRaise e =>
          ((k = length (items chunks) /\ ending chunks = Some e) \/ exists ch, nth_error (items chunks) k = Some ch /\ bindings p ch = Err e) /\
          (sv_state v' = TDead \/ after exec p v0 qs v' \/ exists q qs1 v1, qs = qs1 ++ [q] /\ after exec p v0 qs1 v1 /\ forall d, ~ run (sv_now v1) q d)
      | LServer a => (a = AError \/ a = ALost) /\
          (sv_state v' = TDead \/ exists q qs1 v1, qs = qs1 ++ [q] /\ after exec p v0 qs1 v1 /\ (forall d, ~ run (sv_now v1) q d) /\
             (sv_state v0 = TIdle -> sv_committed v' = sv_now v1 /\ sv_now v' = sv_now v1 /\ sv_state v' = TIdle) /\ (sv_state v0 = TBlock -> sv_state v' = TFailed))
      | LNever => False
      end.
  Proof.
    intros R E. cbv zeta. destruct (ready_stat c R) as (St & So & T0). unfold load_tuple_chunks in E.
    destruct (load_loop serve p c chunks) as [c1 r1] eqn:L.
    destruct (loop_inv exec serve view LAW p (view (c_srv c)) chunks c c1 r1 [] St L) as (k & qs & K1 & K2 & K3). cbn [app] in K3.
    exists k, qs. split; [exact K1|]. split; [exact K2|].
    destruct (sync_spec exec serve view LAW c1) as (v' & E' & H & X). cbv zeta in H.
    assert (DD : sv_state (view (c_srv c1)) = TDead -> sv_state (view (c_srv (pq_synchronize serve c1))) = TDead).
    { intros T. rewrite E'. destruct H as [H|[(T' & H)|[H|(H & T')]]]; rewrite H; auto; congruence. }
    assert (XX : c_xact (pq_synchronize serve c1) = None \/ c_xact (pq_synchronize serve c1) = Some ALost /\ sv_state (view (c_srv (pq_synchronize serve c1))) = TDead).
    { rewrite E'. tauto. }
    destruct r1 as [|e|a|].
    - injection E as <- <-. destruct K3 as (-> & K4 & K5 & K6). split; [now apply final_after|]. split; [auto|]. auto.
    - injection E as <- <-. destruct K3 as (K3 & K4). split; [apply final_sync; eapply final_stat; exact K3|]. split; [exact XX|]. split; [exact K4|].
      inversion K3 as [q1 a1 v1 A _ E1 E2 E3|q1 q v1 v2 A NE I0 Cm ND Fl E1 E2 E3|q1 v1 qs' De Q I0 B0 E1 E2 E3]; subst.
      + destruct (after_sync _ _ _ _ A eq_refl So) as [Z|(Z & _)]; auto.
      + right. right. exists q, q1, v1. split; [reflexivity|]. split; [exact A|]. apply NE. destruct T0; congruence.
      + left. apply DD. exact De.
    - injection E as <- <-. destruct K3 as (K3 & K4). split; [apply final_sync; eapply final_stat; exact K3|]. split; [exact XX|]. split; [tauto|].
      inversion K3 as [q1 a1 v1 A Q E1 E2 E3|q1 q v1 v2 A NE I0 Cm ND Fl E1 E2 E3|q1 v1 qs' De Q I0 B0 E1 E2 E3]; subst.
      + exfalso. destruct K4 as [(-> & _)|(-> & _)], Q; discriminate.
      + destruct (sv_state (view (c_srv (pq_synchronize serve c1)))) eqn:Ts; auto; right; exists q, q1, v1; (split; [reflexivity|]); (split; [exact A|]);
        (split; [apply NE; destruct T0; congruence|]); destruct A as (A1 & A2 & A3 & A4).
        all: destruct T0 as [T0|T0]; (split; [intros T|intros T; try congruence]); try congruence.
        all: try (rewrite (I0 T) in H).
        all: try (assert (Fz : sv_state (view (c_srv c1)) = TFailed) by (apply Fl; congruence)).
        all: destruct H as [H|[(T' & H)|[H|(H & T')]]]; try rewrite H; rewrite H in Ts; cbn in *; try congruence; try (rewrite A3 by exact T0; auto); auto.
      + left. apply DD. exact De.
    - contradiction.
  Qed.
End Q.
