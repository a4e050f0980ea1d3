(** LifeProof.v: names, the heap, one message *)
From Coq Require Import Lia.
From Verif Require Import PyStr PyDict PyDictProof BaseProof LifeModel LifeSpec.

(** ** names *)
Definition hexv (c : Z) : Z := if c <? 58 then c - 48 else c - 87.
Definition hexval (l : text) : Z := fold_left (fun a c => a * 16 + hexv c) l 0.
Lemma hexv_c d : 0 <= d < 16 -> hexv (hexc d) = d.
Proof. intros H. unfold hexv, hexc. destruct (d <? 10) eqn:E; [replace (48 + d <? 58) with true by lia; lia|replace (87 + d <? 58) with false by lia; lia]. Qed.
Lemma hexval_n fuel : forall z, 0 <= z < 2 ^ Z.of_nat fuel -> hexval (hexn fuel z) = z.
Proof.
  induction fuel as [|f IH]; intros z H; [cbn in *; lia|]. cbn [hexn]. unfold hexval. rewrite fold_left_app. cbn [fold_left]. rewrite hexv_c by (apply Z.mod_pos_bound; lia).
  destruct (Z.ltb_spec z 16).
  - cbn [fold_left]. rewrite Z.mod_small by lia. lia.
  - fold (hexval (hexn f (z / 16))). rewrite IH.
    + rewrite (Z.div_mod z 16) at 3 by lia. lia.
    + split; [apply Z.div_pos; lia|]. apply Z.div_lt_upper_bound; [lia|]. rewrite Nat2Z.inj_succ, Z.pow_succ_r in H by lia. lia.
Qed.
Lemma hexval_hex z : 0 <= z -> hexval (hexn (S (Z.to_nat (Z.log2 z))) z) = z.
Proof.
  intros H. apply hexval_n. split; [lia|]. rewrite Nat2Z.inj_succ, Z2Nat.id by apply Z.log2_nonneg. destruct (Z.eq_dec z 0) as [->|N]; [cbn; lia|]. apply Z.log2_spec. lia.
Qed.
Lemma ID_inj a b : 0 <= a -> 0 <= b -> ID a = ID b -> a = b.
Proof. intros A B E. unfold ID, hex in E. apply app_inv_head in E. apply app_inv_head in E. rewrite <- (hexval_hex a A), <- (hexval_hex b B). now rewrite E. Qed.
Lemma ID_ne a : ID a <> []. Proof. discriminate. Qed.
Lemma ID_not_user a n : user_name n -> n <> ID a.
Proof. intros [_ H]. unfold ID. apply H. Qed.
Lemma made_ne n : made_name n -> n <> []. Proof. intros (a & _ & ->). apply ID_ne. Qed.

(** ** the heap *)
Lemma hget_app k h g : hget k (h ++ g) = match hget k h with Some o => Some o | None => hget k g end.
Proof. induction h as [|[j o] h IH]; [reflexivity|]. cbn [app hget]. destruct (Nat.eqb k j); [reflexivity|apply IH]. Qed.
Lemma hget_in k h o : hget k h = Some o -> In (k, o) h.
Proof. induction h as [|[j p] h IH]; [discriminate|]. cbn [hget]. destruct (Nat.eqb_spec k j) as [->|]; [intros [= ->]; now left|]. intros H. right. now apply IH. Qed.
Lemma hget_set k j f h : hget k (hset j f h) = if Nat.eqb k j then match hget k h with Some o => Some (f o) | None => None end else hget k h.
Proof.
  unfold hset. induction h as [|[i o] h IH]; [cbn; now destruct (Nat.eqb k j)|]. cbn [map fst snd hget].
  destruct (Nat.eqb_spec j i) as [->|N]; cbn [hget]; rewrite ?IH.
  - destruct (Nat.eqb_spec k i); reflexivity.
  - destruct (Nat.eqb_spec k i) as [->|]; [|reflexivity]. destruct (Nat.eqb_spec i j); [congruence|reflexivity].
Qed.
Lemma hget_del k j h : hget k (hdel j h) = if Nat.eqb k j then None else hget k h.
Proof.
  unfold hdel. induction h as [|[i o] h IH]; [cbn; now destruct (Nat.eqb k j)|]. cbn [filter fst].
  destruct (Nat.eqb_spec j i) as [->|N]; cbn [negb hget]; rewrite IH.
  - destruct (Nat.eqb_spec k i); reflexivity.
  - destruct (Nat.eqb_spec k i) as [->|]; [|reflexivity]. destruct (Nat.eqb_spec i j); [congruence|reflexivity].
Qed.
Lemma dget_filter {V} (P : V -> bool) k (d : list (text * V)) v : NoDup (dkeys d) -> dget k (filter (fun p => P (snd p)) d) = Some v <-> dget k d = Some v /\ P v = true.
Proof.
  induction d as [|[j w] d IH]; intros ND; [cbn; split; [discriminate|intros [? ?]; discriminate]|]. cbn [dkeys map fst] in ND. apply NoDup_cons_iff in ND as [NI ND]. specialize (IH ND).
  cbn [filter snd dget]. destruct (P w) eqn:PW; cbn [dget]; destruct (seqb_spec k j) as [->|NE]; try exact IH.
  - split; [intros [= <-]; auto|intros [[= <-] _]; reflexivity].
  - split.
    + intros H. apply IH in H as [H _]. exfalso. apply NI. change (In j (dkeys d)). destruct (dget j d) eqn:E; [|discriminate]. apply dget_In in E. apply (in_map fst) in E. exact E.
    + intros [[= <-] C]. congruence.
Qed.

(** ** one message of an object's request.  [n] is the name of the statement, [cn] that of the cursor (or empty), [own] says
    which queries are the object's, [cr] whether the request can make the portal of the cursor *)
Section one.
Context (n cn : text) (cr : bool) (own : query -> Prop).
Hypothesis own_user : forall q, own q -> exists t, q = QUser t.
Inductive typed : bool -> bool -> list msg -> Prop :=
| T_sync u p : typed u p [MSync]
| T_bind_n u p r : n <> [] -> typed u true r -> typed u p (MBind [] n :: r)
| T_bind_u p r : typed true true r -> typed true p (MBind [] [] :: r)
| T_bind_c u p r : cr = true -> n <> [] -> cn <> [] -> typed u p r -> typed u p (MBind cn n :: r)
| T_exec_u u r : typed u true r -> typed u true (MExec [] :: r)
| T_exec_c u p r : cn <> [] -> typed u p r -> typed u p (MExec cn :: r)
| T_declare u p q r : cr = true -> cn <> [] -> own (QUser q) -> typed true p r -> typed u p (MParse [] (QDeclare cn q) :: r)
| T_fetch u p r : cn <> [] -> typed true p r -> typed u p (MParse [] (QFetch cn) :: r)
| T_fetch_any u p c r : (forall t, own (QUser t)) -> typed true p r -> typed u p (MParse [] (QFetch c) :: r)
| T_closep u p r : typed u false r -> typed u p (MCloseP [] :: r).
Definition uq (q : query) : Prop := (exists t, q = QDeclare cn t /\ own (QUser t) /\ cr = true) \/ (exists c, q = QFetch c /\ (c = cn \/ forall t, own (QUser t))).
Record fits (u p : bool) (v : server) : Prop := {
  f_stmt : n <> [] -> forall q, dget n (sv_stmts v) = Some q -> own q;
  f_cur : cn <> [] -> forall po, dget cn (sv_portals v) = Some po -> own (po_query po) /\ (po_from po = [] \/ po_from po = n);
  f_u : sv_skip v = false -> u = true -> forall q, dget [] (sv_stmts v) = Some q -> uq q;
  f_p : sv_skip v = false -> p = true -> forall po, dget [] (sv_portals v) = Some po -> own (po_query po) \/ uq (po_query po) }.
(** what the message does *)
Record does (o : option nat) (v v' : server) : Prop := {
  d_stmts : forall m, m <> [] -> dget m (sv_stmts v') = dget m (sv_stmts v);
  d_portals : forall m, m <> [] -> m <> cn -> dget m (sv_portals v') = dget m (sv_portals v);
  d_cur : cn <> [] -> forall po, dget cn (sv_portals v) = Some po -> dget cn (sv_portals v') = Some po;
  d_old : cr = false -> cn <> [] -> forall po, dget cn (sv_portals v') = Some po -> dget cn (sv_portals v) = Some po;
  d_ran : forall x, In x (ran v') -> In x (ran v) \/ exists t, x = (o, t) /\ own (QUser t);
  d_keys : NoDup (dkeys (sv_portals v)) -> NoDup (dkeys (sv_portals v')) }.
Lemma does_same o v v' : sv_stmts v' = sv_stmts v -> sv_portals v' = sv_portals v -> ran v' = ran v -> does o v v'.
Proof. intros E1 E2 E3. constructor; rewrite ?E1, ?E2, ?E3; auto. Qed.
Lemma fits_same u p v v' : sv_stmts v' = sv_stmts v -> sv_portals v' = sv_portals v -> (sv_skip v' = false -> sv_skip v = false) -> fits u p v -> fits u p v'.
Proof. intros E1 E2 E3 [F1 F2 F3 F4]. constructor; rewrite ?E1, ?E2; auto. Qed.
Lemma ddel_nodup {V} k (d : list (text * V)) : NoDup (dkeys d) -> NoDup (dkeys (ddel k d)).
Proof.
  unfold ddel, dkeys. induction d as [|[j w] d IH]; intros ND; [exact ND|]. cbn [map fst] in ND. apply NoDup_cons_iff in ND as [NI ND]. cbn [filter fst]. destruct (negb (seqb k j)); [|now apply IH].
  cbn [map fst]. constructor; [|now apply IH]. intros C. apply NI. apply in_map_iff in C as (x & E & C). apply filter_In in C as [C _]. apply in_map_iff. now exists x.
Qed.
(** any serve that leaves the skipping state to the end of the request *)
Lemma typed_serve u p m r v ok o : typed u p (m :: r) -> fits u p v -> let v' := serve ok o m v in
  does o v v' /\ ((m = MSync /\ r = [] /\ sv_skip v' = false) \/ exists u' p', typed u' p' r /\ fits u' p' v').
Proof.
  intros T F v'. unfold v', serve. clear v'. destruct (sv_skip v) eqn:SK.
  - assert (R : m = MSync /\ r = [] \/ m <> MSync /\ exists u' p', typed u' p' r) by (inversion T; subst; [now left|right; split; [discriminate|eauto]..]).
    destruct R as [[-> ->]|[N (u' & p' & T')]]; [split; [now apply does_same|left; auto]|].
    replace (match m with MSync => with_stmts v (sv_stmts v) | _ => v end) with v by (destruct m; congruence).
    split; [now apply does_same|]. right. exists u', p'. split; [exact T'|]. destruct F as [F1 F2 F3 F4]. constructor; auto; congruence.
  - assert (FAIL : forall r' u' p', typed u' p' r' -> does o v (failed v) /\ ((m = MSync /\ r' = [] /\ sv_skip (failed v) = false) \/ exists u' p', typed u' p' r' /\ fits u' p' (failed v))).
    { intros r' u' p' T'. split; [now apply does_same|]. right. exists u', p'. split; [exact T'|]. destruct F as [F1 F2 F3 F4]. constructor; cbn [failed sv_stmts sv_portals sv_skip]; auto; discriminate. }
    inversion T as [u0 p0|u0 p0 r0 NN T'|p0 r0 T'|u0 p0 r0 CR NN NC T'|u0 r0 T'|u0 p0 r0 NC T'|u0 p0 q r0 CR NC OQ T'|u0 p0 r0 NC T'|u0 p0 c r0 OA T'|u0 p0 r0 T']; subst.
    + split; [now apply does_same|]. left. auto.
    + destruct ok; cbn [negb]; [|now apply (FAIL _ _ _ T')]. destruct (dget n (sv_stmts v)) as [q|] eqn:G; [|now apply (FAIL _ _ _ T')]. rewrite (seqb_refl []). cbn [negb andb]. destruct F as [F1 F2 F3 F4]. 
      split.
      * constructor; cbn [with_portals sv_stmts sv_portals ran]; auto.
        -- intros m N _. now rewrite dget_set_other.
        -- intros N po. now rewrite dget_set_other.
        -- intros _ N po. now rewrite dget_set_other.
        -- apply dset_nodup.
      * right. exists u, true. split; [exact T'|]. constructor; cbn [with_portals sv_stmts sv_portals sv_skip]; auto.
        -- intros N po. rewrite dget_set_other by exact N. now apply F2.
        -- intros _ _ po. rewrite dget_set_same. intros [= <-]. cbn [po_query]. left. now apply F1.
    + destruct ok; cbn [negb]; [|now apply (FAIL _ _ _ T')]. destruct (dget [] (sv_stmts v)) as [q|] eqn:G; [|now apply (FAIL _ _ _ T')]. rewrite (seqb_refl []). cbn [negb andb]. destruct F as [F1 F2 F3 F4]. 
      split.
      * constructor; cbn [with_portals sv_stmts sv_portals ran]; auto.
        -- intros m N _. now rewrite dget_set_other.
        -- intros N po. now rewrite dget_set_other.
        -- intros _ N po. now rewrite dget_set_other.
        -- apply dset_nodup.
      * right. exists true, true. split; [exact T'|]. constructor; cbn [with_portals sv_stmts sv_portals sv_skip]; auto.
        -- intros N po. rewrite dget_set_other by exact N. now apply F2.
        -- intros _ _ po. rewrite dget_set_same. intros [= <-]. cbn [po_query]. right. now apply F3.
    + destruct ok; cbn [negb]; [|now apply (FAIL _ _ _ T')]. destruct (dget n (sv_stmts v)) as [q|] eqn:G; [|now apply (FAIL _ _ _ T')]. destruct (seqb_spec cn []) as [|_]; [contradiction|]. cbn [negb andb]. unfold dmem.
      destruct (dget cn (sv_portals v)) as [po0|] eqn:GC; [now apply (FAIL _ _ _ T')|]. destruct F as [F1 F2 F3 F4]. split.
      * constructor; cbn [with_portals sv_stmts sv_portals ran]; auto.
        -- intros m N N'. now rewrite dget_set_other.
        -- intros _ po C. congruence.
        -- congruence.
        -- apply dset_nodup.
      * right. exists u, p. split; [exact T'|]. constructor; cbn [with_portals sv_stmts sv_portals sv_skip]; auto.
        -- intros N po. rewrite dget_set_same. intros [= <-]. cbn [po_query po_from]. split; [now apply F1|now right].
        -- intros _ P po. rewrite dget_set_other by congruence. now apply F4.
    + destruct ok; cbn [negb]; [|now apply (FAIL _ _ _ T')]. destruct (dget [] (sv_portals v)) as [po|] eqn:G; [|now apply (FAIL _ _ _ T')].
      destruct F as [F1 F2 F3 F4]. assert (LOG : forall t, own (QUser t) -> does o v (log v o t) /\ ((MExec [] = MSync /\ r = [] /\ sv_skip (log v o t) = false) \/ exists u' p', typed u' p' r /\ fits u' p' (log v o t))).
      { intros t OT. split.
        - constructor; cbn [log sv_stmts sv_portals ran]; auto. intros x I. apply in_app_or in I as [I|[<-|[]]]; [now left|]. right. now exists t.
        - right. exists u, true. split; [exact T'|]. constructor; cbn [log sv_stmts sv_portals sv_skip]; auto. }
      destruct (F4 SK eq_refl po G) as [O|[(t & E & O & CR)|(c & E & WH)]].
      * destruct (own_user _ O) as (t & E). rewrite E in O |- *. now apply LOG.
      * rewrite E. unfold dmem. destruct (dget cn (sv_portals v)) as [po0|] eqn:GC; [now apply (FAIL _ _ _ T')|]. destruct (seqb_spec cn []) as [EN|NC]; [rewrite EN in GC; congruence|]. split.
        -- constructor; cbn [log with_portals sv_stmts sv_portals ran]; auto.
           ++ intros m N N'. now rewrite dget_set_other.
           ++ intros _ po' C. congruence.
           ++ congruence.
           ++ intros x I. apply in_app_or in I as [I|[<-|[]]]; [now left|]. right. now exists t.
           ++ apply dset_nodup.
        -- right. exists u, true. split; [exact T'|]. constructor; cbn [log with_portals sv_stmts sv_portals sv_skip]; auto.
           ++ intros N po'. rewrite dget_set_same. intros [= <-]. cbn [po_query po_from]. auto.
           ++ intros _ P po'. rewrite dget_set_other by congruence. now apply F4.
      * rewrite E. destruct WH as [->|OA]; [|destruct (dget c (sv_portals v)) as [po0|]; [|now apply (FAIL _ _ _ T')]; destruct (po_query po0); [now apply LOG|now apply (FAIL _ _ _ T')..]].
        destruct (dget cn (sv_portals v)) as [po0|] eqn:GC; [|now apply (FAIL _ _ _ T')].
        destruct (seqb_spec cn []) as [EN|NC].
        -- rewrite EN in GC. rewrite G in GC. injection GC as <-. rewrite E. now apply (FAIL _ _ _ T').
        -- destruct (F2 NC po0 eq_refl) as [O _]. destruct (own_user _ O) as (t & E'). rewrite E' in O |- *. now apply LOG.
    + destruct ok; cbn [negb]; [|now apply (FAIL _ _ _ T')]. destruct (dget cn (sv_portals v)) as [po|] eqn:G; [|now apply (FAIL _ _ _ T')].
      destruct F as [F1 F2 F3 F4]. destruct (F2 NC po G) as [O _]. destruct (own_user _ O) as (t & E). rewrite E in O |- *. split.
      * constructor; cbn [log sv_stmts sv_portals ran]; auto. intros x I. apply in_app_or in I as [I|[<-|[]]]; [now left|]. right. now exists t.
      * right. exists u, p. split; [exact T'|]. constructor; cbn [log sv_stmts sv_portals sv_skip]; auto.
        
    + destruct ok; cbn [negb]; [|now apply (FAIL _ _ _ T')]. rewrite (seqb_refl []). cbn [negb andb]. destruct F as [F1 F2 F3 F4]. split.
      * constructor; cbn [with_stmts sv_stmts sv_portals ran]; auto. intros m N. now rewrite dget_set_other.
      * right. exists true, p. split; [exact T'|]. constructor; cbn [with_stmts sv_stmts sv_portals sv_skip]; auto.
        -- intros N q'. rewrite dget_set_other by exact N. now apply F1.
        -- intros _ _ q'. rewrite dget_set_same. intros [= <-]. left. exists q. auto.
    + destruct ok; cbn [negb]; [|now apply (FAIL _ _ _ T')]. rewrite (seqb_refl []). cbn [negb andb]. destruct F as [F1 F2 F3 F4]. split.
      * constructor; cbn [with_stmts sv_stmts sv_portals ran]; auto. intros m N. now rewrite dget_set_other.
      * right. exists true, p. split; [exact T'|]. constructor; cbn [with_stmts sv_stmts sv_portals sv_skip]; auto.
        -- intros N q'. rewrite dget_set_other by exact N. now apply F1.
        -- intros _ _ q'. rewrite dget_set_same. intros [= <-]. right. eauto.
    + destruct ok; cbn [negb]; [|now apply (FAIL _ _ _ T')]. rewrite (seqb_refl []). cbn [negb andb]. destruct F as [F1 F2 F3 F4]. split.
      * constructor; cbn [with_stmts sv_stmts sv_portals ran]; auto. intros m N. now rewrite dget_set_other.
      * right. exists true, p. split; [exact T'|]. constructor; cbn [with_stmts sv_stmts sv_portals sv_skip]; auto.
        -- intros N q'. rewrite dget_set_other by exact N. now apply F1.
        -- intros _ _ q'. rewrite dget_set_same. intros [= <-]. right. eauto.
    + destruct F as [F1 F2 F3 F4]. split.
      * constructor; cbn [with_portals sv_stmts sv_portals ran]; auto.
        -- intros m N _. rewrite dget_del. now rewrite seqb_ne.
        -- intros N po. rewrite dget_del, seqb_ne by exact N. auto.
        -- intros _ N po. rewrite dget_del, seqb_ne by exact N. auto.
        -- apply ddel_nodup.
      * right. exists u, false. split; [exact T'|]. constructor; cbn [with_portals sv_stmts sv_portals sv_skip]; auto; [|discriminate].
        intros N po. rewrite dget_del, seqb_ne by exact N. now apply F2.
Qed.
(** the portal of the cursor may go away at any time *)
Lemma fits_gone u p v m : fits u p v -> fits u p {| sv_stmts := sv_stmts v; sv_portals := ddel m (sv_portals v); sv_skip := sv_skip v; ran := ran v |}.
Proof.
  intros [F1 F2 F3 F4]. constructor; cbn [sv_stmts sv_portals sv_skip]; auto.
  - intros N po. rewrite dget_del. destruct (seqb cn m); [discriminate|]. now apply F2.
  - intros S P po. rewrite dget_del. destruct (seqb [] m); [discriminate|]. now apply F4.
Qed.
End one.
