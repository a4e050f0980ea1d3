From Verif Require Import PyStr PyStrProof PyStrProof2 PyListProof BaseProof PyDict PyDictProof RIProof2 ConfModel ConfProof ConfSpec ConfProof2 ConfProof3 ConfProof4.

Section conf.
Context (U : unicode) (UO : unicode_ok U).
Local Notation sp := (u_space U).
Local Notation cand := (nat * extent * extent)%type.
Definition opt_list {A} (o : option A) : list A := match o with Some a => [a] | None => [] end.
Definition readings (lines : list text) : list (text * text) := flat_map (fun l => opt_list (read_line U l)) lines.
Definition final (k : text) (es : list (text * text)) : option text :=
  fold_left (fun o e => if seqb k (fst e) then Some (snd e) else o) es None.
Lemma read_config_get sel lines k : dget k (read_config U sel lines) = if sel k then final k (readings lines) else None.
Proof.
  unfold read_config, final, readings.
  assert (G : forall lines d, dget k (fold_left (fun d l => match read_line U l with Some (k, v) => if sel k then dset k v d else d | None => d end) lines d) =
    if sel k then fold_left (fun o e => if seqb k (fst e) then Some (snd e) else o) (flat_map (fun l => opt_list (read_line U l)) lines) (dget k d) else dget k d).
  { clear lines. induction lines as [|l lines IH]; intros d; cbn [fold_left flat_map]; [destruct (sel k); reflexivity|].
    rewrite IH, fold_left_app. destruct (read_line U l) as [[j v]|]; cbn [opt_list fold_left]; [|reflexivity]. cbn [fst snd].
    destruct (sel j) eqn:SJ.
    - rewrite dget_set. destruct (seqb_spec k j) as [->|]; [|reflexivity]. now rewrite SJ.
    - destruct (seqb_spec k j) as [->|]; [|reflexivity]. now rewrite SJ. }
  rewrite G. reflexivity.
Qed.
Lemma final_filter k p es : (forall e, fst e = k -> p e = true) -> final k es = final k (filter p es).
Proof.
  intros H. unfold final. generalize (@None text). induction es as [|e es IH]; intros o; [reflexivity|]. cbn [fold_left filter].
  destruct (seqb_spec k (fst e)) as [E|N].
  - rewrite H by auto. cbn [fold_left]. destruct (seqb_spec k (fst e)); [|contradiction]. apply IH.
  - destruct (p e); [cbn [fold_left]; destruct (seqb_spec k (fst e)); [contradiction|]|]; apply IH.
Qed.
Definition same_as (K : text) (e : text * text) : bool := seqb (py_lower U (fst e)) (py_lower U K).
Definition pick (p : text * text -> bool) (l : text) : list (text * text) := filter p (opt_list (read_line U l)).
Lemma filter_readings p lines : filter p (readings lines) = flat_map (pick p) lines.
Proof. unfold readings. induction lines as [|l lines IH]; [reflexivity|]. cbn. now rewrite filter_app, IH. Qed.

Lemma flat_map_none {A} (f : text -> list A) l : (forall j, (j < length l)%nat -> f (line_at j l) = []) -> flat_map f l = [].
Proof.
  induction l as [|x l IH]; intros H; [reflexivity|]. cbn [flat_map]. change x with (line_at O (x :: l)) at 1. rewrite (H O) by (cbn; lia). apply IH. intros j Hj. apply (H (S j)). cbn. lia.
Qed.
Lemma flat_map_one {A} (f : text -> list A) l n : (n < length l)%nat -> (forall j, (j < length l)%nat -> j <> n -> f (line_at j l) = []) -> flat_map f l = f (line_at n l).
Proof.
  revert n. induction l as [|x l IH]; intros [|n] L H; cbn [length] in L; try lia.
  - cbn [flat_map line_at nth]. rewrite (flat_map_none f l), app_nil_r; [reflexivity|]. intros j Hj. apply (H (S j)); cbn; lia.
  - cbn [flat_map]. change x with (line_at O (x :: l)) at 1. rewrite (H O) by (cbn; lia). apply IH; [lia|]. intros j Hj Hn. apply (H (S j)); cbn; lia.
Qed.
Lemma flat_map_same {A} (f : text -> list A) a b : length a = length b -> (forall j, (j < length a)%nat -> f (line_at j a) = f (line_at j b)) -> flat_map f a = flat_map f b.
Proof.
  revert b. induction a as [|x a IH]; intros [|y b] L H; try discriminate; [reflexivity|]. cbn. f_equal; [apply (H O); cbn; lia|].
  apply IH; [cbn in L; lia|]. intros j Hj. apply (H (S j)). cbn. lia.
Qed.

Lemma kept_nth a b : kept_all a b -> forall j, (j < length a)%nat -> line_kept (line_at j a) (line_at j b).
Proof. intros H. induction H; intros [|j] Hj; cbn [length] in Hj; try lia; [exact H|]. apply IHForall2. lia. Qed.
Lemma found_dec (m : list (text * option text)) fo j : {K : text & {ov : option text & {cl : cand | In (K, ov) m /\ In cl (found U K fo) /\ idx cl = j}}} + (forall K ov cl, In (K, ov) m -> In cl (found U K fo) -> idx cl <> j).
Proof.
  induction m as [|[K ov] m IH]; [right; intros ? ? ? []|]. destruct IH as [(K' & ov' & cl & I & F & E)|N].
  - left. exists K', ov', cl. split; [right; exact I|auto].
  - assert (D : {cl | In cl (found U K fo) /\ idx cl = j} + (forall cl, In cl (found U K fo) -> idx cl <> j)).
    { generalize (found U K fo). clear. induction l as [|c l IH]; [right; intros ? []|]. destruct (Nat.eq_dec (idx c) j) as [E|N].
      - left. exists c. split; [left; reflexivity|exact E].
      - destruct IH as [(cl & I & E)|H]; [left; exists cl; split; [right; exact I|exact E]|right; intros cl [<-|I]; auto]. }
    destruct D as [(cl & F & E)|D]; [left; exists K, ov, cl; split; [left; reflexivity|auto]|]. right. intros K' ov' cl [EQ|I] F; [injection EQ as <- <-; auto|eauto].
Qed.
Lemma read_found K fo j k v : (j < length fo)%nat -> read_line U (line_at j fo) = Some (k, v) -> py_lower U k = py_lower U K -> exists cl, In cl (found U K fo) /\ idx cl = j.
Proof.
  intros Hj R E. unfold read_line in R. destruct (parse_line U (line_at j fo)) as [[sk sv]|] eqn:P; [|discriminate]. destruct (comment_in _ _); [discriminate|].
  injection R as <- _. exists (j, sk, sv). split; [|reflexivity]. apply (cands_in U (py_lower U K) fo O j sk sv Hj P). now symmetry.
Qed.
Lemma found_key K fo cl : In cl (found U K fo) -> py_lower U (cut (snd (fst cl)) (line_at (idx cl) fo)) = py_lower U K /\ (idx cl < length fo)%nat.
Proof. intros I. apply in_cands in I as (j & E & L & _ & C). cbn in E. rewrite E. auto. Qed.
Lemma key_unique (m : list (text * option text)) K ov K' ov' : proper_map U m -> In (K, ov) m -> In (K', ov') m -> py_lower U K = py_lower U K' -> (K, ov) = (K', ov').
Proof.
  intros [_ N] I I' E. clear -N I I' E. induction m as [|p m IH]; [contradiction|]. cbn [map] in N. inversion_clear N as [|? ? NI N'].
  destruct I as [->|I], I' as [EQ|I']; auto; exfalso.
  - apply NI. cbn [fst]. rewrite E. apply in_map_iff. exists (K', ov'). auto.
  - subst p. apply NI. cbn [fst]. rewrite <- E. apply in_map_iff. exists (K, ov). auto.
Qed.
Lemma news_in m fo K v : In (K, v) (news U m fo) <-> In (K, Some v) m /\ found U K fo = [].
Proof.
  unfold news. rewrite in_flat_map. split.
  - intros ([K' ov] & I & H). cbn [fst snd] in H. destruct (found U K' fo) eqn:F; [|contradiction]. destruct ov as [v'|]; [|contradiction].
    destruct H as [E|[]]. injection E as -> ->. auto.
  - intros [I F]. exists (K, Some v). split; [exact I|]. cbn [fst snd]. rewrite F. cbn. auto.
Qed.
Lemma news_name m fo K v : proper_map U m -> In (K, v) (news U m fo) -> setting_name K.
Proof. intros [P _] I. apply news_in in I as [I _]. rewrite Forall_forall in P. apply P. apply in_map_iff. exists (K, Some v). auto. Qed.
(** the appended lines read as what they set *)
Lemma read_ex es ex : (forall e, In e es -> setting_name (fst e)) -> kept_all (map (fun e => new_line (fst e) (snd e)) es) ex -> readings ex = es.
Proof.
  revert ex. induction es as [|[k v] es IH]; intros ex N K; inversion K as [|? y ? ex' X K']; subst; [reflexivity|].
  unfold readings. cbn [flat_map]. rewrite (read_kept U UO _ _ X). cbn [fst snd].
  pose proof (read_new U UO k v false (N (k, v) (or_introl eq_refl))) as RN. cbn beta iota in RN. rewrite app_nil_r in RN. rewrite RN. cbn [opt_list app]. f_equal. apply IH; [|exact K']. intros; apply N; right; auto.
Qed.
Definition pair_dec (a b : text * option text) : {a = b} + {a <> b}.
Proof. decide equality; [decide equality; apply (list_eq_dec Z.eq_dec)|apply (list_eq_dec Z.eq_dec)]. Defined.
Lemma news_filter m fo K ov : proper_map U m -> In (K, ov) m ->
  filter (same_as K) (news U m fo) = match found U K fo, ov with [], Some v => [(K, v)] | _, _ => [] end.
Proof.
  intros P I. assert (G : forall m', incl m' m -> NoDup m' -> filter (same_as K) (news U m' fo) = if in_dec pair_dec (K, ov) m' then match found U K fo, ov with [], Some v => [(K, v)] | _, _ => [] end else []).
  { induction m' as [|[K' ov'] m' IH]; intros S N; [reflexivity|]. inversion_clear N as [|? ? NI N']. cbn [news flat_map fst snd]. fold (news U m' fo). rewrite filter_app.
    rewrite IH; [|intros z Hz; apply S; right; exact Hz|exact N'].
    destruct (in_dec _ (K, ov) ((K', ov') :: m')) as [[E|E]|E]; cbn [filter].
    - injection E as -> ->. destruct (in_dec _ (K, ov) m') as [C|_]; [contradiction|]. rewrite app_nil_r. destruct (found U K fo); [|reflexivity]. destruct ov; [|reflexivity].
      cbn [filter opt_list]. unfold same_as. cbn [fst]. destruct (seqb_spec (py_lower U K) (py_lower U K)); [reflexivity|contradiction].
    - destruct (in_dec _ (K, ov) m') as [_|C]; [|contradiction]. replace (filter (same_as K) _) with (@nil (text * text)); [reflexivity|]. symmetry.
      destruct (found U K' fo); [|reflexivity]. destruct ov' as [v'|]; [|reflexivity]. cbn [filter opt_list]. unfold same_as. cbn [fst]. destruct (seqb_spec (py_lower U K') (py_lower U K)) as [EL|]; [|reflexivity].
      exfalso. apply NI. assert (IA : In (K', Some v') m) by (apply S; left; reflexivity). rewrite (key_unique m K' (Some v') K ov P IA I EL). exact E.
    - destruct (in_dec _ (K, ov) m') as [C|_]; [exfalso; apply E; right; exact C|]. rewrite app_nil_r.
      destruct (found U K' fo); [|reflexivity]. destruct ov' as [v'|]; [|reflexivity]. cbn [filter opt_list]. unfold same_as. cbn [fst]. destruct (seqb_spec (py_lower U K') (py_lower U K)) as [EL|]; [|reflexivity].
      exfalso. apply E. left. assert (IA : In (K', Some v') m) by (apply S; left; reflexivity). exact (key_unique m K' (Some v') K ov P IA I EL). }
  rewrite G; [|apply incl_refl|].
  - destruct (in_dec _ (K, ov) m); [reflexivity|contradiction].
  - destruct P as [_ N]. now apply NoDup_map_inv in N.
Qed.

(** ** what the altered file says *)
Theorem altered_readings m fo lines' : proper_map U m -> alter_config U m fo = Ok lines' ->
  (forall K v, In (K, Some v) m -> exists k', same_name U k' K /\ filter (same_as K) (readings lines') = [(k', v)] /\
     (k' = K \/ exists l, In l fo /\ mentions U K l /\ spells U k' l)) /\
  (forall K, In (K, None) m -> filter (same_as K) (readings lines') = []) /\
  (forall p, (forall e K, In K (dkeys m) -> p e = true -> same_as K e = false) -> filter p (readings lines') = filter p (readings fo)).
Proof.
  intros P H. destruct (alter_config_spec U UO m fo lines' P H) as (l1 & l0 & ex & xs & EL & L0 & K1 & KE & UN & GD & GR).
  pose proof (kept_length _ _ (proj1 K1)) as L1.
  assert (REX : readings ex = news U m fo) by (apply read_ex; [intros [k v] I; eapply news_name; eauto|exact KE]).
  assert (RU : forall j, (j < length fo)%nat -> (forall K ov cl, In (K, ov) m -> In cl (found U K fo) -> idx cl <> j) -> read_line U (line_at j l0) = read_line U (line_at j fo)).
  { intros j Hj N. rewrite (UN j Hj N). apply (read_kept U UO). now apply kept_nth; [apply K1|]. }
  assert (RG : forall K ov cl, In (K, ov) m -> In cl (found U K fo) -> forall k v, read_line U (line_at (idx cl) l0) = Some (k, v) -> py_lower U k = py_lower U K /\ ov = Some v).
  { intros K ov cl I F k v R. assert (NE : found U K fo <> []) by (intros C; rewrite C in F; contradiction). specialize (GR K ov I NE).
    destruct (GD K ov cl I F) as [(S & _) EK]. destruct ov as [v0|]; cbn [group_done] in GR.
    - destruct GR as (w & Iw & Ew & Hw). destruct (Nat.eq_dec (idx cl) (idx w)) as [E|E].
      + rewrite E, Ew in R. rewrite <- E in R. rewrite (read_uncommented U UO _ _ S) in R. injection R as <- <-. split; [|reflexivity]. rewrite EK. apply (found_key K fo cl F).
      + rewrite Hw in R by auto. rewrite (read_hide U UO _ S) in R. discriminate.
    - rewrite GR in R by exact F. rewrite (read_hide U UO _ S) in R. discriminate. }
  (* a line that reads as K is one of the candidates for K *)
  assert (RK : forall K ov j k v, In (K, ov) m -> (j < length fo)%nat -> read_line U (line_at j l0) = Some (k, v) -> py_lower U k = py_lower U K -> exists cl, In cl (found U K fo) /\ idx cl = j).
  { intros K ov j k v I Hj R E. destruct (found_dec m fo j) as [(K' & ov' & cl & I' & F' & EJ)|N].
    - subst j. destruct (RG K' ov' cl I' F' k v R) as [E' _]. pose proof (key_unique m K ov K' ov' P I I' ltac:(congruence)) as EQ. injection EQ as -> ->. eauto.
    - rewrite (RU j Hj N) in R. eapply read_found; eauto. }
  subst lines'. assert (RA : readings (l0 ++ ex) = readings l0 ++ news U m fo) by (unfold readings; rewrite flat_map_app; f_equal; exact REX).
  split; [|split].
  - intros K v I. destruct (found U K fo) as [|c0 cs0] eqn:FE.
    + exists K. split; [reflexivity|]. split; [|left; reflexivity]. rewrite RA, filter_app, (news_filter m fo K (Some v) P I), FE.
      rewrite filter_readings, (flat_map_none (pick (same_as K)) l0); [reflexivity|]. intros j Hj. unfold pick.
      destruct (read_line U (line_at j l0)) as [[k w]|] eqn:R; [|reflexivity]. cbn [filter opt_list]. unfold same_as. cbn [fst]. destruct (seqb_spec (py_lower U k) (py_lower U K)) as [E|]; [|reflexivity].
      destruct (RK K (Some v) j k w I ltac:(lia) R E) as (cl & C & _). rewrite FE in C. contradiction.
    + assert (NE : found U K fo <> []) by (rewrite FE; discriminate). pose proof (GR K (Some v) I NE) as (w & Iw & Ew & Hw).
      destruct (GD K (Some v) w I Iw) as [(S & _) EK]. destruct (found_key K fo w Iw) as [FK FL].
      exists (key (xs (idx w))). split; [unfold same_name; rewrite EK; exact FK|]. split.
      * rewrite RA, filter_app, (news_filter m fo K (Some v) P I), FE, app_nil_r, filter_readings. rewrite (flat_map_one _ l0 (idx w)).
        -- unfold pick. rewrite Ew, (read_uncommented U UO) by exact S. cbn [filter opt_list]. unfold same_as. cbn [fst]. rewrite EK, FK. destruct (seqb_spec (py_lower U K) (py_lower U K)); [reflexivity|contradiction].
        -- lia.
        -- intros j Hj Hn. unfold pick. destruct (read_line U (line_at j l0)) as [[k u]|] eqn:R; [|reflexivity]. cbn [filter opt_list]. unfold same_as. cbn [fst].
           destruct (seqb_spec (py_lower U k) (py_lower U K)) as [E|]; [|reflexivity]. exfalso.
           destruct (RK K (Some v) j k u I ltac:(lia) R E) as (cl & C & EJ). subst j. rewrite Hw in R by auto.
           destruct (GD K (Some v) cl I C) as [(S' & _) _]. rewrite (read_hide U UO _ S') in R. discriminate.
      * right. exists (line_at (idx w) fo). split; [apply nth_In; exact FL|]. pose proof Iw as Iw'. apply in_cands in Iw' as (j & EJ & _ & PL & CK). cbn in EJ. subst j.
        apply (parse_inv U) in PL as (x & SX & LX & KX & _ & _). assert (KK : key (xs (idx w)) = key x) by (rewrite EK, KX, LX; apply cut_key). rewrite KK. rewrite LX. destruct SX.
        assert (F1 : Forall (fun c => sp c = true \/ c = 35) (pre x)) by (eapply Forall_impl; [|exact s_pre]; intros c Hc; cbn beta in Hc; unfold sp35 in Hc; apply orb_true_iff in Hc as [Hc|Hc]; [auto|right; lia]).
        split.
        -- exists (pre x), (key x), (ws x), (ws2 x ++ val x ++ post x). split; [unfold line_of; rewrite <- ?app_assoc; reflexivity|]. split; [exact F1|]. split; [|split; [exact s_ws|]].
           ++ eapply Forall_impl; [|exact s_key]. intros c Hc. cbn beta in Hc. unfold is_word in Hc. apply orb_true_iff in Hc as [Hc|Hc]; [apply orb_true_iff in Hc; tauto|right; right; lia].
           ++ unfold same_name. rewrite <- KK, EK. exact FK.
        -- exists (pre x), (ws x), (ws2 x ++ val x ++ post x). split; [unfold line_of; rewrite <- ?app_assoc; reflexivity|]. split; [exact F1|exact s_ws].
  - intros K I. rewrite RA, filter_app, (news_filter m fo K None P I). replace (match found U K fo with [] | _ => [] end) with (@nil (text * text)) by (destruct (found U K fo); reflexivity).
    rewrite app_nil_r, filter_readings. apply flat_map_none. intros j Hj. unfold pick. destruct (read_line U (line_at j l0)) as [[k u]|] eqn:R; [|reflexivity]. cbn [filter opt_list]. unfold same_as. cbn [fst].
    destruct (seqb_spec (py_lower U k) (py_lower U K)) as [E|]; [|reflexivity]. exfalso.
    destruct (RK K None j k u I ltac:(lia) R E) as (cl & C & EJ). subst j. destruct (RG K None cl I C k u R) as [_ Q]. discriminate.
  - intros p HP. rewrite RA, filter_app. replace (filter p (news U m fo)) with (@nil (text * text)).
    + rewrite app_nil_r, !filter_readings. apply flat_map_same; [exact L0|]. intros j Hj. rewrite L0 in Hj.
      destruct (found_dec m fo j) as [(K & ov & cl & I & F & EJ)|N]; [|unfold pick; now rewrite (RU j Hj N)].
      assert (IK : In K (dkeys m)) by (apply in_map_iff; exists (K, ov); auto).
      assert (Z0 : forall k v, py_lower U k = py_lower U K -> p (k, v) = false).
      { intros k v E. destruct (p (k, v)) eqn:PE; [|reflexivity]. pose proof (HP (k, v) K IK PE) as C. unfold same_as in C. cbn [fst] in C. rewrite E in C. destruct (seqb_spec (py_lower U K) (py_lower U K)); congruence. }
      unfold pick. subst j. transitivity (@nil (text * text)).
      * destruct (read_line U (line_at (idx cl) l0)) as [[k v]|] eqn:R; [|reflexivity]. cbn. rewrite Z0; [reflexivity|]. apply (RG K ov cl I F k v R).
      * unfold read_line. apply in_cands in F as (j & EJ & _ & PL & CK). cbn in EJ. subst j. rewrite PL. destruct (comment_in _ _); [reflexivity|]. cbn. rewrite Z0; [reflexivity|]. now symmetry.
    + symmetry. assert (G : forall es, (forall e, In e es -> p e = false) -> filter p es = []).
      { clear. induction es as [|e es IH]; intros HE; [reflexivity|]. cbn. rewrite HE by (left; reflexivity). apply IH. intros; apply HE; right; auto. }
      apply G. intros [k v] I. destruct (p (k, v)) eqn:PE; [|reflexivity]. apply news_in in I as [I _].
      assert (IK : In k (dkeys m)) by (apply in_map_iff; exists (k, Some v); auto). pose proof (HP (k, v) k IK PE) as C. unfold same_as in C. cbn [fst] in C. destruct (seqb_spec (py_lower U k) (py_lower U k)); congruence.
Qed.
End conf.
