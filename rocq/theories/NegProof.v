(** NegProof.v *)
From Verif Require Import Base BaseProof PBufferModel Element3Model NegModel NegSpec.

Lemma async_kind_iff x : (exists k, async_kind (fst x) = Some k) <-> is_asyncb x = true.
Proof.
  unfold async_kind, is_asyncb. destruct (fst x =? 78); [split; eauto|]. destruct (fst x =? 65); [split; eauto|].
  destruct (fst x =? 83); [split; eauto|]. cbn. split; [intros [? H]; discriminate|discriminate].
Qed.
Lemma async_none x : async_kind (fst x) = None -> is_asyncb x = false.
Proof.
  intros H. destruct (is_asyncb x) eqn:E; [|reflexivity]. apply async_kind_iff in E as [k E]. congruence.
Qed.
Lemma is_asyncb_spec x : is_asyncb x = true <-> is_async x.
Proof. unfold is_asyncb, is_async. lia. Qed.
Lemma outs_app a b : outs (a ++ b) = outs a ++ outs b.
Proof. induction a as [|[m|x] a IH]; cbn; [reflexivity|rewrite IH; reflexivity|exact IH]. Qed.
Lemma ins_app a b : ins (a ++ b) = ins a ++ ins b.
Proof. induction a as [|[m|x] a IH]; cbn; [reflexivity|exact IH|]. destruct (is_asyncb x); [exact IH|cbn; rewrite IH; reflexivity]. Qed.
Lemma asyncs_app a b : asyncs (a ++ b) = asyncs a ++ asyncs b.
Proof. induction a as [|[m|x] a IH]; cbn; [reflexivity|exact IH|]. destruct (is_asyncb x); [cbn; rewrite IH; reflexivity|exact IH]. Qed.

Lemma parse_auth_inv d m : parse KAuthentication d = Ok m -> exists req salt, m = MAuthentication req salt /\ auth_body d req salt.
Proof.
  cbn [parse]. intros H. apply bind_Ok in H as (q & E & H). okinv H. do 2 eexists. split; [reflexivity|].
  unfold unpack_u in E. destruct (Nat.ltb_spec (length (firstn 4 d)) 4) as [|H]; [discriminate|]. okinv E.
  rewrite firstn_length in H. exists (firstn 4 d). split; [rewrite firstn_length; lia|].
  split; [symmetry; apply firstn_skipn|]. rewrite firstn_firstn. reflexivity.
Qed.
Lemma parse_auth_ok d req salt : auth_body d req salt -> parse KAuthentication d = Ok (MAuthentication req salt).
Proof.
  intros (code & Hl & -> & E). cbn [parse]. rewrite firstn_app_exact, skipn_app_exact by exact Hl.
  unfold unpack_u. destruct (Nat.ltb_spec (length code) 4); [lia|]. cbn [bind].
  rewrite firstn_all2 by lia. rewrite E. reflexivity.
Qed.

Section S.
Variable md5hex : bytes -> bytes.
Variable crypt : bytes -> bytes -> bytes.
Variable startup : list (bytes * bytes).
Variable pw : bytes.
Notation nrun := (nrun md5hex crypt startup pw).
Notation reply := (reply md5hex crypt startup pw).
Notation loop := (neg_loop md5hex crypt).

Fixpoint skel (tr : list event) : list event :=
  match tr with
  | [] => []
  | Out m :: r => Out m :: skel r
  | In x :: r => if is_asyncb x then skel r else In x :: skel r
  end.
Lemma skel_app a b : skel (a ++ b) = skel a ++ skel b.
Proof. induction a as [|[m|x] a IH]; cbn; [reflexivity|rewrite IH; reflexivity|]. destruct (is_asyncb x); [exact IH|cbn; rewrite IH; reflexivity]. Qed.
Lemma skel_outs tr : outs (skel tr) = outs tr.
Proof. induction tr as [|[m|x] a IH]; cbn; [reflexivity|rewrite IH; reflexivity|]. destruct (is_asyncb x); exact IH. Qed.
Lemma skel_ins tr : ins (skel tr) = ins tr.
Proof. induction tr as [|[m|x] a IH]; cbn; [reflexivity|exact IH|]. destruct (is_asyncb x) eqn:E; [exact IH|cbn; rewrite E, IH; reflexivity]. Qed.

Inductive authsk : list event -> Prop :=
| ak_ok body salt : auth_body body 0 salt -> authsk [Out (MStartup startup); In (82, body)]
| ak_pw body req salt a t body2 salt2 : auth_body body req salt -> reply req salt a ->
    is_asyncb (t, body2) = false -> t <> 69 -> auth_body body2 0 salt2 ->
    authsk [Out (MStartup startup); In (82, body); Out (MString SPassword a); In (t, body2)].

(** the states of a negotiation while it is receiving *)
Definition rinv (n : neg) (tr : list event) : Prop :=
  n_startup n = startup /\ n_password n = pw /\ n_fatal n = false /\ n_error n = None /\
  match n_machine n with
  | WaitAuth => skel tr = [Out (MStartup startup)]
  | WaitOk => exists body req salt a, auth_body body req salt /\ reply req salt a /\
      skel tr = [Out (MStartup startup); In (82, body); Out (MString SPassword a)]
  | WaitKill => authsk (skel tr) /\ n_authok n <> None
  | WaitReady => exists sk kb pid key, authsk sk /\ parse KKillInformation kb = Ok (MKillInformation pid key) /\
      n_killinfo n = Some (MKillInformation pid key) /\ skel tr = sk ++ [In (75, kb)]
  | Finished => False
  end.

(** the ways a negotiation fails, and how *)
Inductive failsk : list event -> nerror -> Prop :=
| fk_error sk body d : ((sk = [Out (MStartup startup)]) \/
    (exists body req salt a, auth_body body req salt /\ reply req salt a /\
       sk = [Out (MStartup startup); In (82, body); Out (MString SPassword a)]) \/ authsk sk \/
    (exists sk0 kb pid key, authsk sk0 /\ parse KKillInformation kb = Ok (MKillInformation pid key) /\
      sk = sk0 ++ [In (75, kb)])) -> parse (KNotice true) body = Ok d -> failsk (sk ++ [In (69, body)]) (NServer d)
| fk_auth x : fst x <> 69 -> fst x <> 82 -> is_asyncb x = false -> failsk [Out (MStartup startup); In x] (NExpected 82 (fst x))
| fk_unsup body req salt : auth_body body req salt -> ~ (req = 0 \/ req = 3 \/ req = 4 \/ req = 5) ->
    failsk [Out (MStartup startup); In (82, body)] (NUnsupported req)
| fk_notok body req salt a x req2 salt2 : auth_body body req salt -> reply req salt a -> fst x <> 69 -> is_asyncb x = false ->
    auth_body (snd x) req2 salt2 -> req2 <> 0 ->
    failsk [Out (MStartup startup); In (82, body); Out (MString SPassword a); In x] (NNotOk req2)
| fk_kill sk x : authsk sk -> fst x <> 69 -> fst x <> 75 -> is_asyncb x = false -> failsk (sk ++ [In x]) (NExpected 75 (fst x))
| fk_ready sk kb pid key x : authsk sk -> parse KKillInformation kb = Ok (MKillInformation pid key) ->
    fst x <> 69 -> fst x <> 90 -> is_asyncb x = false ->
    failsk (sk ++ [In (75, kb); In x]) (NExpected 90 (fst x)).
Inductive oksk : list event -> neg -> Prop :=
| ok_sk sk kb pid key z n : authsk sk -> parse KKillInformation kb = Ok (MKillInformation pid key) ->
    parse KReady z = Ok (MReady z) -> n_killinfo n = Some (MKillInformation pid key) -> n_ready n = Some z ->
    oksk (sk ++ [In (75, kb); In (90, z)]) n.

Definition inv (n : neg) (tr : list event) : Prop :=
  match n_state n with
  | Receiving => rinv n tr
  | Sending =>
      n_startup n = startup /\ n_password n = pw /\ n_fatal n = false /\ n_error n = None /\
      ((n_machine n = WaitAuth /\ tr = [] /\ n_messages n = [MStartup startup]) \/
       (n_machine n = WaitOk /\ exists body req salt a, auth_body body req salt /\ reply req salt a /\
         skel tr = [Out (MStartup startup); In (82, body)] /\ n_messages n = [MString SPassword a] /\
         exists pre, tr = Out (MStartup startup) :: map In pre ++ [In (82, body)]))
  | Complete => (n_fatal n = false /\ n_error n = None /\ oksk (skel tr) n) \/
                (n_fatal n = true /\ exists e, n_error n = Some e /\ failsk (skel tr) e)
  end.

Lemma parse_kill_inv d m : parse KKillInformation d = Ok m -> exists pid key, m = MKillInformation pid key.
Proof. cbn. destruct (length d =? 8)%nat; intros H; [okinv H; eauto|discriminate]. Qed.
Lemma parse_ready_inv d m : parse KReady d = Ok m -> m = MReady d.
Proof. cbn [parse]. destruct (existsb (seqb d) _); intros H; [okinv H; reflexivity|discriminate]. Qed.

Definition pretr (n : neg) (tr : list event) : Prop :=
  n_machine n = WaitAuth -> exists pre, tr = Out (MStartup startup) :: map In pre.

Lemma machine_inv n x n1 out ended tr : n_state n = Receiving -> rinv n tr -> is_asyncb x = false -> fst x <> 69 ->
  machine_send md5hex crypt n x = Ok (n1, out, ended) ->
  n_asyncs n1 = n_asyncs n /\ n_last n1 = n_last n /\
  ((ended = false /\ out = [] /\ n_state n1 = Receiving /\ rinv n1 (tr ++ [In x]) /\ n_machine n1 <> WaitAuth) \/
   (ended = false /\ n_machine n = WaitAuth /\ n_machine n1 = WaitOk /\
    n_startup n1 = startup /\ n_password n1 = pw /\ n_fatal n1 = false /\ n_error n1 = None /\
    exists body req salt a, x = (82, body) /\ auth_body body req salt /\ reply req salt a /\ out = [MString SPassword a]) \/
   (ended = true /\ ((n_fatal n1 = false /\ n_error n1 = None /\ oksk (skel (tr ++ [In x])) n1) \/
                     (n_fatal n1 = true /\ exists e, n_error n1 = Some e /\ failsk (skel (tr ++ [In x])) e)))).
Proof.
  intros Hst (R1 & R2 & R3 & R4 & R5) Ax N69 EM.
  assert (SK : skel (tr ++ [In x]) = skel tr ++ [In x]) by (rewrite skel_app; cbn [skel]; rewrite Ax; reflexivity).
  unfold machine_send in EM. destruct (n_machine n) eqn:Em.
  - destruct (Z.eqb_spec (fst x) 82) as [E82|N82]; cbn [negb] in EM.
    + apply bind_Ok in EM as (am & Ea & EM). apply parse_auth_inv in Ea as (req & salt & -> & AB).
      destruct x as [t body]. cbn [fst snd] in *. subst t.
      destruct (Z.eqb_spec req 0) as [->|N0].
      { injection EM as <- <- <-. split; [reflexivity|]. split; [reflexivity|]. left.
        unfold rinv; cbn [neg_upd n_state n_startup n_password n_fatal n_error n_machine n_authok].
        do 3 (split; [auto|]). split; [|discriminate]. do 4 (split; [auto|]). rewrite SK, R5. split; [|discriminate]. eapply ak_ok; eauto. }
      destruct (Z.eqb_spec req 3) as [->|N3].
      { injection EM as <- <- <-. split; [reflexivity|]. split; [reflexivity|]. right; left.
        cbn [neg_upd n_state n_startup n_password n_fatal n_error n_machine].
        repeat (split; [auto|]). exists body, 3, salt, (n_password n). split; [auto|]. split; [auto|]. split; [|auto].
        left. auto. }
      destruct (Z.eqb_spec req 4) as [->|N4].
      { injection EM as <- <- <-. split; [reflexivity|]. split; [reflexivity|]. right; left.
        cbn [neg_upd n_state n_startup n_password n_fatal n_error n_machine].
        repeat (split; [auto|]). exists body, 4, salt, (crypt (n_password n) salt). split; [auto|]. split; [auto|]. split; [|auto].
        right; left. rewrite R2. auto. }
      destruct (Z.eqb_spec req 5) as [->|N5].
      { destruct (assoc user_key (n_startup n)) as [user|] eqn:Eu; [|discriminate].
        injection EM as <- <- <-. split; [reflexivity|]. split; [reflexivity|]. right; left.
        cbn [neg_upd n_state n_startup n_password n_fatal n_error n_machine].
        repeat (split; [auto|]). eexists body, 5, salt, _. split; [auto|]. split; [auto|]. split; [|reflexivity].
        right; right. split; [auto|]. exists user. rewrite R1 in Eu. rewrite R2. auto. }
      injection EM as <- <- <-. split; [reflexivity|]. split; [reflexivity|]. right; right. split; [auto|]. right.
      cbn [neg_upd n_state n_fatal n_error]. split; [auto|]. eexists. split; [reflexivity|].
      rewrite SK, R5. eapply fk_unsup; eauto. lia.
    + injection EM as <- <- <-. split; [reflexivity|]. split; [reflexivity|]. right; right. split; [auto|]. right.
      cbn [neg_upd n_state n_fatal n_error]. split; [auto|]. eexists. split; [reflexivity|].
      rewrite SK, R5. apply fk_auth; auto.
  - destruct R5 as (body & req & salt & a & AB & RP & ST).
    apply bind_Ok in EM as (am & Ea & EM). apply parse_auth_inv in Ea as (req2 & salt2 & -> & AB2).
    destruct (Z.eqb_spec req2 0) as [->|N0].
    + injection EM as <- <- <-. split; [reflexivity|]. split; [reflexivity|]. left.
      unfold rinv; cbn [neg_upd n_state n_startup n_password n_fatal n_error n_machine n_authok].
      do 3 (split; [auto|]). split; [|discriminate]. do 4 (split; [auto|]). rewrite SK, ST. split; [|discriminate]. destruct x as [t b2]. cbn [fst snd] in *.
      cbn [app]. eapply ak_pw; eauto.
    + injection EM as <- <- <-. split; [reflexivity|]. split; [reflexivity|]. right; right. split; [auto|]. right.
      cbn [neg_upd n_state n_fatal n_error]. split; [auto|]. eexists. split; [reflexivity|].
      rewrite SK, ST. cbn [app]. eapply fk_notok; eauto.
  - destruct R5 as [AK NK]. destruct (Z.eqb_spec (fst x) 75) as [E|N]; cbn [negb] in EM.
    + apply bind_Ok in EM as (km & Ea & EM). pose proof Ea as Ea'. apply parse_kill_inv in Ea' as (pid & key & ->).
      injection EM as <- <- <-. split; [reflexivity|]. split; [reflexivity|]. left.
      unfold rinv; cbn [neg_upd n_state n_startup n_password n_fatal n_error n_machine n_authok n_killinfo].
      do 3 (split; [auto|]). split; [|discriminate]. do 4 (split; [auto|]). exists (skel tr), (snd x), pid, key.
      repeat (split; [auto|]). rewrite SK. destruct x as [t b]; cbn [fst snd] in *; subst t. reflexivity.
    + injection EM as <- <- <-. split; [reflexivity|]. split; [reflexivity|]. right; right. split; [auto|]. right.
      cbn [neg_upd n_state n_fatal n_error]. split; [auto|]. eexists. split; [reflexivity|].
      rewrite SK. apply fk_kill; auto.
  - destruct R5 as (sk & kb & pid & key & AK & PK & NK & ST). destruct (Z.eqb_spec (fst x) 90) as [E|N]; cbn [negb] in EM.
    + apply bind_Ok in EM as (rm & Ea & EM). pose proof Ea as Ea'. apply parse_ready_inv in Ea' as ->.
      injection EM as <- <- <-. split; [reflexivity|]. split; [reflexivity|]. right; right. split; [auto|]. left.
      cbn [neg_upd n_state n_fatal n_error]. split; [auto|]. split; [auto|].
      rewrite SK, ST, <- app_assoc. cbn [app]. destruct x as [t b]; cbn [fst snd] in *; subst t. econstructor; eauto.
    + injection EM as <- <- <-. split; [reflexivity|]. split; [reflexivity|]. right; right. split; [auto|]. right.
      cbn [neg_upd n_state n_fatal n_error]. split; [auto|]. eexists. split; [reflexivity|].
      rewrite SK, ST, <- app_assoc. cbn [app]. eapply fk_ready; eauto.
  - contradiction.
Qed.

Definition async_parsed (l : list wmsg) (ms : list message) : Prop :=
  Forall2 (fun x m => exists k, async_kind (fst x) = Some k /\ parse k (snd x) = Ok m) l ms.

Lemma loop_inv l : forall n c n' c' tr, n_state n = Receiving -> rinv n tr -> pretr n tr -> loop n c l = Ok (n', c') ->
  exists k, c' = c + Z.of_nat k /\ inv n' (tr ++ map In (firstn k l)) /\
   (n_state n' = Receiving -> pretr n' (tr ++ map In (firstn k l))) /\ (n_state n' = Receiving -> k = length l) /\
   (exists ms, async_parsed (filter is_asyncb (firstn k l)) ms /\ n_asyncs n' = n_asyncs n ++ ms).
Proof.
  induction l as [|x r IH]; intros n c n' c' tr Hst R P H; cbn [neg_loop] in H.
  - injection H as <- <-. exists 0%nat. rewrite Z.add_0_r. split; [reflexivity|]. cbn [firstn map]. rewrite app_nil_r.
    split; [unfold inv; rewrite Hst; exact R|]. split; [auto|]. split; [auto|]. exists []. split; [constructor|rewrite app_nil_r; reflexivity].
  - destruct (Z.eqb_spec (fst x) 69) as [E69|N69].
    + apply bind_Ok in H as (em & Ex & H). injection H as <- <-. exists 1%nat. split; [reflexivity|].
      assert (Ax : is_asyncb x = false) by (unfold is_asyncb; rewrite E69; reflexivity).
      cbn [firstn map]. destruct R as (R1 & R2 & R3 & R4 & R5). split.
      * unfold inv, neg_fail. cbn [n_state n_fatal n_error]. right. split; [reflexivity|]. rewrite R3.
        eexists. split; [reflexivity|]. rewrite skel_app. cbn [skel]. rewrite Ax.
        destruct x as [t body]. cbn [fst snd] in *. subst t. econstructor; [|exact Ex].
        destruct (n_machine n).
        -- left; exact R5.
        -- right; left. destruct R5 as (b & rq & sl & a & ? & ? & ?). eauto 8.
        -- right; right; left. tauto.
        -- right; right; right. destruct R5 as (sk & kb & pid & key & ? & ? & ? & ?). eauto 8.
        -- contradiction.
      * split; [discriminate|]. split; [discriminate|]. exists []. cbn [filter]. rewrite Ax. split; [constructor|cbn; rewrite app_nil_r; reflexivity].
    + destruct (async_kind (fst x)) as [kd|] eqn:EA.
      * assert (Ax : is_asyncb x = true) by (apply async_kind_iff; eauto).
        apply bind_Ok in H as (am & Ea & H). apply (IH _ _ _ _ (tr ++ [In x])) in H; [|exact Hst| |].
        -- destruct H as (k & -> & HI & HP & HL & ms & F & EM). exists (S k). split; [lia|].
           cbn [firstn map]. rewrite <- app_assoc in HI, HP. cbn [app] in HI, HP. split; [exact HI|]. split; [exact HP|].
           split; [intros; cbn; f_equal; auto|].
           exists (am :: ms). cbn [filter]. rewrite Ax. split; [constructor; [eauto|exact F]|]. rewrite EM. cbn [neg_async n_asyncs]. rewrite <- app_assoc. reflexivity.
        -- unfold rinv in *. cbn [neg_async n_startup n_password n_fatal n_error n_machine n_killinfo n_authok] in *.
           rewrite skel_app. cbn [skel]. rewrite Ax, app_nil_r. exact R.
        -- intros Hm. destruct (P Hm) as [pre ->]. exists (pre ++ [x]). rewrite map_app. reflexivity.
      * apply async_none in EA as Ax.
        destruct (machine_send md5hex crypt n x) as [[[n1 out] ended]|e] eqn:EM; [|discriminate]. cbn [bind] in H.
        destruct (machine_inv _ _ _ _ _ _ Hst R Ax N69 EM) as (HA & HL & [(-> & -> & St1 & R1 & NW)|[(-> & Em & Em1 & F1 & F2 & F3 & F4 & body & req & salt & a & -> & AB & RP & ->)|(-> & HF)]]).
        -- apply (IH _ _ _ _ (tr ++ [In x])) in H; [|exact St1|exact R1|intros W; contradiction].
           destruct H as (k & -> & HI & HP & HLn & ms & F & EMs). exists (S k). split; [lia|].
           cbn [firstn map]. rewrite <- app_assoc in HI, HP. cbn [app] in HI, HP. split; [exact HI|]. split; [exact HP|].
           split; [intros; cbn; f_equal; auto|].
           exists ms. cbn [filter]. rewrite Ax. split; [exact F|]. rewrite EMs, HA. reflexivity.
        -- injection H as <- <-. exists 1%nat. split; [reflexivity|]. cbn [firstn map]. split.
           ++ unfold inv. cbn [neg_state n_state n_startup n_password n_fatal n_error n_machine n_messages].
              repeat (split; [auto|]). right. split; [auto|]. exists body, req, salt, a.
              destruct R as (_ & _ & _ & _ & R5). rewrite Em in R5. rewrite skel_app, R5. cbn [skel]. rewrite Ax.
              repeat (split; [auto|]). destruct (P Em) as [pre ->]. exists pre. reflexivity.
           ++ split; [discriminate|]. split; [discriminate|]. exists []. cbn [filter]. rewrite Ax. split; [constructor|]. cbn [neg_state n_asyncs]. rewrite HA, app_nil_r. reflexivity.
        -- injection H as <- <-. exists 1%nat. split; [reflexivity|]. cbn [firstn map]. split.
           ++ unfold inv. cbn [neg_state n_state n_fatal n_error].
              destruct HF as [(F1 & F2 & F3)|F]; [left|right; exact F]. repeat (split; [auto|]).
              inversion F3; subst. econstructor; eauto.
           ++ split; [discriminate|]. split; [discriminate|]. exists []. cbn [filter]. rewrite Ax. split; [constructor|]. cbn [neg_state n_asyncs]. rewrite HA, app_nil_r. reflexivity.
Qed.

Lemma asyncs_ins l : asyncs (map In l) = filter is_asyncb l.
Proof. induction l as [|x l IH]; cbn; [reflexivity|]. rewrite IH. reflexivity. Qed.

Lemma nrun_inv n tr : nrun n tr -> inv n tr /\ (n_state n = Receiving -> pretr n tr) /\ async_parsed (asyncs tr) (n_asyncs n).
Proof.
  induction 1 as [|n tr HR (I & P & A) St|n tr id l n' c HR (I & P & A) St E].
  - split; [|split]; [|discriminate|constructor]. cbn. repeat (split; [auto|]). left. auto.
  - split; [|split].
    + unfold inv in *. rewrite St in I. cbn [neg_sent n_state]. destruct I as (F1 & F2 & F3 & F4 & [(Em & -> & EM)|(Em & body & req & salt & a & AB & RP & ST & EM & _)]).
      * unfold rinv. cbn [neg_sent n_startup n_password n_fatal n_error n_machine]. rewrite Em, EM. repeat (split; [auto|]). reflexivity.
      * unfold rinv. cbn [neg_sent n_startup n_password n_fatal n_error n_machine]. rewrite Em, EM. repeat (split; [auto|]).
        exists body, req, salt, a. rewrite skel_app, ST. auto.
    + intros _ Em. cbn [neg_sent n_machine] in Em. unfold inv in I. rewrite St in I.
      destruct I as (F1 & F2 & F3 & F4 & [(Em' & -> & EM)|(Em' & _)]); [|congruence]. rewrite EM. exists []. reflexivity.
    + rewrite asyncs_app. replace (asyncs (map Out (n_messages n))) with (@nil wmsg); [rewrite app_nil_r; exact A|].
      induction (n_messages n); cbn; auto.
  - unfold inv in I. rewrite St in I. unfold neg_put in E. destruct (id =? n_last n); [discriminate|].
    apply (loop_inv l _ _ _ _ tr) in E; [|exact St|exact I|intros Em; apply P; auto].
    destruct E as (k & -> & HI & HP & HL & ms & F & EM). rewrite Z.add_0_l, Nat2Z.id. split; [exact HI|]. split; [exact HP|].
    rewrite asyncs_app, asyncs_ins, EM. cbn [n_asyncs]. apply Forall2_app; assumption.
Qed.

Definition shape (tr : list event) : Prop :=
  tr = [] \/ (exists l, tr = Out (MStartup startup) :: map In l) \/
  (exists pre body req salt a post,
     tr = Out (MStartup startup) :: map In pre ++ In (82, body) :: Out (MString SPassword a) :: map In post /\
     Forall is_async pre /\ auth_body body req salt /\ reply req salt a).
Lemma skel_asyncs pre rest : skel (map In pre ++ rest) = skel rest -> length (skel rest) = length (skel rest) -> Forall is_async pre.
Proof.
  intros H _. induction pre as [|x pre IH]; [constructor|]. cbn [map app skel] in H. destruct (is_asyncb x) eqn:E.
  - constructor; [apply is_asyncb_spec; auto|auto].
  - exfalso. rewrite skel_app in H. apply (f_equal (@length _)) in H. cbn [length] in H. rewrite app_length in H. lia.
Qed.
Lemma nrun_shape n tr : nrun n tr -> shape tr.
Proof.
  induction 1 as [|n tr HR S St|n tr id l n' c HR S St E].
  - left; reflexivity.
  - apply nrun_inv in HR as (I & _ & _). unfold inv in I. rewrite St in I.
    destruct I as (F1 & F2 & F3 & F4 & [(Em & -> & EM)|(Em & body & req & salt & a & AB & RP & ST & EM & pre & ->)]).
    + rewrite EM. right; left. exists []. reflexivity.
    + rewrite EM. right; right. exists pre, body, req, salt, a, []. split; [cbn [map app]; rewrite <- app_assoc; reflexivity|].
      split; [|auto]. apply (skel_asyncs pre [In (82, body)]); [|auto]. cbn [skel] in ST. injection ST as ST. exact ST.
  - destruct S as [->|[[l0 ->]|(pre & body & req & salt & a & post & -> & F & AB & RP)]].
    + exfalso. apply nrun_inv in HR as (I & _ & _). unfold inv in I. rewrite St in I. destruct I as (_ & _ & _ & _ & I).
      cbn [skel] in I. destruct (n_machine n).
      * discriminate.
      * destruct I as (? & ? & ? & ? & _ & _ & I). discriminate.
      * destruct I as [I _]. inversion I.
      * destruct I as (sk & ? & ? & ? & A & _ & _ & I). destruct sk; discriminate.
      * exact I.
    + right; left. eexists. cbn [app]. rewrite <- map_app. reflexivity.
    + right; right. exists pre, body, req, salt, a, (post ++ firstn (Z.to_nat c) l).
      split; [|auto]. cbn [app]. rewrite <- app_assoc. cbn [app]. rewrite map_app. reflexivity.
Qed.

Lemma auth_body_fun b r s r' s' : auth_body b r s -> auth_body b r' s' -> r = r' /\ s = s'.
Proof. intros H H'. apply parse_auth_ok in H, H'. rewrite H in H'. injection H'. auto. Qed.
Lemma reply_req req salt a : reply req salt a -> req = 3 \/ req = 4 \/ req = 5.
Proof. unfold NegSpec.reply. tauto. Qed.
Lemma authsk_parts sk : authsk sk -> auth_part (ins sk) /\ exists m r, sk = Out m :: r.
Proof.
  intros H. inversion H as [body salt AB|body req salt a t body2 salt2 AB RP NA NE AB2]; subst.
  - split; [left; exists body, salt; split; [reflexivity|exact AB]|do 2 eexists; reflexivity].
  - split; [|do 2 eexists; reflexivity]. right. exists body, req, salt, t, body2, salt2. split.
    + cbn [ins]. rewrite NA. reflexivity.
    + split; [exact AB|]. split; [eapply reply_req; exact RP|exact AB2].
Qed.
Lemma authsk_first sk body r : authsk sk -> (exists l, sk ++ l = Out (MStartup startup) :: In (82, body) :: r) -> forall req salt,
  auth_body body req salt -> req = 0 \/ req = 3 \/ req = 4 \/ req = 5.
Proof.
  intros H [l E] req salt AB. inversion H; subst; cbn [app] in E; injection E as <- E.
  - destruct (auth_body_fun _ _ _ _ _ H0 AB). auto.
  - destruct (auth_body_fun _ _ _ _ _ H0 AB) as [<- <-]. apply reply_req in H1. tauto.
Qed.
Lemma unsupported n tr pre body post req salt : nrun n tr ->
  tr = Out (MStartup startup) :: map In (pre ++ (82, body) :: post) -> Forall is_async pre ->
  auth_body body req salt -> ~ (req = 0 \/ req = 3 \/ req = 4 \/ req = 5) ->
  n_state n = Complete /\ n_fatal n = true /\ n_error n = Some (NUnsupported req).
Proof.
  intros HR -> F AB NR. apply nrun_inv in HR as (I & _ & _).
  set (tr := Out (MStartup startup) :: map In (pre ++ (82, body) :: post)) in *.
  assert (SK : exists r, skel tr = Out (MStartup startup) :: In (82, body) :: r).
  { subst tr. cbn [skel]. eexists. f_equal. clear I. induction F as [|x pre Hx F IH]; cbn [app map skel]; [reflexivity|].
    apply is_asyncb_spec in Hx. rewrite Hx. exact IH. }
  destruct SK as [r SK]. clearbody tr.
  assert (CA : forall sk l, authsk sk -> skel tr = sk ++ l -> False).
  { intros sk l A E. apply NR. eapply authsk_first; eauto. exists l. rewrite <- E. exact SK. }
  assert (CB : forall b rq sl a l, auth_body b rq sl -> reply rq sl a ->
     skel tr = Out (MStartup startup) :: In (82, b) :: l -> False).
  { intros b rq sl a l A R E. rewrite E in SK. injection SK as -> _. destruct (auth_body_fun _ _ _ _ _ A AB) as [<- <-].
    apply reply_req in R. tauto. }
  unfold inv in I. destruct (n_state n).
  - destruct I as (F1 & F2 & F3 & F4 & [(Em & E & EM)|(Em & b & rq & sl & a & A & RP & ST & EM & _)]); exfalso.
    + rewrite E in SK. discriminate.
    + eapply CB; [exact A|exact RP|exact ST].
  - exfalso. destruct I as (_ & _ & _ & _ & I). destruct (n_machine n).
    + rewrite I in SK. discriminate.
    + destruct I as (b & rq & sl & a & A & R & E). eapply CB; [exact A|exact R|exact E].
    + destruct I as [A _]. eapply (CA _ []); eauto. rewrite app_nil_r. reflexivity.
    + destruct I as (sk & kb & pid & key & A & _ & _ & E). eapply CA; [exact A|exact E].
    + exact I.
  - split; [reflexivity|]. destruct I as [(F1 & F2 & O)|(F1 & e & Ee & K)].
    + exfalso. inversion O; subst. eapply CA; eauto.
    + split; [exact F1|]. rewrite Ee. f_equal. inversion K; subst.
      * exfalso. destruct H0 as [->|[(b & rq & sl & a & A & R & ->)|[A|(sk0 & kb & pid & key & A & _ & ->)]]].
        -- rewrite SK in H. discriminate.
        -- eapply CB; eauto. rewrite <- H. reflexivity.
        -- eapply CA; eauto.
        -- eapply CA; eauto. rewrite <- H, <- app_assoc. reflexivity.
      * exfalso. rewrite SK in H. injection H as -> _. apply H1. reflexivity.
      * rewrite SK in H. injection H as -> _. destruct (auth_body_fun _ _ _ _ _ H0 AB) as [-> _]. reflexivity.
      * exfalso. eapply CB; [exact H0|exact H1|symmetry; exact H].
      * exfalso. eapply CA; first [eassumption|symmetry; eassumption].
      * exfalso. eapply CA; first [eassumption|symmetry; eassumption].
Qed.

Lemma success n tr : nrun n tr -> n_state n = Complete -> n_fatal n = false ->
  exists auth kb pid key z, ins tr = auth ++ [(75, kb); (90, z)] /\ auth_part auth /\
    parse KKillInformation kb = Ok (MKillInformation pid key) /\ n_killinfo n = Some (MKillInformation pid key) /\
    n_ready n = Some z /\ (z = [73] \/ z = [69] \/ z = [84]).
Proof.
  intros HR St F. apply nrun_inv in HR as (I & _ & _). unfold inv in I. rewrite St in I.
  destruct I as [(_ & _ & O)|(F1 & _)]; [|congruence]. inversion O; subst.
  apply authsk_parts in H0 as [A _]. exists (ins sk), kb, pid, key, z.
  rewrite <- skel_ins, <- H, ins_app. cbn [ins is_asyncb fst]. 
  split; [reflexivity|]. repeat (split; [assumption|]). 
  cbn [parse] in H2. destruct (existsb (seqb z) [[73]; [69]; [84]]) eqn:E; [|discriminate].
  cbn [existsb] in E. rewrite !orb_true_iff, !seqb_eq in E. destruct E as [E|[E|[E|E]]]; [auto|auto|auto|discriminate].
Qed.

(** conversely: what is in [ins tr] in each state *)
Definition no_error (l : list wmsg) : Prop := Forall (fun x => fst x <> 69) l.
Lemma auth_part_first l : auth_part l -> exists body r, l = (82, body) :: r /\ (length r <= 1)%nat.
Proof. intros [(b & s & -> & _)|(b & rq & s & t & b2 & s2 & -> & _)]; do 2 eexists; (split; [reflexivity|cbn; lia]). Qed.
Lemma authsk_ins sk : authsk sk -> (exists body salt, ins sk = [(82, body)] /\ auth_body body 0 salt) \/
  (exists body req salt t body2, ins sk = [(82, body); (t, body2)] /\ auth_body body req salt /\ (req = 3 \/ req = 4 \/ req = 5) /\ t <> 69).
Proof.
  intros H. inversion H as [body salt AB|body req salt a t body2 salt2 AB RP NA NE AB2]; subst.
  - left. exists body, salt. split; [reflexivity|exact AB].
  - right. exists body, req, salt, t, body2. split; [cbn [ins]; rewrite NA; reflexivity|].
    split; [exact AB|]. split; [eapply reply_req; exact RP|exact NE].
Qed.
Lemma complete n tr auth kb z : nrun n tr -> ins tr = auth ++ [(75, kb); (90, z)] -> auth_part auth ->
  no_error (ins tr) -> n_state n = Complete /\ n_fatal n = false.
Proof.
  intros HR E A NE. apply nrun_inv in HR as (I & _ & _).
  assert (L1 : (1 <= length auth)%nat) by (destruct (auth_part_first _ A) as (? & ? & -> & _); cbn; lia).
  assert (AL : forall sk, authsk sk -> forall l, ins sk ++ l = auth ++ [(75, kb); (90, z)] -> l = [(75, kb); (90, z)]).
  { intros sk B l H. destruct (authsk_ins _ B) as [(b0 & s0 & Ei & AB0)|(b0 & r0 & s0 & t0 & b20 & Ei & AB0 & R0 & _)]; rewrite Ei in H; cbn [app] in H.
    - destruct A as [(b & s & -> & AB)|(b & rq & s & t & b2 & s2 & -> & AB & R & AB2)]; cbn [app] in H.
      + injection H as _ H. exact H.
      + injection H as -> H. exfalso. destruct (auth_body_fun _ _ _ _ _ AB0 AB) as [<- _]. lia.
    - destruct A as [(b & s & -> & AB)|(b & rq & s & t & b2 & s2 & -> & AB & R & AB2)]; cbn [app] in H.
      + injection H as -> H. exfalso. destruct (auth_body_fun _ _ _ _ _ AB0 AB) as [-> _]. lia.
      + injection H as _ _ _ H. exact H. }
  assert (PL : forall body rq sl, auth_body body rq sl -> forall x, [(82, body); x] = auth ++ [(75, kb); (90, z)] -> False).
  { intros body rq sl _ x H. destruct (auth_part_first _ A) as (b & r & -> & L). apply (f_equal (@length _)) in H; rewrite app_length in H; cbn in H; lia. }
  assert (NA : forall x, is_asyncb x = false -> ins [In x] = [x]) by (intros x H; cbn; rewrite H; reflexivity).
  unfold inv in I. destruct (n_state n).
  - exfalso. destruct I as (F1 & F2 & F3 & F4 & [(Em & -> & EM)|(Em & b & rq & sl & a & AB & RP & ST & EM & _)]).
    + apply (f_equal (@length _)) in E; rewrite app_length in E; cbn in E; lia.
    + rewrite <- skel_ins, ST in E. cbn in E. apply (f_equal (@length _)) in E; rewrite app_length in E; cbn in E; lia.
  - exfalso. destruct I as (_ & _ & _ & _ & I). destruct (n_machine n).
    + rewrite <- skel_ins, I in E. apply (f_equal (@length _)) in E; rewrite app_length in E; cbn in E; lia.
    + destruct I as (b & rq & sl & a & AB & RP & ST). rewrite <- skel_ins, ST in E. cbn in E. apply (f_equal (@length _)) in E; rewrite app_length in E; cbn in E; lia.
    + destruct I as [B _]. rewrite <- skel_ins in E. specialize (AL _ B [] ltac:(rewrite app_nil_r; exact E)). discriminate.
    + destruct I as (sk & kb' & pid & key & B & _ & _ & ST). rewrite <- skel_ins, ST, ins_app in E. specialize (AL _ B _ E). discriminate.
    + exact I.
  - split; [reflexivity|]. destruct I as [(F & _)|(F1 & e & Ee & K)]; [exact F|exfalso].
    rewrite <- skel_ins in E, NE. inversion K; subst.
    + rewrite <- H in NE. rewrite ins_app in NE. apply Forall_app in NE as [_ NE]. inversion NE; subst. cbn in H4. lia.
    + rewrite <- H in E. cbn [ins] in E. rewrite H2 in E. apply (f_equal (@length _)) in E; rewrite app_length in E; cbn in E; lia.
    + rewrite <- H in E. cbn in E. apply (f_equal (@length _)) in E; rewrite app_length in E; cbn in E; lia.
    + rewrite <- H in E. cbn [ins] in E. rewrite H3 in E. eapply (PL body); [eauto|exact E].
    + rewrite <- H, ins_app in E. rewrite (NA x) in E by assumption. specialize (AL _ H0 _ E). discriminate.
    + rewrite <- H, ins_app in E. specialize (AL _ H0 _ E).
      change (ins [In (75, kb0); In x]) with ((75, kb0) :: ins [In x]) in AL. rewrite (NA x) in AL by assumption. injection AL as _ ->. cbn in H3. lia.
Qed.

Lemma error_fatal n tr body : nrun n tr -> List.In (69, body) (ins tr) -> n_state n = Complete /\ n_fatal n = true /\
  exists pre d, ins tr = pre ++ [(69, body)] /\ parse (KNotice true) body = Ok d /\ n_error n = Some (NServer d).
Proof.
  intros HR Hin. apply nrun_inv in HR as (I & _ & _).
  assert (AN : forall sk, authsk sk -> forall x, List.In x (ins sk) -> fst x <> 69).
  { intros sk B x Hx. destruct (authsk_ins _ B) as [(b0 & s0 & Ei & AB0)|(b0 & r0 & s0 & t0 & b20 & Ei & AB0 & R0 & N)]; rewrite Ei in Hx.
    - destruct Hx as [<-|[]]. discriminate.
    - destruct Hx as [<-|[<-|[]]]; [discriminate|exact N]. }
  assert (NA : forall x, is_asyncb x = false -> ins [In x] = [x]) by (intros x H; cbn; rewrite H; reflexivity).
  unfold inv in I. rewrite <- skel_ins in *. destruct (n_state n).
  - exfalso. destruct I as (F1 & F2 & F3 & F4 & [(Em & -> & EM)|(Em & b & rq & sl & a & AB & RP & ST & EM & _)]).
    + destruct Hin.
    + rewrite ST in Hin. cbn in Hin. destruct Hin as [H|[]]. discriminate.
  - exfalso. destruct I as (_ & _ & _ & _ & I). destruct (n_machine n).
    + rewrite I in Hin. destruct Hin.
    + destruct I as (b & rq & sl & a & AB & RP & ST). rewrite ST in Hin. destruct Hin as [H|[]]. discriminate.
    + destruct I as [B _]. apply (AN _ B _ Hin). reflexivity.
    + destruct I as (sk & kb' & pid & key & B & _ & _ & ST). rewrite ST, ins_app, in_app_iff in Hin.
      destruct Hin as [Hin|[H|[]]]; [apply (AN _ B _ Hin); reflexivity|discriminate].
    + exact I.
  - split; [reflexivity|]. destruct I as [(F & _ & O)|(F1 & e & Ee & K)].
    + exfalso. inversion O; subst. rewrite <- H, ins_app, in_app_iff in Hin. 
      destruct Hin as [Hin|[Hin|[Hin|[]]]]; [apply (AN _ H0 _ Hin); reflexivity|discriminate|discriminate].
    + split; [exact F1|]. rewrite Ee. inversion K; subst.
      * exists (ins sk), d.
        assert (body0 = body) as ->.
        { rewrite <- H, ins_app, in_app_iff in Hin. destruct Hin as [Hin|[Hin|[]]]; [exfalso|injection Hin; auto].
          destruct H0 as [->|[(b & rq & sl & a & A & R & ->)|[A|(sk0 & kb & pid & key & A & _ & ->)]]].
          - destruct Hin.
          - destruct Hin as [Hin|[]]. discriminate.
          - apply (AN _ A _ Hin). reflexivity.
          - rewrite ins_app, in_app_iff in Hin. destruct Hin as [Hin|[Hin|[]]]; [apply (AN _ A _ Hin); reflexivity|discriminate]. }
        split; [rewrite ins_app; reflexivity|]. auto.
      * exfalso. rewrite <- H in Hin. cbn [ins] in Hin. rewrite H2 in Hin. destruct Hin as [->|[]]. apply H0; reflexivity.
      * exfalso. rewrite <- H in Hin. destruct Hin as [Hin|[]]. discriminate.
      * exfalso. rewrite <- H in Hin. cbn [ins] in Hin. rewrite H3 in Hin. destruct Hin as [Hin|[->|[]]]; [discriminate|apply H2; reflexivity].
      * exfalso. rewrite <- H, ins_app, (NA x), in_app_iff in Hin by assumption. destruct Hin as [Hin|[->|[]]]; [apply (AN _ H0 _ Hin); reflexivity|apply H1; reflexivity].
      * exfalso. rewrite <- H, ins_app, in_app_iff in Hin.
        change (ins [In (75, kb); In x]) with ((75, kb) :: ins [In x]) in Hin. rewrite (NA x) in Hin by assumption.
        destruct Hin as [Hin|[Hin|[->|[]]]]; [apply (AN _ H0 _ Hin); reflexivity|discriminate|apply H2; reflexivity].
Qed.
Lemma fatal_has_error n tr : nrun n tr -> (n_fatal n = true <-> n_error n <> None) /\ (n_fatal n = true -> n_state n = Complete).
Proof.
  intros HR. apply nrun_inv in HR as (I & _ & _). unfold inv in I. destruct (n_state n).
  - destruct I as (_ & _ & -> & -> & _). split; [split; [discriminate|congruence]|discriminate].
  - destruct I as (_ & _ & -> & -> & _). split; [split; [discriminate|congruence]|discriminate].
  - split; [|auto]. destruct I as [(-> & -> & _)|(-> & e & -> & _)]; split; try discriminate; auto; congruence.
Qed.
End S.

Lemma async_parsed_is l ms : async_parsed l ms -> Forall2 async_is l ms.
Proof.
  intros H. induction H as [|x m l ms (k & E & P) H IH]; [constructor|]. constructor; [|exact IH].
  unfold async_kind in E. destruct (Z.eqb_spec (fst x) 78); [injection E as <-; left; auto|].
  destruct (Z.eqb_spec (fst x) 65); [injection E as <-; right; left; auto|].
  destruct (Z.eqb_spec (fst x) 83); [injection E as <-; right; right; auto|discriminate].
Qed.
