(** MesgProof2.v: hooks and the delivery of messages *)
From Verif Require Import Base BaseProof PyStr PyDict PyDictProof PyListProof Element3Model ExcModel ExcTable ExcSpec MesgModel MesgSpec MesgProof.
Open Scope Z_scope.
Local Opaque ErrorLookup WarningLookup.

Section hooks.
Context (factor : nat -> option nat) (hooked : nat -> bool) (answer : log -> nat -> msg -> res bool) (syshook : log -> msg -> option exn).
Lemma given_skip m o l : hooked o = false -> given hooked m (o :: l) = given hooked m l.
Proof. intros H. unfold given. cbn [filter]. now rewrite H. Qed.
Lemma given_cons m o l : hooked o = true -> given hooked m (o :: l) = (Some o, m) :: given hooked m l.
Proof. intros H. unfold given. cbn [filter]. now rewrite H. Qed.
Lemma declined_nil g m : declined hooked answer g m [].
Proof. intros p o r E. destruct p; discriminate. Qed.
Lemma declined_skip g m o l : hooked o = false -> declined hooked answer g m l -> declined hooked answer g m (o :: l).
Proof. intros H D p q r E. rewrite given_skip in E by exact H. eapply D; eassumption. Qed.
Lemma declined_cons g m o l : hooked o = true -> answer g o m = Ok false -> declined hooked answer (g ++ [(Some o, m)]) m l -> declined hooked answer g m (o :: l).
Proof.
  intros H A D p q r E. rewrite given_cons in E by exact H. destruct p as [|x p].
  - injection E as <- _. now rewrite app_nil_r.
  - injection E as <- E. apply D in E. now rewrite <- app_assoc in E.
Qed.
Lemma emission_skip g m o l c r : hooked o = false -> emission hooked answer syshook g m l c r -> emission hooked answer syshook g m (o :: l) c r.
Proof.
  intros H E. destruct E as [p q r' -> Hq D A|p q r' e -> Hq D A|D S|e D S].
  - rewrite <- (given_skip m o p H) in A |- *. apply (em_trapped _ _ _ _ _ _ (o :: p) q r'); auto using declined_skip.
  - rewrite <- (given_skip m o p H) in A |- *. apply (em_raised _ _ _ _ _ _ (o :: p) q r'); auto using declined_skip.
  - rewrite <- (given_skip m o l H) in S |- *. apply em_system; auto using declined_skip.
  - rewrite <- (given_skip m o l H) in S |- *. apply em_system_raised; auto using declined_skip.
Qed.
Lemma emission_cons g m o l c r : hooked o = true -> answer g o m = Ok false -> emission hooked answer syshook (g ++ [(Some o, m)]) m l c r ->
  emission hooked answer syshook g m (o :: l) ((Some o, m) :: c) r.
Proof.
  intros H A E. destruct E as [p q r' -> Hq D A'|p q r' e -> Hq D A'|D S|e D S].
  - rewrite (app_comm_cons (given hooked m p)), <- (given_cons m o p H). apply (em_trapped _ _ _ _ _ _ (o :: p) q r'); auto using declined_cons.
    rewrite given_cons by exact H. now rewrite <- app_assoc in A'.
  - rewrite (app_comm_cons (given hooked m p)), <- (given_cons m o p H). apply (em_raised _ _ _ _ _ _ (o :: p) q r'); auto using declined_cons.
    rewrite given_cons by exact H. now rewrite <- app_assoc in A'.
  - rewrite (app_comm_cons (given hooked m l)), <- (given_cons m o l H). apply em_system; auto using declined_cons.
    rewrite given_cons by exact H. now rewrite <- app_assoc in S.
  - rewrite (app_comm_cons (given hooked m l)), <- (given_cons m o l H). apply em_system_raised; auto using declined_cons.
    rewrite given_cons by exact H. now rewrite <- app_assoc in S.
Qed.
Lemma emission_none g m : let c := [(None, m)] in let r := match syshook g m with Some e => Err e | None => Ok None end in
  emission hooked answer syshook g m [] c r.
Proof.
  cbv zeta. change [(None, m)] with (given hooked m [] ++ [(None, m)]). destruct (syshook g m) as [e|] eqn:E.
  - apply (em_system_raised _ _ _ _ _ _ e); [apply declined_nil|]. cbn [given filter map]. now rewrite app_nil_r.
  - apply em_system; [apply declined_nil|]. cbn [given filter map]. now rewrite app_nil_r.
Qed.
Lemma emit_from_ok n g m o l : chain factor o l -> (length l <= n)%nat ->
  exists c r, emit_from factor hooked answer syshook n g m (Some o) = (g ++ c, r) /\ emission hooked answer syshook g m l c r.
Proof.
  intros C. revert n g. induction C as [o F|o p l F C IH]; intros n g LE; (destruct n as [|n]; [cbn [length] in LE; lia|]); cbn [emit_from].
  - destruct (hooked o) eqn:H.
    + destruct (answer g o m) as [[|]|e] eqn:A.
      * exists [(Some o, m)], (Ok (Some o)). split; [reflexivity|]. apply (em_trapped hooked answer syshook g m [o] [] o []); auto using declined_nil. cbn [given filter map]. now rewrite app_nil_r.
      * rewrite F. destruct n; cbn [emit_from].
        all: exists ((Some o, m) :: [(None, m)]), (match syshook (g ++ [(Some o, m)]) m with Some e => Err e | None => Ok None end);
          split; [rewrite <- app_assoc; reflexivity|]; apply emission_cons; auto; apply emission_none.
      * exists [(Some o, m)], (Err e). split; [reflexivity|]. apply (em_raised hooked answer syshook g m [o] [] o []); auto using declined_nil. cbn [given filter map]. now rewrite app_nil_r.
    + rewrite F. destruct n; cbn [emit_from].
      all: exists [(None, m)], (match syshook g m with Some e => Err e | None => Ok None end); split; [reflexivity|]; apply emission_skip; auto; apply emission_none.
  - cbn [length] in LE. destruct (hooked o) eqn:H.
    + destruct (answer g o m) as [[|]|e] eqn:A.
      * exists [(Some o, m)], (Ok (Some o)). split; [reflexivity|]. apply (em_trapped hooked answer syshook g m (o :: l) [] o l); auto using declined_nil. cbn [given filter map]. now rewrite app_nil_r.
      * rewrite F. destruct (IH n (g ++ [(Some o, m)])) as (c & r & E & EM); [lia|]. exists ((Some o, m) :: c), r. rewrite E. split; [now rewrite <- app_assoc|].
        now apply emission_cons.
      * exists [(Some o, m)], (Err e). split; [reflexivity|]. apply (em_raised hooked answer syshook g m (o :: l) [] o l); auto using declined_nil. cbn [given filter map]. now rewrite app_nil_r.
    + rewrite F. destruct (IH n g) as (c & r & E & EM); [lia|]. exists c, r. split; [exact E|]. now apply emission_skip.
Qed.
Lemma emission_calls g m l c r : emission hooked answer syshook g m l c r -> c <> [] /\ Forall (fun x => snd x = m) c.
Proof.
  assert (G : forall p, Forall (fun x => snd x = m) (given hooked m p)).
  { intros p. unfold given. rewrite Forall_map. apply Forall_forall. auto. }
  intros E. destruct E; (split; [now destruct (given hooked m _)|]); apply Forall_app; split; auto.
Qed.
End hooks.

Section d.
Context (csource : option class -> text) (decode_in : text -> bytes -> option text) (known : text -> bool) (upper : Z -> text) (U : unicode)
        (factor : nat -> option nat) (hooked : nat -> bool) (answer : log -> nat -> msg -> res bool) (syshook : log -> msg -> option exn) (fuel : nat)
        (self : nat) (sett : list (bytes * bytes) -> bytes * bytes -> option exn) (repr_msg : message -> text).
Notation recv := (receive_async csource decode_in known upper U factor hooked answer syshook fuel self sett repr_msg).
Notation deliver1 := (deliver1 csource decode_in known upper U factor hooked answer syshook fuel self sett repr_msg).
Notation deliver := (deliver csource decode_in known upper U factor hooked answer syshook fuel self sett repr_msg).

Lemma message_of_complete codec l creator : NoDup (map fst l) -> Forall (fun kv => is_bytes (snd kv)) l -> complete l ->
  exists m, message_of csource upper (decode_notice decode_in codec l) (str "SERVER") creator self = Ok m /\ notice_message decode_in upper creator self codec l m.
Proof.
  intros ND FB ((s & IS) & (c & IC) & (ms & IM)). unfold message_of.
  pose proof (field_get decode_in codec 67 c (str "code") l ND IC f_code) as GC.
  pose proof (field_get decode_in codec 77 ms (str "message") l ND IM f_message) as GM.
  pose proof (field_get decode_in codec 83 s (str "severity") l ND IS f_severity) as GS.
  destruct (two_pops (str "message") (str "code") _ _ _ ltac:(discriminate) GM GC) as [P1 P2].
  rewrite P1. cbn [bind]. rewrite P2. cbn [bind].
  assert (GS' : dget (str "severity") (ddel (str "code") (ddel (str "message") (decode_notice decode_in codec l))) = Some (shown decode_in codec s)).
  { rewrite !dget_del. rewrite !seqb_ne by discriminate. exact GS. }
  rewrite GS'. eexists. split; [reflexivity|].
  unfold notice_message. split; [|split; [|split; [|split; reflexivity]]].
  - exists c, ms. split; [exact IC|]. split; [exact IM|]. unfold carries. rewrite new_code. rewrite Forall_forall in FB.
    split; [apply shown_shows, (FB _ IC)|]. split; [apply shown_shows, (FB _ IM)|]. apply rest_details; [auto|exact ND|]. now rewrite Forall_forall.
  - exists (shown decode_in codec s). split; [exact GS'|]. rewrite new_code. reflexivity.
  - apply new_source.
Qed.
Lemma message_of_incomplete codec l creator : NoDup (map fst l) -> ~ complete l ->
  message_of csource upper (decode_notice decode_in codec l) (str "SERVER") creator self = Err KeyError.
Proof.
  intros ND NC. unfold message_of, dpop.
  destruct (dget (str "message") (decode_notice decode_in codec l)) as [t1|] eqn:E1; [|reflexivity]. cbn [bind].
  rewrite dget_del, (seqb_ne (str "code") (str "message")) by discriminate.
  destruct (dget (str "code") (decode_notice decode_in codec l)) as [t2|] eqn:E2; [|reflexivity]. cbn [bind].
  rewrite !dget_del. rewrite !seqb_ne by discriminate.
  destruct (dget (str "severity") (decode_notice decode_in codec l)) as [t3|] eqn:E3; [|reflexivity].
  exfalso. apply NC. apply decode_spec in E1 as (z1 & v1 & I1 & F1 & _); [|exact ND]. apply decode_spec in E2 as (z2 & v2 & I2 & F2 & _); [|exact ND].
  apply decode_spec in E3 as (z3 & v3 & I3 & F3 & _); [|exact ND].
  rewrite (field_inj _ _ _ F1 f_message) in I1. rewrite (field_inj _ _ _ F2 f_code) in I2. rewrite (field_inj _ _ _ F3 f_severity) in I3.
  split; [now exists v3|]. split; [now exists v2|now exists v1].
Qed.
Lemma complete_dec l : complete l \/ ~ complete l.
Proof.
  assert (G : forall k : bytes, (exists v, In (k, v) l) \/ ~ (exists v : bytes, In (k, v) l)).
  { intros k. destruct (in_dec (list_eq_dec Z.eq_dec) k (map fst l)) as [I|I].
    - left. apply in_map_iff in I as ([k' v] & E & I). cbn [fst] in E. subst. now exists v.
    - right. intros (v & J). apply I. apply in_map_iff. now exists (k, v). }
  unfold complete. destruct (G (str "S")), (G (str "C")), (G (str "M")); tauto.
Qed.

Definition creator_of (s : conn) : nat := match c_controller s with Some c => c | None => self end.
Lemma deliver_spec ch l s : chain factor (creator_of s) ch -> (length ch <= fuel)%nat -> Forall asynchronous l ->
  let s' := deliver s l in
  c_controller s' = c_controller s /\ c_running s' = c_running s /\ c_notifies s' = c_notifies s ++ notifications l /\
  exists ms cs, heard decode_in known upper U (creator_of s) self (c_codec s) l ms (c_codec s') /\ c_log s' = c_log s ++ cs /\
    emissions hooked answer syshook ch (c_log s) ms cs.
Proof.
  intros CH LE F. revert s CH. induction F as [|m l A F IH]; intros s CH; cbv zeta.
  - unfold MesgModel.deliver. cbn [fold_left notifications flat_map]. rewrite app_nil_r. repeat (split; [reflexivity|]).
    exists [], []. rewrite app_nil_r. repeat split; constructor.
  - change (deliver s (m :: l)) with (deliver (deliver1 s m) l).
    assert (CR : c_controller (deliver1 s m) = c_controller s -> creator_of (deliver1 s m) = creator_of s) by (intros HH; unfold creator_of; now rewrite HH).
    destruct m; cbn [asynchronous] in A; try contradiction.
    + (* Notify *)
      specialize (IH (deliver1 s (MNotify pid channel payload)) CH). cbv zeta in IH. destruct IH as (I1 & I2 & I3 & ms & cs & I4 & I5 & I6).
      split; [exact I1|]. split; [exact I2|]. split; [rewrite I3; cbn [MesgModel.deliver1 receive_async c_notifies notifications flat_map app]; now rewrite <- app_assoc|].
      exists ms, cs. split; [now apply h_notify|]. split; [exact I5|exact I6].
    + (* ShowOption *)
      assert (G : c_controller (deliver1 s (MShowOption name value)) = c_controller s /\ c_running (deliver1 s (MShowOption name value)) = c_running s /\
        c_notifies (deliver1 s (MShowOption name value)) = c_notifies s /\ c_log (deliver1 s (MShowOption name value)) = c_log s /\
        c_codec (deliver1 s (MShowOption name value)) = if seqb name (str "client_encoding") then
          (if decode_ascii value then (let e := py_strip U (py_lower U value) in let n := get_python_name e in let n := if seqb n [] then e else n in if known n then n else c_codec s) else c_codec s)
          else c_codec s).
      { unfold MesgModel.deliver1, receive_async. destruct (seqb name (str "client_encoding")).
        - unfold decode_ascii. destruct (forallb _ value); [|repeat split; reflexivity].
          unfold set_encoding. cbv zeta. destruct (known (if seqb (get_python_name (py_strip U (py_lower U value))) [] then py_strip U (py_lower U value) else get_python_name (py_strip U (py_lower U value)))) eqn:K.
          + unfold tell. destruct (sett _ _); cbn [c_controller c_running c_notifies c_log c_codec]; repeat split; reflexivity.
          + cbn [c_controller c_running c_notifies c_log c_codec]; repeat split; reflexivity.
        - unfold tell. destruct (sett _ _); cbn [c_controller c_running c_notifies c_log c_codec]; repeat split; reflexivity. }
      destruct G as (G1 & G2 & G3 & G4 & G5). specialize (CR G1).
      assert (CH' : chain factor (creator_of (deliver1 s (MShowOption name value))) ch) by now rewrite CR.
      specialize (IH _ CH'). cbv zeta in IH. destruct IH as (I1 & I2 & I3 & ms & cs & I4 & I5 & I6).
      split; [congruence|]. split; [congruence|]. split; [rewrite I3, G3; reflexivity|].
      exists ms, cs. rewrite CR, G5 in I4. rewrite G4 in I5, I6. split; [|split; [exact I5|exact I6]].
      destruct (seqb_spec name (str "client_encoding")) as [->|N].
      * eapply h_encoding; [exact I4|reflexivity].
      * now apply h_setting.
    + (* Notice *)
      destruct error; [contradiction|]. destruct A as (ND & FA).
      assert (FB : Forall (fun kv : bytes * bytes => is_bytes (snd kv)) d) by (eapply Forall_impl; [|exact FA]; cbv beta; intros ? [_ ?]; assumption).
      destruct (complete_dec d) as [CO|NC].
      * destruct (message_of_complete (c_codec s) d (creator_of s) ND FB CO) as (m & E & NM).
        assert (MC : m_creator m = creator_of s) by apply NM.
        assert (CHm : chain factor (m_creator m) ch) by now rewrite MC.
        destruct (emit_from_ok factor hooked answer syshook fuel (c_log s) m (m_creator m) ch CHm LE) as (c & r & EE & EM).
        assert (G : c_controller (deliver1 s (MNotice false d)) = c_controller s /\ c_running (deliver1 s (MNotice false d)) = c_running s /\
          c_notifies (deliver1 s (MNotice false d)) = c_notifies s /\ c_log (deliver1 s (MNotice false d)) = c_log s ++ c /\ c_codec (deliver1 s (MNotice false d)) = c_codec s).
        { unfold MesgModel.deliver1, receive_async. fold (creator_of s). rewrite E. unfold emitted, emit. rewrite EE. destruct r; cbn [c_controller c_running c_notifies c_log c_codec]; repeat split; reflexivity. }
        destruct G as (G1 & G2 & G3 & G4 & G5). specialize (CR G1).
        assert (CH' : chain factor (creator_of (deliver1 s (MNotice false d))) ch) by now rewrite CR.
        specialize (IH _ CH'). cbv zeta in IH. destruct IH as (I1 & I2 & I3 & ms & cs & I4 & I5 & I6).
        split; [congruence|]. split; [congruence|]. split; [rewrite I3, G3; reflexivity|].
        exists (m :: ms), (c ++ cs). rewrite CR, G5 in I4. rewrite G4 in I5, I6.
        split; [now apply h_notice|]. split; [now rewrite app_assoc|]. eapply ems_cons; eassumption.
      * assert (G : deliver1 s (MNotice false d) = {| c_encoding := c_encoding s; c_codec := c_codec s; c_controller := c_controller s; c_notifies := c_notifies s;
                 c_told := c_told s; c_log := c_log s; c_excs := c_excs s ++ [KeyError]; c_running := c_running s |}).
        { unfold MesgModel.deliver1, receive_async. fold (creator_of s). rewrite message_of_incomplete by assumption. reflexivity. }
        assert (CH' : chain factor (creator_of (deliver1 s (MNotice false d))) ch) by (rewrite G; exact CH).
        specialize (IH _ CH'). cbv zeta in IH. destruct IH as (I1 & I2 & I3 & ms & cs & I4 & I5 & I6). rewrite G in *.
        split; [exact I1|]. split; [exact I2|]. split; [exact I3|]. exists ms, cs. split; [|split; [exact I5|exact I6]]. now apply h_incomplete.
Qed.
End d.
