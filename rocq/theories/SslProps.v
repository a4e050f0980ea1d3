(** SslProps.v: C33 *)
From Verif Require Import Base PBufferModel Element3Model Element3Spec PyStr IterModel IterProof PyDictProof.
From Verif Require Import SslModel SslSpec SslProof SslProof2.

(** ** require: nothing of the start-up is sent on a socket before its TLS handshake is
    complete, and the connection made is a TLS one *)
Theorem C33_require_always_tls : forall (H : Type) (hosts : option (list H)) out ev log r,
  establish (Some (str "require")) hosts out = Ok (ev, log, r) ->
  (forall s, before (STls s) (SStartup s) ev) /\
  (forall a security, r = Connected a security -> security = true /\ List.In (STls (a_num a)) ev).
Proof.
  intros H hosts out ev log r E. apply establish_inv in E as (K & E).
  change (match str "require" with [] => str "prefer" | c :: m => c :: m end) with (str "require") in *.
  pose proof (loop_faithful _ _ _ _ _ _ _ _ _ E) as (-> & F & N).
  pose proof (loop_tried _ _ K _ _ _ _ _ _ E) as (T & _).
  pose proof (loop_result _ _ _ _ _ _ _ _ _ E) as R.
  assert (A : forall a, List.In a log -> forall ev, shape (a_num a) (a_ssl a) (out (a_num a)) ev (a_did a) (a_out a) ->
     List.In (SStartup (a_num a)) ev -> 
     a_did a = DTrue /\ exists e1, ev = e1 ++ [SStartup (a_num a)] /\ List.In (STls (a_num a)) e1 /\ ~ List.In (SStartup (a_num a)) e1).
  { intros a Ia ev S I. destruct (tried_ssl _ _ _ _ T Ia) as (R1 & _). specialize (R1 eq_refl). rewrite R1 in S.
    remember (a_did a) as d. remember (a_out a) as o. clear Heqd Heqo.
    assert (NP : forall l, Forall (plain_only (a_num a)) l -> ~ List.In (SStartup (a_num a)) l)
      by (intros l Fl Il; destruct (plain_in _ _ _ Fl Il); discriminate).
    destruct S; try discriminate; try (exfalso; destruct I as [I|I]; try discriminate;
      try (apply in_app_or in I as [I|[I|[]]]; try discriminate); eapply NP; eauto; fail); try contradiction.
    split; auto. exists (SOpen (a_num a) :: ev ++ [SRecv1 (a_num a); STls (a_num a)]). split.
    - cbn. rewrite <- app_assoc. reflexivity.
    - split; [right; apply in_or_app; right; cbn; auto|].
      intros [C|C]; [discriminate|]. apply in_app_or in C as [C|C]; [eapply NP; eauto|].
      cbn in C. intuition discriminate. }
  split.
  - intros s. apply before_concat. rewrite Forall_map. rewrite Forall_forall in *.
    intros a Ia. destruct (faithful_shape _ _ (F a Ia)) as (ev & S & Ee).
    destruct (in_dec (fun a b : sev => ltac:(repeat decide equality)) (SStartup s) (evs out a)) as [I|NI];
      [|now apply before_absent].
    pose proof (evs_sock _ _ _ (F a Ia) I) as Es. cbn in Es. subst s. rewrite Ee in *.
    apply in_app_or in I as [I|I].
    2:{ destruct (a_out a) as [|w exc []|]; cbn in I; intuition discriminate. }
    destruct (A a Ia ev S I) as (_ & e1 & -> & It & Nt). rewrite <- app_assoc. now apply before_after.
  - intros a sec ->. destruct R as (l0 & -> & _ & Oa & ->).
    assert (Ia : List.In a (l0 ++ [a])) by (apply in_or_app; cbn; auto).
    assert (Fa : faithful out a) by (rewrite Forall_forall in F; auto).
    destruct (faithful_shape _ _ Fa) as (ev & S & Ee).
    assert (I : List.In (SStartup (a_num a)) ev).
    { clear A Ee. rewrite Oa in S. remember AOk as o eqn:Eo. destruct S; try discriminate; cbn; rewrite ?in_app_iff; cbn; auto 10. }
    destruct (A a Ia ev S I) as (-> & e1 & -> & It & _). split; auto.
    apply in_concat. exists (evs out a). split; [now apply in_map|]. rewrite Ee. rewrite !in_app_iff. auto.
Qed.
Print Assumptions C33_require_always_tls.

(** ** disable: neither the SSL request nor a handshake, on any socket *)
Theorem C33_disable_never_tls : forall (H : Type) (hosts : option (list H)) out ev log r,
  establish (Some (str "disable")) hosts out = Ok (ev, log, r) ->
  (forall s d, ~ List.In (STls s) ev /\ ~ List.In (SPlain s d) ev /\ ~ List.In (SRecv1 s) ev) /\
  (forall a security, r = Connected a security -> security = false).
Proof.
  intros H hosts out ev log r E. apply establish_inv in E as (K & E).
  change (match str "disable" with [] => str "prefer" | c :: m => c :: m end) with (str "disable") in *.
  pose proof (loop_faithful _ _ _ _ _ _ _ _ _ E) as (-> & F & N).
  pose proof (loop_tried _ _ K _ _ _ _ _ _ E) as (T & _).
  pose proof (loop_result _ _ _ _ _ _ _ _ _ E) as R.
  assert (A : forall a, List.In a log ->
     a_did a = DAbsent /\ forall e, List.In e (evs out a) -> e = SOpen (a_num a) \/ e = SStartup (a_num a) \/ e = SClose (a_num a)).
  { intros a Ia. destruct (tried_ssl _ _ _ _ T Ia) as (_ & R1). specialize (R1 eq_refl).
    rewrite Forall_forall in F. destruct (faithful_shape _ _ (F a Ia)) as (ev & S & ->). rewrite R1 in S.
    split.
    - remember (a_did a) as d. clear Heqd. destruct S; auto; congruence.
    - intros e I. apply in_app_or in I as [I|I].
      + destruct S; try congruence; cbn in I; intuition auto.
      + destruct (a_out a) as [|w exc []|]; cbn in I; intuition auto. }
  split.
  - intros s d. assert (B : forall e, List.In e (concat (map (evs out) log)) ->
      exists n, e = SOpen n \/ e = SStartup n \/ e = SClose n).
    { intros e I. apply in_events in I as (a & Ia & I). exists (a_num a). apply (A a Ia); auto. }
    repeat split; intros I; apply B in I as (n & I); intuition discriminate.
  - intros a sec ->. destruct R as (l0 & -> & _ & Oa & ->).
    destruct (A a) as (-> & _); [apply in_or_app; cbn; auto|]. reflexivity.
Qed.
Print Assumptions C33_disable_never_tls.

(** ** in every mode: what the socket of an attempt sees.
    When SSL is asked for on a socket,
    - all that is sent on it in the clear before the answer is (a prefix of) the SSL request,
    - an answer other than S and N is a failure and nothing of the start-up is sent,
    - after S nothing of the start-up is sent before the handshake is complete,
    - after N nothing of the start-up is sent if SSL was required of the attempt. *)
Theorem C33_answer_respected : forall (H : Type) sslmode (hosts : option (list H)) out ev log r a,
  establish sslmode hosts out = Ok (ev, log, r) -> List.In a log -> a_ssl a <> None ->
  (exists rest, ssl_request = plain (a_num a) ev ++ rest) /\
  (List.In (SRecv1 (a_num a)) ev -> plain (a_num a) ev = ssl_request) /\
  (before (SRecv1 (a_num a)) (SStartup (a_num a)) ev) /\
  (accepts_ssl (out (a_num a)) -> before (STls (a_num a)) (SStartup (a_num a)) ev) /\
  (refuses_ssl (out (a_num a)) -> ~ List.In (STls (a_num a)) ev /\
     (a_ssl a = Some true -> ~ List.In (SStartup (a_num a)) ev /\ a_out a <> AOk)) /\
  (~ accepts_ssl (out (a_num a)) -> ~ refuses_ssl (out (a_num a)) ->
     ~ List.In (SStartup (a_num a)) ev /\ ~ List.In (STls (a_num a)) ev /\ a_out a <> AOk).
Proof.
  intros H sslmode hosts out ev log r a E Ia Ns. apply establish_inv in E as (K & E).
  pose proof (loop_faithful _ _ _ _ _ _ _ _ _ E) as (-> & F & N). clear E K.
  destruct (events_split _ _ _ _ F N Ia) as (u & v & -> & Ot).
  rewrite Forall_forall in F. destruct (faithful_shape _ _ (F a Ia)) as (ev & S & ->). clear F N.
  set (s := a_num a) in *. set (cl := match a_out a with AFail _ _ true => [SClose s] | _ => [] end) in *.
  assert (Hcl : forall e, List.In e cl -> e = SClose s).
  { unfold cl. intros e I. destruct (a_out a) as [|w exc []|]; cbn in I; intuition auto. }
  rewrite !plain_app. rewrite (plain_zero s u), (plain_zero s v) by auto.
  replace (plain s cl) with (@nil Z) by (unfold cl; destruct (a_out a) as [|w exc []|]; reflexivity).
  rewrite !app_nil_r. cbn [app].
  assert (Hin : forall e, of_sock s e -> (forall n, e <> SClose n) -> List.In e (u ++ (ev ++ cl) ++ v) <-> List.In e ev).
  { intros e Oe Ne. rewrite !in_app_iff. split; auto. intros [I|[[I|I]|I]]; auto.
    - destruct (Ot e (or_introl I)) as (t & Nt & Oe'). destruct e; cbn in *; congruence.
    - apply Hcl in I. now contradict I.
    - destruct (Ot e (or_intror I)) as (t & Nt & Oe'). destruct e; cbn in *; congruence. }
  assert (Hb : forall y x, of_sock s x -> (forall n, x <> SClose n) -> before y x ev -> before y x (u ++ (ev ++ cl) ++ v)).
  { intros y x Ox Nx B. apply before_app; [|apply before_app; [apply before_app; auto|]]; try apply before_absent; intros I.
    - destruct (Ot x (or_introl I)) as (t & Nt & O'). destruct x; cbn in *; congruence.
    - apply Hcl in I. now contradict I.
    - destruct (Ot x (or_intror I)) as (t & Nt & O'). destruct x; cbn in *; congruence. }
  rewrite !Hin by (cbn; auto; discriminate).
  assert (Hb' : forall y, before y (SStartup s) ev -> before y (SStartup s) (u ++ (ev ++ cl) ++ v))
    by (intros; apply Hb; cbn; auto; discriminate).
  clear Hin Hb Hcl Ot Ia. clearbody cl.
  remember (a_did a) as d. remember (a_out a) as o. clear Heqd Heqo.
  assert (NP : forall l x, Forall (plain_only s) l -> (forall d, x <> SPlain s d) -> ~ List.In x l).
  { intros l x Fl Nx Il. destruct (plain_in _ _ _ Fl Il) as (? & ->). eapply Nx; eauto. }
  assert (Pl : forall l l', (forall d, ~ List.In (SPlain s d) l') -> plain s (SOpen s :: l ++ l') = plain s l).
  { intros l l' Nl. cbn. rewrite plain_app. rewrite <- (app_nil_r (plain s l)) at 2. f_equal.
    clear -Nl. induction l' as [|e l' IH]; auto. cbn. destruct e; try (apply IH; intros d I; apply (Nl d); cbn; auto).
    destruct (Nat.eqb_spec s0 s) as [->|]; [exfalso; apply (Nl d); cbn; auto|apply IH; intros d' I; apply (Nl d'); cbn; auto]. }
  destruct S as [Eo|Eo|o' Eo Es|pe rst Eo Es Fp Er|pe b Eo Es Fp Er Eb N1 N2|pe Eo Es Fp Er Rf|pe o' Eo Es Fp Er Rf|pe Eo Es Fp Er Ac|pe o' Eo Es Fp Er Ac];
    try (now contradict Ns).
  - (* not opened *)
    split; [eexists; reflexivity|]. split; [intros []|].
    repeat split; intros; try apply Hb'; try apply before_nil; try discriminate; intros [].
  - split; [eexists; reflexivity|]. split; [intros []|].
    repeat split; intros; try apply Hb'; try apply before_nil; try discriminate; intros [].
  - (* broken *)
    assert (NS : ~ List.In (SStartup s) (SOpen s :: pe)) by (intros [C|C]; [discriminate|]; apply NP in C; auto; discriminate).
    assert (NT : ~ List.In (STls s) (SOpen s :: pe)) by (intros [C|C]; [discriminate|]; apply NP in C; auto; discriminate).
    assert (NR : ~ List.In (SRecv1 s) (SOpen s :: pe)) by (intros [C|C]; [discriminate|]; apply NP in C; auto; discriminate).
    split; [exists rst; auto|]. split; [tauto|].
    repeat split; intros; try apply Hb'; try (apply before_absent); auto; try discriminate.
  - assert (NS : ~ List.In (SStartup s) (SOpen s :: pe ++ [SRecv1 s])).
    { intros [C|C]; [discriminate|]. apply in_app_or in C as [C|[C|[]]]; [|discriminate]. apply NP in C; auto; discriminate. }
    assert (NT : ~ List.In (STls s) (SOpen s :: pe ++ [SRecv1 s])).
    { intros [C|C]; [discriminate|]. apply in_app_or in C as [C|[C|[]]]; [|discriminate]. apply NP in C; auto; discriminate. }
    rewrite Pl, Er by (cbn; intuition discriminate).
    split; [exists []; now rewrite app_nil_r|]. split; [auto|].
    repeat split; intros; try apply Hb'; try (apply before_absent); auto; try discriminate.
  - assert (NS : ~ List.In (SStartup s) (SOpen s :: pe ++ [SRecv1 s])).
    { intros [C|C]; [discriminate|]. apply in_app_or in C as [C|[C|[]]]; [|discriminate]. apply NP in C; auto; discriminate. }
    assert (NT : ~ List.In (STls s) (SOpen s :: pe ++ [SRecv1 s])).
    { intros [C|C]; [discriminate|]. apply in_app_or in C as [C|[C|[]]]; [|discriminate]. apply NP in C; auto; discriminate. }
    rewrite Pl, Er by (cbn; intuition discriminate).
    split; [exists []; now rewrite app_nil_r|]. split; [auto|].
    repeat split; intros; try apply Hb'; try (apply before_absent); auto; try discriminate.
  - assert (NS : ~ List.In (SStartup s) (SOpen s :: pe ++ [SRecv1 s])).
    { intros [C|C]; [discriminate|]. apply in_app_or in C as [C|[C|[]]]; [|discriminate]. apply NP in C; auto; discriminate. }
    assert (NT : ~ List.In (STls s) (SOpen s :: pe ++ [SRecv1 s; SStartup s])).
    { intros [C|C]; [discriminate|]. apply in_app_or in C as [C|[C|[C|[]]]]; try discriminate. apply NP in C; auto; discriminate. }
    rewrite Pl, Er by (cbn; intuition discriminate).
    split; [exists []; now rewrite app_nil_r|]. split; [auto|].
    split. { apply Hb'. change [SRecv1 s; SStartup s] with ([SRecv1 s] ++ [SStartup s]). rewrite app_assoc, app_comm_cons.
             apply before_after; auto. right. apply in_or_app. cbn. auto. }
    split. { unfold accepts_ssl, refuses_ssl in *. rewrite Rf. discriminate. }
    split. { intros _. split; auto. rewrite Es. discriminate. }
    intros _ C. now contradict C.
  - assert (NS : ~ List.In (SStartup s) (SOpen s :: pe ++ [SRecv1 s])).
    { intros [C|C]; [discriminate|]. apply in_app_or in C as [C|[C|[]]]; [|discriminate]. apply NP in C; auto; discriminate. }
    assert (NT : ~ List.In (STls s) (SOpen s :: pe ++ [SRecv1 s])).
    { intros [C|C]; [discriminate|]. apply in_app_or in C as [C|[C|[]]]; [|discriminate]. apply NP in C; auto; discriminate. }
    rewrite Pl, Er by (cbn; intuition discriminate).
    split; [exists []; now rewrite app_nil_r|]. split; [auto|].
    repeat split; intros; try apply Hb'; try (apply before_absent); auto; try discriminate.
  - assert (NS : ~ List.In (SStartup s) (SOpen s :: pe ++ [SRecv1 s; STls s])).
    { intros [C|C]; [discriminate|]. apply in_app_or in C as [C|[C|[C|[]]]]; try discriminate. apply NP in C; auto; discriminate. }
    rewrite Pl, Er by (cbn; intuition discriminate).
    assert (B : forall y, List.In y (SOpen s :: pe ++ [SRecv1 s; STls s]) -> before y (SStartup s) (SOpen s :: pe ++ [SRecv1 s; STls s; SStartup s])).
    { intros y Iy. change [SRecv1 s; STls s; SStartup s] with ([SRecv1 s; STls s] ++ [SStartup s]). rewrite app_assoc, app_comm_cons.
      apply before_after; auto. }
    split; [exists []; now rewrite app_nil_r|]. split; [auto|].
    split. { apply Hb', B. right. apply in_or_app. cbn. auto. }
    split. { intros _. apply Hb', B. right. apply in_or_app. cbn. auto. }
    split. { unfold accepts_ssl, refuses_ssl in *. rewrite Ac. discriminate. }
    intros C. now contradict C.
Qed.
Print Assumptions C33_answer_respected.

(** the SSL request is that of the protocol (the message of Element3Model.v): length 8, code 80877103 *)
Theorem C33_request_bytes : message_bytes MNegotiateSSL = Ok ssl_request /\ ssl_request = [0;0;0;8; 4;210;22;47] /\
  unbe [4;210;22;47] = 80877103.
Proof. vm_compute. auto. Qed.
Print Assumptions C33_request_bytes.

(** ** security says whether the connection is a TLS one, in every mode *)
Theorem C33_security_truthful : forall (H : Type) sslmode (hosts : option (list H)) out ev log a security,
  establish sslmode hosts out = Ok (ev, log, Connected a security) ->
  List.In (SStartup (a_num a)) ev /\ (security = true <-> List.In (STls (a_num a)) ev) /\
  (security = true -> before (STls (a_num a)) (SStartup (a_num a)) ev).
Proof.
  intros H sslmode hosts out ev log a sec E. pose proof E as E0. apply establish_inv in E as (K & E).
  pose proof (loop_faithful _ _ _ _ _ _ _ _ _ E) as (Ev & F & N).
  pose proof (loop_result _ _ _ _ _ _ _ _ _ E) as (l0 & El & _ & Oa & Es). clear E K.
  assert (Ia : List.In a log) by (rewrite El; apply in_or_app; cbn; auto).
  destruct (events_split _ _ _ _ F N Ia) as (u & v & Euv & Ot).
  rewrite Forall_forall in F. destruct (faithful_shape _ _ (F a Ia)) as (ev' & S & E'). rewrite Oa in E', S. rewrite app_nil_r in E'.
  rewrite E' in Euv. clear F N.
  assert (Hin : forall e, of_sock (a_num a) e -> List.In e ev <-> List.In e ev').
  { intros e Oe. rewrite Ev, Euv, !in_app_iff. split; auto. intros [I|[I|I]]; auto.
    - destruct (Ot e (or_introl I)) as (t & Nt & Oe'). destruct e; cbn in *; congruence.
    - destruct (Ot e (or_intror I)) as (t & Nt & Oe'). destruct e; cbn in *; congruence. }
  rewrite !Hin by reflexivity.
  assert (Q : List.In (SStartup (a_num a)) ev' /\ (sec = true <-> List.In (STls (a_num a)) ev') /\
              (sec = true -> a_ssl a <> None /\ accepts_ssl (out (a_num a)))).
  { rewrite Es. clear - S. remember AOk as o. remember (a_did a) as d. clear Heqd.
    assert (NP : forall l, Forall (plain_only (a_num a)) l -> ~ List.In (STls (a_num a)) l)
      by (intros l Fl Il; destruct (plain_in _ _ _ Fl Il); discriminate).
    destruct S; try discriminate.
    - cbn. split; auto. split; [split; [discriminate|intuition discriminate]|discriminate].
    - split; [right; apply in_or_app; cbn; auto|]. split; [|discriminate]. split; [discriminate|].
      intros [C|C]; [discriminate|]. apply in_app_or in C as [C|C]; [now apply NP in C|cbn in C; intuition discriminate].
    - split; [right; apply in_or_app; cbn; auto|]. split; [|auto]. split; auto. intros _. right. apply in_or_app. cbn. auto. }
  destruct Q as (Q1 & Q2 & Q3). split; auto. split; auto.
  intros St. destruct (Q3 St) as (Ns & Ac).
  exact (proj1 (proj2 (proj2 (proj2 (C33_answer_respected _ _ _ _ _ _ _ _ E0 Ia Ns)))) Ac).
Qed.
Print Assumptions C33_security_truthful.

(** ** the sequence of attempts: the servers in order, with the tries of the mode; the first
    success ends it; when all fail all were tried, and the failures are reported in order *)
Theorem C33_sequence : forall (H : Type) sslmode (hosts : list H) out ev log r,
  establish sslmode (Some hosts) out = Ok (ev, log, r) ->
  let mode := match sslmode with None | Some [] => str "prefer" | Some m => m end in
  tried mode hosts log /\
  map a_num log = seq 0 (length log) /\
  match r with
  | Connected a _ => exists before, log = before ++ [a] /\ Forall failed before /\ a_out a = AOk
  | NotConnected failures => failures = log /\ Forall failed log /\ tried_all mode hosts log
  | Broken => exists before a, log = before ++ [a] /\ Forall failed before /\ a_out a = ARaise
  end.
Proof.
  intros H sslmode hosts out ev log r E mode. apply establish_inv in E as (K & E). cbv zeta in K, E.
  assert (Em : match sslmode with Some (c :: m) => c :: m | _ => str "prefer" end = mode)
    by (unfold mode; destruct sslmode as [[|]|]; reflexivity).
  rewrite Em in K, E. clearbody mode. clear Em.
  pose proof (loop_faithful _ _ _ _ _ _ _ _ _ E) as (_ & F & N).
  pose proof (loop_tried _ _ K _ _ _ _ _ _ E) as (T & TA).
  pose proof (loop_result _ _ _ _ _ _ _ _ _ E) as R.
  split; [exact T|]. split; [exact N|]. destruct r as [a s|fs|].
  - destruct R as (l0 & -> & Fl & O & _). exists l0. auto.
  - destruct R as (-> & Fl). split; [reflexivity|]. split; [auto|]. apply TA. cbn. tauto.
  - auto.
Qed.
Print Assumptions C33_sequence.

(** an attempt is recorded as it happened *)
Theorem C33_attempt_outcome : forall (H : Type) sslmode (hosts : option (list H)) out ev log r a,
  establish sslmode hosts out = Ok (ev, log, r) -> List.In a log ->
  (by_exception a -> o_open (out (a_num a)) = OpError \/ (accepts_ssl (out (a_num a)) /\ a_ssl a <> None) \/
     o_neg (out (a_num a)) = NgFail true) /\
  (said_no a <-> o_open (out (a_num a)) = OpOk /\ a_ssl a <> None /\ refuses_ssl (out (a_num a)) /\ 
      List.In (SRecv1 (a_num a)) ev) /\
  (a_out a = AOk -> o_neg (out (a_num a)) = NgOk).
Proof.
  intros H sslmode hosts out ev log r a E Ia. apply establish_inv in E as (K & E).
  pose proof (loop_faithful _ _ _ _ _ _ _ _ _ E) as (Ev & F & N). clear E K.
  destruct (events_split _ _ _ _ F N Ia) as (u & v & Euv & Ot).
  rewrite Forall_forall in F. destruct (faithful_shape _ _ (F a Ia)) as (ev' & S & E').
  rewrite E' in Euv. clear F N. unfold by_exception, said_no.
  assert (Hin : List.In (SRecv1 (a_num a)) ev <-> List.In (SRecv1 (a_num a)) ev').
  { rewrite Ev, Euv, !in_app_iff. split; auto. intros [I|[[I|I]|I]]; auto.
    - destruct (Ot _ (or_introl I)) as (t & Nt & Oe'). cbn in *; congruence.
    - destruct (a_out a) as [|w exc []|]; cbn in I; intuition discriminate.
    - destruct (Ot _ (or_intror I)) as (t & Nt & Oe'). cbn in *; congruence. }
  rewrite Hin. clear Hin Ev Euv E' Ot u v ev.
  remember (a_did a) as d. remember (a_out a) as o. clear Heqd Heqo Ia.
  assert (NP : forall l, Forall (plain_only (a_num a)) l -> ~ List.In (SRecv1 (a_num a)) l)
    by (intros l Fl Il; destruct (plain_in _ _ _ Fl Il); discriminate).
  assert (St : forall s o o', o' = snd (startup s o) ->
     ((exists w sk, o' = AFail w true sk) -> o_neg o = NgFail true) /\ (o' = AOk -> o_neg o = NgOk)).
  { intros s o0 o' ->. cbn. destruct (o_neg o0) as [|[]|]; split; try discriminate; try (intros (? & ? & ?); discriminate); auto. }
  destruct S as [Eo|Eo|o' Eo Es So|pe rst Eo Es Fp Er|pe b Eo Es Fp Er Eb N1 N2|pe Eo Es Fp Er Rf|pe o' Eo Es Fp Er Rf So|pe Eo Es Fp Er Ac|pe o' Eo Es Fp Er Ac So].
  - split; [auto|]. split; [split; [discriminate|intros (C & _); congruence]|discriminate].
  - split; [intros (? & ? & ?); discriminate|]. split; [split; [discriminate|intros (C & _); congruence]|discriminate].
  - split; [intros X; right; right; now apply (St _ _ _ So)|].
    split; [split; [discriminate|intros (_ & C & _); congruence]|apply (St _ _ _ So)].
  - split; [intros (? & ? & ?); discriminate|]. split; [split; [discriminate|]|discriminate].
    intros (_ & _ & _ & [C|C]); [discriminate|]. now apply NP in C.
  - split; [intros (? & ? & ?); discriminate|]. split; [split; [discriminate|]|discriminate].
    intros (_ & _ & C & _). unfold refuses_ssl in C. rewrite Eb in C. injection C as ->. now contradict N2.
  - split; [intros (? & ? & ?); discriminate|]. split; [split; [|auto]|discriminate].
    intros _. split; auto. split; [congruence|]. split; auto. right. apply in_or_app. cbn. auto.
  - split; [intros X; right; right; now apply (St _ _ _ So)|]. split; [|apply (St _ _ _ So)].
    split; auto. intros _. split; auto. split; [congruence|]. split; auto. right. apply in_or_app. cbn. auto.
  - split; [intros _; right; left; auto|]. split; [split; [discriminate|]|discriminate].
    intros (_ & _ & C & _). unfold refuses_ssl, accepts_ssl in *. congruence.
  - split; [intros X; right; right; now apply (St _ _ _ So)|]. split; [|apply (St _ _ _ So)].
    split; [discriminate|]. intros (_ & _ & C & _). unfold refuses_ssl, accepts_ssl in *. congruence.
Qed.
Print Assumptions C33_attempt_outcome.

(** ** sockets: every failed attempt's socket is closed exactly once; the one of the
    connection is open *)
Theorem C33_sockets_closed : forall (H : Type) sslmode (hosts : option (list H)) out ev log r a,
  establish sslmode hosts out = Ok (ev, log, r) -> List.In a log ->
  (failed a -> closes (a_num a) ev = opens (a_num a) ev) /\
  (a_out a = AOk -> opens (a_num a) ev = 1%nat /\ closes (a_num a) ev = O) /\
  (opens (a_num a) ev <= 1)%nat.
Proof.
  intros H sslmode hosts out ev log r a E Ia. apply establish_inv in E as (K & E).
  pose proof (loop_faithful _ _ _ _ _ _ _ _ _ E) as (-> & F & N). clear E K.
  destruct (events_split _ _ _ _ F N Ia) as (u & v & -> & Ot).
  rewrite Forall_forall in F. pose proof (evs_counts _ _ (F a Ia)) as (C1 & C2 & C3).
  rewrite !opens_app, !closes_app.
  rewrite (opens_zero _ u), (opens_zero _ v), (closes_zero _ u), (closes_zero _ v) by auto.
  rewrite C2. cbn. rewrite !Nat.add_0_r.
  split; [|split; [|auto]].
  - intros (w & e & s & ->). auto.
  - intros O. rewrite O in *. auto.
Qed.
Print Assumptions C33_sockets_closed.

(** ... but an exception while asking for SSL or in the start-up leaves its socket open, and the
    remaining servers are not tried: close() does nothing as no connection was set *)
Theorem C33_exception_leaks_refuted : ~ (forall (hosts : list nat) out ev log r,
  establish (Some (str "require")) (Some hosts) out = Ok (ev, log, r) ->
  (forall a sec, r <> Connected a sec) -> forall s, closes s ev = opens s ev).
Proof.
  intros C.
  specialize (C [1; 2]%nat (fun _ => {| o_open := OpOk; o_sends := [SnRaise]; o_status := RcRaise; o_secure := true; o_neg := NgOk |})
     _ _ _ eq_refl ltac:(discriminate) O). vm_compute in C. discriminate.
Qed.
Print Assumptions C33_exception_leaks_refuted.

(** ** an sslmode of another name is refused before any socket is opened *)
Theorem C33_unknown_mode : forall (H : Type) m (hosts : option (list H)) out,
  m <> [] -> m <> str "allow" -> m <> str "prefer" -> m <> str "require" -> m <> str "disable" ->
  establish (Some m) hosts out = Err ValueError.
Proof.
  intros H [|c m] hosts out Ne N1 N2 N3 N4; [contradiction|]. unfold establish, candidates. cbv zeta.
  repeat match goal with |- context[seqb ?a ?b] => destruct (seqb_spec a b); [contradiction|] end. reflexivity.
Qed.
Print Assumptions C33_unknown_mode.

(** ** non-vacuity *)
Definition ex_out (st : bytes) (tls : bool) (n : neg_out) : outside :=
  {| o_open := OpOk; o_sends := [SnTaken 3; SnTaken 5]; o_status := RcByte st; o_secure := tls; o_neg := n |}.
(** prefer: two servers; the first sends an error byte (an old server) and fails in the clear too,
    the second has no SSL and is connected in the clear *)
Example ex_prefer : exists ev log,
  establish None (Some [10; 20]%nat)
    (fun n => match n with O => ex_out [69] true NgOk | 1%nat => ex_out [] true (NgFail false) | _ => ex_out [78] true NgOk end)
  = Ok (ev, log, Connected {| a_num := 2; a_ssl := Some false; a_host := 20%nat; a_did := DFalse; a_out := AOk |} false) /\
  map a_ssl log = [Some false; None; Some false] /\
  ev = [SOpen 0; SPlain 0 [0;0;0]; SPlain 0 [8;4;210;22;47]; SRecv1 0; SClose 0;
        SOpen 1; SStartup 1; SClose 1;
        SOpen 2; SPlain 2 [0;0;0]; SPlain 2 [8;4;210;22;47]; SRecv1 2; SStartup 2].
Proof. do 2 eexists. split; [reflexivity|]. split; reflexivity. Qed.
(** require: the first server refuses, the second accepts *)
Example ex_require : exists ev log,
  establish (Some (str "require")) (Some [10; 20]%nat)
    (fun n => match n with O => ex_out [78] true NgOk | _ => ex_out [83] true NgOk end)
  = Ok (ev, log, Connected {| a_num := 1; a_ssl := Some true; a_host := 20%nat; a_did := DTrue; a_out := AOk |} true) /\
  ev = [SOpen 0; SPlain 0 [0;0;0]; SPlain 0 [8;4;210;22;47]; SRecv1 0; SClose 0;
        SOpen 1; SPlain 1 [0;0;0]; SPlain 1 [8;4;210;22;47]; SRecv1 1; STls 1; SStartup 1].
Proof. do 2 eexists. split; reflexivity. Qed.
(** prefer, a failed handshake: no second, plain, attempt with that server *)
Example ex_prefer_handshake : exists ev a,
  establish (Some (str "prefer")) (Some [10%nat]) (fun n => ex_out [83] false NgOk) = Ok (ev, [a], NotConnected [a]) /\
  a_out a = AFail WSslFailed true true.
Proof. do 2 eexists. split; reflexivity. Qed.
(** allow: the server demands SSL (an error of the server), which is then used *)
Example ex_allow : exists ev log a,
  establish (Some (str "allow")) (Some [10%nat])
    (fun n => match n with O => ex_out [] true (NgFail false) | _ => ex_out [83] true NgOk end) = Ok (ev, log, Connected a true) /\
  map a_ssl log = [None; Some true].
Proof. do 3 eexists. split; reflexivity. Qed.
