(** CtorProof.v: lemmas for C75-C77 *)
From Verif Require Import Base BaseProof PyStr PyStrProof PyDict PyDictProof StrModel StrSpec StrProof PyInt PyIntProof IRIModel ParamModel ParamSpec ParamProof ParamProof2 ParamProof3.
From Verif Require TmpProof.
From Verif Require Import CtorModel CtorSpec.

Lemma arg_has k p v : has k p v -> arg k p = v.
Proof. intros [H _]. unfold arg. rewrite H. reflexivity. Qed.
Lemma arg_lacks k p : lacks k p <-> arg k p = PNone.
Proof.
  unfold lacks, arg. destruct (dget k p) as [v|]; split; intros H; auto.
  - destruct H as [H|H]; [discriminate|injection H as ->; reflexivity].
  - right. rewrite H. reflexivity.
Qed.
Lemma arg_cases k p : lacks k p \/ exists v, has k p v.
Proof.
  destruct (dget k p) as [v|] eqn:E; [|left; left; exact E].
  destruct v; try (right; eexists; split; [exact E|discriminate]). left. right. exact E.
Qed.
Lemma is_none_has k p v : has k p v -> is_none (arg k p) = false.
Proof. intros H. rewrite (arg_has k p v H). destruct H as [_ N]. destruct v; try reflexivity. contradiction. Qed.
Lemma is_none_lacks k p : lacks k p -> is_none (arg k p) = true.
Proof. intros H. apply arg_lacks in H. rewrite H. reflexivity. Qed.
Lemma lacks_has k p v : lacks k p -> has k p v -> False.
Proof. intros L H. apply is_none_lacks in L. apply is_none_has in H. congruence. Qed.
Lemma is_none_true v : is_none v = true -> v = PNone.
Proof. destruct v; try discriminate. reflexivity. Qed.

Lemma is_int_eq v n : is_int v n = true -> 1 < n -> v = PInt n.
Proof.
  destruct v as [ |z|b| | | |]; cbn [is_int]; intros H L; try discriminate H.
  - apply Z.eqb_eq in H. subst. reflexivity.
  - destruct b; apply Z.eqb_eq in H; lia.
Qed.


Section ctor.
Context (U : unicode) (dv : decimals) (repr : pval -> text) (encode : text -> text -> res (list Z)) (pton6 aton : text -> res bool).
Context (getaddrinfo : pval -> pval -> pval -> res (list (list Z * (text * Z)))).
Notation fit := (fit U dv repr encode pton6 aton).
Notation connector_init := (connector_init repr encode).
Notation startup_of := (startup_of repr encode).
Definition secure_of (kw : cpd) := (or_none (arg (str "sslkeyfile") kw), or_none (arg (str "sslcrtfile") kw), or_none (arg (str "sslrootcrtfile") kw)).
Lemma init_inv kw own c : connector_init kw own = Ok c ->
  (exists u, has (str "user") kw u) /\ lacks (str "category") kw /\ own (secure_of kw) = Ok (c_target c) /\ c_secure c = secure_of kw /\
  c_sslmode c = or_none (arg (str "sslmode") kw) /\ c_timeout c = arg (str "connect_timeout") kw /\
  startup_of (arg (str "user") kw) (arg (str "password") kw) (arg (str "database") kw) (arg (str "settings") kw) (arg (str "server_encoding") kw) = Ok (c_startup c, c_pw c).
Proof.
  unfold connector_init, CtorModel.connector_init. intros H.
  destruct (arg_cases (str "user") kw) as [L|[u Hu]]; [rewrite (is_none_lacks _ _ L) in H; discriminate H|].
  rewrite (is_none_has _ _ _ Hu) in H.
  destruct (is_none (arg (str "category") kw)) eqn:C; [|discriminate H]. cbn [negb] in H. fold (secure_of kw) in H. cbv zeta in H.
  apply bind_Ok in H as (t & T & H). apply bind_Ok in H as ([sp pw] & S1 & H). apply Ok_inj in H. subst c. cbn [fst snd c_target c_secure c_sslmode c_timeout c_startup c_pw].
  split; [exists u; exact Hu|]. split; [apply arg_lacks; apply is_none_true; exact C|]. auto 6.
Qed.
Definition rest (p : cpd) : cpd := ddel (str "port") (ddel (str "host") (ddel (str "unix") p)).
Lemma rest_get k p : k <> str "port" -> k <> str "host" -> k <> str "unix" -> dget k (rest p) = dget k p.
Proof.
  intros A B C. unfold rest. rewrite !dget_del. 
  destruct (seqb_spec k (str "port")); [contradiction|]. destruct (seqb_spec k (str "host")); [contradiction|]. destruct (seqb_spec k (str "unix")); [contradiction|]. reflexivity.
Qed.
Lemma rest_arg k p : k <> str "port" -> k <> str "host" -> k <> str "unix" -> arg k (rest p) = arg k p.
Proof. intros A B C. unfold arg. rewrite rest_get by assumption. reflexivity. Qed.
(** the three kinds *)
Inductive fitted (p : cpd) (c : connector) : Prop :=
| ft_unix u : has (str "unix") p u -> lacks (str "host") p -> lacks (str "port") p ->
    connector_init (rest p) (unix_target u) = Ok c -> fitted p c
| ft_six h pt : lacks (str "unix") p -> has (str "host") p (PStr h) -> has (str "port") p pt -> memZ 58 h = true -> pton6 h = Ok true ->
    connector_init (rest p) (ip_target U dv AF_INET6 6 (PStr h) pt (dget (str "ipv") p)) = Ok c -> fitted p c
| ft_four h pt : lacks (str "unix") p -> has (str "host") p (PStr h) -> has (str "port") p pt -> (memZ 58 h = true -> pton6 h = Ok false) -> aton h = Ok true ->
    connector_init (rest p) (ip_target U dv AF_INET 4 (PStr h) pt (dget (str "ipv") p)) = Ok c -> fitted p c
| ft_name h pt : lacks (str "unix") p -> has (str "host") p (PStr h) -> has (str "port") p pt -> (memZ 58 h = true -> pton6 h = Ok false) -> aton h = Ok false ->
    connector_init (rest p) (fun _ => host_target (PStr h) pt (arg (str "ipv") p) (arg (str "address_family") p)) = Ok c -> fitted p c.
Lemma fit_inv p c : fit p = Ok c -> fitted p c.
Proof.
  unfold CtorModel.fit. intros H. destruct (_ || _); [discriminate H|]. fold (rest p) in H. cbv zeta in H.
  destruct (arg_cases (str "unix") p) as [Lu|[u Hu]].
  - rewrite (is_none_lacks _ _ Lu) in H. cbn [negb] in H.
    destruct (arg_cases (str "host") p) as [Lh|[h Hh]]; [rewrite (is_none_lacks _ _ Lh) in H; discriminate H|].
    destruct (arg_cases (str "port") p) as [Lp|[pt Hp]]; [rewrite (is_none_lacks _ _ Lp), orb_true_r in H; discriminate H|].
    rewrite (is_none_has _ _ _ Hh), (is_none_has _ _ _ Hp) in H. cbn [orb] in H.
    rewrite (arg_has _ _ _ Hh), (arg_has _ _ _ Hp) in H. destruct h as [h| | | | | |]; try discriminate H.
    rewrite !rest_get in H by discriminate. rewrite !rest_arg in H by discriminate.
    apply bind_Ok in H as (six & E6 & H). destruct six.
    + destruct (memZ 58 h) eqn:M; [|discriminate E6]. eapply ft_six; eauto.
    + apply bind_Ok in H as (four & E4 & H).
      assert (N6 : memZ 58 h = true -> pton6 h = Ok false) by (intros M; rewrite M in E6; exact E6).
      destruct four; [eapply ft_four; eauto|eapply ft_name; eauto].
  - rewrite (is_none_has _ _ _ Hu) in H. cbn [negb] in H.
    destruct (arg_cases (str "host") p) as [Lh|[h Hh]]; [|rewrite (is_none_has _ _ _ Hh) in H; discriminate H]. rewrite (is_none_lacks _ _ Lh) in H. cbn [negb] in H.
    destruct (arg_cases (str "port") p) as [Lp|[pt Hp]]; [|rewrite (is_none_has _ _ _ Hp) in H; discriminate H]. rewrite (is_none_lacks _ _ Lp) in H. cbn [negb] in H.
    rewrite (arg_has _ _ _ Hu) in H. eapply ft_unix; eauto.
Qed.
Lemma fitted_init p c : fitted p c -> exists own, connector_init (rest p) own = Ok c.
Proof. intros []; eauto. Qed.
Lemma ip_inv family ipv h pt g s t : ip_target U dv family ipv (PStr h) pt g s = Ok t ->
  (g = None \/ exists v, g = Some v /\ is_int v ipv = true) /\ exists n, int_of U dv pt = Ok n /\ t = Fixed {| f_create := [family; SOCK_STREAM]; f_connect := Inet h n; f_secure := s |}.
Proof.
  unfold ip_target. intros H. destruct g as [v|]; cbn iota in H.
  - destruct (is_int v ipv) eqn:E; [|discriminate H]. cbn [negb] in H. destruct (is_none pt); [discriminate H|]. apply bind_Ok in H as (n & N & H). apply Ok_inj in H. split; [eauto|]. eauto.
  - unfold is_int in H. rewrite Z.eqb_refl in H. cbn [negb] in H. destruct (is_none pt); [discriminate H|]. apply bind_Ok in H as (n & N & H). apply Ok_inj in H. split; [auto|]. eauto.
Qed.
Lemma host_inv h pt ipv fam t : host_target h pt ipv fam = Ok t ->
  exists f, t = Lookup h pt f /\
  ((ipv = PNone /\ f = if truth fam then fam else PInt 0) \/ (fam = PNone /\ is_int ipv 4 = true /\ f = PInt 2) \/ (fam = PNone /\ is_int ipv 6 = true /\ f = PInt 10)).
Proof.
  unfold host_target. intros H. destruct (is_none h); [discriminate H|]. destruct (is_none pt); [discriminate H|].
  destruct (is_none ipv) eqn:I.
  - apply is_none_true in I. rewrite andb_false_r in H. apply Ok_inj in H. eexists. split; [symmetry; exact H|]. left. auto.
  - destruct (is_none fam) eqn:F; [|discriminate H]. apply is_none_true in F. cbn [negb andb] in H.
    destruct (is_int ipv 4) eqn:I4; [apply Ok_inj in H; eexists; split; [symmetry; exact H|]; right; left; auto|].
    destruct (is_int ipv 6) eqn:I6; [apply Ok_inj in H; eexists; split; [symmetry; exact H|]; right; right; auto|discriminate H].
Qed.
(** only the known keywords matter *)
Lemma init_same kw kw' own own' : (forall k, In k known_keywords -> arg k kw = arg k kw') -> (forall s, own s = own' s) ->
  connector_init kw own = connector_init kw' own'.
Proof.
  intros E O'. unfold CtorModel.connector_init.
  rewrite !(E (str "user")), (E (str "category")), (E (str "sslkeyfile")), (E (str "sslcrtfile")), (E (str "sslrootcrtfile")),
    (E (str "password")), (E (str "database")), (E (str "settings")), (E (str "server_encoding")), (E (str "connect_timeout")), (E (str "sslmode")) by (vm_compute; tauto).
  cbv zeta. rewrite O'. reflexivity.
Qed.
Lemma rest_same k p q : dget k p = dget k q -> dget k (rest p) = dget k (rest q).
Proof. intros H. unfold rest. rewrite !dget_del. rewrite H. reflexivity. Qed.
Lemma fit_same p q : (forall k, In k known_keywords -> dget k p = dget k q) -> fit p = fit q.
Proof.
  intros E. assert (A : forall k, In k known_keywords -> arg k p = arg k q) by (intros k I; unfold arg; rewrite (E k I); reflexivity).
  assert (R : forall k, In k known_keywords -> arg k (rest p) = arg k (rest q)) by (intros k I; unfold arg; rewrite (rest_same k p q (E k I)); reflexivity).
  assert (R' : dget (str "ipv") (rest p) = dget (str "ipv") (rest q)) by (apply rest_same, E; vm_compute; tauto).
  unfold CtorModel.fit. unfold dmem. rewrite (E (str "driver")), (E (str "self")), (A (str "unix")), (A (str "host")), (A (str "port")) by (vm_compute; tauto).
  fold (rest p). fold (rest q). cbv zeta. rewrite R'. rewrite (R (str "ipv")), (R (str "address_family")) by (vm_compute; tauto).
  destruct (_ || _); [reflexivity|]. destruct (negb _).
  - destruct (negb _); [reflexivity|]. destruct (negb _); [reflexivity|]. apply init_same; auto.
  - destruct (_ || _); [reflexivity|]. destruct (arg (str "host") q) as [h| | | | | |]; try reflexivity.
    destruct (if memZ 58 h then pton6 h else Ok false) as [[]|]; cbn [bind]; [apply init_same; auto| |reflexivity].
    destruct (aton h) as [[]|]; cbn [bind]; [apply init_same; auto|apply init_same; auto|reflexivity].
Qed.
End ctor.
