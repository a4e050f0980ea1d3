(** CtorProps.v: C75 (which addresses are tried), C76 (what the startup packet says) *)
From Coq Require Import String.
From Verif Require Import Base BaseProof PyStr PyStrProof PyDict PyDictProof StrModel StrSpec StrProof PyInt PyIntProof IRIModel ParamModel ParamSpec.
From Verif Require Element3Model Element3Spec Element3Proof Element3Wire.
From Verif Require Import CtorModel CtorSpec CtorProof CtorProof2.
Local Notation str s := (PyStr.str s%string).

Section props.
Context (U : unicode) (dv : decimals) (repr : pval -> text) (encode : text -> text -> res (list Z)) (pton6 aton : text -> res bool).
Context (getaddrinfo : pval -> pval -> pval -> res (list (list Z * (text * Z)))).
Notation fit := (fit U dv repr encode pton6 aton).
Notation factories := (factories getaddrinfo).

(** ** C75: the path of a socket: this one address and no other; a host or a port beside it is refused. *)
Theorem C75_unix p c u : fit p = Ok c -> has (str "unix") p u ->
  lacks (str "host") p /\ lacks (str "port") p /\
  exists f, factories c = Ok [f] /\ f_connect f = Path u /\ f_create f = [AF_UNIX; SOCK_STREAM] /\ f_secure f = c_secure c.
Proof.
  intros H Hu. apply fit_inv in H. destruct H as [u' Hu' Lh Lp I|h pt Lu|h pt Lu|h pt Lu]; try (exfalso; eapply lacks_has; eassumption).
  assert (u' = u) by (apply arg_has in Hu, Hu'; congruence). subst u'. split; [exact Lh|]. split; [exact Lp|].
  apply init_inv in I as (_ & _ & T & Sc & _). unfold unix_target in T. destruct (is_none u) eqn:N; [discriminate T|]. apply Ok_inj in T.
  unfold CtorModel.factories. rewrite <- T. eexists. split; [reflexivity|]. cbn. rewrite Sc. auto.
Qed.
Theorem C75_exclusive p u : has (str "unix") p u -> (exists v, has (str "host") p v \/ has (str "port") p v) -> fit p = Err TypeError.
Proof.
  intros Hu (v & H). unfold CtorModel.fit. destruct (_ || _); [reflexivity|]. cbv zeta. rewrite (is_none_has _ _ _ Hu). cbn [negb].
  destruct H as [H|H].
  - rewrite (is_none_has _ _ _ H). reflexivity.
  - rewrite (is_none_has _ _ _ H). destruct (negb (is_none (arg (str "host") p))); reflexivity.
Qed.
Theorem C75_required p : lacks (str "unix") p -> lacks (str "host") p \/ lacks (str "port") p -> fit p = Err TypeError.
Proof.
  intros Lu H. unfold CtorModel.fit. destruct (_ || _); [reflexivity|]. cbv zeta. rewrite (is_none_lacks _ _ Lu). cbn [negb].
  destruct H as [H|H]; rewrite (is_none_lacks _ _ H); [reflexivity|]. rewrite orb_true_r. reflexivity.
Qed.
Theorem C75_user p : lacks (str "user") p -> forall c, fit p <> Ok c.
Proof.
  intros L c H. apply fit_inv, fitted_init in H as (own & H). apply init_inv in H as ((u & Hu) & _).
  destruct Hu as [Hu N]. rewrite rest_get in Hu by discriminate. eapply lacks_has; [exact L|split; [exact Hu|exact N]].
Qed.

(** A numeric address: this one address with the given port, in the family of the address, and ipv must agree with it.
    Anything else: what the system's resolver gives for host and port, all of it, in its order, and nothing else. *)
Theorem C75_inet p c : fit p = Ok c -> lacks (str "unix") p ->
  exists h pt, has (str "host") p (PStr h) /\ has (str "port") p pt /\
  ( (* IPv6 *)
    (memZ 58 h = true /\ pton6 h = Ok true /\ (dget (str "ipv") p = None \/ dget (str "ipv") p = Some (PInt 6)) /\
     exists f n, factories c = Ok [f] /\ f_create f = [AF_INET6; SOCK_STREAM] /\ f_connect f = Inet h n /\ f_secure f = c_secure c /\ (forall m, port_number pt m -> n = m))
  \/ (* IPv4 *)
    ((memZ 58 h = true -> pton6 h = Ok false) /\ aton h = Ok true /\ (dget (str "ipv") p = None \/ dget (str "ipv") p = Some (PInt 4)) /\
     exists f n, factories c = Ok [f] /\ f_create f = [AF_INET; SOCK_STREAM] /\ f_connect f = Inet h n /\ f_secure f = c_secure c /\ (forall m, port_number pt m -> n = m))
  \/ (* a name *)
    ((memZ 58 h = true -> pton6 h = Ok false) /\ aton h = Ok false /\
     exists family,
       ((lacks (str "ipv") p /\ (lacks (str "address_family") p -> family = PInt AF_UNSPEC) /\ (forall z, z <> 0 -> has (str "address_family") p (PInt z) -> family = PInt z))
        \/ (lacks (str "address_family") p /\ has (str "ipv") p (PInt 4) /\ family = PInt AF_INET)
        \/ (lacks (str "address_family") p /\ has (str "ipv") p (PInt 6) /\ family = PInt AF_INET6)) /\
       (forall e, getaddrinfo (PStr h) pt family = Err e -> factories c = Err e) /\
       (forall l, getaddrinfo (PStr h) pt family = Ok l -> exists fs, factories c = Ok fs /\
          Forall2 (fun x f => f_create f = fst x /\ f_connect f = Inet (fst (snd x)) (snd (snd x)) /\ f_secure f = c_secure c) l fs)) ).
Proof.
  assert (PN : forall pt n, int_of U dv pt = Ok n -> forall m, port_number pt m -> n = m).
  { intros pt n H m P. destruct P as [m|s Ns F]; cbn [int_of] in H; [apply Ok_inj in H; auto|].
    rewrite py_int_digits in H by (split; assumption). apply Ok_inj in H. rewrite <- H. reflexivity. }
  assert (IV : forall g n, 1 < n -> (g = None \/ exists v, g = Some v /\ is_int v n = true) -> g = None \/ g = Some (PInt n)).
  { intros g n L [->|(v & -> & E)]; [auto|]. right. apply is_int_eq in E; [|exact L]. rewrite E. reflexivity. }
  intros H Lu. apply fit_inv in H. destruct H as [u Hu|h pt _ Hh Hp M P6 I|h pt _ Hh Hp N6 P4 I|h pt _ Hh Hp N6 P4 I]; [exfalso; eapply lacks_has; eassumption| | |].
  - exists h, pt. split; [exact Hh|]. split; [exact Hp|]. left. split; [exact M|]. split; [exact P6|].
    apply init_inv in I as (_ & _ & T & Sc & _). apply ip_inv in T as (G & n & N & T). split; [apply IV; [lia|exact G]|].
    unfold CtorModel.factories. rewrite T. eexists. exists n. split; [reflexivity|]. cbn [f_create f_connect f_secure]. rewrite Sc. eauto 6.
  - exists h, pt. split; [exact Hh|]. split; [exact Hp|]. right. left. split; [exact N6|]. split; [exact P4|].
    apply init_inv in I as (_ & _ & T & Sc & _). apply ip_inv in T as (G & n & N & T). split; [apply IV; [lia|exact G]|].
    unfold CtorModel.factories. rewrite T. eexists. exists n. split; [reflexivity|]. cbn [f_create f_connect f_secure]. rewrite Sc. eauto 6.
  - exists h, pt. split; [exact Hh|]. split; [exact Hp|]. right. right. split; [exact N6|]. split; [exact P4|].
    apply init_inv in I as (_ & _ & T & Sc & _). apply host_inv in T as (f & T & F). exists f. split; [|split].
    + destruct F as [(A & B)|[(A & B & C)|(A & B & C)]].
      * left. split; [apply arg_lacks; exact A|]. subst f. split.
        -- intros L. apply arg_lacks in L. rewrite L. reflexivity.
        -- intros z Z0 Hz. rewrite (arg_has _ _ _ Hz). cbn [truth]. destruct (Z.eqb_spec z 0); [contradiction|reflexivity].
      * right. left. split; [apply arg_lacks; exact A|]. split; [|exact C]. apply is_int_eq in B; [|lia].
        unfold arg in B. destruct (dget (str "ipv") p) eqn:E; [|discriminate B]. subst. split; [exact E|discriminate].
      * right. right. split; [apply arg_lacks; exact A|]. split; [|exact C]. apply is_int_eq in B; [|lia].
        unfold arg in B. destruct (dget (str "ipv") p) eqn:E; [|discriminate B]. subst. split; [exact E|discriminate].
    + intros e E. unfold CtorModel.factories. rewrite T, E. reflexivity.
    + intros l E. unfold CtorModel.factories. rewrite T, E. cbn [bind]. eexists. split; [reflexivity|].
      clear. induction l as [|x l IH]; cbn [map]; constructor; auto.
Qed.
(** ipv decides the family of every socket that is made, if the resolver keeps to the family asked for. *)
Theorem C75_family p c fs n : fit p = Ok c -> lacks (str "unix") p -> dget (str "ipv") p = Some (PInt n) -> factories c = Ok fs ->
  (forall h pt z l x, getaddrinfo h pt (PInt z) = Ok l -> z <> 0 -> In x l -> hd 0 (fst x) = z) ->
  (n = 4 /\ Forall (fun f => hd 0 (f_create f) = AF_INET) fs) \/ (n = 6 /\ Forall (fun f => hd 0 (f_create f) = AF_INET6) fs).
Proof.
  intros H Lu I F G. destruct (C75_inet p c H Lu) as (h & pt & _ & _ & [(_ & _ & V & f & m & E & Cr & _)|[(_ & _ & V & f & m & E & Cr & _)|(_ & _ & fam & V & Er & L)]]).
  - rewrite I in V. destruct V as [V|V]; [discriminate V|]. injection V as ->. rewrite F in E. apply Ok_inj in E. subst fs. right. split; [reflexivity|].
    apply Forall_cons; [rewrite Cr; reflexivity|apply Forall_nil].
  - rewrite I in V. destruct V as [V|V]; [discriminate V|]. injection V as ->. rewrite F in E. apply Ok_inj in E. subst fs. left. split; [reflexivity|].
    apply Forall_cons; [rewrite Cr; reflexivity|apply Forall_nil].
  - assert (K : forall z, z <> 0 -> fam = PInt z -> Forall (fun f => hd 0 (f_create f) = z) fs).
    { intros z Z0 ->. destruct (getaddrinfo (PStr h) pt (PInt z)) as [l|e] eqn:E.
      - destruct (L l eq_refl) as (fs' & E' & F2). rewrite F in E'. apply Ok_inj in E'. subst fs'.
        assert (X : Forall (fun x => hd 0 (fst x) = z) l) by (apply Forall_forall; intros x Hx; eapply G; eauto).
        clear - F2 X. induction F2 as [|x f l fs (A & _) F2 IH]; [constructor|]. inversion X; subst. constructor; [rewrite A; reflexivity|auto].
      - rewrite (Er e eq_refl) in F. discriminate F. }
    destruct V as [(V & _)|[(_ & (V & _) & ->)|(_ & (V & _) & ->)]].
    + exfalso. destruct V as [V|V]; rewrite V in I; discriminate I.
    + rewrite I in V. injection V as ->. left. split; [reflexivity|]. apply K; [discriminate|reflexivity].
    + rewrite I in V. injection V as ->. right. split; [reflexivity|]. apply K; [discriminate|reflexivity].
Qed.
(** A numeric address of the other family than ipv says is refused. *)
Theorem C75_ipv_conflict p h n : lacks (str "unix") p -> dget (str "host") p = Some (PStr h) -> dget (str "ipv") p = Some (PInt n) ->
  (memZ 58 h = true /\ pton6 h = Ok true /\ n <> 6 \/ memZ 58 h = false /\ aton h = Ok true /\ n <> 4) -> forall c, fit p <> Ok c.
Proof.
  intros Lu Hh I V c H. destruct (C75_inet p c H Lu) as (h' & pt & [Hh' _] & _ & C). rewrite Hh in Hh'. injection Hh' as <-.
  rewrite I in C. destruct V as [(M & P & N)|(M & P & N)]; destruct C as [(M' & P' & [V|V] & _)|[(M' & P' & [V|V] & _)|(M' & P' & _)]];
    try discriminate V; try congruence; specialize (M' M); congruence.
Qed.
(** What is not one of the known keywords has no effect, nor has the order of the keywords. *)
Theorem C75_keywords p q : (forall k, In k known_keywords -> dget k p = dget k q) -> fit p = fit q.
Proof. apply fit_same. Qed.
(** The security parameters: None stands for an empty value as well. *)
Theorem C75_security p c : fit p = Ok c ->
  (forall v, has (str "sslmode") p (PStr v) -> v <> [] -> c_sslmode c = PStr v) /\ (lacks (str "sslmode") p -> c_sslmode c = PNone) /\
  (forall k f r, has (str "sslkeyfile") p (PStr k) -> k <> [] -> has (str "sslcrtfile") p (PStr f) -> f <> [] -> has (str "sslrootcrtfile") p (PStr r) -> r <> [] ->
     c_secure c = (PStr k, PStr f, PStr r)) /\
  (forall fs, factories c = Ok fs -> Forall (fun f => f_secure f = c_secure c) fs).
Proof.
  intros H. assert (H0 := H). apply fit_inv, fitted_init in H as (own & H). apply init_inv in H as (_ & _ & _ & Sc & Sm & _).
  rewrite rest_arg in Sm by discriminate. unfold secure_of in Sc. rewrite !rest_arg in Sc by discriminate.
  assert (T : forall k v, has k p (PStr v) -> v <> [] -> or_none (arg k p) = PStr v).
  { intros k v Hv N. rewrite (arg_has _ _ _ Hv). destruct v; [contradiction|reflexivity]. }
  split; [intros v Hv N; rewrite Sm; apply T; assumption|]. split; [intros L; rewrite Sm; apply arg_lacks in L; rewrite L; reflexivity|].
  split; [intros k f r Hk Nk Hf Nf Hr Nr; rewrite Sc, (T _ _ Hk Nk), (T _ _ Hf Nf), (T _ _ Hr Nr); reflexivity|].
  intros fs F. destruct (arg_cases (str "unix") p) as [Lu|[u Hu]].
  - destruct (C75_inet p c H0 Lu) as (h & pt & _ & _ & [(_ & _ & V & f & m & E & _ & _ & Q & _)|[(_ & _ & V & f & m & E & _ & _ & Q & _)|(_ & _ & fam & V & Er & L)]]).
    1,2: rewrite F in E; apply Ok_inj in E; subst fs; apply Forall_cons; [exact Q|apply Forall_nil].
    destruct (getaddrinfo (PStr h) pt fam) as [l|e]; [|rewrite (Er e eq_refl) in F; discriminate F].
    destruct (L l eq_refl) as (fs' & E' & F2). rewrite F in E'. apply Ok_inj in E'. subst fs'. clear - F2. induction F2 as [|x f l fs (_ & _ & A) F2 IH]; constructor; auto.
  - destruct (C75_unix p c u H0 Hu) as (_ & _ & f & E & _ & _ & Q). rewrite F in E. apply Ok_inj in E. subst fs. apply Forall_cons; [exact Q|apply Forall_nil].
Qed.

(** ** C76: the parameters of the startup packet: the user and the database asked for, the settings, and the
    client_min_messages WARNING unless it is one of the settings; nothing else, and each name once.  A search path given as a
    sequence of names reaches the server as exactly these names. *)
Theorem C76_startup p c : fit p = Ok c -> (forall d, dget (str "settings") p = Some (PDict d) -> NoDup (dkeys d)) ->
  let S := arg (str "settings") p in
  exists se l, encoding_used p se /\ NoDup (dkeys l) /\
    Forall2 (fun kv b => encode (str "utf-8") (fst kv) = Ok (fst b) /\ value_bytes encode (py_str repr) se (snd kv) (snd b)) l (c_startup c) /\
    (exists u, has (str "user") p u /\ dget (str "user") l = Some u) /\
    (forall v, has (str "database") p v -> dget (str "database") l = Some v) /\
    (forall k, k <> str "user" -> (k = str "database" -> lacks (str "database") p) ->
       (forall v, setting S k = Some v -> (k <> str "search_path" \/ exists s, v = PStr s) -> dget k l = Some v) /\
       (setting S k = None -> dget k l = if seqb k (str "client_min_messages") then Some (PStr (str "WARNING")) else None)) /\
    (forall d ns, S = PDict d -> dget (str "search_path") d = Some (PList ns) ->
       exists t, dget (str "search_path") l = Some (PStr t) /\ (ns = [] -> t = []) /\ (ns <> [] -> names t ns)).
Proof.
  intros H ND Stg. assert (H0 := H). apply fit_inv, fitted_init in H as (own & H). apply init_inv in H as ((u & Hu) & _ & _ & _ & _ & _ & SU).
  destruct Hu as [Hu Nu]. rewrite rest_get in Hu by discriminate. rewrite !rest_arg in SU by discriminate. fold Stg in SU.
  unfold startup_of in SU. apply bind_Ok in SU as (l & EL & SU). apply bind_Ok in SU as (se & ES & SU).
  apply bind_Ok in SU as (params & EP & SU). apply bind_Ok in SU as (pw & EW & SU). apply Ok_inj in SU. injection SU as SU1 SU2. subst params.
  assert (ND' : forall d, Stg = PDict d -> NoDup (dkeys d)).
  { intros d E. apply ND. unfold Stg, arg in E. destruct (dget (str "settings") p); [congruence|discriminate E]. }
  destruct (dict_get _ _ _ _ EL ND') as [NL G].
  assert (AU : arg (str "user") p = u) by (unfold arg; rewrite Hu; reflexivity).
  exists se, l. split.
  { unfold encoding_name in ES. unfold encoding_used. destruct (truth (arg (str "server_encoding") p)) eqn:T.
    - left. unfold arg in *. destruct (dget (str "server_encoding") p) as [v|]; [|discriminate T]. destruct v as [e| | | | | |]; try discriminate ES. apply Ok_inj in ES. subst e.
      split; [|reflexivity]. intros ->. discriminate T.
    - right. apply Ok_inj in ES. split; [|symmetry; exact ES]. intros e E. unfold arg in T. rewrite E in T. destruct e; [reflexivity|discriminate T]. }
  split; [exact NL|]. split.
  { clear - EP. apply mapM_Forall2 in EP. induction EP as [|[k v] [kb vb] ? ? E EP IH]; constructor; [clear EP IH|exact IH]. unfold encode_pair in E. cbn [fst snd] in *. apply bind_Ok in E as (kb' & Ek & E). apply bind_Ok in E as (vb' & Ev & E). apply Ok_inj in E. injection E as <- <-.
    split; [exact Ek|]. unfold value_bytes. destruct v; exact Ev. }
  split; [exists u; split; [split; assumption|]; specialize (G (str "user")); unfold packet_value in G; cbn [seqb] in G; apply Ok_inj in G; rewrite <- G, AU; reflexivity|].
  split.
  { intros v Hv. specialize (G (str "database")). unfold packet_value in G. rewrite (is_none_has _ _ _ Hv) in G. 
    change (seqb (str "database") (str "user")) with false in G. rewrite seqb_refl in G. cbn [negb andb] in G. apply Ok_inj in G. rewrite <- G. rewrite (arg_has _ _ _ Hv). reflexivity. }
  assert (V : forall k, k <> str "user" -> (k = str "database" -> lacks (str "database") p) ->
     match setting Stg k with
     | Some v => do w <- path_value Stg k v; Ok (Some w)
     | None => Ok (if seqb k (str "client_min_messages") then Some (PStr (str "WARNING")) else None)
     end = Ok (dget k l)).
  { intros k K1 K2. rewrite <- G. unfold packet_value. destruct (seqb_spec k (str "user")); [contradiction|].
    destruct (seqb_spec k (str "database")) as [E|E]; [rewrite (is_none_lacks _ _ (K2 E))|]; reflexivity. }
  split.
  - intros k K1 K2. specialize (V k K1 K2). split.
    + intros v Ev K3. rewrite Ev in V. assert (W : path_value Stg k v = Ok v).
      { unfold path_value. destruct Stg; try reflexivity. destruct (seqb_spec k k_search_path) as [->|N]; [|reflexivity]. destruct K3 as [K3|(s & ->)]; [exfalso; apply K3; reflexivity|reflexivity]. }
      rewrite W in V. cbn [bind] in V. apply Ok_inj in V. auto.
    + intros Ev. rewrite Ev in V. apply Ok_inj in V. auto.
  - intros d ns Ed Es. specialize (V (str "search_path")). assert (V' := V ltac:(discriminate) ltac:(discriminate)). rewrite Ed in V'. cbn [setting] in V'. rewrite Es in V'.
    unfold path_value in V'. change (seqb (str "search_path") k_search_path) with true in V'. cbn [joined_path bind] in V'. apply Ok_inj in V'.
    eexists. split; [symmetry; exact V'|]. split; [intros ->; reflexivity|]. intros N. destruct ns as [|a ns]; [contradiction|]. apply names_joined.
Qed.
(** The password is the text given, in the same encoding, and nothing if none is given. *)
Theorem C76_password p c : fit p = Ok c -> exists se, encoding_used p se /\
  (forall s, dget (str "password") p = Some (PStr s) -> encode se s = Ok (c_pw c)) /\ (lacks (str "password") p -> encode se [] = Ok (c_pw c)).
Proof.
  intros H. apply fit_inv, fitted_init in H as (own & H). apply init_inv in H as (_ & _ & _ & _ & _ & _ & SU). rewrite !rest_arg in SU by discriminate.
  unfold startup_of in SU. apply bind_Ok in SU as (l & EL & SU). apply bind_Ok in SU as (se & ES & SU).
  apply bind_Ok in SU as (params & EP & SU). apply bind_Ok in SU as (pw & EW & SU). apply Ok_inj in SU. injection SU as SU1 SU2. subst pw. exists se. split.
  { unfold encoding_name in ES. unfold encoding_used. destruct (truth (arg (str "server_encoding") p)) eqn:T.
    - left. unfold arg in *. destruct (dget (str "server_encoding") p) as [v|]; [|discriminate T]. destruct v as [e| | | | | |]; try discriminate ES. apply Ok_inj in ES. subst e.
      split; [|reflexivity]. intros ->. discriminate T.
    - right. apply Ok_inj in ES. split; [|symmetry; exact ES]. intros e E. unfold arg in T. rewrite E in T. destruct e; [reflexivity|discriminate T]. }
  split.
  - intros s E. unfold arg in EW. rewrite E in EW. destruct s; exact EW.
  - intros L. apply arg_lacks in L. rewrite L in EW. exact EW.
Qed.

(** The server reads exactly these parameters, if no name is empty, no name or value has a zero byte, and the encoding tells
    names apart. *)
Theorem C76_wire p c : fit p = Ok c -> (forall d, dget (str "settings") p = Some (PDict d) -> NoDup (dkeys d)) ->
  (forall a b x, encode (str "utf-8") a = Ok x -> encode (str "utf-8") b = Ok x -> a = b) ->
  Forall (fun kv => fst kv <> [] /\ ~ In 0 (fst kv) /\ ~ In 0 (snd kv)) (c_startup c) ->
  Element3Model.dict_of (c_startup c) = c_startup c /\
  exists body, Element3Model.serialize (Element3Model.MStartup (c_startup c)) = Ok ([0; 3; 0; 0] ++ body) /\
    packet body (c_startup c) /\ forall l, packet body l -> l = c_startup c.
Proof.
  intros H ND Inj F. split.
  - apply Element3Proof.dict_of_nodup. destruct (C76_startup p c H ND) as (se & l & _ & NL & F2 & _). clear - NL F2 Inj. unfold dkeys in NL.
    assert (X : Forall2 (fun a b => encode (str "utf-8") a = Ok b) (map fst l) (map fst (c_startup c))).
    { clear NL. induction F2 as [|a b l m (E & _) F2 IH]; cbn [map]; constructor; assumption. }
    revert NL X. generalize (map fst l), (map fst (c_startup c)). clear F2. intros ks bs NL X. induction X as [|k b ks bs E X IH]; [constructor|].
    inversion NL as [|? ? N1 N2]; subst. constructor; [|apply IH; exact N2]. intros I. apply N1.
    clear - X I E Inj. induction X as [|k' b' ks bs E' X IH]; [destruct I|]. destruct I as [<-|I]; [left; eapply Inj; eauto|right; auto].
  - eexists. split; [reflexivity|]. pose proof (packet_bytes _ F) as P. split; [exact P|]. intros l Q. symmetry. eapply packet_det; eauto.
Qed.
End props.
Print Assumptions C75_unix. Print Assumptions C75_exclusive. Print Assumptions C75_required. Print Assumptions C75_user.
Print Assumptions C75_inet. Print Assumptions C75_family. Print Assumptions C75_ipv_conflict. Print Assumptions C75_keywords. Print Assumptions C75_security.
Print Assumptions C76_startup. Print Assumptions C76_password. Print Assumptions C76_wire.

(** ** what does not hold, and examples; the codec is the identity, addresses are recognised by a table *)
Definition plain_codec (name s : text) : res (list Z) := Ok s.
Definition no_repr (v : pval) : text := str "[...]".
Definition ex_six (h : text) : res bool := Ok (seqb h (str "::1")).
Definition ex_four (h : text) : res bool := Ok (seqb h (str "127.0.0.1")).
Definition ex_lookup (h p f : pval) : res (list (list Z * (text * Z))) :=
  Ok [([10; 1; 6], (str "::1", 5432)); ([2; 1; 6], (str "127.0.0.1", 5432))].
Definition ex_fit := fit ascii_unicode (fun _ => None) no_repr plain_codec ex_six ex_four.
Definition ex_params (more : cpd) : cpd := (str "user", PStr (str "bob")) :: (str "host", PStr (str "localhost")) :: (str "port", PStr (str "5432")) :: more.
(** a search path of None in the settings is sent as the name None *)
Theorem C76_no_path_refuted : exists c, ex_fit (ex_params [(str "settings", PDict [(str "search_path", PNone)])]) = Ok c /\
  c_startup c = [(str "client_min_messages", str "WARNING"); (str "search_path", str "None"); (str "user", str "bob")].
Proof. eexists. split; vm_compute; reflexivity. Qed.
Print Assumptions C76_no_path_refuted.
(** in settings that are pairs, the names of a search path are not joined: the server gets what Python shows of the list *)
Theorem C76_pairs_path_refuted : exists c, ex_fit (ex_params [(str "settings", PItems [(str "search_path", PList [str "a"; str "b"])])]) = Ok c /\
  c_startup c = [(str "client_min_messages", str "WARNING"); (str "search_path", no_repr (PList [str "a"; str "b"])); (str "user", str "bob")].
Proof. eexists. split; vm_compute; reflexivity. Qed.
Print Assumptions C76_pairs_path_refuted.
(** a zero character is not refused: with it a user name (or a database name, or a setting) brings other parameters along; the
    packet below is accepted by the server, which then reads a parameter that was not asked for *)
Theorem C76_nul_refuted : exists c body, 
  ex_fit [(str "user", PStr (str "bob" ++ [0] ++ str "role" ++ [0] ++ str "admin")); (str "unix", PStr (str "/tmp/.s.PGSQL.5432"))] = Ok c /\
  Element3Model.serialize (Element3Model.MStartup (c_startup c)) = Ok ([0; 3; 0; 0] ++ body) /\
  packet body [(str "client_min_messages", str "WARNING"); (str "user", str "bob"); (str "role", str "admin")].
Proof.
  eexists. eexists. split; [vm_compute; reflexivity|]. split; [reflexivity|].
  pose proof (packet_bytes [(str "client_min_messages", str "WARNING"); (str "user", str "bob"); (str "role", str "admin")]) as P.
  apply P. repeat (apply Forall_cons; [split; [discriminate|]; split; intros I; vm_compute in I; intuition discriminate|]). apply Forall_nil.
Qed.
Print Assumptions C76_nul_refuted.

Example ex_unix : exists c, ex_fit [(str "user", PStr (str "bob")); (str "unix", PStr (str "/tmp/s"))] = Ok c.
Proof. eexists. vm_compute. reflexivity. Qed.
Example ex_name : exists c fs, ex_fit (ex_params [(str "ipv", PNone)]) = Ok c /\ factories ex_lookup c = Ok fs /\
  map f_connect fs = [Inet (str "::1") 5432; Inet (str "127.0.0.1") 5432].
Proof. eexists. eexists. split; [vm_compute; reflexivity|]. split; vm_compute; reflexivity. Qed.
Example ex_ip4 : exists c fs, ex_fit [(str "user", PStr (str "bob")); (str "host", PStr (str "127.0.0.1")); (str "port", PStr (str "5433")); (str "ipv", PInt 4)] = Ok c /\ factories ex_lookup c = Ok fs /\
  map (fun f => (f_create f, f_connect f)) fs = [([2; 1], Inet (str "127.0.0.1") 5433)].
Proof. eexists. eexists. split; [vm_compute; reflexivity|]. split; vm_compute; reflexivity. Qed.
Example ex_ip6_refused : ex_fit [(str "user", PStr (str "bob")); (str "host", PStr (str "::1")); (str "port", PInt 5433); (str "ipv", PInt 4)] = Err TypeError.
Proof. vm_compute. reflexivity. Qed.
Example ex_startup : exists c, ex_fit (ex_params [(str "database", PStr (str "db")); (str "settings", PDict [(str "search_path", PList [[97; 34; 98]; str "c"]); (str "work_mem", PInt 64)])]) = Ok c /\
  c_startup c = [(str "client_min_messages", str "WARNING"); (str "search_path", [34; 97; 34; 34; 98; 34; 44; 34; 99; 34]); (str "work_mem", str "64"); (str "user", str "bob"); (str "database", str "db")]
  /\ Forall (fun kv => fst kv <> [] /\ ~ In 0 (fst kv) /\ ~ In 0 (snd kv)) (c_startup c).
Proof.
  eexists. split; [vm_compute; reflexivity|]. split; [vm_compute; reflexivity|]. cbn [c_startup].
  repeat (apply Forall_cons; [split; [discriminate|]; split; intros I; vm_compute in I; intuition discriminate|]). apply Forall_nil.
Qed.
