(** NegProps.v: C29, C30: what a negotiation sends, and when a connection is usable. *)
From Verif Require Import Base BaseProof PBufferModel Element3Model NegModel NegSpec NegProof.

(** C29.  At every point of every run the whole conversation has one of three shapes:
    nothing; the startup message and then only received messages; the startup message,
    asynchronous messages, one authentication request, the password in exactly the form
    that was requested, and then only received messages. *)
Theorem C29_sends : forall md5hex crypt startup pw n tr, nrun md5hex crypt startup pw n tr ->
  tr = [] \/ (exists l, tr = Out (MStartup startup) :: map In l) \/
  (exists pre body req salt a post,
     tr = Out (MStartup startup) :: map In pre ++ In (82, body) :: Out (MString SPassword a) :: map In post /\
     Forall is_async pre /\ auth_body body req salt /\ reply md5hex crypt startup pw req salt a).
Proof. exact nrun_shape. Qed.
Print Assumptions C29_sends.

(** a negotiation that stops waiting for input does so to send the one message above *)
Theorem C29_pending : forall md5hex crypt startup pw n tr, nrun md5hex crypt startup pw n tr ->
  n_state n = Sending -> (tr = [] /\ n_messages n = [MStartup startup]) \/
  exists pre body req salt a, tr = Out (MStartup startup) :: map In (pre ++ [(82, body)]) /\ Forall is_async pre /\
    auth_body body req salt /\ reply md5hex crypt startup pw req salt a /\ n_messages n = [MString SPassword a].
Proof.
  intros md5hex crypt startup pw n tr HR St. pose proof (nrun_inv _ _ _ _ _ _ HR) as (I & _ & _).
  unfold inv in I. rewrite St in I.
  destruct I as (_ & _ & _ & _ & [(_ & -> & EM)|(_ & body & req & salt & a & AB & RP & ST & EM & pre & ->)]).
  - left. auto.
  - right. exists pre, body, req, salt, a. rewrite map_app. split; [reflexivity|].
    split; [|auto]. eapply (skel_asyncs md5hex crypt pw pre [In (82, body)]); [|auto]. cbn [skel] in ST. injection ST as ST. exact ST.
Qed.
Print Assumptions C29_pending.

(** an authentication request other than the four known ones ends the negotiation with an
    error, and nothing but the startup message has been sent *)
Theorem C29_unsupported : forall md5hex crypt startup pw n tr pre body post req salt,
  nrun md5hex crypt startup pw n tr ->
  tr = Out (MStartup startup) :: map In (pre ++ (82, body) :: post) -> Forall is_async pre ->
  auth_body body req salt -> ~ (req = 0 \/ req = 3 \/ req = 4 \/ req = 5) ->
  n_state n = Complete /\ n_fatal n = true /\ n_error n = Some (NUnsupported req) /\ outs tr = [MStartup startup].
Proof.
  intros md5hex crypt startup pw n tr pre body post req salt HR E F AB NR.
  pose proof (unsupported _ _ _ _ _ _ _ _ _ _ _ HR E F AB NR) as (A & B & C). repeat (split; [assumption|]).
  rewrite E. cbn [outs]. f_equal. clear. induction (pre ++ (82, body) :: post); cbn; auto.
Qed.
Print Assumptions C29_unsupported.

(** C30.  Partial: success implies the right conversation, except that the type of the
    message which confirms the password is not constrained (see C30_ok_type_refuted). *)
Theorem C30_success_partial : forall md5hex crypt startup pw n tr, nrun md5hex crypt startup pw n tr ->
  n_state n = Complete -> n_fatal n = false ->
  exists auth kb pid key z, ins tr = auth ++ [(75, kb); (90, z)] /\ auth_part auth /\
    parse KKillInformation kb = Ok (MKillInformation pid key) /\ n_killinfo n = Some (MKillInformation pid key) /\
    n_ready n = Some z /\ (z = [73] \/ z = [69] \/ z = [84]).
Proof. exact success. Qed.
Print Assumptions C30_success_partial.

(** conversely the proper conversation ends in success *)
Theorem C30_complete : forall md5hex crypt startup pw n tr auth kb z, nrun md5hex crypt startup pw n tr ->
  ins tr = auth ++ [(75, kb); (90, z)] -> auth_part auth -> Forall (fun x => fst x <> 69) (ins tr) ->
  n_state n = Complete /\ n_fatal n = false.
Proof. exact complete. Qed.
Print Assumptions C30_complete.

(** an error from the server ends the negotiation, and is the error reported *)
Theorem C30_error : forall md5hex crypt startup pw n tr body, nrun md5hex crypt startup pw n tr ->
  List.In (69, body) (ins tr) -> n_state n = Complete /\ n_fatal n = true /\
  exists pre d, ins tr = pre ++ [(69, body)] /\ parse (KNotice true) body = Ok d /\ n_error n = Some (NServer d).
Proof. exact error_fatal. Qed.
Print Assumptions C30_error.
Theorem C30_fatal_has_error : forall md5hex crypt startup pw n tr, nrun md5hex crypt startup pw n tr ->
  (n_fatal n = true <-> n_error n <> None) /\ (n_fatal n = true -> n_state n = Complete).
Proof. exact fatal_has_error. Qed.
Print Assumptions C30_fatal_has_error.
(** asynchronous messages received meanwhile are kept, each once and in order *)
Theorem C30_asyncs : forall md5hex crypt startup pw n tr, nrun md5hex crypt startup pw n tr ->
  Forall2 async_is (asyncs tr) (n_asyncs n).
Proof. intros. apply async_parsed_is. eapply nrun_inv; eauto. Qed.
Print Assumptions C30_asyncs.

(** a batch is never taken twice *)
Theorem C30_batch_once : forall md5hex crypt n id l n' c l2, neg_put md5hex crypt n id l = Ok (n', c) ->
  neg_put md5hex crypt n' id l2 = Err RuntimeError.
Proof.
  intros md5hex crypt n id l n' c l2 H. unfold neg_put in *. destruct (id =? n_last n); [discriminate|].
  assert (K : forall l n c n' c', neg_loop md5hex crypt n c l = Ok (n', c') -> n_last n' = n_last n).
  { clear. induction l as [|x r IH]; intros n c n' c' H; cbn [neg_loop] in H; [injection H as <- _; reflexivity|].
    destruct (fst x =? 69); [apply bind_Ok in H as (? & _ & H); injection H as <- _; reflexivity|].
    destruct (async_kind (fst x)); [apply bind_Ok in H as (? & _ & H); apply IH in H; exact H|].
    destruct (machine_send md5hex crypt n x) as [[[n1 out] e]|] eqn:E; [|discriminate]. cbn [bind] in H.
    assert (n_last n1 = n_last n) as L.
    { unfold machine_send in E. destruct (n_machine n).
      - destruct (negb (fst x =? 82)); [injection E as <- _ _; reflexivity|]. apply bind_Ok in E as (a & _ & E).
        destruct a; try discriminate. destruct (_ =? 0); [injection E as <- _ _; reflexivity|].
        destruct (_ =? 3); [injection E as <- _ _; reflexivity|]. destruct (_ =? 4); [injection E as <- _ _; reflexivity|].
        destruct (_ =? 5); [|injection E as <- _ _; reflexivity].
        destruct (assoc _ _); [injection E as <- _ _; reflexivity|discriminate].
      - apply bind_Ok in E as (a & _ & E). destruct a; try discriminate. destruct (_ =? 0); injection E as <- _ _; reflexivity.
      - destruct (negb _); [injection E as <- _ _; reflexivity|]. apply bind_Ok in E as (a & _ & E). injection E as <- _ _; reflexivity.
      - destruct (negb _); [injection E as <- _ _; reflexivity|]. apply bind_Ok in E as (a & _ & E). injection E as <- _ _; reflexivity.
      - injection E as <- _ _; reflexivity. }
    destruct e; [injection H as <- _; exact L|]. destruct out; [|injection H as <- _; exact L].
    apply IH in H. rewrite H. exact L. }
  apply K in H. rewrite H. cbn [n_last]. rewrite Z.eqb_refl. reflexivity.
Qed.
Print Assumptions C30_batch_once.

(** examples: a run that is trusted at once, and one that asks for an md5 password *)
Definition ex_md5 (b : bytes) : bytes := firstn 4 (b ++ [1; 2; 3; 4]).
Definition ex_crypt (a b : bytes) : bytes := b ++ a.
Definition ex_startup : list (bytes * bytes) := [([117; 115; 101; 114], [106; 112])].
Definition ex_notice : wmsg := (83, [97; 0; 98; 0]).
Definition ex_ok : list wmsg := [(82, [0; 0; 0; 0]); ex_notice; (75, [0; 0; 0; 1; 0; 0; 0; 2]); (90, [73])].
Definition ex_ask : list wmsg := [ex_notice; (82, [0; 0; 0; 5; 9; 9; 9; 9])].

Definition okget {A} (d : A) (r : res A) : A := match r with Ok a => a | Err _ => d end.
Definition ex_n0 := neg_sent (neg_init ex_startup [112; 119]).
Definition ex_n1 := fst (okget (ex_n0, 0) (neg_put ex_md5 ex_crypt ex_n0 1 ex_ok)).
Example C30_ex : exists tr, nrun ex_md5 ex_crypt ex_startup [112; 119] ex_n1 tr /\ n_state ex_n1 = Complete /\ n_fatal ex_n1 = false
  /\ ins tr = [(82, [0; 0; 0; 0]); (75, [0; 0; 0; 1; 0; 0; 0; 2]); (90, [73])] /\ asyncs tr = [ex_notice].
Proof.
  exists (([] ++ map Out [MStartup ex_startup]) ++ map In (firstn (Z.to_nat 4) ex_ok)).
  split; [|repeat split; vm_compute; reflexivity].
  apply (nr_put ex_md5 ex_crypt ex_startup [112; 119] ex_n0 _ 1 ex_ok ex_n1 4).
  - apply nr_send with (n := neg_init ex_startup [112; 119]); [constructor|reflexivity].
  - reflexivity.
  - vm_compute. reflexivity.
Qed.
Definition ex_n2 := fst (okget (ex_n0, 0) (neg_put ex_md5 ex_crypt ex_n0 1 ex_ask)).
Definition ex_n3 := fst (okget (ex_n0, 0) (neg_put ex_md5 ex_crypt (neg_sent ex_n2) 2 ex_ok)).
Definition ex_tr2 := ([] ++ map Out [MStartup ex_startup]) ++ map In (firstn (Z.to_nat 2) ex_ask).
Lemma ex_run2 : nrun ex_md5 ex_crypt ex_startup [112; 119] ex_n2 ex_tr2.
Proof.
  apply (nr_put ex_md5 ex_crypt ex_startup [112; 119] ex_n0 _ 1 ex_ask ex_n2 2).
  - apply nr_send with (n := neg_init ex_startup [112; 119]); [constructor|reflexivity].
  - reflexivity.
  - vm_compute. reflexivity.
Qed.
Example C29_ex : exists tr a, nrun ex_md5 ex_crypt ex_startup [112; 119] ex_n3 tr /\ n_state ex_n3 = Complete /\ n_fatal ex_n3 = false
  /\ outs tr = [MStartup ex_startup; MString SPassword a] /\ reply ex_md5 ex_crypt ex_startup [112; 119] 5 [9; 9; 9; 9] a.
Proof.
  exists ((ex_tr2 ++ map Out [MString SPassword ([109; 100; 53] ++ ex_md5 (ex_md5 [112; 119; 106; 112] ++ [9; 9; 9; 9]))])
     ++ map In (firstn (Z.to_nat 4) ex_ok)).
  exists ([109; 100; 53] ++ ex_md5 (ex_md5 [112; 119; 106; 112] ++ [9; 9; 9; 9])). split.
  - apply (nr_put ex_md5 ex_crypt ex_startup [112; 119] (neg_sent ex_n2) _ 2 ex_ok ex_n3 4).
    + apply (nr_send ex_md5 ex_crypt ex_startup [112; 119] ex_n2 ex_tr2 ex_run2). vm_compute. reflexivity.
    + reflexivity.
    + vm_compute. reflexivity.
  - do 3 (split; [vm_compute; reflexivity|]). right; right. split; [reflexivity|]. exists [106; 112]. split; reflexivity.
Qed.
Example C29_ex_unsupported : exists n tr, nrun ex_md5 ex_crypt ex_startup [112; 119] n tr /\
  tr = Out (MStartup ex_startup) :: map In ([ex_notice] ++ (82, [0; 0; 0; 7]) :: []) /\ n_error n = Some (NUnsupported 7).
Proof.
  set (n := fst (okget (ex_n0, 0) (neg_put ex_md5 ex_crypt ex_n0 1 [ex_notice; (82, [0; 0; 0; 7])]))).
  exists n, (([] ++ map Out [MStartup ex_startup]) ++ map In (firstn (Z.to_nat 2) [ex_notice; (82, [0; 0; 0; 7])])).
  split; [|split; vm_compute; reflexivity].
  apply (nr_put ex_md5 ex_crypt ex_startup [112; 119] ex_n0 _ 1 [ex_notice; (82, [0; 0; 0; 7])] n 2).
  - apply nr_send with (n := neg_init ex_startup [112; 119]); [constructor|reflexivity].
  - reflexivity.
  - vm_compute. reflexivity.
Qed.

(** the message after the password is not checked to be an authentication message: a
    DataRow ('D') with four zero bytes is taken for AuthenticationOk.  xact3.py:214-220 *)
Theorem C30_ok_type_refuted : ~ (forall md5hex crypt startup pw n tr, nrun md5hex crypt startup pw n tr ->
  n_state n = Complete -> n_fatal n = false -> forall x, List.In x (ins tr) -> fst x = 82 \/ fst x = 75 \/ fst x = 90).
Proof.
  intros H.
  set (l := [(68, [0; 0; 0; 0]); (75, [0; 0; 0; 1; 0; 0; 0; 2]); (90, [73])]).
  set (n := fst (okget (ex_n0, 0) (neg_put ex_md5 ex_crypt (neg_sent ex_n2) 2 l))).
  specialize (H ex_md5 ex_crypt ex_startup [112; 119] n ((ex_tr2 ++ map Out (n_messages ex_n2)) ++ map In (firstn (Z.to_nat 3) l))).
  assert (F : fst ((68, [0; 0; 0; 0]) : wmsg) = 82 \/ fst ((68, [0; 0; 0; 0]) : wmsg) = 75 \/ fst ((68, [0; 0; 0; 0]) : wmsg) = 90).
  { apply H; [|vm_compute; reflexivity|vm_compute; reflexivity|vm_compute; auto].
    apply (nr_put ex_md5 ex_crypt ex_startup [112; 119] (neg_sent ex_n2) _ 2 l n 3).
    - apply (nr_send ex_md5 ex_crypt ex_startup [112; 119] ex_n2 ex_tr2 ex_run2). vm_compute. reflexivity.
    - reflexivity.
    - vm_compute. reflexivity. }
  cbn in F. lia.
Qed.
Print Assumptions C30_ok_type_refuted.
