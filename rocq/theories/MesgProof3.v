(** MesgProof3.v: attribution over histories of requests *)
From Verif Require Import Base BaseProof PyStr PyDict PyDictProof PyListProof Element3Model ExcModel ExcTable ExcSpec MesgModel MesgSpec MesgProof MesgProof2.
Open Scope Z_scope.
Local Opaque ErrorLookup WarningLookup.
Section d.
Context (csource : option class -> text) (decode_in : text -> bytes -> option text) (known : text -> bool) (upper : Z -> text) (U : unicode)
        (factor : nat -> option nat) (hooked : nat -> bool) (answer : log -> nat -> msg -> res bool) (syshook : log -> msg -> option exn) (fuel : nat)
        (self : nat) (sett : list (bytes * bytes) -> bytes * bytes -> option exn) (repr_msg : message -> text).
Notation deliver := (deliver csource decode_in known upper U factor hooked answer syshook fuel self sett repr_msg).
Notation run_op := (run_op csource decode_in known upper U factor hooked answer syshook fuel self sett repr_msg).
Lemma emit_from_calls n g m o : exists c, fst (emit_from factor hooked answer syshook n g m o) = g ++ c /\ Forall (fun x => snd x = m) c.
Proof.
  revert g o. induction n as [|n IH]; intros g o; (destruct o as [o|]; cbn [emit_from];
    [|exists [(None, m)]; split; [reflexivity|repeat constructor]]).
  - exists []. rewrite app_nil_r. split; [reflexivity|constructor].
  - destruct (hooked o); [|apply IH]. destruct (answer g o m) as [[|]|e].
    + exists [(Some o, m)]. split; [reflexivity|repeat constructor].
    + destruct (IH (g ++ [(Some o, m)]) (factor o)) as (c & E & F). exists ((Some o, m) :: c). rewrite E, <- app_assoc. split; [reflexivity|]. now constructor.
    + exists [(Some o, m)]. split; [reflexivity|repeat constructor].
Qed.
Lemma message_of_creator f src c m : message_of csource upper f src c self = Ok m -> m_creator m = c.
Proof.
  unfold message_of. intros H. apply bind_Ok in H as ([a f1] & _ & H). apply bind_Ok in H as ([b f2] & _ & H).
  destruct (dget (str "severity") f2); [|discriminate]. injection H as <-. reflexivity.
Qed.
Lemma deliver_keeps l : forall s, c_controller (deliver s l) = c_controller s /\ c_running (deliver s l) = c_running s /\
  exists cs, c_log (deliver s l) = c_log s ++ cs /\ Forall (fun x => m_creator (snd x) = creator_of self s) cs.
Proof.
  induction l as [|m l IH]; intros s; [repeat split; exists []; rewrite app_nil_r; split; [reflexivity|constructor]|].
  set (s1 := deliver1 csource decode_in known upper U factor hooked answer syshook fuel self sett repr_msg s m).
  change (deliver s (m :: l)) with (deliver s1 l).
  assert (EM : forall s r, (forall x, r = Ok x -> m_creator x = creator_of self s) -> forall s' x, emitted factor hooked answer syshook fuel s r = (s', x) ->
     c_controller s' = c_controller s /\ c_running s' = c_running s /\ exists cs, c_log s' = c_log s ++ cs /\ Forall (fun x => m_creator (snd x) = creator_of self s) cs).
  { clear. intros s r R s' x H. unfold emitted in H. destruct r as [y|e].
    - destruct (emit factor hooked answer syshook fuel (c_log s) y) as [g r'] eqn:E. injection H as <- <-. cbn [c_controller c_running c_log]. repeat split.
      destruct (emit_from_calls fuel (c_log s) y (Some (m_creator y))) as (c & E1 & E2). unfold emit in E. rewrite E in E1. cbn [fst] in E1. exists c. split; [exact E1|].
      eapply Forall_impl; [|exact E2]. cbv beta. intros a ->. now apply R.
    - injection H as <- <-. repeat split. exists []. rewrite app_nil_r. split; [reflexivity|constructor]. }
  assert (G : c_controller s1 = c_controller s /\ c_running s1 = c_running s /\ exists cs, c_log s1 = c_log s ++ cs /\ Forall (fun x => m_creator (snd x) = creator_of self s) cs).
  { unfold s1, MesgModel.deliver1.
    destruct (receive_async csource decode_in known upper U factor hooked answer syshook fuel self sett repr_msg s m) as [s2 x] eqn:E.
    assert (G : c_controller s2 = c_controller s /\ c_running s2 = c_running s /\ exists cs, c_log s2 = c_log s ++ cs /\ Forall (fun x => m_creator (snd x) = creator_of self s) cs).
    { unfold receive_async in E. fold (creator_of self s) in E.
      assert (NO : forall s', c_controller s' = c_controller s -> c_running s' = c_running s -> c_log s' = c_log s ->
         c_controller s' = c_controller s /\ c_running s' = c_running s /\ exists cs, c_log s' = c_log s ++ cs /\ Forall (fun x => m_creator (snd x) = creator_of self s) cs).
      { intros s' A B C. repeat split; auto. exists []. rewrite app_nil_r. split; [exact C|constructor]. }
      destruct m; try (eapply EM; [|exact E]; intros; eapply message_of_creator; eassumption).
      - injection E as <- <-. now apply NO.
      - destruct (seqb name (str "client_encoding")); [|unfold tell in E; injection E as <- <-; now apply NO].
        destruct (decode_ascii value); [|injection E as <- <-; now apply NO].
        unfold set_encoding in E. cbv zeta in E. destruct (known _); [|injection E as <- <-; now apply NO]. unfold tell in E. injection E as <- <-. now apply NO.
      - destruct error; eapply EM; try exact E; intros; eapply message_of_creator; eassumption. }
    destruct x; exact G. }
  clearbody s1. destruct G as (G1 & G2 & cs & G3 & G4). destruct (IH s1) as (I1 & I2 & cs' & I3 & I4).
  split; [congruence|]. split; [congruence|]. exists (cs ++ cs'). rewrite I3, G3, app_assoc. split; [reflexivity|]. apply Forall_app. split; [exact G4|].
  eapply Forall_impl; [|exact I4]. cbv beta. intros a ->. unfold creator_of. now rewrite G1.
Qed.
Lemma raise_creator codec e ctl m : raise_error csource decode_in codec e None ctl self = Ok m -> m_creator m = match ctl with Some c => c | None => self end.
Proof.
  unfold raise_error, raise_client_error, raise_server_error, raise_fields. intros H.
  destruct e; apply bind_Ok in H as ([a f1] & _ & H); apply bind_Ok in H as ([b f2] & _ & H); injection H as <-; reflexivity.
Qed.
Lemma raise_other codec e ctl x : raise_error csource decode_in codec e None ctl self = Err x -> x = KeyError.
Proof.
  unfold raise_error, raise_client_error, raise_server_error, raise_fields, dpop. intros H.
  destruct e; (destruct (dget (str "code") _); cbn [bind] in H; [|congruence]; destruct (dget (str "message") _); cbn [bind] in H; congruence).
Qed.
Definition attr_inv (s : conn) : Prop := forall c, c_running s = Some c -> c_controller s = Some c.
Lemma with_log s a b : c_log (with_running s a b) = c_log s. Proof. reflexivity. Qed.
Lemma op_step s p s' r : attr_inv s -> run_op s p = (s', r) ->
  attr_inv s' /\ (exists cs, c_log s' = c_log s ++ cs /\ Forall (fun x => c_running s = Some (m_creator (snd x))) cs) /\
  (forall e, r = Raised e -> c_running s = Some (m_creator e)) /\ (forall x, r = Other x -> x = KeyError).
Proof.
  intros I H. destruct p as [o c|o|o done]; cbn [MesgModel.run_op] in H; unfold pq_push, pq_complete, pq_step in H; destruct (c_running s) as [w|] eqn:R.
  all: try (injection H as <- <-; split; [first [exact I|intros x X; cbn [with_running c_running c_controller] in *; congruence]|]; split; [exists []; rewrite app_nil_r; split; [reflexivity|constructor]|]; split; intros; discriminate).
  all: specialize (I w R); destruct (deliver_keeps (o_asyncs o) s) as (D1 & D2 & cs & D3 & D4); set (s1 := deliver s (o_asyncs o)) in *; clearbody s1.
  all: assert (CR : creator_of self s = w) by (unfold creator_of; now rewrite I).
  all: assert (LG : exists cs, c_log s1 = c_log s ++ cs /\ Forall (fun x => Some w = Some (m_creator (snd x))) cs)
       by (exists cs; split; [exact D3|]; eapply Forall_impl; [|exact D4]; cbv beta; intros a Ea; congruence).
  1: destruct (o_error o) as [e|]; injection H as <- <-.
  3: destruct (o_error o) as [e|]; [injection H as <- <-|unfold del_controller in H; cbn [with_running c_controller] in H; rewrite D1, I in H; injection H as <- <-].
  5: destruct done; [destruct (o_error o) as [e|]; [injection H as <- <-|unfold del_controller in H; cbn [with_running c_controller] in H; rewrite D1, I in H; injection H as <- <-]|injection H as <- <-].
  all: split; [intros x X; cbn [with_running c_running c_controller] in *; congruence|].
  all: split; [exact LG|].
  all: try (split; intros; discriminate).
  all: split; [intros e' E|intros x E]; unfold raising in E; cbn [with_running c_controller c_codec] in E; rewrite D1, I in E;
       destruct (raise_error csource decode_in (c_codec s1) e None (Some w) self) eqn:RE; try discriminate E; injection E as ->;
       first [now rewrite (raise_creator _ _ _ _ RE)|now apply raise_other in RE].
Qed.
Lemma run_inv l : forall s, attr_inv s -> attr_inv (fold_left (fun s p => fst (run_op s p)) l s).
Proof.
  induction l as [|p l IH]; intros s I; cbn [fold_left]; [exact I|]. apply IH. destruct (run_op s p) as [s' r] eqn:E. cbn [fst]. now apply op_step in E.
Qed.
End d.
