(** SockProps.v: C86. *)
From Verif Require Import Base BaseProof PBufferModel PBufferSpec Element3Model PyStr SockModel SockSpec SockProof.

(** Opening a socket.  When it succeeds there is one new socket, connected to the
    address, without a time limit, and not closed.  When it fails with an Exception,
    every socket it made has been closed, exactly once.  Whatever happens it makes at
    most one socket, touches no other, sends nothing, and closes nothing twice; and a
    socket that is left open after a failure was left by an exception that is no
    Exception. *)
Theorem C86_open : forall f t E h, exists r new, run (call f t) E h r new /\
  (length (made new) <= 1)%nat /\ (forall s, In s (touched new) -> In s (made new)) /\ (forall s, sent s new = [] /\ (closes s new <= 1)%nat) /\
  match r with
  | inl s => made new = [s] /\ connected s new = [f_connect f] /\ limit s (Some 0) new = None /\ closes s new = 0%nat
  | inr (RExc _) => forall s, In s (made new) -> closes s new = 1%nat
  | inr (RBase _) => interrupted new
  end.
Proof.
  intros f t E h. destruct (call_spec f t E h) as (r & new & C & X). exists r, new. split; [exact C|]. exact (open_ends f t r new X).
Qed.
Print Assumptions C86_open.

(** Interrupting.  Exactly one CancelRequest, for the process and key of the
    connection's backend, goes to the address of its server, through a socket made for
    it, which is closed (once) whatever happens to the request; only if it could not be
    connected, and by an exception that is no Exception, is it left open.  All of the
    request was sent if interrupt() returns, otherwise a part of it from its beginning,
    and nothing else at all; the socket of the connection itself, and any other, is
    not touched; nothing happens if the connection has no backend yet. *)
Theorem C86_interrupt : forall f ids t E h, exists r new, run (interrupt f ids t) E h r new /\
  (length (made new) <= 1)%nat /\ (forall s, In s (touched new) -> In s (made new)) /\
  (ids = None -> r = inr (RExc StructErr) /\ new = []) /\
  (forall pid key, ids = Some (pid, key) ->
    (forall s, prefix_of (sent s new) (cancel_packet pid key) /\ (sent s new <> [] -> connected s new = [f_connect f]) /\ (closes s new <= 1)%nat) /\
    (r = inl tt -> exists s, made new = [s] /\ sent s new = cancel_packet pid key /\ closes s new = 1%nat) /\
    (forall s, In s (made new) -> closes s new = 1%nat \/ (closes s new = 0%nat /\ interrupted new /\ sent s new = []))).
Proof.
  intros f ids t E h. destruct ids as [[pid key]|].
  2:{ exists (inr (RExc StructErr)), []. split; [unfold run; cbn; rewrite app_nil_r; reflexivity|]. cbn. repeat split; auto; try tauto; discriminate. }
  destruct (interrupt_spec f pid key t E h) as (r & new & C & X). exists r, new. split; [exact C|]. clear C.
  inversion X as [N|x l Y|s r' n1 n2 Y Z]; subst; clear X.
  - cbn. split; [lia|]. split; [tauto|]. split; [discriminate|]. intros p k E0. split; [|split; [discriminate|intros s []]].
    intros s. split; [eexists; reflexivity|]. split; [congruence|lia].
  - destruct (open_ends f t (inr x) new Y) as (A & B & D & F). split; [exact A|]. split; [exact B|]. split; [discriminate|].
    intros p k E0. split; [|split; [discriminate|]].
    + intros s. destruct (D s) as [D1 D2]. rewrite D1. split; [eexists; reflexivity|]. split; [congruence|exact D2].
    + intros s I. destruct x as [e|e]; [left; exact (F s I)|].
      destruct (D s) as [D1 D2]. destruct (closes s new) as [|[|n]] eqn:L; [right; auto|left; reflexivity|exfalso; lia].
  - inversion Y as [|s0 N| | |]; subst. inversion Z as [k x c K F]; subst; clear Y Z. cbn [app].
    split; [cbn; lia|]. split; [cbn; tauto|]. split; [discriminate|]. intros p q E0. inversion E0; subst p q; clear E0.
    split; [|split].
    + intros s'. cbn [sent connected closes]. destruct (s =? s') eqn:Q; cbn.
      * rewrite app_nil_r. split; [exists (skipn k (cancel_packet pid key)); symmetry; apply firstn_skipn|]. auto.
      * split; [eexists; reflexivity|]. split; [congruence|lia].
    + intros E0. exists s. cbn [made sent closes]. rewrite Z.eqb_refl, app_nil_r. split; [reflexivity|]. split; [|reflexivity].
      destruct c as [c|]; [discriminate|]. destruct x as [x|]; [discriminate|]. rewrite (F eq_refl). apply firstn_all.
    + intros s' [->|[]]. left. cbn [closes]. rewrite Z.eqb_refl. reflexivity.
Qed.
Print Assumptions C86_interrupt.

(** the time limit given to interrupt() is for connecting only: when the request is
    sent the socket has none *)
Theorem C86_limit_refuted : forall f pid key t E h r new, run (interrupt f (Some (pid, key)) t) E h r new ->
  forall a s d k x b, new = a ++ EOp s (Sendall d k) x :: b -> limit s (Some 0) a = None.
Proof.
  intros f pid key t E h r new R a s d k x b E0. destruct (interrupt_spec f pid key t E h) as (r' & new' & C & X).
  unfold run in R. rewrite C in R. assert (new = new') by (apply (app_inv_head h); congruence). clear R C. subst new'.
  assert (NoSend : forall f t r l, call_ends f t r l -> ~ exists s d k x, In (EOp s (Sendall d k) x) l).
  { intros f0 t0 r0 l Y (s1 & d1 & k1 & x1 & I). inversion Y; subst; sock_cases; cbn in I; intuition discriminate. }
  inversion X as [N Q1 E1|y l Y Q1 E1|s0 r0 n1 n2 Y Z Q1 E1].
  - rewrite <- E1 in E0. destruct a; discriminate.
  - exfalso. apply (NoSend _ _ _ _ Y). rewrite E0. exists s, d, k, x. apply in_or_app. right. left. reflexivity.
  - inversion Y as [|s1 N E2 E3| | |]. inversion Z as [k' x' c L F E4 E5]. subst s1. rewrite <- E1, <- E3, <- E5 in E0. cbn [app] in E0. clear - E0.
    do 4 (destruct a as [|? a]; [discriminate|]; cbn [app] in E0; inversion E0; subst; clear E0; match goal with H : _ = a ++ _ |- _ => rename H into E0 end).
    destruct a as [|? a]; [|exfalso; cbn [app] in E0; inversion E0; subst; do 2 (destruct a as [|? a]; try discriminate)].
    inversion E0; subst. cbn [limit]. rewrite !Z.eqb_refl. reflexivity.
Qed.
Print Assumptions C86_limit_refuted.

(** a socket that is being connected is left open by a KeyboardInterrupt *)
Theorem C86_leak_refuted : forall f e, exists E s r new, run (call f TNone) E [] r new /\
  r = inr (RBase e) /\ made new = [s] /\ closes s new = 0%nat.
Proof.
  intros f e.
  exists {| e_socket := fun _ _ => inl 5; e_op := fun _ _ o => match o with Connect _ => Some (RBase e) | _ => None end; e_sent := fun _ _ => 0%nat; e_port := fun _ _ => 0 |}, 5.
  do 2 eexists. split; [reflexivity|]. repeat split.
Qed.
Print Assumptions C86_leak_refuted.

(** find_available_port gives the port the system chose for a socket bound to
    localhost, and has closed that socket, once, however it ends *)
Theorem C86_port : forall i family E h, exists r new, run (find_available_port i family) E h r new /\
  (length (made new) <= 1)%nat /\ (forall s, In s (touched new) -> In s (made new)) /\
  (forall s, In s (made new) -> closes s new = 1%nat) /\
  (forall p, r = inl p -> exists s, In (EOp s (Bind (str "localhost") 0) None) new /\ In (EOp s (Name p) None) new) /\
  (forall s host port x, In (EOp s (Bind host port) x) new -> host = str "localhost" /\ port = 0).
Proof.
  intros i family E h. destruct (port_spec i family E h) as (r & new & C & X). exists r, new. split; [exact C|]. clear C.
  inversion X as [x|s x c|s p x c]; subst r new; clear X.
  all: split; [cbn; lia|]; split; [cbn [touched made In]; intuition auto|].
  all: split; [intros s' I; cbn [made In] in I; cbn [closes]; first [contradiction | destruct I as [I|I]; [subst; rewrite ?Z.eqb_refl; reflexivity|contradiction]]|].
  all: split.
  - discriminate.
  - intros s' ho po x' [I|[]]; discriminate.
  - destruct c; discriminate.
  - intros s' ho po x' I. cbn [In] in I. repeat (destruct I as [I|I]; [first [discriminate | inversion I; subst; split; reflexivity]|]). contradiction.
  - intros q Q. destruct c; [discriminate|]. destruct x; [discriminate|]. inversion Q; subst. exists s. cbn. auto.
  - intros s' ho po x' I. cbn [In] in I. repeat (destruct I as [I|I]; [first [discriminate | inversion I; subst; split; reflexivity]|]). contradiction.
Qed.
Print Assumptions C86_port.
(** the interface argument is not used *)
Theorem C86_interface_refuted : forall i i' family E h, find_available_port i family E h = find_available_port i' family E h.
Proof. reflexivity. Qed.
Print Assumptions C86_interface_refuted.

(** which errors end the connection: fatal_exception_message gives None exactly for an
    error with one of four numbers, or for one whose strerror is None *)
Theorem C86_message : forall x, fatal_message x = None <->
  (exists e, x_errno x = Some e /\ (e = 11 \/ e = 4 \/ e = 110)) \/ ((forall e, x_errno x = Some e -> e <> 11 /\ e <> 4 /\ e <> 110) /\ x_strerror x = Some None).
Proof.
  intros x. unfold fatal_message, try_again. destruct (x_errno x) as [e|].
  - destruct (memZ e [EAGAIN; EINTR; EWOULDBLOCK; ETIMEDOUT]) eqn:M.
    + split; [|reflexivity]. intros _. left. exists e. split; [reflexivity|]. apply memZ_In in M. cbn in M. unfold EAGAIN, EINTR, EWOULDBLOCK, ETIMEDOUT in M. intuition.
    + apply memZ_not_In in M. cbn in M. unfold EAGAIN, EINTR, EWOULDBLOCK, ETIMEDOUT in M.
      assert (N : e <> 11 /\ e <> 4 /\ e <> 110) by (repeat split; intros ->; apply M; auto 6).
      split.
      * intros S1. right. split; [intros e' E'; assert (e = e') by congruence; subst; exact N|]. destruct (x_strerror x); congruence.
      * intros [(e' & E' & D)|[_ ->]]; [|reflexivity]. exfalso. assert (e = e') by congruence. subst. lia.
  - split.
    + intros S1. right. split; [discriminate|]. destruct (x_strerror x); congruence.
    + intros [(e' & E' & D)|[_ ->]]; [discriminate|reflexivity].
Qed.
Print Assumptions C86_message.
(** so an error that carries only a text (a timeout of the socket module) is taken for
    one that is not fatal, although it is not one to try again *)
Theorem C86_timeout_refuted : exists x, timed_out x = true /\ try_again x = false /\ fatal_message x = None.
Proof. exists {| x_class := 7; x_errno := None; x_strerror := Some None |}. repeat split. Qed.
Print Assumptions C86_timeout_refuted.

(** the statements are not vacuous *)
Definition good_env : env := {| e_socket := fun _ _ => inl 3; e_op := fun _ _ _ => None; e_sent := fun _ _ => 0%nat; e_port := fun _ _ => 40001 |}.
Definition F : factory := {| f_create := 2; f_connect := 77 |}.
Example C86_ex_call : run (call F (TNum 9)) good_env [] (inl 3) [ESocket 2 (inl 3); EOp 3 (Timeout (Some 9)) None; EOp 3 (Connect 77) None; EOp 3 (Timeout None) None].
Proof. reflexivity. Qed.
Example C86_ex_interrupt : exists new, run (interrupt F (Some (258, 65535)) TNone) good_env [] (inl tt) new /\
  sent 3 new = [0;0;0;16; 4;210;22;46; 0;0;1;2; 0;0;255;255] /\ closes 3 new = 1%nat.
Proof. eexists. split; [reflexivity|]. split; reflexivity. Qed.
(** a request cut in the middle *)
Definition cut_env : env := {| e_socket := fun _ _ => inl 3; e_op := fun _ _ o => match o with Sendall _ _ => Some (RExc 32) | _ => None end; e_sent := fun _ _ => 6%nat; e_port := fun _ _ => 0 |}.
Example C86_ex_cut : exists new, run (interrupt F (Some (258, 65535)) TNone) cut_env [] (inr (RExc 32)) new /\ sent 3 new = [0;0;0;16;4;210] /\ closes 3 new = 1%nat.
Proof. eexists. split; [reflexivity|]. split; reflexivity. Qed.
Example C86_ex_refused : exists new, run (call F (TNum 3)) {| e_socket := fun _ _ => inl 3; e_op := fun _ _ o => match o with Connect _ => Some (RExc 111) | _ => None end; e_sent := fun _ _ => 0%nat; e_port := fun _ _ => 0 |} [] (inr (RExc 111)) new /\ closes 3 new = 1%nat.
Proof. eexists. split; reflexivity. Qed.
Example C86_ex_port : exists new, run (find_available_port (str "::1") 10) good_env [] (inl 40001) new.
Proof. eexists. reflexivity. Qed.
