(** SockProof.v *)
From Verif Require Import Base BaseProof PBufferModel PBufferSpec Element3Model PyStr SockModel SockSpec.

Lemma run_app {A B} (m : M A) (f : A -> M B) E h a h1 : m E h = (inl a, h1) -> bnd m f E h = f a E h1.
Proof. unfold bnd. now intros ->. Qed.

(** how call() goes *)
Inductive call_ends (f : factory) (t : targ) : Z + raised -> list event -> Prop :=
| ce_none x : call_ends f t (inr x) [ESocket (f_create f) (inr x)]
| ce_ok s : (forall e, t <> TBad e) ->
    call_ends f t (inl s) [ESocket (f_create f) (inl s); EOp s (Timeout (targ_limit t)) None; EOp s (Connect (f_connect f)) None; EOp s (Timeout None) None]
| ce_bad s e c : t = TBad e ->
    call_ends f t (inr (match c with None => RExc e | Some x => x end)) [ESocket (f_create f) (inl s); EOp s Close c]
| ce_exc s e c steps o : In (steps, o) [([], Timeout (targ_limit t)); ([EOp s (Timeout (targ_limit t)) None], Connect (f_connect f));
                                   ([EOp s (Timeout (targ_limit t)) None; EOp s (Connect (f_connect f)) None], Timeout None)] ->
    call_ends f t (inr (match c with None => RExc e | Some x => x end))
      (ESocket (f_create f) (inl s) :: steps ++ [EOp s o (Some (RExc e)); EOp s Close c])
| ce_base s e steps o : In (steps, o) [([], Timeout (targ_limit t)); ([EOp s (Timeout (targ_limit t)) None], Connect (f_connect f));
                                   ([EOp s (Timeout (targ_limit t)) None; EOp s (Connect (f_connect f)) None], Timeout None)] ->
    call_ends f t (inr (RBase e)) (ESocket (f_create f) (inl s) :: steps ++ [EOp s o (Some (RBase e))]).

Definition body (f : factory) (t : targ) (s : Z) : M Z :=
  let* x := targ_float t in
  let* _ := op s (Timeout x) in
  let* _ := op s (Connect (f_connect f)) in
  let* _ := op s (Timeout None) in
  ret s.
Inductive body_ends (f : factory) (t : targ) (s : Z) : Z + raised -> list event -> Prop :=
| be_ok : (forall e, t <> TBad e) -> body_ends f t s (inl s) [EOp s (Timeout (targ_limit t)) None; EOp s (Connect (f_connect f)) None; EOp s (Timeout None) None]
| be_bad e : t = TBad e -> body_ends f t s (inr (RExc e)) []
| be_fail x steps o : In (steps, o) [([], Timeout (targ_limit t)); ([EOp s (Timeout (targ_limit t)) None], Connect (f_connect f));
                                   ([EOp s (Timeout (targ_limit t)) None; EOp s (Connect (f_connect f)) None], Timeout None)] ->
    body_ends f t s (inr x) (steps ++ [EOp s o (Some x)]).
Lemma body_spec f t s E h : exists r new, body f t s E h = (r, h ++ new) /\ body_ends f t s r new.
Proof.
  assert (B : forall x, targ_float t E h = (inl x, h) -> x = targ_limit t -> (forall e, t <> TBad e) ->
    exists r new, body f t s E h = (r, h ++ new) /\ body_ends f t s r new).
  { intros x Ex -> N. unfold body. rewrite (run_app _ _ _ _ _ _ Ex). unfold bnd, op, ret.
    destruct (e_op E h s (Timeout (targ_limit t))) as [x|].
    { do 2 eexists. split; [reflexivity|]. apply (be_fail _ _ _ x []). cbn. auto. }
    rewrite <- ?app_assoc. cbn [app].
    destruct (e_op E _ s (Connect (f_connect f))) as [x|].
    { do 2 eexists. split; [reflexivity|]. apply (be_fail _ _ _ x [EOp s (Timeout (targ_limit t)) None]). cbn. auto. }
    rewrite <- ?app_assoc. cbn [app].
    destruct (e_op E _ s (Timeout None)) as [x|].
    { do 2 eexists. split; [reflexivity|]. apply (be_fail _ _ _ x [EOp s (Timeout (targ_limit t)) None; EOp s (Connect (f_connect f)) None]). cbn. auto. }
    do 2 eexists. split; [reflexivity|]. constructor. exact N. }
  destruct t as [|n|e]; cbn [targ_float] in B.
  - apply (B None); [reflexivity|reflexivity|discriminate].
  - apply (B (Some n)); [reflexivity|reflexivity|discriminate].
  - exists (inr (RExc e)), []. rewrite app_nil_r. split; [reflexivity|]. constructor. reflexivity.
Qed.

Lemma call_spec f t E h : exists r new, call f t E h = (r, h ++ new) /\ call_ends f t r new.
Proof.
  unfold call, bnd at 1, make. destruct (e_socket E h (f_create f)) as [s|x].
  2:{ do 2 eexists. split; [reflexivity|]. constructor. }
  change (exists r new, except_raise (body f t s) (op s Close) E (h ++ [ESocket (f_create f) (inl s)]) = (r, h ++ new) /\ call_ends f t r new).
  unfold except_raise. destruct (body_spec f t s E (h ++ [ESocket (f_create f) (inl s)])) as (r & new & -> & B).
  rewrite <- app_assoc. cbn [app].
  inversion B as [N|e0 E0|x steps o I]; subst r new.
  - do 2 eexists. split; [reflexivity|]. apply ce_ok. exact N.
  - unfold op. destruct (e_op E (h ++ [ESocket (f_create f) (inl s)]) s Close) as [c|] eqn:C.
    + do 2 eexists. split; [rewrite <- app_assoc; reflexivity|]. exact (ce_bad f t s e0 (Some c) E0).
    + do 2 eexists. split; [rewrite <- app_assoc; reflexivity|]. exact (ce_bad f t s e0 None E0).
  - destruct x as [e|e].
    + unfold op. set (g := h ++ ESocket (f_create f) (inl s) :: steps ++ [EOp s o (Some (RExc e))]).
      destruct (e_op E g s Close) as [c|]; subst g.
      * do 2 eexists. split; [rewrite <- app_assoc; cbn [app]; rewrite <- app_assoc; reflexivity|]. exact (ce_exc f t s e (Some c) steps o I).
      * do 2 eexists. split; [rewrite <- app_assoc; cbn [app]; rewrite <- app_assoc; reflexivity|]. exact (ce_exc f t s e None steps o I).
    + do 2 eexists. split; [reflexivity|]. exact (ce_base f t s e steps o I).
Qed.

(** interrupt: after call() *)
Inductive int_ends (s : Z) (cq : bytes) : unit + raised -> list event -> Prop :=
| ie (k : nat) x c : (k <= length cq)%nat -> (x = None -> k = length cq) ->
    int_ends s cq (match c with Some y => inr y | None => match x with None => inl tt | Some y => inr y end end)
      [EOp s (Sendall cq k) x; EOp s Close c].
Lemma send_spec s cq E h : exists r new, finally (sendall s cq) (op s Close) E h = (r, h ++ new) /\ int_ends s cq r new.
Proof.
  unfold finally, sendall, op.
  destruct (e_op E h s (Sendall cq (length cq))) as [x|].
  - set (k := Nat.min (e_sent E h s) (length cq)). destruct (e_op E _ s Close) as [c|]; rewrite <- app_assoc; cbn [app];
      do 2 eexists; (split; [reflexivity|]).
    + apply (ie s cq k (Some x) (Some c)); [subst k; lia|discriminate].
    + apply (ie s cq k (Some x) None); [subst k; lia|discriminate].
  - destruct (e_op E _ s Close) as [c|]; rewrite <- app_assoc; cbn [app]; do 2 eexists; (split; [reflexivity|]).
    + apply (ie s cq (length cq) None (Some c)); auto.
    + apply (ie s cq (length cq) None None); auto.
Qed.

Inductive interrupt_ends (f : factory) (t : targ) (pid key : Z) : unit + raised -> list event -> Prop :=
| in_range : ~ (0 <= pid < 2 ^ 32 /\ 0 <= key < 2 ^ 32) -> interrupt_ends f t pid key (inr (RExc StructErr)) []
| in_call x new : call_ends f t (inr x) new -> interrupt_ends f t pid key (inr x) new
| in_sent s r new1 new2 : call_ends f t (inl s) new1 -> int_ends s (cancel_packet pid key) r new2 -> interrupt_ends f t pid key r (new1 ++ new2).

Lemma cancel_bytes pid key : 0 <= pid < 2 ^ 32 /\ 0 <= key < 2 ^ 32 -> message_bytes (MCancelRequest pid key) = Ok (cancel_packet pid key).
Proof.
  intros [P K]. unfold message_bytes. cbn [serialize bind type_of kind_of].
  rewrite !pack_u_ok by (change (256 ^ Z.of_nat 4) with (2 ^ 32); lia). cbn [bind].
  assert (L : len (cancel_code ++ be 4 pid ++ be 4 key) = 12).
  { rewrite !len_app. reflexivity. }
  rewrite L. reflexivity.
Qed.
Lemma cancel_range pid key : ~ (0 <= pid < 2 ^ 32 /\ 0 <= key < 2 ^ 32) -> exists e, message_bytes (MCancelRequest pid key) = Err e.
Proof.
  intros N. unfold message_bytes. cbn [serialize]. unfold pack_u at 1 2.
  change (256 ^ Z.of_nat 4) with (2 ^ 32).
  destruct ((0 <=? pid) && (pid <? 2 ^ 32)) eqn:P; cbn [bind]; [|eauto].
  destruct ((0 <=? key) && (key <? 2 ^ 32)) eqn:K; cbn [bind]; [|eauto].
  exfalso. apply N. apply andb_true_iff in P, K. lia.
Qed.

Lemma interrupt_spec f pid key t E h : exists r new, interrupt f (Some (pid, key)) t E h = (r, h ++ new) /\ interrupt_ends f t pid key r new.
Proof.
  unfold interrupt.
  assert (D : (0 <= pid < 2 ^ 32 /\ 0 <= key < 2 ^ 32) \/ ~ (0 <= pid < 2 ^ 32 /\ 0 <= key < 2 ^ 32)) by lia.
  destruct D as [D|D].
  2:{ destruct (cancel_range pid key D) as [e ->]. exists (inr (RExc StructErr)), []. rewrite app_nil_r. split; [reflexivity|]. constructor. exact D. }
  rewrite (cancel_bytes pid key D). destruct (call_spec f t E h) as (r & new & C & X).
  unfold bnd. rewrite C. destruct r as [s|x].
  - destruct (send_spec s (cancel_packet pid key) E (h ++ new)) as (r2 & new2 & F & Y).
    rewrite F, <- app_assoc. do 2 eexists. split; [reflexivity|]. exact (in_sent f t pid key s r2 new new2 X Y).
  - do 2 eexists. split; [reflexivity|]. apply in_call. exact X.
Qed.

(** facts about the lists *)
Ltac sock_cases := repeat match goal with
  | I : In _ (_ :: _) |- _ => destruct I as [I|I]
  | I : In _ [] |- _ => destruct I
  | I : (_, _) = (_, _) |- _ => inversion I; subst; clear I
  end.
Ltac sock_simpl := cbn [made closes touched sent limit connected app]; rewrite ?Z.eqb_refl; cbn [made closes touched sent limit connected app].

(** find_available_port *)
Inductive port_ends (family : Z) : Z + raised -> list event -> Prop :=
| pe_none x : port_ends family (inr x) [ESocket family (inr x)]
| pe_bind s x c : port_ends family (inr (match c with None => x | Some y => y end))
    [ESocket family (inl s); EOp s (Bind (str "localhost") 0) (Some x); EOp s Close c]
| pe_name s p x c : port_ends family (match c with Some y => inr y | None => match x with None => inl p | Some y => inr y end end)
    [ESocket family (inl s); EOp s (Bind (str "localhost") 0) None; EOp s (Name p) x; EOp s Close c].
Lemma port_spec i family E h : exists r new, find_available_port i family E h = (r, h ++ new) /\ port_ends family r new.
Proof.
  unfold find_available_port, bnd at 1, make. destruct (e_socket E h family) as [s|x].
  2:{ do 2 eexists. split; [reflexivity|]. constructor. }
  unfold finally, bnd, op at 1. destruct (e_op E _ s (Bind (str "localhost") 0)) as [x|].
  - unfold op. destruct (e_op E _ s Close) as [c|]; rewrite <- ?app_assoc; do 2 eexists; (split; [reflexivity|]).
    + apply (pe_bind family s x (Some c)).
    + apply (pe_bind family s x None).
  - unfold port_of, op. set (p := e_port E _ s). destruct (e_op E _ s (Name p)) as [x|].
    + destruct (e_op E _ s Close) as [c|]; rewrite <- ?app_assoc; do 2 eexists; (split; [reflexivity|]).
      * apply (pe_name family s p (Some x) (Some c)).
      * apply (pe_name family s p (Some x) None).
    + destruct (e_op E _ s Close) as [c|]; rewrite <- ?app_assoc; do 2 eexists; (split; [reflexivity|]).
      * apply (pe_name family s p None (Some c)).
      * apply (pe_name family s p None None).
Qed.

Lemma closes_app s a b : closes s (a ++ b) = (closes s a + closes s b)%nat.
Proof. induction a as [|[c r|s' o x] a IH]; cbn; auto. destruct o; auto. destruct (s' =? s); cbn; auto. Qed.
(** a failed step and the closing *)
Lemma left_behind s (c : option raised) e pre post : closes s pre = 0%nat -> (forall s', In s' (made (pre ++ [EOp s Close c])) -> s' = s) -> post = pre ++ [EOp s Close c] ->
  match match c with None => RExc e | Some x => x end with
  | RExc _ => forall s', In s' (made post) -> closes s' post = 1%nat
  | RBase _ => interrupted post
  end.
Proof.
  intros P M ->.
  assert (A : forall s', In s' (made (pre ++ [EOp s Close c])) -> closes s' (pre ++ [EOp s Close c]) = 1%nat).
  { intros s' I. rewrite (M s' I), closes_app, P. cbn. rewrite Z.eqb_refl. reflexivity. }
  destruct c as [[x|x]|]; cbn; auto. exists x. left. do 2 eexists. apply in_or_app. right. left. reflexivity.
Qed.

Definition opened_well (f : factory) (r : Z + raised) (new : list event) : Prop :=
  (length (made new) <= 1)%nat /\ (forall s, In s (touched new) -> In s (made new)) /\ (forall s, sent s new = [] /\ (closes s new <= 1)%nat) /\
  match r with
  | inl s => made new = [s] /\ connected s new = [f_connect f] /\ limit s (Some 0) new = None /\ closes s new = 0%nat
  | inr (RExc _) => forall s, In s (made new) -> closes s new = 1%nat
  | inr (RBase _) => interrupted new
  end.
Lemma open_ends f t r new : call_ends f t r new -> opened_well f r new.
Proof.
  intros X. unfold opened_well.
  inversion X as [x|s N|s e c B|s e c steps o I|s e steps o I]; subst r new; clear X; sock_cases.
  all: split; [cbn; lia|]; split; [cbn [touched made app In]; intuition auto|].
  all: split; [intros s'; cbn; repeat (destruct (_ =? s')); cbn; auto with arith|].
  all: try (cbn; rewrite ?Z.eqb_refl; repeat split; fail).
  - destruct x as [e|e]; [intros s []|]. exists e. right. eexists. left. reflexivity.
  - apply left_behind with (s := s) (c := c) (pre := [ESocket (f_create f) (inl s)]); [reflexivity|cbn; intuition auto|reflexivity].
  - apply left_behind with (s := s) (c := c) (pre := [ESocket (f_create f) (inl s); EOp s (Timeout (targ_limit t)) (Some (RExc e))]); [reflexivity|cbn; intuition auto|reflexivity].
  - apply left_behind with (s := s) (c := c) (pre := [ESocket (f_create f) (inl s); EOp s (Timeout (targ_limit t)) None; EOp s (Connect (f_connect f)) (Some (RExc e))]); [reflexivity|cbn; intuition auto|reflexivity].
  - apply left_behind with (s := s) (c := c) (pre := [ESocket (f_create f) (inl s); EOp s (Timeout (targ_limit t)) None; EOp s (Connect (f_connect f)) None; EOp s (Timeout None) (Some (RExc e))]); [reflexivity|cbn; intuition auto|reflexivity].
  - exists e. left. do 2 eexists. cbn. right. left. reflexivity.
  - exists e. left. do 2 eexists. cbn. do 2 right. left. reflexivity.
  - exists e. left. do 2 eexists. cbn. do 3 right. left. reflexivity.
Qed.
