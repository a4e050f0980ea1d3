From Verif Require Import PyStr PyStrProof BaseProof.

Lemma forall_last {A} (P : A -> Prop) l d : l <> [] -> Forall P l -> P (last l d).
Proof.
  intros N F. destruct (exists_last N) as (l' & x & ->). rewrite last_last. apply Forall_app in F as [_ F]. now inversion F.
Qed.
(** stripping *)
Lemma lstrip_app p a b : Forall (fun c => p c = true) a -> lstrip_by p (a ++ b) = lstrip_by p b.
Proof. induction 1 as [|c a H _ IH]; [reflexivity|]. cbn. now rewrite H. Qed.
Lemma rstrip_app p a b : Forall (fun c => p c = true) b -> rstrip_by p (a ++ b) = rstrip_by p a.
Proof. intros F. unfold rstrip_by. rewrite rev_app_distr, lstrip_app; [reflexivity|]. apply Forall_rev, F. Qed.
Lemma strip_all p a : Forall (fun c => p c = true) a -> strip_by p a = [].
Proof. intros F. unfold strip_by. rewrite <- (app_nil_r a), lstrip_app by assumption. reflexivity. Qed.
(** the text has no character to be stripped at its ends *)
Definition solid (p : Z -> bool) (s : text) : Prop :=
  match s with [] => True | c :: r => p c = false /\ p (last s c) = false end.
Lemma strip_solid p s : solid p s -> strip_by p s = s.
Proof.
  destruct s as [|c r]; [reflexivity|]. intros [A B]. unfold strip_by. rewrite lstrip_head by assumption.
  assert (N : c :: r <> []) by discriminate. destruct (exists_last N) as (l & x & E). rewrite E in *. rewrite last_last in B.
  apply rstrip_last, B.
Qed.
Lemma strip_around p a s b : Forall (fun c => p c = true) a -> Forall (fun c => p c = true) b -> s <> [] -> solid p s ->
  strip_by p (a ++ s ++ b) = s.
Proof.
  intros FA FB N S. unfold strip_by. rewrite lstrip_app by assumption.
  destruct s as [|c r]; [congruence|]. destruct S as [H1 H2]. cbn [app]. rewrite lstrip_head by assumption.
  change (c :: r ++ b) with ((c :: r) ++ b). rewrite rstrip_app by assumption.
  destruct (exists_last N) as (l & x & E). rewrite E in *. rewrite last_last in H2. apply rstrip_last, H2.
Qed.

