From Verif Require Import PyStr PyStrProof BaseProof PyDict.
Lemma nodup_snoc {A} (x : A) l : NoDup l -> ~ In x l -> NoDup (l ++ [x]).
Proof.
  induction 1 as [|y l N ND IH]; cbn [app In]; intros H.
  - constructor; [intros []|constructor].
  - constructor; [|apply IH; intuition]. rewrite in_app_iff. cbn. intuition congruence.
Qed.
Section dict.
Context {V : Type}.
Implicit Types d e : list (text * V).
Lemma seqb_ne (a b : text) : a <> b -> seqb a b = false.
Proof. apply seqb_neq. Qed.
Lemma seqb_spec (a b : text) : reflect (a = b) (seqb a b).
Proof. destruct (seqb a b) eqn:E; constructor; [now apply seqb_eq|]. intros ->. rewrite seqb_refl in E. discriminate. Qed.
Lemma seqb_sym (a b : text) : seqb a b = seqb b a.
Proof. destruct (seqb_spec a b), (seqb_spec b a); congruence. Qed.
Lemma dget_set k j v d : dget k (dset j v d) = if seqb k j then Some v else dget k d.
Proof.
  induction d as [|[i w] d IH]; cbn [dset dget]; [reflexivity|].
  destruct (seqb_spec j i) as [->|N].
  - cbn [dget]. destruct (seqb_spec k i); reflexivity.
  - cbn [dget]. rewrite IH. destruct (seqb_spec k i) as [->|]; [|reflexivity]. rewrite seqb_ne by congruence. reflexivity.
Qed.
Lemma dget_set_same k v d : dget k (dset k v d) = Some v.
Proof. now rewrite dget_set, seqb_refl. Qed.
Lemma dget_set_other k j v d : k <> j -> dget k (dset j v d) = dget k d.
Proof. intros N. now rewrite dget_set, seqb_ne. Qed.
Lemma dget_del k j d : dget k (ddel j d) = if seqb k j then None else dget k d.
Proof.
  induction d as [|[i w] d IH]; cbn [ddel filter dget fst]; [destruct (seqb k j); reflexivity|]. fold (ddel j d).
  destruct (seqb_spec j i) as [->|N]; cbn [negb dget].
  - rewrite IH. destruct (seqb_spec k i); reflexivity.
  - rewrite IH. destruct (seqb_spec k i) as [->|]; [|reflexivity]. rewrite seqb_ne by congruence. reflexivity.
Qed.
Lemma dget_app k d e : dget k (d ++ e) = match dget k d with Some v => Some v | None => dget k e end.
Proof. induction d as [|[i w] d IH]; cbn [app dget]; [reflexivity|]. destruct (seqb k i); auto. Qed.
Lemma dget_In k v d : dget k d = Some v -> In (k, v) d.
Proof.
  induction d as [|[i w] d IH]; cbn [dget]; [discriminate|]. destruct (seqb_spec k i) as [->|]; [|cbn; auto].
  intros [= ->]. cbn. auto.
Qed.
Lemma dget_None k d : dget k d = None <-> ~ In k (dkeys d).
Proof.
  induction d as [|[i w] d IH]; cbn [dget dkeys map fst In]; [tauto|]. fold (dkeys d). destruct (seqb_spec k i) as [->|]; [|rewrite IH; intuition congruence].
  split; [discriminate|]. intuition congruence.
Qed.
Lemma In_dget k v d : NoDup (dkeys d) -> In (k, v) d -> dget k d = Some v.
Proof.
  induction d as [|[i w] d IH]; cbn [dkeys map fst]; [intros _ []|]. fold (dkeys d). intros N H. inversion N as [|? ? N1 N2]; subst. cbn [dget]. destruct H as [H|H].
  - injection H as -> ->. now rewrite seqb_refl.
  - destruct (seqb_spec k i) as [->|]; [|auto]. exfalso. apply N1. apply (in_map fst) in H. exact H.
Qed.
Lemma dget_ext d e : NoDup (dkeys d) -> NoDup (dkeys e) -> (forall p, In p d <-> In p e) -> forall k, dget k d = dget k e.
Proof.
  intros N1 N2 H k. destruct (dget k d) as [v|] eqn:E.
  - symmetry. apply In_dget; auto. apply H. now apply dget_In.
  - destruct (dget k e) as [v|] eqn:F; [|reflexivity]. apply dget_In, H in F. apply In_dget in F; auto. congruence.
Qed.
Lemma dset_absent k v d : dget k d = None -> dset k v d = d ++ [(k, v)].
Proof.
  induction d as [|[i w] d IH]; cbn [dget dset app]; [reflexivity|]. destruct (seqb k i); [discriminate|]. intros H. now rewrite IH.
Qed.
Lemma dkeys_app d e : dkeys (d ++ e) = dkeys d ++ dkeys e. Proof. apply map_app. Qed.
Lemma dkeys_set k v d : dkeys (dset k v d) = if dmem k d then dkeys d else dkeys d ++ [k].
Proof.
  unfold dmem. induction d as [|[i w] d IH]; cbn [dset dget dkeys map fst app]; [reflexivity|].
  destruct (seqb_spec k i) as [->|N]; [reflexivity|]. cbn [map fst]. fold (dkeys (dset k v d)). rewrite IH. fold (dkeys d). destruct (dget k d); reflexivity.
Qed.
Lemma dset_nodup k v d : NoDup (dkeys d) -> NoDup (dkeys (dset k v d)).
Proof.
  intros N. rewrite dkeys_set. unfold dmem. destruct (dget k d) eqn:E; [exact N|]. apply dget_None in E.
  apply nodup_snoc; auto.
Qed.
End dict.
