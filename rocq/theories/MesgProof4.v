(** MesgProof4.v: encodings *)
From Verif Require Import Base BaseProof PyStr PyStrProof PyDict PyDictProof Element3Model ExcModel MesgModel MesgSpec.
Open Scope Z_scope.
Lemma lstrip_all (p : Z -> bool) (d l : text) : Forall (fun c => p c = true) d -> lstrip_by p (d ++ l) = lstrip_by p l.
Proof. induction 1 as [|c d H _ IH]; [reflexivity|]. cbn [app lstrip_by]. now rewrite H. Qed.
Lemma rstrip_all p l d : Forall (fun c => p c = true) d -> rstrip_by p (l ++ d) = rstrip_by p l.
Proof. intros F. unfold rstrip_by. rewrite rev_app_distr, lstrip_all; [reflexivity|]. now apply Forall_rev. Qed.
Lemma no_win n : py_startswith (str "win") n = true -> dget n postgres_to_python = None.
Proof.
  intros H. destruct (dget n postgres_to_python) eqn:E; [|reflexivity]. apply dget_In in E. unfold postgres_to_python in E. cbn [In] in E.
  repeat (destruct E as [E|E]; [injection E as <- <-; discriminate H|]). contradiction.
Qed.
Lemma skipn_len {A} (a b : list A) : skipn (length a) (a ++ b) = b.
Proof. induction a; [reflexivity|]. cbn [length app skipn]. assumption. Qed.
Lemma python_name n p : codec_of n p -> get_python_name n = p.
Proof.
  intros C. destruct C as [n p IN|w s d W S D F|n N P].
  - unfold postgres_to_python in IN. cbn [In] in IN. repeat (destruct IN as [E|IN]; [injection E as <- <-; reflexivity|]). contradiction.
  - assert (FD : Forall (fun c => (48 <=? c) && (c <=? 57) = true) d) by (eapply Forall_impl; [|exact F]; cbv beta; intros; lia).
    assert (PS : py_startswith (str "win") (w ++ s ++ d) = true) by (cbn [In] in W; destruct W as [<- | [<- | []]]; reflexivity).
    unfold get_python_name. rewrite no_win by exact PS. rewrite PS. cbv zeta. rewrite app_assoc. rewrite (rstrip_all _ (w ++ s) d FD).
    assert (RS : rstrip_by (fun c => (48 <=? c) && (c <=? 57)) (w ++ s) = w ++ s).
    { cbn [In] in W, S. destruct W as [<- | [<- | []]]; destruct S as [<- | [<- | [<- | []]]]; reflexivity. }
    assert (ST : strip_by (fun c => (c =? 95) || (c =? 45)) (w ++ s) = w).
    { cbn [In] in W, S. destruct W as [<- | [<- | []]]; destruct S as [<- | [<- | [<- | []]]]; reflexivity. }
    rewrite RS, ST, skipn_len. assert (X : seqb w (str "win") || seqb w (str "windows") = true) by (cbn [In] in W; destruct W as [<- | [<- | []]]; reflexivity).
    now rewrite X.
  - unfold get_python_name. destruct (dget n postgres_to_python) as [t|] eqn:E; [|now rewrite P]. exfalso. apply N. apply dget_In in E. apply in_map_iff. now exists (n, t).
Qed.
