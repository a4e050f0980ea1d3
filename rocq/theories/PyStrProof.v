(** PyStrProof.v: facts about the str methods. *)
From Verif Require Import PyStr BaseProof PBufferModel PBufferProof PyListProof.

Lemma ascii_unicode_ok : unicode_ok ascii_unicode.
Proof. constructor; intros; reflexivity. Qed.

Lemma index1_None c l : index_of [c] l = None <-> ~ In c l.
Proof.
  induction l as [|x l IH]; cbn [index_of prefixb]; [split; auto|].
  destruct (Z.eqb_spec c x) as [->|N]; cbn [andb].
  - split; [discriminate|]. intros H; exfalso; apply H; left; auto.
  - destruct (index_of [c] l) eqn:E.
    + split; [discriminate|]. intros H. exfalso. assert (~ In c l) by (intros X; apply H; right; auto). apply IH in H0. discriminate.
    + split; auto. intros _ [X|X]; [congruence|]. apply IH in X; auto.
Qed.
Lemma index1_cons c x l : index_of [c] (x :: l) = if c =? x then Some O else match index_of [c] l with Some k => Some (S k) | None => None end.
Proof. cbn [index_of prefixb]. destruct (c =? x); cbn [andb]; auto. Qed.
Lemma index1_Some c l k : index_of [c] l = Some k -> l = firstn k l ++ c :: skipn (S k) l /\ ~ In c (firstn k l) /\ (k < length l)%nat.
Proof.
  revert k. induction l as [|x l IH]; intros k; [discriminate|]. rewrite index1_cons.
  destruct (Z.eqb_spec c x) as [->|N].
  - intros [= <-]. cbn. split; auto. split; [tauto|lia].
  - destruct (index_of [c] l) as [j|]; [|discriminate]. intros [= <-]. destruct (IH j eq_refl) as (H1 & H2 & H3).
    cbn [firstn skipn app In length]. split; [f_equal; exact H1|]. split; [|lia]. intros [X|X]; [congruence|auto].
Qed.
Lemma index1_app c a b : ~ In c a -> index_of [c] (a ++ c :: b) = Some (length a).
Proof.
  induction a as [|x a IH]; intros H.
  - cbn [app length]. rewrite index1_cons, Z.eqb_refl. reflexivity.
  - cbn [app length]. rewrite index1_cons. destruct (Z.eqb_spec c x) as [->|N]; [exfalso; apply H; left; auto|].
    rewrite IH; auto. intros X; apply H; right; auto.
Qed.
Lemma py_in1 c l : py_in [c] l = memZ c l.
Proof.
  unfold py_in. destruct (index_of [c] l) eqn:E; symmetry.
  - apply memZ_In. apply index1_Some in E as (E & _). rewrite E. apply in_or_app. right. left. auto.
  - apply memZ_not_In. apply index1_None. exact E.
Qed.

Lemma pyfind_end c t a : 0 <= a <= len t ->
  pyfind [c] t a (len t) = match index_of [c] (skipn (Z.to_nat a) t) with Some k => a + Z.of_nat k | None => -1 end.
Proof.
  intros H. unfold pyfind. rewrite pyslice_firstn_skipn by lia. rewrite firstn_all2; [reflexivity|].
  rewrite skipn_length. unfold len in *. lia.
Qed.
Lemma pyfind_upto sub t a k : 0 <= a ->
  pyfind sub t a (a + Z.of_nat k) = match index_of sub (firstn k (skipn (Z.to_nat a) t)) with Some j => a + Z.of_nat j | None => -1 end.
Proof.
  intros H. unfold pyfind. rewrite pyslice_firstn_skipn by lia. replace (Z.to_nat (a + Z.of_nat k - a)) with k by lia. reflexivity.
Qed.

(** ** replace of one character *)
Lemma replace1 c new l : py_replace [c] new l = flat_map (fun x => if x =? c then new else [x]) l.
Proof.
  unfold py_replace. induction l as [|x l IH]; [reflexivity|]. cbn [replace_go prefixb flat_map length Nat.sub].
  rewrite IH. destruct (Z.eqb_spec c x) as [->|N]; cbn [andb].
  - rewrite Z.eqb_refl. destruct l; reflexivity.
  - destruct (Z.eqb_spec x c); [congruence|]. reflexivity.
Qed.
Lemma replace2_flat c l : py_replace [c; c] [c] (flat_map (fun x => if x =? c then [c; c] else [x]) l) = l.
Proof.
  unfold py_replace. induction l as [|x l IH]; [reflexivity|]. cbn [flat_map].
  destruct (Z.eqb_spec x c) as [->|N].
  - cbn [app replace_go prefixb length Nat.sub]. rewrite Z.eqb_refl. cbn [andb]. rewrite IH.
    destruct (flat_map (fun x => if x =? c then [c; c] else [x]) l); reflexivity.
  - cbn [app replace_go prefixb length Nat.sub]. destruct (Z.eqb_spec c x); [congruence|]. cbn [andb]. rewrite IH. reflexivity.
Qed.

(** ** split *)
Lemma split1_go c l cur : split_go [c] l O cur =
  match index_of [c] l with
  | Some k => (rev cur ++ firstn k l) :: split_go [c] (skipn (S k) l) O []
  | None => [rev cur ++ l]
  end.
Proof.
  revert cur. induction l as [|x l IH]; intros cur; [cbn; rewrite app_nil_r; reflexivity|].
  rewrite index1_cons. cbn [split_go prefixb length Nat.sub].
  destruct (Z.eqb_spec c x) as [->|N]; cbn [andb].
  - destruct l; cbn [prefixb firstn skipn]; rewrite ?app_nil_r; reflexivity.
  - rewrite IH. destruct (index_of [c] l); cbn [rev firstn skipn]; rewrite <- app_assoc; reflexivity.
Qed.
Lemma split1_eq c l : py_split [c] l =
  match index_of [c] l with
  | Some k => firstn k l :: py_split [c] (skipn (S k) l)
  | None => [l]
  end.
Proof. unfold py_split at 1. rewrite split1_go. destruct (index_of [c] l); reflexivity. Qed.
Lemma split1_ind (P : text -> list text -> Prop) c :
  (forall l, ~ In c l -> P l [l]) ->
  (forall a b, ~ In c a -> P b (py_split [c] b) -> P (a ++ c :: b) (a :: py_split [c] b)) ->
  forall l, P l (py_split [c] l).
Proof.
  intros H0 H1 l. remember (length l) as n. revert l Heqn. induction n as [n IH] using lt_wf_ind. intros l ->.
  rewrite split1_eq. destruct (index_of [c] l) as [k|] eqn:E.
  - apply index1_Some in E as (E1 & E2 & E3). rewrite E1 at 1. apply H1; auto. eapply IH; [|reflexivity]. rewrite skipn_length. lia.
  - apply H0. apply index1_None; auto.
Qed.
Lemma py_split_nonempty c l : py_split [c] l <> [].
Proof. rewrite split1_eq. destruct (index_of [c] l); discriminate. Qed.
Lemma py_join_cons sep a l : l <> [] -> py_join sep (a :: l) = a ++ sep ++ py_join sep l.
Proof. destruct l; [congruence|reflexivity]. Qed.
Lemma join_split c l : py_join [c] (py_split [c] l) = l.
Proof.
  apply split1_ind; [reflexivity|]. intros a b _ H. rewrite py_join_cons by apply py_split_nonempty. rewrite H. reflexivity.
Qed.
Lemma split1_no_sep c l : Forall (fun x => ~ In c x) (py_split [c] l).
Proof. apply split1_ind; intros; constructor; auto. Qed.
Lemma split_join c l : l <> [] -> Forall (fun x => ~ In c x) l -> py_split [c] (py_join [c] l) = l.
Proof.
  intros N F. induction F as [|a l H F IH]; [congruence|]. destruct l as [|b l].
  - cbn [py_join]. rewrite split1_eq. apply index1_None in H. rewrite H. reflexivity.
  - rewrite py_join_cons by discriminate. rewrite split1_eq. change ([c] ++ ?x) with (c :: x).
    rewrite index1_app by auto. rewrite firstn_app_exact by auto.
    replace (skipn (S (length a)) (a ++ c :: py_join [c] (b :: l))) with (py_join [c] (b :: l)).
    + rewrite IH by discriminate. reflexivity.
    + rewrite <- (app_nil_r a) at 1. change (c :: py_join [c] (b :: l)) with ([c] ++ py_join [c] (b :: l)). rewrite app_nil_r, app_assoc. symmetry.
      apply skipn_app_exact. rewrite app_length. cbn. lia.
Qed.
Lemma skipn_S_app {A} (a : list A) c b : skipn (S (length a)) (a ++ c :: b) = b.
Proof. induction a; cbn; auto. Qed.

(** ** strip *)
Lemma lstrip_head p c l : p c = false -> lstrip_by p (c :: l) = c :: l.
Proof. intros H. cbn. rewrite H. reflexivity. Qed.
Lemma rstrip_last p c l : p c = false -> rstrip_by p (l ++ [c]) = l ++ [c].
Proof. intros H. unfold rstrip_by. rewrite rev_app_distr. cbn [rev app]. rewrite lstrip_head by auto. cbn [rev]. rewrite rev_involutive. reflexivity. Qed.
Lemma strip_ends p c l d : p c = false -> p d = false -> strip_by p (c :: l ++ [d]) = c :: l ++ [d].
Proof.
  intros H1 H2. unfold strip_by. rewrite lstrip_head by auto. change (c :: l ++ [d]) with ((c :: l) ++ [d]). apply rstrip_last; auto.
Qed.
Lemma prefixb_app p r : prefixb p (p ++ r) = true.
Proof. apply prefixb_spec. eauto. Qed.
Lemma endswith_app p l : py_endswith p (l ++ p) = true.
Proof. unfold py_endswith. rewrite rev_app_distr. apply prefixb_app. Qed.
Lemma pyslice_inner {A} (c : A) l d : pyslice (c :: l ++ [d]) 1 (-1) = l.
Proof.
  unfold pyslice, py_bound. cbn [Z.ltb Z.compare]. rewrite len_cons, len_app. pose proof (len_nonneg l).
  change (len [d]) with 1. rewrite Z.min_l by lia. rewrite Z.max_r by lia.
  replace (Z.to_nat 1) with 1%nat by reflexivity. cbn [skipn].
  apply firstn_app_exact. unfold len. lia.
Qed.
