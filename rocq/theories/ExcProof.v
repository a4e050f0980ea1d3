From Verif Require Import PyStr PyStrProof BaseProof PyListProof PyDict PyDictProof ExcModel ExcTable ExcSpec.

Definition eqc (a b : class) : bool := c_id a =? c_id b.
Lemma ids_unique : forall a b, In a statements -> In b statements -> c_id a = c_id b -> a = b.
Proof.
  assert (H : NoDup (map c_id statements)).
  { apply (NoDup_count_occ' Z.eq_dec). intros x Hx. apply Nat.eqb_eq. revert x Hx. apply Forall_forall. apply Forall_forall.
    assert (C : forallb (fun x => Nat.eqb (count_occ Z.eq_dec (map c_id statements) x) 1) (map c_id statements) = true) by (vm_compute; reflexivity).
    rewrite forallb_forall in C. exact C. }
  generalize statements H. clear H. intros l H. induction l as [|x l IH]; intros a b Ia Ib E; [destruct Ia|]. cbn [map] in H. inversion_clear H as [|? ? N1 N2].
  destruct Ia as [<-|Ia], Ib as [<-|Ib]; auto.
  - exfalso. apply N1. rewrite E. now apply in_map.
  - exfalso. apply N1. rewrite <- E. now apply in_map.
Qed.
Lemma class_of_in b : In b statements -> class_of statements (c_id b) = Some b.
Proof.
  intros I. unfold class_of. destruct (find (fun c => c_id c =? c_id b) statements) as [c|] eqn:F.
  - apply find_some in F as [F E]. apply Z.eqb_eq in E. f_equal. now apply ids_unique.
  - exfalso. pose proof (find_none _ _ F b I) as X. cbn beta in X. rewrite Z.eqb_refl in X. discriminate.
Qed.
Lemma class_of_some i c : class_of statements i = Some c -> In c statements /\ c_id c = i.
Proof. intros H. apply find_some in H as [H E]. apply Z.eqb_eq in E. auto. Qed.
(** issubclass against the relation *)
Lemma sub_in_sound fuel : forall i c d, In c statements -> In d statements -> c_id c = i -> sub_in statements fuel i (c_id d) = true -> subclass statements c d.
Proof.
  induction fuel as [|fuel IH]; intros i c d Ic Id <- H; cbn [sub_in] in H; apply orb_prop in H as [H|H].
  - apply Z.eqb_eq in H. rewrite (ids_unique c d) by auto. constructor.
  - discriminate.
  - apply Z.eqb_eq in H. rewrite (ids_unique c d) by auto. constructor.
  - rewrite class_of_in in H by exact Ic. apply existsb_exists in H as (b & Ib & H).
    destruct (class_of statements b) as [cb|] eqn:EB.
    + apply class_of_some in EB as [IB <-]. eapply sub_base; [exact IB|exact Ib|]. eapply IH; eauto.
    + destruct fuel; cbn [sub_in] in H; [|rewrite EB in H]; rewrite orb_false_r in H; apply Z.eqb_eq in H; subst b; rewrite class_of_in in EB by exact Id; discriminate.
Qed.
Definition N := length statements.
Lemma step_closed : forallb (fun c => forallb (fun b => forallb (fun d => implb (sub_in statements N (c_id b) (c_id d)) (sub_in statements N (c_id c) (c_id d)))
  statements) (filter (fun b => existsb (Z.eqb (c_id b)) (c_bases c)) statements)) statements = true.
Proof. vm_compute. reflexivity. Qed.
Lemma sub_in_complete c d : In c statements -> In d statements -> subclass statements c d -> issubclass statements c d = true.
Proof.
  intros Ic Id S. unfold issubclass. change (sub_in statements N (c_id c) (c_id d) = true). revert Ic Id. induction S as [c|c b d Ib Hb S IH]; intros Ic Id.
  - unfold N. destruct (length statements); cbn [sub_in]; rewrite Z.eqb_refl; reflexivity.
  - specialize (IH Ib Id). pose proof step_closed as H. rewrite forallb_forall in H. specialize (H c Ic). cbn beta in H. rewrite forallb_forall in H. specialize (H b).
    assert (In b (filter (fun b => existsb (Z.eqb (c_id b)) (c_bases c)) statements)) as F.
    { apply filter_In. split; [exact Ib|]. apply existsb_exists. exists (c_id b). split; [exact Hb|apply Z.eqb_refl]. }
    specialize (H F). cbn beta in H. rewrite forallb_forall in H. specialize (H d Id). cbn beta in H. rewrite IH in H. exact H.
Qed.
Lemma issubclass_spec c d : In c statements -> In d statements -> issubclass statements c d = true <-> subclass statements c d.
Proof. intros Ic Id. split; [apply (sub_in_sound _ (c_id c) c d Ic Id eq_refl)|now apply sub_in_complete]. Qed.
Lemma exported_in c : In c exported -> In c statements.
Proof.
  intros H. assert (C : forallb (fun c => existsb (fun s => c_id s =? c_id c) statements) exported = true) by (vm_compute; reflexivity).
  assert (G : forall d l, (forall x, In x d -> In (snd x) statements) -> (forall x, In x l -> In x statements) -> forall x, In x (fold_left (fun d c => dset (c_name c) c d) l d) -> In (snd x) statements).
  { clear. intros d l. revert d. induction l as [|y l IH]; intros d Hd Hl x Hx; [auto|]. cbn [fold_left] in Hx. apply (IH (dset (c_name y) y d)); auto; [|intros z Hz; apply Hl; now right].
    intros z Hz. clear -Hd Hl Hz. induction d as [|[k v] d IH]; cbn [dset] in Hz.
    - destruct Hz as [<-|[]]. apply Hl. now left.
    - destruct (seqb (c_name y) k); destruct Hz as [<-|Hz].
      + apply Hl. now left.
      + apply Hd. now right.
      + apply (Hd (k, v)). now left.
      + apply IH; auto. intros w Hw. apply Hd. now right. }
  unfold exported in H. apply in_map_iff in H as (x & <- & H). apply (G [] statements); auto. intros y [].
Qed.
(** the code of a class *)
Lemma has_code_fun c k k' : In c statements -> has_code statements c k -> has_code statements c k' -> k = k'.
Proof.
  intros I H. revert k' I. induction H as [c k E|c b bs k E Ib B H IH]; intros k' I H'; inversion H' as [? ? E'|? b' bs' ? E' Ib' B' H1]; subst; try congruence.
  rewrite B in B'. injection B' as EB _. apply IH; [exact Ib|]. rewrite (ids_unique b b') by auto. exact H1.
Qed.
Definition code_of (c : class) : option text := attr statements c_code c.
Lemma code_in_sound fuel : (forall c, In c statements -> (2 <= length (c_bases c))%nat -> c_code c <> None) ->
  forall c k, In c statements -> code_in statements fuel c_code (c_id c) = Some k -> has_code statements c k.
Proof.
  intros MB. induction fuel as [|fuel IH]; intros c k I H; [discriminate|]. cbn [code_in] in H. rewrite class_of_in in H by exact I. destruct (c_code c) as [x|] eqn:E.
  - injection H as <-. now constructor.
  - destruct (c_bases c) as [|b [|b2 bs]] eqn:B; [discriminate| |exfalso; apply (MB c I); [rewrite B; cbn; lia|exact E]].
    cbn [fold_right] in H. destruct (code_in statements fuel c_code b) as [x|] eqn:CB; [|discriminate]. injection H as ->.
    destruct (class_of statements b) as [cb|] eqn:EB; [|destruct fuel; cbn [code_in] in CB; [discriminate|rewrite EB in CB; discriminate]].
    apply class_of_some in EB as [IB <-]. eapply base_code; eauto.
Qed.
Lemma multi : forall c, In c statements -> (2 <= length (c_bases c))%nat -> c_code c <> None.
Proof.
  assert (C : forallb (fun c => implb (2 <=? length (c_bases c))%nat (match c_code c with Some _ => true | None => false end)) statements = true) by (vm_compute; reflexivity).
  rewrite forallb_forall in C. intros c I L. specialize (C c I). cbn beta in C. apply Nat.leb_le in L. rewrite L in C. cbn [implb] in C. destruct (c_code c); [discriminate|discriminate].
Qed.
Lemma has_code_complete c k : In c statements -> has_code statements c k -> code_of c = Some k.
Proof.
  intros I H. assert (X : exists k', code_of c = Some k').
  { assert (C : forallb (fun c => match code_of c with Some _ => true | None => existsb (Z.eqb (c_id c)) [38; 44; 49] end) statements = true) by (vm_compute; reflexivity).
    rewrite forallb_forall in C. specialize (C c I). cbn beta in C. destruct (code_of c) as [k'|]; [eauto|]. exfalso.
    assert (NC : forall c k, has_code statements c k -> In c statements -> existsb (Z.eqb (c_id c)) [38; 44; 49] = true -> False).
    { clear. intros c k H. induction H as [c k E|c b bs k E Ib B H IH]; intros I C.
      - assert (D : forallb (fun c => implb (existsb (Z.eqb (c_id c)) [38; 44; 49]) (match c_code c with Some _ => false | None => true end)) statements = true) by (vm_compute; reflexivity).
        rewrite forallb_forall in D. specialize (D c I). cbn beta in D. rewrite C, E in D. discriminate.
      - apply IH; [exact Ib|]. assert (D : forallb (fun c => implb (existsb (Z.eqb (c_id c)) [38; 44; 49]) (forallb (fun b => existsb (Z.eqb b) [38; 44; 49]) (c_bases c))) statements = true) by (vm_compute; reflexivity).
        rewrite forallb_forall in D. specialize (D c I). cbn beta in D. rewrite C, B in D. cbn [implb forallb] in D. apply andb_prop in D. apply D. }
    exact (NC c k H I C). }
  destruct X as (k' & E). pose proof (code_in_sound _ multi c k' I E) as H'. rewrite E. f_equal. now apply (has_code_fun c).
Qed.
Lemma code_of_spec c k : In c statements -> code_of c = Some k <-> has_code statements c k.
Proof. intros I. split; [apply (code_in_sound _ multi c k I)|now apply has_code_complete]. Qed.

Definition otext_eqb (a b : option text) : bool := match a, b with Some x, Some y => seqb x y | None, None => true | _, _ => false end.
Definition class_eqb (a b : class) : bool :=
  (c_id a =? c_id b) && seqb (c_name a) (c_name b) && (if list_eq_dec Z.eq_dec (c_bases a) (c_bases b) then true else false) && otext_eqb (c_code a) (c_code b) && otext_eqb (c_pg a) (c_pg b).
Lemma otext_eq a b : otext_eqb a b = true -> a = b.
Proof. destruct a as [x|], b as [y|]; cbn; try discriminate; auto. destruct (seqb_spec x y); [congruence|discriminate]. Qed.
Lemma class_eq a b : class_eqb a b = true -> a = b.
Proof.
  intros H. unfold class_eqb in H. apply andb_prop in H as [H H5]. apply andb_prop in H as [H H4]. apply andb_prop in H as [H H3]. apply andb_prop in H as [H1 H2].
  destruct a as [i n b' co pg], b as [i' n' b'' co' pg']. cbn [c_id c_name c_bases c_code c_pg] in *. apply Z.eqb_eq in H1. destruct (seqb_spec n n') as [->|]; [|discriminate].
  destruct (list_eq_dec Z.eq_dec b' b'') as [->|]; [|discriminate]. apply otext_eq in H4, H5. congruence.
Qed.
Lemma in_by c l : existsb (class_eqb c) l = true -> In c l.
Proof. intros H. apply existsb_exists in H as (d & I & E). apply class_eq in E. now subst. Qed.
