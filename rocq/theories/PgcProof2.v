From Verif Require Import Base BaseProof PyStr PyStrProof PyStrProof2 PyDict PyDictProof PyInt StrModel StrSpec StrProof VersionModel VersionSpec VersionProof MarkModel PgcModel PgcSpec PgcProof.

(** ** lines *)
Lemma go_line l t cur : no_break l -> splitlines_go (l ++ [10] ++ t) cur = (rev cur ++ l) :: splitlines_go t [].
Proof.
  intros F. revert cur. induction F as [|c l H _ IH]; intros cur.
  - cbn. now rewrite app_nil_r.
  - cbn [app splitlines_go]. rewrite H. change (10 :: t) with ([10] ++ t). rewrite IH. cbn [rev]. now rewrite <- app_assoc.
Qed.
Lemma lines_split ls : Forall no_break ls -> splitlines (lines_text ls) = ls.
Proof.
  unfold splitlines. induction 1 as [|l ls H _ IH]; [reflexivity|]. change (lines_text (l :: ls)) with ((l ++ [10]) ++ lines_text ls). rewrite <- app_assoc, go_line by assumption. now rewrite IH.
Qed.

Section lines.
Variable U : unicode. Variable UO : unicode_ok U.
Lemma trim_solid t : trim U t -> solid (u_space U) t.
Proof.
  intros (A & B). destruct t as [|c r]; [exact Logic.I|]. split; [now apply (A c r)|]. destruct (@exists_last _ (c :: r)) as (w & z & E); [discriminate|]. rewrite E, last_last. now apply (B w).
Qed.
Definition pad_ok (p : text) := Forall (fun c => c = 32 \/ c = 9) p.
Lemma pad_space p : pad_ok p -> Forall (fun c => u_space U c = true) p.
Proof. intros F. eapply Forall_impl; [|exact F]. intros c [-> | -> ]; rewrite (uo_space U UO) by lia; reflexivity. Qed.
Lemma strip_padded a t b : pad_ok a -> pad_ok b -> trim U t -> py_strip U (a ++ t ++ b) = t.
Proof.
  intros A B T. unfold py_strip. destruct t as [|c r].
  - apply strip_all. apply Forall_app. split; now apply pad_space.
  - apply strip_around; try now apply pad_space. discriminate. now apply trim_solid.
Qed.
Lemma lower_ascii l : Forall (fun c => 0 <= c < 128) l -> py_lower U l = map ascii_lower l.
Proof. unfold py_lower. induction 1 as [|c l H _ IH]; [reflexivity|]. cbn [map concat]. rewrite (uo_lower U UO) by assumption. now rewrite IH. Qed.
Lemma lower_pad p : pad_ok p -> map ascii_lower p = p.
Proof. induction 1 as [|c l [-> | -> ] _ IH]; [reflexivity| |]; cbn [map]; now rewrite IH. Qed.
Lemma pad_ascii p : pad_ok p -> Forall (fun c => 0 <= c < 128) p.
Proof. intros F. eapply Forall_impl; [|exact F]. intros c [-> | -> ]; lia. Qed.
Lemma space_lower c : 0 <= c < 128 -> u_space U (ascii_lower c) = u_space U c.
Proof.
  intros H. unfold ascii_lower, ascii_upper. destruct (Z.leb_spec 65 c), (Z.leb_spec c 90); cbn [andb]; auto. rewrite !(uo_space U UO) by lia. unfold ascii_space.
  destruct (Z.leb_spec 9 (c + 32)), (Z.leb_spec (c + 32) 13), (Z.leb_spec 28 (c + 32)), (Z.leb_spec (c + 32) 32), (Z.leb_spec 9 c), (Z.leb_spec c 13), (Z.leb_spec 28 c), (Z.leb_spec c 32); cbn; auto; lia.
Qed.
Lemma trim_lower k : Forall (fun c => 0 <= c < 128) k -> trim U k -> trim U (map ascii_lower k).
Proof.
  intros F (A & B). split.
  - intros c r E. destruct k as [|d k]; [discriminate|]. injection E as <- _. rewrite space_lower by now apply Forall_inv in F. now apply (A d k).
  - intros r c E. destruct k as [|d k] using rev_ind; [destruct r; discriminate|]. rewrite map_app in E. apply app_inj_tail in E as [_ <-]. apply Forall_app in F as [_ F]. rewrite space_lower by now apply Forall_inv in F. now apply (B k).
Qed.
Lemma pad_no p : pad_ok p -> ~ In 61 p.
Proof. intros F I. unfold pad_ok in F. rewrite Forall_forall in F. apply F in I as [I|I]; discriminate. Qed.
Lemma pad_nth n pad : Forall pad_ok pad -> pad_ok (nth n pad []).
Proof. intros F. revert n. induction F as [|p l H F IH]; intros [|n]; cbn; auto; constructor. Qed.
Lemma config_entry d l : cline_ok U l -> config_line U d (cline_text l) = fold_left (fun d p => dset (fst p) (snd p) d) (said [l]) d.
Proof.
  destruct l as [k v pad|t]; cbn [cline_ok cline_text].
  - intros (NK & TV & AK & TK & _ & _ & P). fold pad_ok in P. change (Forall (Forall (fun c : Z => c = 32 \/ c = 9)) pad) with (Forall pad_ok pad) in P.
    set (p0 := nth 0 pad []). set (p1 := nth 1 pad []). set (p2 := nth 2 pad []). set (p3 := nth 3 pad []).
    pose proof (pad_nth 0 pad P : pad_ok p0). pose proof (pad_nth 1 pad P : pad_ok p1). pose proof (pad_nth 2 pad P : pad_ok p2). pose proof (pad_nth 3 pad P : pad_ok p3). clearbody p0 p1 p2 p3.
    unfold config_line. replace (p0 ++ k ++ p1 ++ [61] ++ p2 ++ v ++ p3) with ((p0 ++ k ++ p1) ++ 61 :: (p2 ++ v ++ p3)) by now rewrite <- !app_assoc.
    rewrite index1_app by (rewrite !in_app_iff; intros [I|[I|I]]; [now apply (pad_no p0) in I|contradiction|now apply (pad_no p1) in I]).
    rewrite firstn_app, firstn_all, Nat.sub_diag. cbn [firstn]. rewrite app_nil_r, skipn_S_app, strip_padded by assumption.
    rewrite lower_ascii by (apply Forall_app; split; [now apply pad_ascii|apply Forall_app; split; [assumption|now apply pad_ascii]]).
    rewrite !map_app, (lower_pad p0), (lower_pad p1) by assumption. rewrite strip_padded by (assumption || now apply trim_lower). reflexivity.
  - intros (NI & _). unfold config_line. apply index1_None in NI. now rewrite NI.
Qed.
Lemma config_lines ls : Forall (cline_ok U) ls -> forall d, fold_left (config_line U) (map cline_text ls) d = dupdate d (said ls).
Proof.
  induction 1 as [|l ls H _ IH]; intros d; [reflexivity|]. cbn [map fold_left]. rewrite config_entry by assumption. rewrite IH. unfold dupdate, said. cbn [flat_map].
  rewrite !fold_left_app, app_nil_r || rewrite app_nil_r, fold_left_app. reflexivity.
Qed.
Lemma cline_no_break l : cline_ok U l -> no_break (cline_text l).
Proof.
  destruct l as [k v pad|t]; cbn [cline_ok cline_text]; [|tauto]. intros (_ & _ & _ & _ & NK & NV & P).
  assert (Q : forall n, no_break (nth n pad [])). { intros n. pose proof (pad_nth n pad P) as F. unfold no_break. eapply Forall_impl; [|exact F]. intros c [-> | -> ]; reflexivity. }
  unfold no_break in *. rewrite !Forall_app. repeat split; auto.
Qed.
End lines.

Lemma dupdate_last {V} (e : list (text * V)) k v : dget k (dupdate [] e) = Some v <-> last_said e k v.
Proof.
  induction e as [|[j w] e IH] using rev_ind.
  - split; [discriminate|]. intros (a & b & E & _). destruct a; discriminate.
  - unfold dupdate. rewrite fold_left_app. cbn [fold_left fst snd]. fold (dupdate (@nil (text * V)) e). rewrite dget_set. destruct (seqb_spec k j) as [->|N].
    + split.
      * intros E. injection E as <-. exists e, []. split; [reflexivity|intros []].
      * intros (a & b & E & NI). destruct b as [|x b] using rev_ind; [apply app_inj_tail in E as [_ E]; congruence|]. rewrite app_comm_cons, app_assoc in E. apply app_inj_tail in E as [_ <-]. destruct NI. rewrite map_app. apply in_app_iff. right. now left.
    + rewrite IH. split; intros (a & b & E & NI).
      * exists a, (b ++ [(j, w)]). rewrite E, <- app_assoc. split; [reflexivity|]. rewrite map_app. intros I. apply in_app_iff in I as [I|[I|[]]]; [contradiction|]. cbn in I. congruence.
      * destruct b as [|x b] using rev_ind; [apply app_inj_tail in E as [_ E]; congruence|]. clear IHb. rewrite app_comm_cons, app_assoc in E. apply app_inj_tail in E as [-> <-].
        exists a, b. split; [reflexivity|]. intros I. apply NI. rewrite map_app. apply in_app_iff. now left.
Qed.

(** ** the fallback *)
Lemma dd_none t : (forall a b, t <> a ++ 45 :: 45 :: b) -> index_of [45; 45] t = None.
Proof.
  induction t as [|c t IH]; intros H; [reflexivity|]. cbn [index_of prefixb].
  assert (E : index_of [45; 45] t = None) by (apply IH; intros a b X; apply (H (c :: a) b); cbn; congruence). rewrite E.
  destruct (Z.eqb_spec 45 c) as [<-|]; [|reflexivity]. destruct t as [|d t]; [reflexivity|]. destruct (Z.eqb_spec 45 d) as [<-|]; [|reflexivity]. destruct (H [] t eq_refl).
Qed.
Lemma dd_pre pre r : Forall (fun c => c <> 45) pre -> index_of [45; 45] (pre ++ 45 :: 45 :: r) = Some (length pre).
Proof.
  induction 1 as [|c pre H _ IH]; [reflexivity|]. cbn [app index_of prefixb length]. destruct (Z.eqb_spec 45 c) as [<-|]; [congruence|]. cbn [andb]. now rewrite IH.
Qed.
Lemma slice_whole {A} (l : list A) : pyslice l 0 (len l) = l.
Proof. exact (slice_to_end l 0 (Nat.le_0_l _)). Qed.
Lemma help_spec l : hline_ok l -> help_option (hline_text l) = match l with HOption _ n _ => Some n | HOther _ => None end.
Proof.
  unfold help_option, pyfind_from, pyfind. destruct l as [pre name rest|t]; cbn [hline_ok hline_text].
  - intros (P & N & _). set (l := pre ++ [45; 45] ++ name ++ [32] ++ rest).
    cbv zeta. rewrite slice_whole. assert (D : index_of [45; 45] l = Some (length pre)) by (unfold l; cbn [app]; now apply dd_pre). rewrite D.
    assert (Q : (0 + Z.of_nat (length pre) =? -1) = false) by (apply Z.eqb_neq; lia). rewrite Q. f_equal. rewrite ?Z.add_0_l.
    rewrite (slice_to_end l) by (unfold l; rewrite app_length; lia). assert (K : skipn (length pre) l = 45 :: 45 :: name ++ 32 :: rest) by (unfold l; rewrite skipn_app, skipn_all, Nat.sub_diag; reflexivity). rewrite K.
    assert (I : index_of [32] (45 :: 45 :: name ++ 32 :: rest) = Some (S (S (length name)))).
    { change (45 :: 45 :: name ++ 32 :: rest) with ((45 :: 45 :: name) ++ 32 :: rest). rewrite index1_app; [reflexivity|]. intros [I|[I|I]]; [discriminate..|contradiction]. }
    rewrite I. unfold l. cbn [app]. replace (pre ++ 45 :: 45 :: name ++ 32 :: rest) with ((pre ++ [45; 45]) ++ name ++ 32 :: rest) by now rewrite <- app_assoc.
    replace (Z.of_nat (length pre) + 2) with (Z.of_nat (length (pre ++ [45; 45]))) by (rewrite app_length; cbn [length]; lia).
    replace (Z.of_nat (length pre) + Z.of_nat (S (S (length name)))) with (Z.of_nat (length (pre ++ [45; 45]) + length name)) by (rewrite app_length; cbn [length]; lia).
    generalize (pre ++ [45; 45]) as w. intros w. unfold pyslice.
    replace (py_bound _ (Z.of_nat (length w))) with (Z.of_nat (length w)) by (unfold py_bound, len; rewrite app_length; destruct (Z.ltb_spec (Z.of_nat (length w)) 0); lia).
    replace (py_bound _ (Z.of_nat (length w + length name))) with (Z.of_nat (length w + length name)) by (unfold py_bound, len; rewrite !app_length; destruct (Z.ltb_spec (Z.of_nat (length w + length name)) 0); lia).
    cbv zeta. replace (Z.to_nat (Z.of_nat (length w))) with (length w) by lia. replace (Z.to_nat (Z.of_nat (length w + length name) - Z.of_nat (length w))) with (length name) by lia.
    rewrite skipn_app, skipn_all, Nat.sub_diag. cbn [skipn app]. rewrite firstn_app, firstn_all, Nat.sub_diag. cbn [firstn]. apply app_nil_r.
  - intros (N & _). rewrite slice_whole. now rewrite dd_none.
Qed.
