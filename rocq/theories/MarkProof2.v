(** MarkProof2.v: NOTIFY texts and the text of exceptions *)
From Verif Require Import Base BaseProof PyStr PyStrProof PyList PyDict PyDictProof PyInt Element3Model MesgModel MarkModel MarkSpec.
From Coq Require Import Sorting.Sorted Sorting.Permutation.
Open Scope Z_scope.
Definition dbl (q : Z) (w : text) : text := flat_map (fun x => if x =? q then [q; q] else [x]) w.
Lemma read_dbl q w r : (forall r', r <> q :: r') -> read_quoted q (dbl q w ++ q :: r) = Some (w, r).
Proof.
  intros H. induction w as [|c w IH]; cbn [dbl flat_map app].
  - cbn [read_quoted]. rewrite Z.eqb_refl. destruct r as [|d r']; [reflexivity|]. destruct (Z.eqb_spec d q) as [->|]; [exfalso; now apply (H r')|reflexivity].
  - fold (dbl q w). destruct (Z.eqb_spec c q) as [->|N]; cbn [app read_quoted].
    + rewrite Z.eqb_refl, IH. reflexivity.
    + destruct (Z.eqb_spec c q); [congruence|]. now rewrite IH.
Qed.
Definition one (x : text * option text) : text := notify_one (fst x) (snd x) ++ str ";".
Lemma notify_one_eq c p : notify_one c p = str "NOTIFY """ ++ dbl 34 c ++ match p with None => str """" | Some p => str """,'" ++ dbl 39 p ++ str "'" end.
Proof.
  assert (R1 : forall w, py_replace (str """") (str """""") w = dbl 34 w) by (intros; apply (replace1 34)).
  assert (R2 : forall w, py_replace (str "'") (str "''") w = dbl 39 w) by (intros; apply (replace1 39)).
  unfold notify_one. destruct p; rewrite ?R1, ?R2; reflexivity.
Qed.
Lemma read_one n c p t : read_notifies (S n) (one (c, p) ++ t) = option_map (cons (c, p)) (read_notifies n t).
Proof.
  unfold one. cbn [fst snd]. rewrite notify_one_eq. rewrite <- !app_assoc.
  set (body := dbl 34 c ++ (match p with None => str """" | Some p => str """,'" ++ dbl 39 p ++ str "'" end) ++ str ";" ++ t).
  assert (H : read_notifies (S n) (str "NOTIFY """ ++ body) = match read_quoted 34 body with
            | Some (channel, c :: r) =>
                if c =? 59 then option_map (cons (channel, None)) (read_notifies n r)
                else if (c =? 44) && (match r with d :: _ => d =? 39 | [] => false end) then
                  match read_quoted 39 (tl r) with
                  | Some (payload, e :: r) => if e =? 59 then option_map (cons (channel, Some payload)) (read_notifies n r) else None
                  | _ => None
                  end
                else None
            | _ => None
            end) by reflexivity.
  rewrite H. subst body. destruct p as [p|].
  - rewrite <- !app_assoc. change (str """,'" ++ dbl 39 p ++ str "'" ++ str ";" ++ t) with (34 :: 44 :: 39 :: (dbl 39 p ++ 39 :: 59 :: t)).
    rewrite read_dbl by discriminate. change (44 =? 59) with false. change (44 =? 44) with true. change (39 =? 39) with true. cbn [andb tl].
    rewrite read_dbl by discriminate. reflexivity.
  - change (str """" ++ str ";" ++ t) with (34 :: 59 :: t). rewrite read_dbl by discriminate. reflexivity.
Qed.
Lemma read_all l n : (length l <= n)%nat -> read_notifies n (concat (map one l)) = Some l.
Proof.
  revert n. induction l as [|[c p] l IH]; intros n H; [destruct n; reflexivity|]. cbn [map concat]. cbn [length] in H. destruct n as [|n]; [lia|].
  rewrite read_one, IH by lia. reflexivity.
Qed.
Lemma join_one (l : list (text * option text)) : l <> [] -> py_join (str ";") (map (fun x => notify_one (fst x) (snd x)) l) ++ str ";" = concat (map one l).
Proof.
  induction l as [|x l IH]; [congruence|]. intros _. destruct l as [|y l].
  - cbn [map py_join concat]. now rewrite app_nil_r.
  - cbn [map] in *. rewrite py_join_cons by discriminate. transitivity (one x ++ concat (one y :: map one l)); [|reflexivity]. rewrite <- IH by discriminate. unfold one. now rewrite <- !app_assoc.
Qed.
Lemma notify_concat chans kw : notify_sql chans kw = concat (map one (chans ++ map (fun x => (fst x, Some (snd x))) kw)).
Proof.
  unfold notify_sql. rewrite map_app, concat_app. f_equal.
  - destruct chans as [|x l]; [reflexivity|]. rewrite <- join_one by discriminate. reflexivity.
  - destruct kw as [|x l]; [reflexivity|]. rewrite <- join_one by discriminate. now rewrite map_map.
Qed.

(** ** sorting *)
Lemma text_leb_spec a b : text_leb a b = true <-> text_le a b.
Proof.
  split.
  - revert b. induction a as [|x a IH]; intros b H; [constructor|]. destruct b as [|y b]; [discriminate|]. cbn [text_leb] in H. destruct (Z.ltb_spec x y); [now apply tl_lt|].
    destruct (Z.eqb_spec x y) as [->|]; [|discriminate]. apply tl_eq. auto.
  - induction 1 as [b|x y a b H|x a b H IH]; cbn [text_leb]; [reflexivity| |].
    + now rewrite (proj2 (Z.ltb_lt x y) H).
    + now rewrite Z.ltb_irrefl, Z.eqb_refl.
Qed.
Lemma text_leb_total a b : text_leb a b = false -> text_leb b a = true.
Proof.
  revert b. induction a as [|x a IH]; intros b H; [discriminate|]. destruct b as [|y b]; [reflexivity|]. cbn [text_leb] in *. destruct (Z.ltb_spec x y); [discriminate|].
  destruct (Z.eqb_spec x y) as [->|].
  - rewrite Z.ltb_irrefl, Z.eqb_refl. auto.
  - destruct (Z.ltb_spec y x); [reflexivity|lia].
Qed.
Lemma insert_perm {V} (x : text * V) l : Permutation (x :: l) (insert_key x l).
Proof.
  induction l as [|y l IH]; [apply Permutation_refl|]. cbn [insert_key]. destruct (text_leb (fst x) (fst y)); [apply Permutation_refl|].
  eapply perm_trans; [apply perm_swap|]. now constructor.
Qed.
Lemma sort_perm {V} (l : list (text * V)) : Permutation l (sort_keys l).
Proof. induction l as [|x l IH]; [constructor|]. cbn [sort_keys fold_right]. fold (sort_keys l). eapply perm_trans; [constructor; exact IH|apply insert_perm]. Qed.
Definition kle {V} (a b : text * V) : Prop := text_le (fst a) (fst b).
Lemma insert_hd {V} (x y : text * V) l : HdRel kle y l -> kle y x -> HdRel kle y (insert_key x l).
Proof. intros H1 H2. destruct l as [|z l]; cbn [insert_key]; [now constructor|]. destruct (text_leb (fst x) (fst z)); [now constructor|]. inversion H1; subst. now constructor. Qed.
Lemma insert_sorted {V} (x : text * V) l : Sorted kle l -> Sorted kle (insert_key x l).
Proof.
  induction 1 as [|y l S IH H]; cbn [insert_key]; [repeat constructor|]. destruct (text_leb (fst x) (fst y)) eqn:E.
  - constructor; [now constructor|]. constructor. now apply text_leb_spec.
  - constructor; [exact IH|]. apply insert_hd; [exact H|]. apply text_leb_spec. now apply text_leb_total.
Qed.
Lemma sort_sorted {V} (l : list (text * V)) : Sorted kle (sort_keys l).
Proof. induction l as [|x l IH]; [constructor|]. cbn [sort_keys fold_right]. now apply insert_sorted. Qed.
Lemma join_entries linesep l : l <> [] -> linesep ++ str "  " ++ py_join (linesep ++ str "  ") (map (fun kv => fst kv ++ str ": " ++ snd kv) l) = concat (map (entry linesep) l).
Proof.
  induction l as [|x l IH]; [congruence|]. intros _. destruct l as [|y l].
  - cbn [map py_join concat]. now rewrite app_nil_r.
  - cbn [map] in *. rewrite py_join_cons by discriminate. transitivity (entry linesep x ++ concat (entry linesep y :: map (entry linesep) l)); [|reflexivity]. rewrite <- IH by discriminate. unfold entry. now rewrite <- !app_assoc.
Qed.
Lemma covered_spec n : existsb (seqb n) standard_detail_coverage = false <-> own_line n.
Proof.
  unfold own_line, standard_detail_coverage. split.
  - intros H I. assert (E : existsb (seqb n) [str "message"; str "severity"; str "file"; str "function"; str "line"] = true) by (apply existsb_exists; exists n; split; [exact I|apply seqb_refl]). congruence.
  - intros N. match goal with |- ?b = false => destruct b eqn:E end; [|reflexivity]. apply existsb_exists in E as (x & I & E). apply seqb_eq in E as <-. now apply N in I.
Qed.
Lemma filter_flat (f : text -> text) (l : list (text * text)) :
  flat_map (fun kv => if existsb (seqb (fst kv)) standard_detail_coverage then [] else [(f (fst kv), snd kv)]) l =
  map (fun kv => (f (fst kv), snd kv)) (filter (fun kv => negb (existsb (seqb (fst kv)) standard_detail_coverage)) l).
Proof. induction l as [|x l IH]; [reflexivity|]. cbn [flat_map filter map]. rewrite IH. destruct (existsb (seqb (fst x)) standard_detail_coverage); reflexivity. Qed.
Lemma filter_sorted {V} (p : text * V -> bool) l : (forall a b c : text, text_le a b -> text_le b c -> text_le a c) -> Sorted kle l -> Sorted kle (filter p l).
Proof.
  intros T S. apply Sorted_StronglySorted in S; [|intros a b c; apply T]. induction S as [|x l S IH F]; [constructor|]. cbn [filter]. destruct (p x); [|exact IH].
  constructor; [exact IH|]. assert (F' : Forall (kle x) (filter p l)) by (apply Forall_forall; intros y I; apply filter_In in I as [I _]; rewrite Forall_forall in F; auto).
  destruct (filter p l); constructor. now apply Forall_inv in F'.
Qed.
Lemma text_le_trans a b c : text_le a b -> text_le b c -> text_le a c.
Proof.
  intros H. revert c. induction H as [b|x y a b H|x a b H IH]; intros c K; [constructor| |].
  - inversion K; subst; apply tl_lt; lia.
  - inversion K; subst; [apply tl_lt; assumption|apply tl_eq; auto].
Qed.
