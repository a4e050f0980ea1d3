From Verif Require Import PyStr PyStrProof PyListProof BaseProof PBufferProof PyDict PyDictProof ArrayModel ArraySpec.

Lemma range_in n i : In i (py_range n) <-> 0 <= i < n.
Proof.
  unfold py_range. rewrite in_map_iff. split.
  - intros (k & <- & H). apply in_seq in H. lia.
  - intros H. exists (Z.to_nat i). split; [lia|]. apply in_seq. lia.
Qed.
Lemma range_len n : 0 <= n -> len (py_range n) = n.
Proof. intros H. unfold len, py_range. rewrite map_length, seq_length. lia. Qed.
Lemma range_nth n k : (k < Z.to_nat n)%nat -> nth_error (py_range n) k = Some (Z.of_nat k).
Proof.
  intros H. unfold py_range. rewrite nth_error_map. rewrite (nth_error_nth' _ 0%nat) by (rewrite seq_length; exact H).
  rewrite seq_nth by exact H. reflexivity.
Qed.
Lemma mapM_exists {A B} (f : A -> res B) (P : A -> B -> Prop) l : (forall x, In x l -> exists y, f x = Ok y /\ P x y) ->
  exists ys, mapM f l = Ok ys /\ Forall2 P l ys.
Proof.
  induction l as [|x l IH]; intros H; [exists []; split; [reflexivity|constructor]|].
  destruct (H x (or_introl eq_refl)) as (y & E & Py). destruct IH as (ys & EY & F); [intros; apply H; right; auto|].
  exists (y :: ys). cbn [mapM]. rewrite E. cbn [bind]. rewrite EY. split; [reflexivity|constructor; auto].
Qed.
Lemma pyindex_nth {B} (l : list B) i : 0 <= i < len l -> exists x, pyindex l i = Ok x /\ nth_error l (Z.to_nat i) = Some x.
Proof.
  intros H. unfold pyindex. destruct (Z.ltb_spec i 0); [lia|]. replace ((0 <=? i) && (i <? len l)) with true by lia.
  destruct (nth_error l (Z.to_nat i)) eqn:E; [eauto|]. apply nth_error_None in E. unfold len in H. lia.
Qed.
Lemma pyindex_neg {B} (l : list B) i : - len l <= i < 0 -> pyindex l i = pyindex l (i + len l).
Proof. intros H. unfold pyindex. destruct (Z.ltb_spec i 0); [|lia]. destruct (Z.ltb_spec (i + len l) 0); [lia|reflexivity]. Qed.
Lemma pyindex_out {B} (l : list B) i : i < - len l \/ len l <= i -> pyindex l i = Err IndexError.
Proof. intros H. pose proof (len_nonneg l). unfold pyindex. destruct (Z.ltb_spec i 0); match goal with |- context [if ?b then _ else _] => replace b with false by lia end; reflexivity. Qed.

Section array.
Context {A : Type}.
Notation arr := (array A).

Lemma check_bounds_ok n bs : Forall (fun p => 1 <= snd p - fst p + 1) bs -> forall c ds,
  check_bounds n bs c ds = Ok (Some (product (map (fun p => snd p - fst p + 1) bs) * c, ds ++ map (fun p => snd p - fst p + 1) bs)).
Proof.
  induction 1 as [|[lb ub] bs H F IH]; intros c ds; cbn [check_bounds map product fold_right fst snd] in *.
  - rewrite Z.mul_1_l, app_nil_r. reflexivity.
  - destruct (Z.ltb_spec (ub - lb + 1) 1); [lia|]. rewrite IH. rewrite <- app_assoc. cbn [app]. do 3 f_equal. unfold product. ring.
Qed.
Lemma check_bounds_bad n bs : ~ Forall (fun p => 1 <= snd p - fst p + 1) bs -> forall c ds,
  check_bounds n bs c ds = if n =? 0 then Ok None else Err ValueError.
Proof.
  induction bs as [|[lb ub] bs IH]; intros H c ds; [exfalso; apply H; constructor|]. cbn [check_bounds].
  destruct (Z.ltb_spec (ub - lb + 1) 1); [reflexivity|]. apply IH. intros F. apply H. constructor; auto.
Qed.
Lemma sizes_dec (bs : list (Z * Z)) : {Forall (fun p => 1 <= snd p - fst p + 1) bs} + {~ Forall (fun p => 1 <= snd p - fst p + 1) bs}.
Proof. apply Forall_dec. intros p. destruct (Z_le_dec 1 (snd p - fst p + 1)); auto. Qed.

(** ** what from_elements makes *)
Definition count (ds : list Z) : Z := match ds with [] => 0 | _ => product ds end.
Record wf (a : arr) : Prop := {
  wf_count : len (a_elements a) = count (a_dims a);
  wf_pos : Forall (fun d => 1 <= d) (a_dims a);
  wf_lower : length (a_lower a) = length (a_dims a);
  wf_upper : length (a_upper a) = length (a_dims a);
  wf_sizes : (2 <= length (a_dims a))%nat -> a_dims a = sizes (a_lower a) (a_upper a)
}.
Lemma len_eqb_nat {B C} (a : list B) (b : list C) : (len a =? len b) = true -> length a = length b.
Proof. unfold len. lia. Qed.
Lemma combine_same_length {B C} (a : list B) (b : list C) : length a = length b -> length (combine a b) = length b.
Proof. intros H. rewrite combine_length. lia. Qed.
Lemma sizes_pos lo up : Forall (fun p => 1 <= snd p - fst p + 1) (combine lo up) -> Forall (fun d => 1 <= d) (sizes lo up).
Proof. intros F. unfold sizes. apply Forall_map. exact F. Qed.
Lemma from_elements_given (es : list (nest A)) (lo up : list Z) : up <> [] -> length lo = length up -> Forall (fun d => 1 <= d) (sizes lo up) -> len es = product (sizes lo up) ->
  from_elements es (Some lo) (Some up) = Ok {| a_elements := es; a_lower := lo; a_upper := up; a_dims := sizes lo up |}.
Proof.
  intros NE L F E. unfold from_elements. destruct up as [|u up]; [contradiction|]. set (ups := u :: up) in *.
  rewrite check_bounds_ok by (unfold sizes in F; rewrite Forall_map in F; exact F). cbn [bind]. rewrite Z.mul_1_r. cbn [app]. fold (sizes lo ups). rewrite E, Z.eqb_refl. cbn [negb bind].
  replace (len lo =? len ups) with true; [reflexivity|]. symmetry. unfold len. lia.
Qed.
Lemma made_wf (es : list (nest A)) lb ub (a : arr) : from_elements es lb ub = Ok a -> wf a /\ a_elements a = es.
Proof.
  unfold from_elements. intros H. set (lower := match lb with Some l => l | None => _ end) in *. apply bind_Ok in H as (t & E & H).
  destruct t as [[lo up] ds]. destruct (len lo =? len up) eqn:EL; [|discriminate]. cbn [negb] in H. apply Ok_inj in H. subst a. apply len_eqb_nat in EL.
  split; [|reflexivity]. destruct ub as [up0|].
  - destruct up0 as [|u up0].
    + destruct (len es =? 0) eqn:Z0; [|discriminate]. cbn [negb] in E. apply Ok_inj in E. injection E as <- <- <-. constructor; cbn in *; auto; lia.
    + set (ups := u :: up0) in *. apply bind_Ok in E as (c & EC & E). destruct (sizes_dec (combine lower ups)) as [F|F].
      * rewrite check_bounds_ok in EC by exact F. apply Ok_inj in EC. subst c. cbn [app] in E. fold (sizes lower ups) in E. rewrite Z.mul_1_r in E.
        destruct (len es =? product (sizes lower ups)) eqn:EE; [|discriminate]. cbn [negb] in E. apply Ok_inj in E. injection E as <- <- <-.
        assert (LS : length (sizes lower ups) = length ups) by (unfold sizes; rewrite map_length; now apply combine_same_length).
        constructor; cbn [a_elements a_lower a_upper a_dims].
        -- destruct (sizes lower ups) eqn:S0; [cbn in LS; discriminate|]. cbn [count]. lia.
        -- now apply sizes_pos.
        -- lia.
        -- lia.
        -- reflexivity.
      * rewrite check_bounds_bad in EC by exact F. destruct (len es =? 0) eqn:Z0; [|discriminate]. apply Ok_inj in EC. subst c. rewrite Z0 in E. cbn [negb] in E.
        apply Ok_inj in E. injection E as <- <- <-. constructor; cbn; auto; try lia.
  - destruct (len es =? 0) eqn:Z0; apply Ok_inj in E; injection E as <- <- <-.
    + constructor; cbn in *; auto; lia.
    + pose proof (len_nonneg es). constructor; cbn in *; auto; try lia. repeat constructor. lia.
Qed.
Lemma product_pos ds : Forall (fun d => 1 <= d) ds -> 1 <= product ds.
Proof. induction 1; cbn [product fold_right]; [lia|]. fold (product l). nia. Qed.

(** ** the parts of an array *)
Definition part (a : arr) (w i : Z) : list (nest A) := pyslice (a_elements a) (w * i) (w * (i + 1)).
Lemma weight_eq (a : arr) d ds : wf a -> a_dims a = d :: ds -> a_weight a = product ds /\ 1 <= d /\ Forall (fun x => 1 <= x) ds /\ len (a_elements a) = d * product ds.
Proof.
  intros W E. destruct W as [C P _ _ _]. rewrite E in C, P. inversion_clear P as [|? ? P1 P2]. unfold a_weight. rewrite E, C. cbn [count product fold_right]. fold (product ds).
  destruct (Z.eqb_spec d 0); [lia|]. rewrite Z.mul_comm, Z.div_mul by lia. split; [reflexivity|]. split; [exact P1|]. split; [exact P2|ring].
Qed.
Definition sub (a : arr) (es : list (nest A)) : arr := {| a_elements := es; a_lower := tl (a_lower a); a_upper := tl (a_upper a); a_dims := tl (a_dims a) |}.
Lemma tl_combine {B C} (a : list B) (b : list C) : tl (combine a b) = combine (tl a) (tl b).
Proof. destruct a, b; cbn; auto. destruct a; reflexivity. Qed.
Lemma map_tl {B C} (f : B -> C) l : tl (map f l) = map f (tl l). Proof. destruct l; reflexivity. Qed.
Lemma sizes_tl lo up : tl (sizes lo up) = sizes (tl lo) (tl up).
Proof. unfold sizes. now rewrite map_tl, tl_combine. Qed.
Lemma sub_made (a : arr) d d2 ds es : wf a -> a_dims a = d :: d2 :: ds -> len es = product (d2 :: ds) ->
  from_elements es (Some (tl (a_lower a))) (Some (tl (a_upper a))) = Ok (sub a es) /\ wf (sub a es).
Proof.
  intros W E L. destruct (weight_eq a d (d2 :: ds) W E) as (_ & _ & P & _). destruct W as [_ _ WL WU WS]. rewrite E in WL, WU, WS. cbn [length] in *.
  specialize (WS ltac:(lia)). assert (TS : d2 :: ds = sizes (tl (a_lower a)) (tl (a_upper a))) by (rewrite <- sizes_tl, <- WS; reflexivity).
  assert (LT : length (tl (a_lower a)) = S (length ds)) by (destruct (a_lower a); cbn in *; lia).
  assert (UT : length (tl (a_upper a)) = S (length ds)) by (destruct (a_upper a); cbn in *; lia).
  assert (F : from_elements es (Some (tl (a_lower a))) (Some (tl (a_upper a))) = Ok (sub a es)).
  { rewrite from_elements_given; [unfold sub; rewrite E, <- TS; reflexivity| | | |].
    - intros C. rewrite C in UT. discriminate.
    - lia.
    - rewrite <- TS. exact P.
    - rewrite <- TS. exact L. }
  split; [exact F|]. apply made_wf in F. apply F.
Qed.
Lemma part_len (a : arr) d ds i : wf a -> a_dims a = d :: ds -> 0 <= i < d -> len (part a (product ds) i) = product ds.
Proof.
  intros W E H. destruct (weight_eq a d ds W E) as (_ & _ & P & L). pose proof (product_pos ds P). unfold part. rewrite pyslice_length by nia. rewrite L. nia.
Qed.
Lemma getitem_sub (a : arr) d d2 ds i : wf a -> a_dims a = d :: d2 :: ds -> 0 <= i < d ->
  getitem a i = Ok (IArr (sub a (part a (product (d2 :: ds)) i))) /\ wf (sub a (part a (product (d2 :: ds)) i)).
Proof.
  intros W E H. destruct (weight_eq a d (d2 :: ds) W E) as (EW & _). unfold getitem, a_ndims, a_len. rewrite E. cbn [length Nat.ltb Nat.leb].
  destruct (Z.ltb_spec d i); [lia|]. cbv zeta. rewrite EW. fold (part a (product (d2 :: ds)) i).
  destruct (sub_made a d d2 ds (part a (product (d2 :: ds)) i) W E) as [F WS]; [now apply (part_len a d (d2 :: ds))|]. rewrite F. cbn [bind]. auto.
Qed.
(** the parts make the whole *)
Lemma chunks {B} (w : Z) n : 0 <= w -> forall es : list B, len es = Z.of_nat n * w ->
  concat (map (fun i => pyslice es (w * i) (w * (i + 1))) (map Z.of_nat (seq 0 n))) = es.
Proof.
  intros Hw. induction n as [|n IH]; intros es L.
  - destruct es; [reflexivity|]. rewrite len_cons in L. pose proof (len_nonneg es). lia.
  - rewrite seq_S, !map_app, concat_app. cbn [map concat Nat.add]. rewrite app_nil_r.
    set (hd := firstn (Z.to_nat (Z.of_nat n * w)) es). assert (LH : len hd = Z.of_nat n * w) by (unfold hd; rewrite len_firstn; nia).
    transitivity (hd ++ skipn (Z.to_nat (Z.of_nat n * w)) es); [|apply firstn_skipn]. f_equal.
    + rewrite <- (IH hd LH). f_equal. apply map_ext_in. intros i Hi. apply in_map_iff in Hi as (k & <- & Hk). apply in_seq in Hk.
      rewrite !pyslice_firstn_skipn by nia. unfold hd. rewrite skipn_firstn_comm, firstn_firstn. f_equal. rewrite Nat.min_l; [reflexivity|]. nia.
    + rewrite pyslice_firstn_skipn by nia. rewrite firstn_all2; [f_equal; nia|]. rewrite skipn_length. unfold len in L. nia.
Qed.
Lemma parts_concat (a : arr) d ds : wf a -> a_dims a = d :: ds -> concat (map (part a (product ds)) (py_range d)) = a_elements a.
Proof.
  intros W E. destruct (weight_eq a d ds W E) as (_ & D & P & L). pose proof (product_pos ds P). unfold py_range, part. apply chunks; [lia|]. rewrite L. nia.
Qed.
(** ** nest *)
Lemma nest_spec : forall fuel (a : arr), wf a -> (a_ndims a <= fuel)%nat ->
  exists l, nest_go fuel a = Ok l /\ rect (a_dims a) l /\ flat (a_dims a) l = a_elements a.
Proof.
  induction fuel as [|fuel IH]; intros a W L; unfold a_ndims in *.
  - destruct (a_dims a) as [|d ds] eqn:E; [|cbn in L; lia]. exists (a_elements a). destruct W as [C _ _ _ _]. rewrite E in C. cbn in C. cbn [nest_go]. unfold a_ndims. rewrite E.
    cbn. split; [reflexivity|]. split; [|reflexivity]. destruct (a_elements a); [reflexivity|]. rewrite len_cons in C. pose proof (len_nonneg l). lia.
  - destruct (a_dims a) as [|d [|d2 ds]] eqn:E.
    + exists (a_elements a). destruct W as [C _ _ _ _]. rewrite E in C. cbn in C. cbn [nest_go]. unfold a_ndims. rewrite E.
      cbn. split; [reflexivity|]. split; [|reflexivity]. destruct (a_elements a); [reflexivity|]. rewrite len_cons in C. pose proof (len_nonneg l). lia.
    + exists (a_elements a). destruct W as [C _ _ _ _]. rewrite E in C. cbn in C. cbn [nest_go]. unfold a_ndims. rewrite E.
      cbn. split; [reflexivity|]. split; [|reflexivity]. split; [lia|left; reflexivity].
    + cbn [nest_go]. unfold a_ndims, a_len. rewrite E. cbn [length Nat.ltb Nat.leb].
      set (f := fun i0 : Z => do x <- getitem a i0; match x with IElem _ => Err AttributeError | IArr s => do l <- nest_go fuel s; Ok (Node l) end).
      destruct (mapM_exists f (fun i y => exists l', y = Node l' /\ rect (d2 :: ds) l' /\ flat (d2 :: ds) l' = part a (product (d2 :: ds)) i) (py_range d)) as (ys & EY & FY).
      { intros i Hi. apply range_in in Hi. destruct (getitem_sub a d d2 ds i W E Hi) as [G WS]. unfold f. rewrite G. cbn [bind].
        destruct (IH (sub a (part a (product (d2 :: ds)) i)) WS) as (l & EN & R & F).
        - unfold a_ndims, sub. cbn [a_dims]. rewrite E. cbn [tl length] in *. lia.
        - unfold sub in R, F. cbn [a_dims a_elements] in R, F. rewrite E in R, F. cbn [tl] in R, F. rewrite EN. cbn [bind]. exists (Node l). split; [reflexivity|]. exists l. auto. }
      exists ys. split; [exact EY|]. destruct (weight_eq a d (d2 :: ds) W E) as (_ & D & P & LE). split.
      * cbn [rect]. split.
        -- apply mapM_length in EY. unfold len. rewrite EY. fold (len (py_range d)). apply range_len. lia.
        -- right. clear -FY. induction FY as [|i y is ys (l' & -> & R & _) FY IH]; constructor; auto. exists l'. auto.
      * rewrite <- (parts_concat a d (d2 :: ds) W E). change (flat (d :: d2 :: ds) ys) with (flat_map (fun x => match x with Node l' => flat (d2 :: ds) l' | Leaf _ => [] end) ys).
        clear -FY. induction FY as [|i y is ys (l' & -> & _ & F) FY IH]; [reflexivity|]. cbn [flat_map map concat]. rewrite F, IH. reflexivity.
Qed.
Lemma a_nest_spec (a : arr) : wf a -> exists l, a_nest a = Ok l /\ rect (a_dims a) l /\ flat (a_dims a) l = a_elements a.
Proof. intros W. apply nest_spec; auto. Qed.

(** ** a rectangular list is determined by its elements *)
Lemma flat_len ds : forall l : list (nest A), ds <> [] -> rect ds l -> len (flat ds l) = product ds.
Proof.
  induction ds as [|d ds IH]; intros l NE R; [contradiction|]. cbn [rect] in R. destruct R as [L R]. destruct ds as [|d2 ds].
  - cbn. lia.
  - destruct R as [R|R]; [discriminate|]. change (flat (d :: d2 :: ds) l) with (flat_map (fun x => match x with Node l' => flat (d2 :: ds) l' | Leaf _ => [] end) l).
    change (product (d :: d2 :: ds)) with (d * product (d2 :: ds)). rewrite <- L. clear L. induction R as [|x l (l' & -> & R') R IHR]; [reflexivity|].
    cbn [flat_map]. rewrite len_app, IHR, (IH l') by (auto; discriminate). rewrite len_cons. ring.
Qed.
Lemma app_inj_len {B} (a b c d : list B) : len a = len c -> a ++ b = c ++ d -> a = c /\ b = d.
Proof.
  unfold len. revert c. induction a as [|x a IH]; intros [|y c] L E; cbn [length app] in *; auto; try lia.
  injection E as <- E. destruct (IH c) as [-> ->]; auto. lia.
Qed.
Lemma rect_unique ds : forall l l' : list (nest A), rect ds l -> rect ds l' -> flat ds l = flat ds l' -> l = l'.
Proof.
  induction ds as [|d ds IH]; intros l l' R R' E; [cbn in R, R'; congruence|]. cbn [rect] in R, R'. destruct R as [L R], R' as [L' R']. destruct ds as [|d2 ds]; [exact E|].
  destruct R as [R|R]; [discriminate|]. destruct R' as [R'|R']; [discriminate|].
  change (flat (d :: d2 :: ds) l) with (flat_map (fun x => match x with Node l' => flat (d2 :: ds) l' | Leaf _ => [] end) l) in E.
  change (flat (d :: d2 :: ds) l') with (flat_map (fun x => match x with Node l' => flat (d2 :: ds) l' | Leaf _ => [] end) l') in E.
  assert (LL : len l = len l') by congruence. clear L L'. revert l' R' LL E. induction R as [|x l (a & -> & Ra) R IHR]; intros l' R' LL E; inversion R' as [|y l1 (b & -> & Rb) R1]; subst.
  - reflexivity.
  - rewrite len_cons in LL. pose proof (len_nonneg l1). change (len (@nil (nest A))) with 0 in LL. lia.
  - rewrite len_cons in LL. pose proof (len_nonneg l). change (len (@nil (nest A))) with 0 in LL. lia.
  - cbn [flat_map] in E. apply app_inj_len in E as [E1 E2]; [|rewrite !flat_len by (auto; discriminate); reflexivity].
    f_equal; [f_equal; now apply IH|]. apply IHR; auto. rewrite !len_cons in LL. lia.
Qed.
End array.
