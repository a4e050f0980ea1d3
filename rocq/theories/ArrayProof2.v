From Verif Require Import PyStr PyStrProof PyListProof BaseProof PBufferProof PyDict PyDictProof ArrayModel ArraySpec ArrayProof.

Section array.
Context {A : Type}.
Notation arr := (array A).

(** ** from_nest *)
Lemma unroll_rect (chars : A -> option (list A)) ds : (forall a, chars a = None) -> forall h es,
  unroll_nest chars ds h = Ok es -> exists l, h = Node l /\ rect ds l /\ flat ds l = es.
Proof.
  intros NC. induction ds as [|d ds IH]; intros h es H; cbn [unroll_nest] in H; apply bind_Ok in H as (items & EI & H);
    (destruct h as [a|l]; cbn [items_of] in EI; [rewrite NC in EI; discriminate|]; apply Ok_inj in EI; subst items).
  - destruct (Z.eqb_spec (len l) 0) as [L|L]; [|discriminate]. cbn [negb] in H. apply Ok_inj in H. subst es. exists l. split; [reflexivity|].
    destruct l; [split; reflexivity|]. rewrite len_cons in L. pose proof (len_nonneg l). lia.
  - destruct (Z.eqb_spec (len l) d) as [L|L]; [|discriminate]. cbn [negb] in H. exists l. split; [reflexivity|]. destruct ds as [|d2 ds].
    + apply Ok_inj in H. subst es. split; [|reflexivity]. split; [exact L|left; reflexivity].
    + apply bind_Ok in H as (rs & E & H). apply Ok_inj in H. subst es. apply mapM_Forall2 in E.
      split.
      * split; [exact L|]. right. clear L. induction E as [|x y l rs E F IHF]; constructor; auto. apply IH in E as (l' & -> & R & _). exists l'. auto.
      * change (flat (d :: d2 :: ds) l) with (flat_map (fun x => match x with Node l' => flat (d2 :: ds) l' | Leaf _ => [] end) l).
        clear L. induction E as [|x y l rs E F IHF]; [reflexivity|]. apply IH in E as (l' & -> & _ & EF). cbn [flat_map concat]. rewrite IHF, EF. reflexivity.
Qed.
Lemma unroll_ok (chars : A -> option (list A)) ds : forall l, rect ds l -> unroll_nest chars ds (Node l) = Ok (flat ds l).
Proof.
  induction ds as [|d ds IH]; intros l R.
  - cbn in R. subst l. reflexivity.
  - cbn [rect] in R. destruct R as [L R]. cbn [unroll_nest items_of bind]. rewrite L, Z.eqb_refl. cbn [negb]. destruct ds as [|d2 ds]; [reflexivity|].
    destruct R as [R|R]; [discriminate|].
    change (flat (d :: d2 :: ds) l) with (flat_map (fun x => match x with Node l' => flat (d2 :: ds) l' | Leaf _ => [] end) l).
    assert (M : mapM (unroll_nest chars (d2 :: ds)) l = Ok (map (fun x => match x with Node l' => flat (d2 :: ds) l' | Leaf _ => [] end) l)).
    { clear L. induction R as [|x l (l' & -> & R') R IHR]; [reflexivity|]. cbn [mapM map]. rewrite (IH l' R'). cbn [bind]. rewrite IHR. reflexivity. }
    rewrite M. cbn [bind]. now rewrite flat_map_concat_map.
Qed.
Lemma detect_in_pos (n : nest A) : forall ds, detect_in n = Ok ds -> Forall (fun d => 1 <= d) ds.
Proof.
  revert n. fix IH 1. intros [a|[|x l]] ds H; cbn [detect_in] in H.
  - apply Ok_inj in H. subst ds. constructor.
  - discriminate.
  - apply bind_Ok in H as (r & E & H). apply Ok_inj in H. subst ds. constructor; [rewrite len_cons; pose proof (len_nonneg l); lia|]. now apply (IH x).
Qed.
Lemma detect_pos (l : list (nest A)) ds : detect_dimensions l = Ok ds -> Forall (fun d => 1 <= d) ds.
Proof.
  destruct l as [|x l]; cbn [detect_dimensions]; intros H; [apply Ok_inj in H; subst; constructor|].
  apply bind_Ok in H as (r & E & H). apply Ok_inj in H. subst ds. constructor; [rewrite len_cons; pose proof (len_nonneg l); lia|]. now apply (detect_in_pos x).
Qed.
Lemma sizes_ones ds : sizes (repeat 1 (length ds)) ds = ds.
Proof. unfold sizes. induction ds as [|d ds IH]; [reflexivity|]. cbn [length repeat combine map fst snd]. rewrite IH. f_equal. lia. Qed.
Lemma from_elements_ones (es : list (nest A)) ds : Forall (fun d => 1 <= d) ds -> len es = count ds ->
  from_elements es None (Some ds) = Ok {| a_elements := es; a_lower := repeat 1 (length ds); a_upper := ds; a_dims := ds |}.
Proof.
  intros F L. destruct ds as [|d ds].
  - cbn in L. destruct es; [reflexivity|]. rewrite len_cons in L. pose proof (len_nonneg es). lia.
  - pose proof (from_elements_given es (repeat 1 (length (d :: ds))) (d :: ds)) as G. rewrite sizes_ones in G.
    rewrite <- G; [reflexivity|discriminate|apply repeat_length|exact F|exact L].
Qed.
Lemma rect_count ds (l : list (nest A)) : rect ds l -> len (flat ds l) = count ds.
Proof. intros R. destruct ds as [|d ds]; [cbn in R; subst; reflexivity|]. unfold count. apply flat_len; [discriminate|exact R]. Qed.
Definition nest_array (ds : list Z) (l : list (nest A)) : arr := {| a_elements := flat ds l; a_lower := repeat 1 (length ds); a_upper := ds; a_dims := ds |}.
Lemma from_nest_detected (chars : A -> option (list A)) l ds : detect_dimensions l = Ok ds -> rect ds l -> from_nest chars l = Ok (nest_array ds l).
Proof.
  intros D R. unfold from_nest. rewrite D. cbn [bind]. rewrite unroll_ok by exact R. cbn [bind]. apply from_elements_ones; [now apply (detect_pos l)|now apply rect_count].
Qed.
Lemma from_nest_inv (chars : A -> option (list A)) l a : (forall a, chars a = None) -> from_nest chars l = Ok a ->
  rect (a_dims a) l /\ a = nest_array (a_dims a) l.
Proof.
  intros NC H. pose proof H as H0. unfold from_nest in H. apply bind_Ok in H as (ds & D & H). apply bind_Ok in H as (es & E & H).
  apply unroll_rect in E as (l' & EL & R & F); [|exact NC]. injection EL as <-. rewrite (from_nest_detected chars l ds D R) in H0. apply Ok_inj in H0. subst a. split; [exact R|reflexivity].
Qed.
Lemma detect_rect ds : Forall (fun d => 1 <= d) ds -> forall l : list (nest A), ds <> [] -> rect ds l -> Forall is_leaf (flat ds l) -> detect_in (Node l) = Ok ds.
Proof.
  induction 1 as [|d ds P F IH]; intros l NE R LF; [contradiction|]. cbn [rect] in R. destruct R as [L R].
  destruct l as [|x l]; [change (len (@nil (nest A))) with 0 in L; lia|]. cbn [detect_in]. rewrite L. destruct ds as [|d2 ds].
  - cbn [flat] in LF. inversion_clear LF as [|? ? (a & ->) _]. reflexivity.
  - destruct R as [R|R]; [discriminate|]. inversion_clear R as [|? ? (l' & -> & R') _]. rewrite IH; [reflexivity|discriminate|exact R'|].
    change (flat (d :: d2 :: ds) (Node l' :: l)) with (flat (d2 :: ds) l' ++ flat_map (fun x => match x with Node l' => flat (d2 :: ds) l' | Leaf _ => [] end) l) in LF.
    apply Forall_app in LF. apply LF.
Qed.
Lemma detect_dims ds : Forall (fun d => 1 <= d) ds -> forall l : list (nest A), rect ds l -> Forall is_leaf (flat ds l) -> detect_dimensions l = Ok ds.
Proof.
  intros P l R LF. destruct ds as [|d ds]; [cbn in R; subst; reflexivity|]. pose proof (detect_rect (d :: ds) P l ltac:(discriminate) R LF) as D. destruct l; [discriminate|]. exact D.
Qed.
Lemma nest_array_wf ds l : Forall (fun d => 1 <= d) ds -> rect ds l -> wf (nest_array ds l).
Proof.
  intros P R. assert (F : from_elements (flat ds l) None (Some ds) = Ok (nest_array ds l)) by (apply from_elements_ones; [exact P|now apply rect_count]).
  apply made_wf in F. apply F.
Qed.
Lemma a_nest_array ds l : Forall (fun d => 1 <= d) ds -> rect ds l -> a_nest (nest_array ds l) = Ok l.
Proof.
  intros P R. destruct (a_nest_spec _ (nest_array_wf ds l P R)) as (l' & E & R' & F). rewrite E. f_equal. now apply (rect_unique ds).
Qed.

(** ** the parts, against the nested list *)
Lemma a_nest_inv (a : arr) l : wf a -> a_nest a = Ok l -> rect (a_dims a) l /\ flat (a_dims a) l = a_elements a.
Proof. intros W E. destruct (a_nest_spec a W) as (l' & E' & R & F). rewrite E in E'. apply Ok_inj in E'. subst l'. auto. Qed.
Lemma a_nest_unique (a : arr) l : wf a -> rect (a_dims a) l -> flat (a_dims a) l = a_elements a -> a_nest a = Ok l.
Proof. intros W R F. destruct (a_nest_spec a W) as (l' & E & R' & F'). rewrite E. f_equal. apply (rect_unique (a_dims a)); auto. congruence. Qed.
Lemma rect_len d ds (l : list (nest A)) : rect (d :: ds) l -> len l = d. Proof. now intros [H _]. Qed.
Lemma rect_nth d d2 ds (l : list (nest A)) i : rect (d :: d2 :: ds) l -> 0 <= i < d -> exists l', pyindex l i = Ok (Node l') /\ rect (d2 :: ds) l'.
Proof.
  intros [L R] H. destruct R as [R|R]; [discriminate|]. destruct (pyindex_nth l i) as (x & E & N); [lia|]. rewrite Forall_forall in R.
  destruct (R x (nth_error_In _ _ N)) as (l' & -> & R'). exists l'. auto.
Qed.
Lemma concat_chunk {B} (w : Z) (ls : list (list B)) : 0 <= w -> Forall (fun x => len x = w) ls -> forall k x, nth_error ls k = Some x ->
  pyslice (concat ls) (w * Z.of_nat k) (w * (Z.of_nat k + 1)) = x.
Proof.
  intros Hw F. assert (LC : len (concat ls) = w * Z.of_nat (length ls)).
  { induction F as [|y ls L F IH]; [cbn; lia|]. cbn [concat length]. rewrite len_app, IH, L. lia. }
  intros k x N. pose proof (proj1 (nth_error_Some ls k) ltac:(congruence)) as K. rewrite pyslice_firstn_skipn by nia.
  replace (Z.to_nat (w * (Z.of_nat k + 1) - w * Z.of_nat k)) with (Z.to_nat w) by (f_equal; lia). clear LC.
  revert k x N K. induction F as [|y ls L F IH]; intros k x N K; [destruct k; discriminate|]. cbn [concat]. destruct k as [|k].
  - injection N as <-. replace (Z.to_nat (w * Z.of_nat 0)) with 0%nat by lia. cbn [skipn]. unfold len in L. rewrite firstn_app. replace (Z.to_nat w - length y)%nat with 0%nat by lia.
    cbn [firstn]. rewrite app_nil_r. apply firstn_all2. lia.
  - cbn [nth_error length] in N, K. rewrite skipn_app. unfold len in L. rewrite skipn_all2 by nia. cbn [app].
    replace (Z.to_nat (w * Z.of_nat (S k)) - length y)%nat with (Z.to_nat (w * Z.of_nat k)) by nia. apply IH; [exact N|lia].
Qed.
Lemma part_flat (a : arr) d d2 ds l i l' : wf a -> a_dims a = d :: d2 :: ds -> a_nest a = Ok l -> 0 <= i < d -> pyindex l i = Ok (Node l') ->
  part a (product (d2 :: ds)) i = flat (d2 :: ds) l'.
Proof.
  intros W E N H I. destruct (a_nest_inv a l W N) as [R F]. rewrite E in R, F. destruct (weight_eq a d (d2 :: ds) W E) as (_ & _ & P & _). pose proof (product_pos _ P) as PP.
  unfold part. rewrite <- F. change (flat (d :: d2 :: ds) l) with (flat_map (fun x => match x with Node l' => flat (d2 :: ds) l' | Leaf _ => [] end) l).
  rewrite flat_map_concat_map. set (g := fun x => match x with Node l' => flat (d2 :: ds) l' | Leaf _ => [] end).
  pose proof (concat_chunk (product (d2 :: ds)) (map g l) ltac:(lia)) as C. destruct R as [L [R|R]]; [discriminate|].
  specialize (C ltac:(apply Forall_map; eapply Forall_impl; [|exact R]; intros x (y & -> & Ry); cbn beta; apply flat_len; [discriminate|exact Ry]) (Z.to_nat i) (flat (d2 :: ds) l')).
  rewrite Z2Nat.id in C by lia. apply C. rewrite nth_error_map. destruct (pyindex_nth l i) as (x & E1 & E2); [lia|]. rewrite I in E1. apply Ok_inj in E1. subst x. rewrite E2. reflexivity.
Qed.
Lemma getitem_nest (a : arr) d d2 ds l i : wf a -> a_dims a = d :: d2 :: ds -> a_nest a = Ok l -> 0 <= i < d ->
  exists s l', getitem a i = Ok (IArr s) /\ wf s /\ pyindex l i = Ok (Node l') /\ a_nest s = Ok l' /\ a_dims s = d2 :: ds.
Proof.
  intros W E N H. destruct (a_nest_inv a l W N) as [R F]. rewrite E in R. destruct (rect_nth d d2 ds l i R H) as (l' & I & R').
  destruct (getitem_sub a d d2 ds i W E H) as [G WS]. set (s := sub a (part a (product (d2 :: ds)) i)) in *. exists s, l'. split; [exact G|]. split; [exact WS|]. split; [exact I|].
  assert (DS : a_dims s = d2 :: ds) by (unfold s, sub; cbn [a_dims]; rewrite E; reflexivity). split; [|exact DS]. apply a_nest_unique; [exact WS|rewrite DS; exact R'|].
  rewrite DS. unfold s, sub. cbn [a_elements]. symmetry. now apply (part_flat a d d2 ds l).
Qed.
Lemma getitem_neg (a : arr) d d2 ds i : wf a -> a_dims a = d :: d2 :: ds -> - d <= i <= -2 -> getitem a i = getitem a (i + d).
Proof.
  intros W E H. destruct (weight_eq a d (d2 :: ds) W E) as (EW & _ & P & L). pose proof (product_pos _ P) as PP. unfold getitem, a_ndims, a_len. rewrite E. cbn [length Nat.ltb Nat.leb].
  destruct (Z.ltb_spec d i); [lia|]. destruct (Z.ltb_spec d (i + d)); [lia|]. cbv zeta. rewrite EW. set (w := product (d2 :: ds)) in *.
  replace (pyslice (a_elements a) (w * i) (w * (i + 1))) with (pyslice (a_elements a) (w * (i + d)) (w * (i + d + 1))); [reflexivity|].
  unfold pyslice. rewrite L. assert (B1 : w * i < 0) by nia. assert (B2 : w * (i + 1) < 0) by nia. unfold py_bound.
  destruct (Z.ltb_spec (w * i) 0); [|lia]. destruct (Z.ltb_spec (w * (i + 1)) 0); [|lia].
  destruct (Z.ltb_spec (w * (i + d)) 0); [nia|]. destruct (Z.ltb_spec (w * (i + d + 1)) 0); [nia|].
  replace (w * i + d * w) with (w * (i + d)) by ring. replace (w * (i + 1) + d * w) with (w * (i + d + 1)) by ring.
  rewrite !Z.max_r, !Z.min_l by nia. reflexivity.
Qed.

(** ** counts that do not fit *)
Lemma from_elements_count (es : list (nest A)) lo up : length lo = length up -> len es <> count (sizes lo up) ->
  (0 < len es \/ Forall (fun d => 1 <= d) (sizes lo up)) -> from_elements es (Some lo) (Some up) = Err ValueError.
Proof.
  intros LL C D. unfold from_elements. destruct up as [|u up].
  - destruct lo; [|discriminate]. cbn in C. destruct (Z.eqb_spec (len es) 0); [contradiction|]. reflexivity.
  - set (ups := u :: up) in *. destruct (sizes_dec (combine lo ups)) as [F|F].
    + rewrite check_bounds_ok by exact F. cbn [bind]. rewrite Z.mul_1_r. cbn [app]. fold (sizes lo ups).
      assert (CC : count (sizes lo ups) = product (sizes lo ups)).
      { destruct (sizes lo ups) eqn:S0; [|reflexivity]. apply (f_equal (@List.length Z)) in S0. unfold sizes in S0. rewrite map_length, combine_same_length in S0 by exact LL. discriminate. }
      rewrite CC in C. destruct (Z.eqb_spec (len es) (product (sizes lo ups))); [contradiction|]. reflexivity.
    + rewrite check_bounds_bad by exact F. destruct D as [D|D].
      * destruct (Z.eqb_spec (len es) 0); [lia|]. reflexivity.
      * exfalso. apply F. unfold sizes in D. rewrite Forall_map in D. exact D.
Qed.
Lemma getitem_bad (a : arr) d d2 ds i : wf a -> a_dims a = d :: d2 :: ds -> i < - d \/ i = -1 \/ i = d -> getitem a i = Err ValueError.
Proof.
  intros W E H. destruct (weight_eq a d (d2 :: ds) W E) as (EW & D1 & P & L). pose proof (product_pos _ P) as PP. unfold getitem, a_ndims, a_len. rewrite E. cbn [length Nat.ltb Nat.leb].
  destruct (Z.ltb_spec d i); [lia|]. cbv zeta. rewrite EW. set (w := product (d2 :: ds)) in *.
  assert (B : len (pyslice (a_elements a) (w * i) (w * (i + 1))) = 0).
  { unfold pyslice. unfold len. rewrite firstn_length, skipn_length. fold (len (a_elements a)). rewrite L. unfold py_bound.
    destruct (Z.ltb_spec (w * i) 0), (Z.ltb_spec (w * (i + 1)) 0); nia. }
  destruct W as [_ _ WL WU WS]. rewrite E in WL, WU, WS. cbn [length] in *. specialize (WS ltac:(lia)).
  assert (TS : d2 :: ds = sizes (tl (a_lower a)) (tl (a_upper a))) by (rewrite <- sizes_tl, <- WS; reflexivity).
  rewrite from_elements_count; [reflexivity| | |].
  - destruct (a_lower a), (a_upper a); cbn in *; lia.
  - rewrite B, <- TS. unfold count. fold w. lia.
  - right. rewrite <- TS. exact P.
Qed.
Lemma getitem_high (a : arr) d d2 ds i : a_dims a = d :: d2 :: ds -> d < i -> getitem a i = Err IndexError.
Proof. intros E H. unfold getitem, a_ndims, a_len. rewrite E. cbn [length Nat.ltb Nat.leb]. destruct (Z.ltb_spec d i); [reflexivity|lia]. Qed.

(** ** get_element *)
Lemma rect_at ds : forall (l : list (nest A)) addr n cur, rect ds l -> ds <> [] -> length addr = length ds -> Forall (fun d => 1 <= d) ds -> n = product ds ->
  match at_address l addr with
  | Ok e => exists k, element_pos addr ds n cur = Ok (cur + k) /\ 0 <= k < n /\ nth_error (flat ds l) (Z.to_nat k) = Some e
  | Err e => e = IndexError /\ element_pos addr ds n cur = Err IndexError
  end.
Proof.
  induction ds as [|d ds IH]; intros l addr n cur R NE LA P EN; [contradiction|]. destruct addr as [|i addr]; [discriminate|]. cbn [length] in LA. injection LA as LA.
  inversion_clear P as [|? ? P1 P2]. pose proof (product_pos _ P2) as PP. subst n. change (product (d :: ds)) with (d * product ds). cbn [element_pos]. rewrite (Z.mul_comm d), Z.div_mul by lia.
  pose proof (rect_len _ _ _ R) as L. set (k := if i <? 0 then i + d else i). assert (PI : 0 <= k < d -> pyindex l i = pyindex l k).
  { intros K. subst k. destruct (Z.ltb_spec i 0); [|reflexivity]. rewrite <- L. apply pyindex_neg. lia. }
  assert (TEST : (k <? 0) || (negb (i <? 0) && (d <=? k)) = negb ((0 <=? k) && (k <? d))) by (subst k; destruct (Z.ltb_spec i 0); lia).
  rewrite TEST. destruct ((0 <=? k) && (k <? d)) eqn:IN; cbn [negb].
  - assert (K : 0 <= k < d) by lia. specialize (PI K). destruct ds as [|d2 ds].
    + destruct addr; [|discriminate]. cbn [at_address]. rewrite PI. destruct (pyindex_nth l k) as (x & E1 & E2); [lia|]. rewrite E1. cbn [element_pos].
      exists (k * 1). change (product []) with 1. split; [reflexivity|]. split; [lia|]. rewrite Z.mul_1_r. exact E2.
    + destruct addr as [|j addr]; [discriminate|]. destruct (rect_nth d d2 ds l k R K) as (l' & E & R'). change (at_address l (i :: j :: addr)) with (do x <- pyindex l i; match x with Node l' => at_address l' (j :: addr) | Leaf _ => Err TypeError end). rewrite PI, E. cbn [bind].
      specialize (IH l' (j :: addr) (product (d2 :: ds)) (cur + k * product (d2 :: ds)) R' ltac:(discriminate) LA P2 eq_refl).
      destruct (at_address l' (j :: addr)) as [e|e].
      * destruct IH as (m & EP & Hm & NT). exists (k * product (d2 :: ds) + m). split; [rewrite EP; f_equal; ring|]. split; [nia|].
        change (flat (d :: d2 :: ds) l) with (flat_map (fun x => match x with Node l' => flat (d2 :: ds) l' | Leaf _ => [] end) l).
        destruct (pyindex_nth l k) as (x & E1 & E2); [lia|]. rewrite E in E1. apply Ok_inj in E1. subst x.
        destruct (nth_error_split _ _ E2) as (l1 & l2 & -> & L1). rewrite flat_map_app. cbn [flat_map].
        assert (LF : len (flat_map (fun x => match x with Node l' => flat (d2 :: ds) l' | Leaf _ => [] end) l1) = k * product (d2 :: ds)).
        { destruct R as [_ [R|R]]; [discriminate|]. apply Forall_app in R as [R _]. replace k with (len l1) by (unfold len; lia). clear -R.
          induction R as [|x l (y & -> & Ry) R IHR]; [reflexivity|]. cbn [flat_map]. rewrite len_app, IHR, flat_len, len_cons by (auto; discriminate). ring. }
        unfold len in LF. rewrite nth_error_app2 by nia. rewrite nth_error_app1.
        -- replace (Z.to_nat (k * product (d2 :: ds) + m) - length (flat_map (fun x => match x with Node l' => flat (d2 :: ds) l' | Leaf _ => [] end) l1))%nat with (Z.to_nat m) by nia. exact NT.
        -- pose proof (flat_len (d2 :: ds) l' ltac:(discriminate) R') as FL. unfold len in FL. nia.
      * exact IH.
  - assert (BAD : pyindex l i = Err IndexError) by (apply pyindex_out; subst k; destruct (Z.ltb_spec i 0); lia).
    destruct addr; cbn [at_address]; rewrite BAD; [auto|cbn [bind]; auto].
Qed.
Lemma get_element_spec (a : arr) l addr : wf a -> a_nest a = Ok l -> a_dims a <> [] ->
  get_element a addr = if len addr =? len (a_dims a) then at_address l addr else Err ValueError.
Proof.
  intros W N NE. destruct (a_nest_inv a l W N) as [R F]. unfold get_element. destruct (a_dims a) as [|d ds] eqn:E; [contradiction|].
  destruct (Z.eqb_spec (len addr) (len (d :: ds))) as [L|L]; [|reflexivity]. cbn [negb].
  destruct (weight_eq a d ds W E) as (_ & P1 & P2 & LE).
  pose proof (rect_at (d :: ds) l addr (len (a_elements a)) 0 R ltac:(discriminate) ltac:(unfold len in L; lia) (Forall_cons _ P1 P2) LE) as S.
  destruct (at_address l addr) as [e|e].
  - destruct S as (k & EP & K & NT). rewrite EP. cbn [bind]. rewrite F in NT. unfold pyindex. destruct (Z.ltb_spec (0 + k) 0); [lia|].
    replace ((0 <=? 0 + k) && (0 + k <? len (a_elements a))) with true by lia. rewrite Z.add_0_l, NT. reflexivity.
  - destruct S as [-> EP]. rewrite EP. reflexivity.
Qed.
End array.
