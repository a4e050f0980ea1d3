From Verif Require Import PyStr PyStrProof PyListProof BaseProof PBufferProof PyDict PyDictProof ArrayModel ArraySpec ArrayProof ArrayProof2.

(** ** slice indices are in the list *)
Lemma range3_in a b st i : st <> 0 -> In i (range3 a b st) -> (0 < st -> a <= i < b) /\ (st < 0 -> b < i <= a).
Proof.
  intros NZ H. unfold range3 in H. apply in_map_iff in H as (k & <- & H). apply range_in in H. destruct (Z.ltb_spec 0 st) as [P|P].
  - split; [intros _|lia]. split; [nia|].
    assert (k + 1 <= (b - a + st - 1) / st) by lia. pose proof (Z.mul_div_le (b - a + st - 1) st P). nia.
  - split; [lia|intros N]. split; [|nia].
    assert (k + 1 <= (a - b - st - 1) / - st) by lia. pose proof (Z.mul_div_le (a - b - st - 1) (- st) ltac:(lia)). nia.
Qed.
Lemma slice_in start stop step n s e st i : 0 <= n -> slice_indices start stop step n = Ok (s, e, st) -> In i (range3 s e st) -> 0 <= i < n.
Proof.
  intros Hn H I. unfold slice_indices in H. set (t := match step with Some s => s | None => 1 end) in *. destruct (Z.eqb_spec t 0) as [Z0|Z0]; [discriminate|].
  apply Ok_inj in H. injection H as <- <- ET. subst st. apply range3_in in I as [I1 I2]; [|exact Z0]. destruct (Z.ltb_spec t 0) as [N|N].
  - specialize (I2 N). unfold adjust_index in I2. destruct start as [x|], stop as [y|]; repeat match type of I2 with context [?x <? ?y] => destruct (Z.ltb_spec x y) end; lia.
  - specialize (I1 ltac:(lia)). unfold adjust_index in I1. destruct start as [x|], stop as [y|]; repeat match type of I1 with context [?x <? ?y] => destruct (Z.ltb_spec x y) end; lia.
Qed.

Section array.
Context {A : Type}.
Notation arr := (array A).

Lemma getslice_spec (a : arr) d d2 ds l start stop step : wf a -> a_dims a = d :: d2 :: ds -> a_nest a = Ok l ->
  match list_slice l start stop step with
  | Ok l' => exists s, getslice a start stop step = Ok s /\ a_nest s = Ok l'
  | Err e => getslice a start stop step = Err e /\ e = ValueError
  end.
Proof.
  intros W E N. destruct (a_nest_inv a l W N) as [R F]. rewrite E in R. pose proof (rect_len _ _ _ R) as L. destruct (weight_eq a d (d2 :: ds) W E) as (EW & D1 & P & LE).
  unfold list_slice, getslice, a_len. rewrite E, L. destruct (slice_indices start stop step d) as [[[s e] st]|x] eqn:SI; cbn [bind].
  2:{ split; [reflexivity|]. unfold slice_indices in SI. destruct (_ =? 0); [congruence|discriminate]. }
  assert (IN : forall i, In i (range3 s e st) -> 0 <= i < d) by (intros i; apply (slice_in start stop step d s e st i); [lia|exact SI]).
  rewrite EW. set (xs := range3 s e st) in *.
  destruct (mapM_exists (pyindex l) (fun i y => exists l', y = Node l' /\ rect (d2 :: ds) l' /\ flat (d2 :: ds) l' = part a (product (d2 :: ds)) i) xs) as (ys & EY & FY).
  { intros i Hi. apply IN in Hi. destruct (rect_nth d d2 ds l i R Hi) as (l' & I & R'). exists (Node l'). split; [exact I|]. exists l'. split; [reflexivity|]. split; [exact R'|].
    symmetry. now apply (part_flat a d d2 ds l). }
  rewrite EY. destruct xs as [|x xs'] eqn:EX.
  - inversion FY; subst. eexists. split; [reflexivity|]. reflexivity.
  - rewrite <- EX in FY, EY, IN |- *.
    set (es := concat (map (fun x0 => pyslice (a_elements a) (product (d2 :: ds) * x0) (product (d2 :: ds) * (x0 + 1))) xs)).
    pose proof W as W0. destruct W0 as [_ _ WL WU WS]. pose proof WL as WL0. pose proof WU as WU0. rewrite E in WL, WU. specialize (WS ltac:(rewrite E; cbn; lia)). rewrite E in WS. cbn [length] in *.
    assert (TS : d2 :: ds = sizes (tl (a_lower a)) (tl (a_upper a))) by (rewrite <- sizes_tl, <- WS; reflexivity).
    assert (SZ : sizes (1 :: tl (a_lower a)) (len xs :: tl (a_upper a)) = len xs :: d2 :: ds).
    { unfold sizes. cbn [combine map fst snd]. fold (sizes (tl (a_lower a)) (tl (a_upper a))). rewrite <- TS. f_equal. lia. }
    assert (RY : rect (len xs :: d2 :: ds) ys).
    { split; [apply mapM_length in EY; unfold len; congruence|]. right. clear -FY. induction FY as [|i y is ys (l' & -> & R & _) FY IH]; constructor; auto. exists l'. auto. }
    assert (FL : flat (len xs :: d2 :: ds) ys = es).
    { change (flat (len xs :: d2 :: ds) ys) with (flat_map (fun x => match x with Node l' => flat (d2 :: ds) l' | Leaf _ => [] end) ys). unfold es.
      clear -FY. induction FY as [|i y is ys (l' & -> & _ & F) FY IH]; [reflexivity|]. cbn [flat_map map concat]. rewrite F, IH. reflexivity. }
    assert (PX : 1 <= len xs) by (rewrite EX, len_cons; pose proof (len_nonneg xs'); lia).
    assert (PS : Forall (fun d => 1 <= d) (len xs :: d2 :: ds)) by (constructor; auto).
    assert (G : from_elements es (Some (1 :: tl (a_lower a))) (Some (len xs :: tl (a_upper a))) =
      Ok {| a_elements := es; a_lower := 1 :: tl (a_lower a); a_upper := len xs :: tl (a_upper a); a_dims := len xs :: d2 :: ds |}).
    { rewrite from_elements_given; [rewrite SZ; reflexivity|discriminate| | |].
      - destruct (a_lower a), (a_upper a); cbn in *; lia.
      - rewrite SZ. exact PS.
      - rewrite SZ, <- FL. apply flat_len; [discriminate|exact RY]. }
    rewrite EX. rewrite <- EX. fold es. rewrite G. eexists. split; [reflexivity|]. apply made_wf in G as [WG _]. apply a_nest_unique; [exact WG|exact RY|exact FL].
Qed.
Lemma sql_inside (a : arr) l addr : wf a -> a_nest a = Ok l -> a_dims a <> [] -> length addr = length (a_dims a) ->
  sql_get_element a addr =
    (let k := map (fun p => fst p - snd p) (combine addr (a_lower a)) in
     if existsb (fun x => x <? 0) k then Ok None else match at_address l k with Ok e => Ok (Some e) | Err _ => Ok None end).
Proof.
  intros W N NE L. unfold sql_get_element. cbv zeta. match goal with |- context [existsb ?f ?k] => destruct (existsb f k) end; [reflexivity|].
  rewrite (get_element_spec a l) by auto. set (k := map _ _).
  assert (LK : length k = length (a_dims a)) by (unfold k; rewrite map_length, combine_length, (wf_lower _ W); lia).
  destruct (Z.eqb_spec (len k) (len (a_dims a))) as [_|B]; [|unfold len in B; lia].
  destruct (a_nest_inv a l W N) as [R F]. destruct (a_dims a) as [|d ds] eqn:E; [contradiction|]. destruct (weight_eq a d ds W E) as (_ & P1 & P2 & LE).
  pose proof (rect_at (d :: ds) l k (len (a_elements a)) 0 R ltac:(discriminate) LK (Forall_cons _ P1 P2) LE) as S. destruct (at_address l k); [reflexivity|]. destruct S as [-> _]. reflexivity.
Qed.
Lemma one_dim (a : arr) l : wf a -> (a_ndims a < 2)%nat -> a_nest a = Ok l -> l = a_elements a /\ forall i, getitem a i = do e <- pyindex l i; Ok (IElem e).
Proof.
  intros W D N. assert (l = a_elements a).
  { unfold a_nest in N. destruct (a_ndims a) as [|[|n]] eqn:E; [| |lia]; cbn [nest_go] in N; rewrite E in N; cbn in N; apply Ok_inj in N; auto. }
  split; [exact H|]. intros i. unfold getitem. apply Nat.ltb_lt in D. rewrite D. rewrite H. reflexivity.
Qed.
End array.
