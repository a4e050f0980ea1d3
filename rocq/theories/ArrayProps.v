(** ArrayProps.v: C14, arrays: flat and nested forms, indexing *)
From Verif Require Import PyStr PyDict ArrayModel ArraySpec BaseProof PyListProof ArrayProof ArrayProof2 ArrayProof3.

(** An array made from nested lists (of objects that are not sequences): the lists are rectangular with the array's
    sizes, the elements are theirs in order, all bounds are 1..size, and nest() gives the lists back. *)
Theorem C14_round_trip : forall (A : Type) (chars : A -> option (list A)) (l : list (nest A)) a, (forall x, chars x = None) ->
  from_nest chars l = Ok a ->
  rect (a_dims a) l /\ Forall (fun d => 1 <= d) (a_dims a) /\ a_elements a = flat (a_dims a) l /\ a_lower a = repeat 1 (length (a_dims a)) /\ a_upper a = a_dims a /\ a_nest a = Ok l.
Proof.
  intros A chars l a NC H. assert (P : Forall (fun d => 1 <= d) (a_dims a)).
  { unfold from_nest in H. apply bind_Ok in H as (ds & D & H). apply bind_Ok in H as (es & _ & H). apply made_wf in H as [W _]. apply W. }
  apply from_nest_inv in H as [R E]; [|exact NC]. split; [exact R|]. split; [exact P|]. rewrite E at 1 3 5 7. split; [reflexivity|]. split; [reflexivity|]. split; [reflexivity|].
  now apply a_nest_array.
Qed.
Print Assumptions C14_round_trip.

(** Every rectangular nested list without empty axes whose elements are not lists is accepted (whatever its elements are). *)
Theorem C14_accepted : forall (A : Type) (chars : A -> option (list A)) ds (l : list (nest A)), Forall (fun d => 1 <= d) ds -> rect ds l -> Forall is_leaf (flat ds l) ->
  exists a, from_nest chars l = Ok a /\ a_dims a = ds /\ a_elements a = flat ds l /\ a_nest a = Ok l.
Proof.
  intros A chars ds l P R LF. exists (nest_array ds l). split; [apply from_nest_detected; [now apply detect_dims|exact R]|]. split; [reflexivity|]. split; [reflexivity|]. now apply a_nest_array.
Qed.
Print Assumptions C14_accepted.

(** Lists that are not rectangular are rejected. *)
Theorem C14_ragged : forall (A : Type) (chars : A -> option (list A)) (l : list (nest A)), (forall x, chars x = None) ->
  (forall ds, Forall (fun d => 1 <= d) ds -> ~ rect ds l) -> exists e, from_nest chars l = Err e.
Proof.
  intros A chars l NC H. destruct (from_nest chars l) as [a|e] eqn:E; [|eauto]. apply C14_round_trip in E as (R & P & _); [|exact NC]. exfalso. exact (H _ P R).
Qed.
Print Assumptions C14_ragged.

(** from_elements keeps the elements and their order, takes the sizes of the axes from the bounds, and the nested
    form has those sizes and those elements in order. *)
Theorem C14_from_elements : forall (A : Type) (es : list (nest A)) lo up, up <> [] -> length lo = length up ->
  Forall (fun d => 1 <= d) (sizes lo up) -> len es = product (sizes lo up) ->
  exists a l, from_elements es (Some lo) (Some up) = Ok a /\ a_elements a = es /\ a_lower a = lo /\ a_upper a = up /\ a_dims a = sizes lo up /\
    a_nest a = Ok l /\ rect (sizes lo up) l /\ flat (sizes lo up) l = es.
Proof.
  intros A es lo up NE L P C. pose proof (from_elements_given es lo up NE L P C) as G. pose proof (made_wf _ _ _ _ G) as [W _].
  destruct (a_nest_spec _ W) as (l & N & R & F). eexists. exists l. split; [exact G|]. split; [reflexivity|]. split; [reflexivity|]. split; [reflexivity|]. split; [reflexivity|]. auto.
Qed.
Print Assumptions C14_from_elements.
(** Without bounds, the elements are one axis; none at all are an array without axes. *)
Theorem C14_from_elements_default : forall (A : Type) (es : list (nest A)),
  exists a, from_elements es None None = Ok a /\ a_elements a = es /\ a_dims a = (match es with [] => [] | _ => [len es] end) /\ a_nest a = Ok es.
Proof.
  intros A es. destruct es as [|e es].
  - eexists. split; [reflexivity|]. repeat split; reflexivity.
  - exists {| a_elements := e :: es; a_lower := [1]; a_upper := [len (e :: es)]; a_dims := [len (e :: es)] |}.
    unfold from_elements. pose proof (len_nonneg es). rewrite len_cons. destruct (Z.eqb_spec (1 + len es) 0); [lia|]. repeat split; reflexivity.
Qed.
Print Assumptions C14_from_elements_default.
(** A number of elements that does not fit the bounds is rejected with ValueError. *)
Theorem C14_count_mismatch : forall (A : Type) (es : list (nest A)) lo up, length lo = length up -> up <> [] -> len es <> product (sizes lo up) -> es <> [] ->
  from_elements es (Some lo) (Some up) = Err ValueError.
Proof.
  intros A es lo up L NU C NE. apply from_elements_count; [exact L| |].
  - destruct (sizes lo up) eqn:S0; [|exact C]. cbn. destruct es; [contradiction|]. rewrite len_cons. pose proof (len_nonneg es). lia.
  - left. destruct es; [contradiction|]. rewrite len_cons. pose proof (len_nonneg es). lia.
Qed.
Print Assumptions C14_count_mismatch.

(** Indexing agrees with the nested list: a 1-dimensional array is indexed as its list. *)
Theorem C14_index_flat : forall (A : Type) (a : array A) l i, made a -> (a_ndims a < 2)%nat -> a_nest a = Ok l ->
  getitem a i = do e <- pyindex l i; Ok (IElem e).
Proof. intros A a l i (es & lb & ub & M) D N. apply made_wf in M as [W _]. exact (proj2 (one_dim a l W D N) i). Qed.
Print Assumptions C14_index_flat.
(** Of an array of several dimensions, a[i] is the array of the nested list's l[i], for 0 <= i < len and -len <= i <= -2. *)
Theorem C14_index_partial : forall (A : Type) (a : array A) l i, made a -> (2 <= a_ndims a)%nat -> a_nest a = Ok l ->
  0 <= i < len l \/ - len l <= i <= -2 ->
  exists s l', getitem a i = Ok (IArr s) /\ made s /\ pyindex l i = Ok (Node l') /\ a_nest s = Ok l'.
Proof.
  intros A a l i (es & lb & ub & M) D N H. apply made_wf in M as [W _]. unfold a_ndims in D. destruct (a_dims a) as [|d [|d2 ds]] eqn:E; cbn [length] in D; try lia.
  destruct (a_nest_inv a l W N) as [R _]. rewrite E in R. pose proof (rect_len _ _ _ R) as L. rewrite L in H.
  assert (G : forall i, 0 <= i < d -> exists s l', getitem a i = Ok (IArr s) /\ made s /\ pyindex l i = Ok (Node l') /\ a_nest s = Ok l').
  { clear H i. intros i H. destruct (getitem_nest a d d2 ds l i W E N H) as (s & l' & G & _ & I & NS & _). exists s, l'. split; [exact G|]. split; [|auto].
    unfold getitem in G. unfold a_ndims in G. rewrite E in G. cbn [length Nat.ltb Nat.leb] in G. destruct (a_len a <? i); [discriminate|]. apply bind_Ok in G as (s0 & F & G).
    apply Ok_inj in G. injection G as <-. unfold made. eauto. }
  destruct H as [H|H]; [now apply G|]. rewrite (getitem_neg a d d2 ds i W E H), pyindex_neg, L by lia. apply G. lia.
Qed.
Print Assumptions C14_index_partial.
(** Beyond len, IndexError. *)
Theorem C14_index_high : forall (A : Type) (a : array A) l i, made a -> a_nest a = Ok l -> len l < i -> getitem a i = Err IndexError.
Proof.
  intros A a l i (es & lb & ub & M) N H. apply made_wf in M as [W _]. pose proof (len_nonneg l). destruct (le_lt_dec 2 (a_ndims a)) as [D|D].
  - unfold a_ndims in D. destruct (a_dims a) as [|d [|d2 ds]] eqn:E; cbn [length] in D; try lia. destruct (a_nest_inv a l W N) as [R _]. rewrite E in R. pose proof (rect_len _ _ _ R) as L.
    apply (getitem_high a d d2 ds); [exact E|lia].
  - rewrite (proj2 (one_dim a l W D N) i), pyindex_out by lia. reflexivity.
Qed.
Print Assumptions C14_index_high.
(** The full statement, a[i] agrees with l[i] at every index, is false for arrays of several dimensions: for every
    such array, a[-1] raises ValueError where the list has its last item, and a[len] and a[-len-1]
    raise ValueError instead of IndexError. *)
Theorem C14_index_refuted : forall (A : Type) (a : array A) l i, made a -> (2 <= a_ndims a)%nat -> a_nest a = Ok l ->
  i = -1 \/ i = len l \/ i < - len l -> getitem a i = Err ValueError.
Proof.
  intros A a l i (es & lb & ub & M) D N H. apply made_wf in M as [W _]. unfold a_ndims in D. destruct (a_dims a) as [|d [|d2 ds]] eqn:E; cbn [length] in D; try lia.
  destruct (a_nest_inv a l W N) as [R _]. rewrite E in R. pose proof (rect_len _ _ _ R) as L. apply (getitem_bad a d d2 ds); [exact W|exact E|lia].
Qed.
Print Assumptions C14_index_refuted.

(** get_element(address) is l[a0][a1]... of the nested list, with IndexError where that has no such item, and
    ValueError for an address of another length. *)
Theorem C14_get_element : forall (A : Type) (a : array A) l addr, made a -> a_dims a <> [] -> a_nest a = Ok l ->
  get_element a addr = if len addr =? len (a_dims a) then at_address l addr else Err ValueError.
Proof. intros A a l addr (es & lb & ub & M) NE N. apply made_wf in M as [W _]. now apply get_element_spec. Qed.
Print Assumptions C14_get_element.
Theorem C14_get_element_error : forall (A : Type) (a : array A) addr e, made a -> get_element a addr = Err e -> e = IndexError \/ e = ValueError.
Proof.
  intros A a addr e (es & lb & ub & M) H. apply made_wf in M as [W _]. destruct (a_nest_spec a W) as (l & N & R & F). unfold get_element in H. destruct (a_dims a) as [|d ds] eqn:E; [injection H; auto|].
  destruct (Z.eqb_spec (len addr) (len (d :: ds))) as [L|L]; cbn [negb] in H; [|injection H; auto]. destruct (weight_eq a d ds W E) as (_ & P1 & P2 & LE).
  pose proof (rect_at (d :: ds) l addr (len (a_elements a)) 0 R ltac:(discriminate) ltac:(unfold len in L; lia) (Forall_cons _ P1 P2) LE) as S. destruct (at_address l addr) as [x|x].
  - destruct S as (k & EP & K & NT). rewrite EP in H. cbn [bind] in H. destruct (pyindex_nth (a_elements a) (0 + k)) as (y & EY & _); [lia|]. congruence.
  - destruct S as [_ EP]. rewrite EP in H. cbn [bind] in H. injection H; auto.
Qed.
Print Assumptions C14_get_element_error.
(** sql_get_element: the address counts from the lower bounds, and what is outside is None. *)
Theorem C14_sql_get_element : forall (A : Type) (a : array A) l addr, made a -> a_dims a <> [] -> a_nest a = Ok l -> length addr = length (a_dims a) ->
  sql_get_element a addr =
    (let k := map (fun p => fst p - snd p) (combine addr (a_lower a)) in
     if existsb (fun x => x <? 0) k then Ok None else match at_address l k with Ok e => Ok (Some e) | Err _ => Ok None end).
Proof. intros A a l addr (es & lb & ub & M) NE N L. apply made_wf in M as [W _]. now apply sql_inside. Qed.
Print Assumptions C14_sql_get_element.
(** a[start:stop:step] of an array of several dimensions is the array of the list's slice. *)
Theorem C14_slice : forall (A : Type) (a : array A) l start stop step, made a -> (2 <= a_ndims a)%nat -> a_nest a = Ok l ->
  match list_slice l start stop step with
  | Ok l' => exists s, getslice a start stop step = Ok s /\ a_nest s = Ok l'
  | Err e => getslice a start stop step = Err e /\ e = ValueError
  end.
Proof.
  intros A a l start stop step (es & lb & ub & M) D N. apply made_wf in M as [W _]. unfold a_ndims in D. destruct (a_dims a) as [|d [|d2 ds]] eqn:E; cbn [length] in D; try lia.
  now apply (getslice_spec a d d2 ds l).
Qed.
Print Assumptions C14_slice.

(** ** Examples *)
Definition no_seq (x : Z) : option (list Z) := None.
Definition ex2 : list (nest Z) := [Node [Leaf 1; Leaf 2; Leaf 3]; Node [Leaf 4; Leaf 5; Leaf 6]].
Example C14_ex_nest : exists a, from_nest no_seq ex2 = Ok a /\ a_dims a = [2; 3] /\ a_nest a = Ok ex2 /\ made a /\
  get_element a [1; -1] = Ok (Leaf 6) /\ sql_get_element a [2; 3] = Ok (Some (Leaf 6)) /\ sql_get_element a [0; 3] = Ok None /\
  getitem a 0 = Ok (IArr {| a_elements := [Leaf 1; Leaf 2; Leaf 3]; a_lower := [1]; a_upper := [3]; a_dims := [3] |}) /\
  getitem a (-2) = getitem a 0 /\ getitem a (-1) = Err ValueError /\ getitem a 2 = Err ValueError /\ getitem a 3 = Err IndexError.
Proof.
  exists {| a_elements := [Leaf 1; Leaf 2; Leaf 3; Leaf 4; Leaf 5; Leaf 6]; a_lower := [1; 1]; a_upper := [2; 3]; a_dims := [2; 3] |}.
  split; [vm_compute; reflexivity|]. split; [reflexivity|]. split; [vm_compute; reflexivity|]. split; [|repeat split; vm_compute; reflexivity].
  exists [Leaf 1; Leaf 2; Leaf 3; Leaf 4; Leaf 5; Leaf 6], (Some [1; 1]), (Some [2; 3]). vm_compute. reflexivity.
Qed.
Example C14_ex_slice : exists a s, from_nest no_seq ex2 = Ok a /\ getslice a None None (Some (-1)) = Ok s /\ a_nest s = Ok (rev ex2).
Proof.
  exists {| a_elements := [Leaf 1; Leaf 2; Leaf 3; Leaf 4; Leaf 5; Leaf 6]; a_lower := [1; 1]; a_upper := [2; 3]; a_dims := [2; 3] |},
   {| a_elements := [Leaf 4; Leaf 5; Leaf 6; Leaf 1; Leaf 2; Leaf 3]; a_lower := [1; 1]; a_upper := [2; 3]; a_dims := [2; 3] |}.
  repeat split; vm_compute; reflexivity.
Qed.
Example C14_ex_ragged : from_nest no_seq [Node [Leaf 1; Leaf 2]; Node [Leaf 3]] = Err ValueError. Proof. reflexivity. Qed.
Example C14_ex_count : from_elements [Leaf 1; Leaf 2; Leaf 3] (Some [1; 1]) (Some [2; 2]) = Err ValueError. Proof. reflexivity. Qed.
(** Strings are accepted as rows: leaves that are sequences stand for their items. *)
Theorem C14_strings_as_rows_refuted : exists (chars : Z -> option (list Z)) l a,
  from_nest chars l = Ok a /\ a_dims a = [2; 2] /\ a_nest a <> Ok l.
Proof.
  exists (fun x => if x =? 99 then Some [1; 2] else None), [Node [Leaf 1; Leaf 2]; Leaf 99],
    {| a_elements := [Leaf 1; Leaf 2; Leaf 1; Leaf 2]; a_lower := [1; 1]; a_upper := [2; 2]; a_dims := [2; 2] |}.
  split; [vm_compute; reflexivity|]. split; [reflexivity|]. vm_compute. discriminate.
Qed.
Print Assumptions C14_strings_as_rows_refuted.
(** sql_get_element ignores the surplus of an address that is too long, and raises for one that is too short. *)
Theorem C14_sql_length_refuted : exists a : array Z, made a /\ sql_get_element a [1; 1; 7] = Ok (Some (Leaf 1)) /\ sql_get_element a [1] = Err ValueError.
Proof.
  exists {| a_elements := [Leaf 1; Leaf 2]; a_lower := [1; 1]; a_upper := [1; 2]; a_dims := [1; 2] |}.
  split; [exists [Leaf 1; Leaf 2], (Some [1; 1]), (Some [1; 2]); reflexivity|split; reflexivity].
Qed.
Print Assumptions C14_sql_length_refuted.
