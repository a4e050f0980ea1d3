(** TresProof.v: the I/O pairs of arrays and composites *)
From Verif Require Import PyStr PyDict PyDictProof BaseProof IterModel TypeIOModel TypeIOSpec TypeIOProof TypeIOProof2 ArrayModel ArraySpec ArrayProof ArrayProof2 RowProof TresModel TresSpec.

(** ** process_tuple *)
Section PT.
Context {A B : Type}.
Lemma process_items_ok (procs : list (A -> res B)) h : forall tup r i, length tup = length procs ->
  (process_items procs tup h i = Ok r <-> Forall2 (fun px y => match snd px with None => y = None | Some x => exists z, fst px x = Ok z /\ y = Some z end) (combine procs tup) r).
Proof.
  induction procs as [|p procs IH]; intros [|x tup] r i L; cbn [length] in L; try lia; cbn [process_items combine].
  - split; [intros [= <-]; constructor|intros H; inversion H; reflexivity].
  - specialize (IH tup). destruct x as [x|].
    + destruct (p x) as [y|e] eqn:E; cbn [bind].
      * split.
        -- intros H. apply bind_Ok in H as (r' & R & [= <-]). constructor; [exists y; auto|]. apply (IH r' (S i)); [lia|exact R].
        -- intros H. inversion H as [|? y' ? r' ZZ F]; subst. cbn [fst snd] in ZZ. destruct ZZ as (z & Z & ->). rewrite E in Z. injection Z as <-.
           apply (IH r' (S i)) in F; [|lia]. now rewrite F.
      * split; [discriminate|]. intros H. inversion H as [|? y' ? r' ZZ F]; subst. cbn [fst snd] in ZZ. destruct ZZ as (z & Z & ->). congruence.
    + cbn [bind]. split.
      * intros H. apply bind_Ok in H as (r' & R & [= <-]). constructor; [reflexivity|]. apply (IH r' (S i)); [lia|exact R].
      * intros H. inversion H as [|? y' ? r' EQ F]; subst. cbn [snd] in EQ. subst y'. apply (IH r' (S i)) in F; [|lia]. now rewrite F.
Qed.
Lemma process_items_err (procs : list (A -> res B)) h : forall tup e i, length tup = length procs ->
  (process_items procs tup h i = Err e <-> exists k p x c, nth_error procs k = Some p /\ nth_error tup k = Some (Some x) /\ p x = Err c /\ e = h (i + k)%nat c /\
     forall j q y, (j < k)%nat -> nth_error procs j = Some q -> nth_error tup j = Some (Some y) -> exists z, q y = Ok z).
Proof.
  induction procs as [|p procs IH]; intros [|x tup] e i L; cbn [length] in L; try lia; cbn [process_items].
  - split; [discriminate|]. intros (k & p & x & c & N & _). destruct k; discriminate.
  - destruct (match x with None => Ok None | Some x => do y <- p x; Ok (Some y) end) as [y|c] eqn:E.
    + specialize (IH tup). split.
      * intros H. destruct (process_items procs tup h (S i)) as [r|e'] eqn:R; cbn [bind] in H; [discriminate|]. injection H as <-.
        apply IH in R as (k & p' & x' & c & N1 & N2 & F & -> & BF); [|lia]. exists (S k), p', x', c. split; [exact N1|]. split; [exact N2|]. split; [exact F|]. split; [now rewrite Nat.add_succ_r|].
        intros [|j] q y' LT Q Y; [|apply (BF j q y'); [lia|exact Q|exact Y]]. cbn in Q, Y. injection Q as <-. injection Y as ->. apply bind_Ok in E as (z & E & _). now exists z.
      * intros (k & p' & x' & c & N1 & N2 & F & -> & BF). destruct k as [|k].
        -- cbn in N1, N2. injection N1 as <-. injection N2 as ->. rewrite F in E. discriminate.
        -- assert (R : process_items procs tup h (S i) = Err (h (S i + k)%nat c)).
           { apply IH; [lia|]. exists k, p', x', c. split; [exact N1|]. split; [exact N2|]. split; [exact F|]. split; [reflexivity|]. intros j q y' LT Q Y. apply (BF (S j) q y'); [lia|exact Q|exact Y]. }
           rewrite R. cbn [bind]. now rewrite Nat.add_succ_r.
    + split.
      * intros [= <-]. destruct x as [x|]; [|discriminate]. exists O, p, x, c. split; [reflexivity|]. split; [reflexivity|].
        destruct (p x) as [z|c'] eqn:P; cbn [bind] in E; [discriminate|]. injection E as <-. split; [reflexivity|]. split; [now rewrite Nat.add_0_r|]. intros j; lia.
      * intros (k & p' & x' & c' & N1 & N2 & F & -> & BF). destruct k as [|k].
        -- cbn in N1, N2. injection N1 as <-. injection N2 as ->. rewrite F in E. cbn [bind] in E. injection E as <-. now rewrite Nat.add_0_r.
        -- exfalso. destruct x as [x|]; [|discriminate]. destruct (BF O p x) as (z & Z); [lia|reflexivity|reflexivity|]. rewrite Z in E. discriminate.
Qed.
End PT.

Section Io.
Context {B : Type}.
Notation pv := (pv B). Notation io := (io B).
Context (iter_other : pv -> res (list pv)) (chars_other : pv -> option (list pv)) (encode : pv -> res (list Z)) (decode : list Z -> res pv).
Notation wire := (wire encode decode).
Notation pack_of := (pack_of encode). Notation unpack_of := (unpack_of decode).
Definition good (t : ty) (i : io) : Prop := forall v v' b, wire t v v' b -> pack_of i v = Ok b /\ unpack_of i b = Ok v'.

Lemma each_len (w : pv -> pv -> list Z -> Prop) es es' bs : each w es es' bs -> length es' = length es /\ length bs = length es.
Proof. induction 1; cbn; lia. Qed.
Lemma each_pack (w : pv -> pv -> list Z -> Prop) f es es' bs : (forall v v' b, w v v' b -> f v = Ok b) -> each w es es' bs -> mapM (null_pack f) es = Ok bs.
Proof.
  intros W E. induction E as [|x x' y l l' bs N E IH]; [reflexivity|]. cbn [mapM]. inversion N as [|v v' b NN V]; subst; cbn [null_pack].
  - cbn [bind]. now rewrite IH.
  - destruct x; try contradiction; cbn [null_pack]; rewrite (W _ _ _ V); cbn [bind]; now rewrite IH.
Qed.
Lemma each_unpack (w : pv -> pv -> list Z -> Prop) f es es' bs : (forall v v' b, w v v' b -> f b = Ok v') -> each w es es' bs -> mapM (null_unpack f) bs = Ok es'.
Proof.
  intros W E. induction E as [|x x' y l l' bs N E IH]; [reflexivity|]. cbn [mapM]. inversion N as [|v v' b NN V]; subst; cbn [null_unpack].
  - cbn [bind]. now rewrite IH.
  - rewrite (W _ _ _ V). cbn [bind]. now rewrite IH.
Qed.
Lemma sized_len a : (4 <= length (sized_wire a))%nat.
Proof. destruct a; cbn [sized_wire]; [rewrite app_length, be_length; lia|cbn; lia]. Qed.
Lemma array_wire_len f o d bs : (length bs <= length (array_wire f o d bs))%nat.
Proof.
  unfold array_wire. rewrite !app_length. assert (length bs <= length (concat (map sized_wire bs)))%nat; [|lia].
  induction bs as [|x bs IH]; [cbn; lia|]. cbn [map concat]. rewrite app_length. pose proof (sized_len x). cbn [length]. lia.
Qed.
Lemma of_leaf (es : list pv) : map of_nest (map (@Leaf pv) es) = es.
Proof. rewrite map_map. cbn [of_nest]. apply map_id. Qed.
Lemma product_pos ds : Forall (fun d => 1 <= d) ds -> 1 <= product ds.
Proof. induction 1 as [|d ds D F IH]; cbn [product fold_right]; [lia|]. fold (product ds). nia. Qed.
Lemma sizes_upper lo ds : length lo = length ds -> sizes lo (upper lo ds) = ds.
Proof.
  revert ds. induction lo as [|l lo IH]; intros [|d ds] L; cbn [length] in L; try lia; [reflexivity|]. unfold sizes, upper in *. cbn [combine map fst snd]. f_equal; [lia|]. apply IH. lia.
Qed.
Lemma array_value_shape (v : pv) es lo ds : array_value v es lo ds -> length lo = length ds /\ ((ds = [] /\ es = []) \/ (ds <> [] /\ Forall (fun d => 1 <= d) ds /\ len es = product ds)).
Proof.
  intros A. destruct A as [|es lo up ds NE L -> F E|l ds F R LF].
  - auto.
  - assert (LS : length (sizes lo up) = length lo) by (unfold sizes; rewrite map_length, combine_length; lia). split; [lia|right]. split; [|auto]. destruct up, lo; cbn in L; try lia; try contradiction; discriminate.
  - rewrite repeat_length. split; [reflexivity|]. destruct ds as [|d ds].
    + left. split; [reflexivity|]. cbn [rect] in R. cbn [flat]. rewrite R. reflexivity.
    + right. split; [discriminate|]. split; [exact F|]. unfold len. rewrite map_length. pose proof (rect_count (d :: ds) (map to_nest l) R) as C. unfold len in C. exact C.
Qed.
Lemma array_parts_ok (v : pv) es lo ds : array_value v es lo ds -> array_parts iter_other chars_other v = Ok (es, ds, lo).
Proof.
  intros A. destruct A as [|es lo up ds NE L -> F E|l ds F R LF]; [reflexivity|reflexivity|].
  cbn [array_parts tuple_of bind]. rewrite (from_nest_detected _ _ ds); [reflexivity|now apply detect_dims|exact R].
Qed.
Lemma from_parts_ok (es : list pv) lo ds : length lo = length ds -> ((ds = [] /\ es = []) \/ (ds <> [] /\ Forall (fun d => 1 <= d) ds /\ len es = product ds)) ->
  array_from_parts es ds lo = Ok (VArr es lo (upper lo ds) ds).
Proof.
  intros L [(-> & ->)|(NE & F & E)].
  - destruct lo; [|discriminate]. reflexivity.
  - unfold array_from_parts. fold (upper lo ds). rewrite from_elements_given.
    + cbn [bind a_elements a_lower a_upper a_dims]. now rewrite of_leaf, sizes_upper.
    + unfold upper. destruct ds, lo; cbn in L; try lia; try contradiction. discriminate.
    + unfold upper. rewrite map_length, combine_length. lia.
    + now rewrite sizes_upper.
    + rewrite sizes_upper by exact L. unfold len. rewrite map_length. exact E.
Qed.
Lemma array_good eo t te : good t te -> good (TArr eo t) (array_io_factory iter_other chars_other encode decode te eo true true).
Proof.
  intros G v v' b (es & lo & ds & es' & bs & A & E & -> & W & ->). unfold TresModel.pack_of, TresModel.unpack_of, array_io_factory. cbn [io_pack io_unpack].
  pose proof (array_value_shape _ _ _ _ A) as [L SH]. pose proof (each_len _ _ _ _ E) as [L1 L2].
  assert (M : {| aflags := 0; atypid := eo; adims := ds; albs := lo; aelems := bs |} = mk_array 0 eo (combine ds lo) bs).
  { unfold mk_array. rewrite map_fst_combine, map_snd_combine by lia. reflexivity. }
  split.
  - unfold pack_an_array. rewrite (array_parts_ok _ _ _ _ A). cbn [bind]. rewrite (each_pack _ _ _ _ _ (fun v v' b H => proj1 (G v v' b H)) E). cbn [bind]. rewrite M. apply array_pack_ok. exact W.
  - unfold unpack_an_array. rewrite array_unpack_ok; [|exact W|pose proof (array_wire_len 0 eo (combine ds lo) bs); lia]. cbn [bind]. rewrite <- M. cbn [aelems adims albs].
    rewrite (each_unpack _ _ _ _ _ (fun v v' b H => proj2 (G v v' b H)) E). cbn [bind]. apply from_parts_ok; [exact L|].
    destruct SH as [[-> ->]|(NE & F & PE)]; [left; split; [reflexivity|]; destruct es'; [reflexivity|discriminate]|right]. split; [exact NE|]. split; [exact F|]. unfold len in *. lia.
Qed.

(** composites *)
Notation wire_cols := (each_column wire).
Lemma wire_row cols v v' b : wire (TRow cols) v v' b = exists vs vs' bs, row_value (map col_name cols) v vs /\ wire_cols cols vs vs' bs /\
  v' = VRow (combine (map col_name cols) (py_range (len cols))) vs' /\ wf_record (combine (map col_oid cols) bs) /\ b = record_wire (combine (map col_oid cols) bs).
Proof. reflexivity. Qed.
Lemma opt_none (v : pv) : opt v = None <-> v = VNone.
Proof. split; [destruct v; try discriminate; reflexivity|intros ->; reflexivity]. Qed.
Lemma opt_some (v : pv) : v <> VNone -> opt v = Some v.
Proof. destruct v; try contradiction; reflexivity. Qed.
Lemma cols_pack cols : forall cio vs vs' bs, Forall2 (fun c i => good (col_type c) i) cols cio -> wire_cols cols vs vs' bs ->
  length vs = length cio /\ length vs' = length cio /\ length bs = length cio /\
  (forall i, process_items (map pack_of cio) (map opt vs) attribute_error i = Ok bs) /\
  (forall i, exists r, process_items (map unpack_of cio) bs attribute_error i = Ok r /\ map unopt r = vs').
Proof.
  induction cols as [|[[o n] t] cols IH]; intros cio vs vs' bs G W; inversion G as [|? i ? cio' G1 G2]; subst.
  - destruct vs, vs', bs; try contradiction. cbn. repeat split; auto. now exists [].
  - destruct vs as [|v vs], vs' as [|v' vs'], bs as [|b bs]; try contradiction. cbn [each_column] in W. destruct W as [N W].
    destruct (IH _ _ _ _ G2 W) as (L1 & L2 & L3 & P & U). cbn [length map process_items]. repeat (split; [lia|]). cbn [col_type snd] in G1.
    inversion N as [|? ? d NN V]; subst.
    + split; [intros k; cbn [opt]; now rewrite P|]. intros k. destruct (U (S k)) as (r & -> & <-). exists (None :: r). split; reflexivity.
    + destruct (G1 _ _ _ V) as [E1 E2]. split.
      * intros k. rewrite opt_some by exact NN. rewrite E1. cbn [bind]. now rewrite P.
      * intros k. rewrite E2. cbn [bind]. destruct (U (S k)) as (r & -> & <-). exists (Some v' :: r). split; reflexivity.
Qed.
Lemma row_good cols cio : NoDup (map col_name cols) -> Forall2 (fun c i => good (col_type c) i) cols cio ->
  good (TRow cols) (record_io_factory iter_other encode decode cio (map col_oid cols) (attribute_map (map col_name cols))).
Proof.
  intros ND G v v' b W. rewrite wire_row in W. destruct W as (vs & vs' & bs & R & W & -> & WF & ->).
  destruct (cols_pack _ _ _ _ _ G W) as (L1 & L2 & L3 & P & U). pose proof (Forall2_len _ _ _ G) as LC.
  change (pack_a_record iter_other (map pack_of cio) (map col_oid cols) (attribute_map (map col_name cols)) v = Ok (record_wire (combine (map col_oid cols) bs)) /\ unpack_a_record (map unpack_of cio) (attribute_map (map col_name cols)) (record_wire (combine (map col_oid cols) bs)) = Ok (VRow (combine (map col_name cols) (py_range (len cols))) vs')). split.
  - unfold pack_a_record. assert (T : process_tuple (map pack_of cio) (map opt vs) attribute_error = Ok bs).
    { unfold process_tuple. rewrite !map_length, L1, Nat.eqb_refl. apply P. }
    assert (D : match v with VDict d => Ok (map (fun p => dict_get d (fst p)) (sort_cols (attribute_map (map col_name cols)))) | _ => tuple_of iter_other v end = Ok vs).
    { destruct R; try reflexivity. f_equal. rewrite <- (map_map fst (dict_get d)). f_equal.
      pose proof (attmap_names (map col_name cols) (map (fun _ => tt) cols) ND) as E. rewrite !map_length in E. exact (E eq_refl). }
    rewrite D. cbn [bind]. rewrite T. cbn [bind]. apply record_pack_ok. exact WF.
  - unfold unpack_a_record. rewrite record_unpack_ok by exact WF. cbn [bind]. rewrite map_snd_combine by (rewrite map_length; lia).
    destruct (U O) as (r & E & <-). assert (T : process_tuple (map unpack_of cio) bs attribute_error = Ok r).
    { unfold process_tuple. rewrite !map_length, L3, Nat.eqb_refl. exact E. }
    rewrite T. cbn [bind]. f_equal. f_equal. rewrite attmap_distinct by exact ND. unfold len. now rewrite map_length.
Qed.
(** a composite is given as many values as it has columns, or refused *)
Definition strict (t : ty (B := B)) (i : io) : Prop :=
  match t with TRow cols => forall v vs, row_value (map col_name cols) v vs -> length vs <> length cols -> pack_of i v = Err TypeError | _ => True end.
Lemma row_strict cols cio : length cio = length cols ->
  strict (TRow cols) (record_io_factory iter_other encode decode cio (map col_oid cols) (attribute_map (map col_name cols))).
Proof.
  intros L v vs R N.
  change (pack_a_record iter_other (map pack_of cio) (map col_oid cols) (attribute_map (map col_name cols)) v = Err TypeError).
  unfold pack_a_record.
  assert (T : forall l, length l <> length cols -> process_tuple (map pack_of cio) (map opt l) attribute_error = Err TypeError).
  { intros l NL. unfold process_tuple. rewrite !map_length. replace (length l =? length cio)%nat with false; [reflexivity|]. symmetry. apply Nat.eqb_neq. lia. }
  destruct R; try (cbn [tuple_of bind]; now rewrite T by exact N).
  exfalso. apply N. now rewrite !map_length.
Qed.
End Io.
