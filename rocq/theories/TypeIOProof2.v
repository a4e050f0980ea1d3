(** TypeIOProof2.v: arrays, sized data, hstore. *)
From Verif Require Import Base BaseProof PBufferModel PBufferProof Element3Model Element3Spec Element3Proof
  PyList PyListProof IterModel IterSpec IterProof TypeIOModel TypeIOSpec TypeIOProof.

(** ** arrays *)
Lemma element_pack_ok a : small a -> element_pack a = Ok (sized_wire a).
Proof.
  destruct a as [v|]; cbn; [|reflexivity]. intros H. pose proof (len_nonneg v).
  rewrite long_pack_small by lia. reflexivity.
Qed.
Lemma long_pack_s32 x : is_s32 x -> long_pack x = Ok (s32be x).
Proof. intros H. unfold long_pack. rewrite pack_s_ok by exact H. reflexivity. Qed.
Lemma mapM_ok {A B} (f : A -> res B) (g : A -> B) l : Forall (fun x => f x = Ok (g x)) l -> mapM f l = Ok (map g l).
Proof. induction 1 as [|x l H1 H2 IH]; cbn [mapM map]; [reflexivity|]. rewrite H1. cbn [bind]. rewrite IH. reflexivity. Qed.
Lemma zip2_split (dims : list (Z * Z)) :
  concat (map s32be (zip2 (map fst dims) (map snd dims))) = concat (map (fun d => s32be (fst d) ++ s32be (snd d)) dims).
Proof. induction dims as [|[a b] l IH]; cbn; [reflexivity|]. rewrite IH, <- app_assoc. reflexivity. Qed.
Lemma zip2_Forall P (dims : list (Z * Z)) : Forall (fun d => P (fst d) /\ P (snd d)) dims ->
  Forall P (zip2 (map fst dims) (map snd dims)).
Proof. induction 1 as [|[a b] l [H1 H2] H3 IH]; cbn; repeat constructor; auto. Qed.

Definition mk_array flags oid (dims : list (Z * Z)) elems : raw_array :=
  {| aflags := flags; atypid := oid; adims := map fst dims; albs := map snd dims; aelems := elems |}.
Lemma array_pack_ok flags oid dims elems : wf_array flags oid dims elems ->
  array_pack (mk_array flags oid dims elems) = Ok (array_wire flags oid dims elems).
Proof.
  intros (Hf & Ho & Hn & Hd & He). unfold array_pack, mk_array; cbn [adims albs aflags atypid aelems].
  pose proof (len_nonneg dims).
  assert (L : len (map fst dims) = len dims) by (unfold len; rewrite map_length; reflexivity). rewrite L.
  rewrite long_pack_small by lia. cbn [bind]. rewrite long_pack_s32 by auto. cbn [bind].
  unfold ulong_pack. rewrite pack_u_ok by exact Ho. cbn [bind].
  rewrite interlace_2 by (rewrite !map_length; reflexivity).
  rewrite (mapM_ok long_pack s32be).
  2:{ eapply Forall_impl; [intros x Hx; apply long_pack_s32; exact Hx|]. apply zip2_Forall; auto. }
  cbn [bind]. rewrite (mapM_ok element_pack sized_wire).
  2:{ eapply Forall_impl; [intros x Hx; apply element_pack_ok; exact Hx|]. auto. }
  cbn [bind]. rewrite zip2_split. reflexivity.
Qed.

Lemma sized_wire_len a : 4 <= len (sized_wire a).
Proof. destruct a; cbn [sized_wire]; [rewrite len_app, len_be; pose proof (len_nonneg l)|change (len [255;255;255;255]) with 4]; lia. Qed.

Lemma elements_unpack_ok es : Forall small es -> forall pre fuel, (length es <= fuel)%nat ->
  elements_unpack fuel (pre ++ concat (map sized_wire es)) (len pre) = Ok es.
Proof.
  induction 1 as [|a es Ha Hes IH]; intros pre fuel Hf; cbn [map concat].
  - rewrite app_nil_r. destruct fuel; cbn [elements_unpack]; rewrite Z.ltb_irrefl; reflexivity.
  - destruct fuel as [|fuel]; [cbn in Hf; lia|]. cbn [elements_unpack].
    set (data := pre ++ _).
    assert (Ld : len data = len pre + len (sized_wire a) + len (concat (map sized_wire es))) by (unfold data; rewrite !len_app; lia).
    pose proof (sized_wire_len a) as L4. pose proof (len_nonneg (concat (map sized_wire es))) as Ln.
    destruct (Z.ltb_spec (len pre) (len data)); [|lia].
    specialize (IH (pre ++ sized_wire a) fuel). rewrite <- app_assoc in IH. fold data in IH. rewrite len_app in IH.
    destruct a as [v|].
    + cbn in Ha. pose proof (len_nonneg v). cbn [sized_wire] in *. rewrite len_app, len_be in IH.
      assert (F2 : pyslice data (len pre) (len pre + 4) = be 4 (len v)).
      { unfold data. rewrite <- !app_assoc. apply field_at; rewrite ?len_be; lia. }
      assert (F3 : pyslice data (len pre + 4) (len pre + 4 + len v) = v).
      { unfold data. rewrite <- !app_assoc, (app_assoc pre (be 4 (len v))). apply field_at; rewrite ?len_app, ?len_be; lia. }
      rewrite F2, nullmark_be by lia. rewrite <- (app_nil_r (be 4 (len v))), long_unpack_be by lia. cbn [bind].
      rewrite F3. replace (len pre + 4 + len v) with (len pre + (Z.of_nat 4 + len v)) by lia.
      rewrite IH by (cbn in Hf; lia). reflexivity.
    + assert (F2 : pyslice data (len pre) (len pre + 4) = nullmark).
      { unfold data. cbn [sized_wire]. apply (field_at pre nullmark); auto. }
      rewrite F2, seqb_refl. change (len (sized_wire None)) with 4 in IH. rewrite IH by (cbn in Hf; lia). reflexivity.
Qed.

Lemma s32be_unpack x r : is_s32 x -> long_unpack (s32be x ++ r) = Ok x.
Proof.
  intros H. unfold long_unpack. apply (unpack_pack_s 4 x (s32be x) r); [lia|]. apply long_pack_s32; auto.
Qed.
Lemma s32be_unpack' x : is_s32 x -> long_unpack (s32be x) = Ok x.
Proof. intros H. rewrite <- (app_nil_r (s32be x)). apply s32be_unpack; auto. Qed.
Lemma len_s32be x : len (s32be x) = 4. Proof. apply len_be. Qed.
Lemma longs_at_dims dims : Forall (fun d => is_s32 (fst d) /\ is_s32 (snd d)) dims -> forall pre post,
  let data := pre ++ concat (map (fun d => s32be (fst d) ++ s32be (snd d)) dims) ++ post in
  longs_at (length dims) data (len pre) = Ok (map fst dims) /\
  longs_at (length dims) data (len pre + 4) = Ok (map snd dims).
Proof.
  induction 1 as [|[a b] dims [Ha Hb] Hd IH]; intros pre post data; cbn [length longs_at map]; [auto|].
  cbn [fst snd] in *. unfold data in *. cbn [map concat fst snd].
  assert (F1 : pyslice data (len pre) (len pre + 4) = s32be a).
  { unfold data. cbn [map concat fst snd]. rewrite <- !app_assoc. apply field_at; rewrite ?len_s32be; auto. }
  assert (F2 : pyslice data (len pre + 4) (len pre + 4 + 4) = s32be b).
  { unfold data. cbn [map concat fst snd]. rewrite <- !app_assoc, (app_assoc pre (s32be a)).
    apply field_at; rewrite ?len_app, ?len_s32be; auto. }
  unfold data in F1, F2. cbn [map concat fst snd] in F1, F2. rewrite F1, F2, !s32be_unpack' by auto. cbn [bind].
  destruct (IH (pre ++ s32be a ++ s32be b) post) as [I1 I2].
  rewrite <- !app_assoc in *. rewrite !len_app, !len_s32be in *.
  replace (len pre + 8) with (len pre + (4 + 4)) by lia.
  replace (len pre + 4 + 8) with (len pre + (4 + 4) + 4) by lia.
  rewrite I1, I2. auto.
Qed.

Lemma array_unpack_ok flags oid dims elems fuel : wf_array flags oid dims elems -> (length elems <= fuel)%nat ->
  array_unpack fuel (array_wire flags oid dims elems) = Ok (mk_array flags oid dims elems).
Proof.
  intros (Hf & Ho & Hn & Hd & He) Hfuel. unfold array_unpack, array_wire.
  pose proof (len_nonneg dims).
  set (D := concat (map _ dims)). set (E := concat (map sized_wire elems)).
  rewrite long_unpack_be by lia. cbn [bind]. rewrite skipn_be, s32be_unpack by auto. cbn [bind].
  change 8%nat with (4 + 4)%nat. rewrite skipn_plus, skipn_be. unfold s32be at 1. rewrite skipn_be.
  unfold ulong_unpack. rewrite unpack_u_be by exact Ho. cbn [bind].
  destruct (Z.ltb_spec (len dims) 0); [lia|]. rewrite to_nat_len.
  set (pre := be 4 (len dims) ++ s32be flags ++ be 4 oid).
  assert (Lp : len pre = 12) by (unfold pre; rewrite !len_app, !len_be, len_s32be; reflexivity).
  replace (be 4 (len dims) ++ s32be flags ++ be 4 oid ++ D ++ E) with (pre ++ D ++ E) by (unfold pre; rewrite <- !app_assoc; reflexivity).
  destruct (longs_at_dims dims Hd pre E) as [I1 I2]. fold D in I1, I2. rewrite Lp in I1, I2.
  change (12 + 4) with 16 in I2. rewrite I1, I2. cbn [bind].
  assert (LD : len D = 8 * len dims).
  { unfold D. clear. induction dims as [|d l IH]; [reflexivity|]. cbn [map concat]. rewrite !len_app, !len_s32be, IH, len_cons. lia. }
  pose proof (elements_unpack_ok elems He (pre ++ D) fuel Hfuel) as R. rewrite <- app_assoc in R. fold E in R.
  rewrite len_app, Lp, LD in R. replace (4 * 2 * len dims + 12) with (12 + 8 * len dims) by lia.
  rewrite R. reflexivity.
Qed.

(** the decoder of array elements runs forever only on a negative size below -1 *)
Lemma elements_unpack_diverges fuel : forall data off, 0 <= off -> len data - off <= Z.of_nat fuel ->
  elements_unpack fuel data off = Err OutOfFuel ->
  exists o sz, off <= o < len data /\ long_unpack (pyslice data o (o + 4)) = Ok sz /\ sz < -1.
Proof.
  induction fuel as [|fuel IH]; intros data off Ho Hf H; cbn [elements_unpack] in H.
  - destruct (Z.ltb_spec off (len data)); [lia|discriminate].
  - destruct (Z.ltb_spec off (len data)) as [L|L]; [|discriminate].
    destruct (seqb _ nullmark) eqn:E.
    + destruct (elements_unpack fuel data (off + 4)) eqn:E2; cbn [bind] in H; [discriminate|]. assert (e = OutOfFuel) by congruence. subst e.
      apply IH in E2 as (o & sz & H1 & H2 & H3); [|lia|lia]. exists o, sz. split; [lia|auto].
    + destruct (long_unpack (pyslice data off (off + 4))) as [sz|e] eqn:E1; cbn [bind] in H.
      2:{ unfold long_unpack, unpack_s, unpack_u in E1. destruct (_ <? _)%nat in E1; cbn in E1; congruence. }
      destruct (Z.ltb_spec sz (-1)) as [Lz|Lz]; [exists off, sz; auto with zarith|].
      destruct (elements_unpack fuel data (off + 4 + sz)) eqn:E2; cbn [bind] in H; [discriminate|]. assert (e = OutOfFuel) by congruence. subst e.
      apply IH in E2 as (o & sz' & H1 & H2 & H3); [|lia|lia]. exists o, sz'. split; [lia|auto].
Qed.
(** ... and it does on -4, for any prefix and any continuation *)
Lemma elements_unpack_loop pre post fuel :
  elements_unpack fuel (pre ++ s32be (-4) ++ post) (len pre) = Err OutOfFuel.
Proof.
  induction fuel as [|fuel IH]; cbn [elements_unpack].
  - rewrite !len_app, len_s32be. destruct (Z.ltb_spec (len pre) (len pre + (4 + len post))); [reflexivity|pose proof (len_nonneg post); lia].
  - rewrite field_at by (rewrite ?len_s32be; auto).
    rewrite !len_app, len_s32be. destruct (Z.ltb_spec (len pre) (len pre + (4 + len post))); [|pose proof (len_nonneg post); lia].
    change (seqb (s32be (-4)) nullmark) with false. cbv iota. rewrite s32be_unpack' by (unfold is_s32; lia). cbn [bind].
    replace (len pre + 4 + -4) with (len pre) by lia. rewrite IH. reflexivity.
Qed.
Lemma array_loop flags oid fuel post : is_s32 flags -> 0 <= oid < 2 ^ 32 ->
  array_unpack fuel (array_wire flags oid [(1, 1)] [] ++ s32be (-4) ++ post) = Err OutOfFuel.
Proof.
  intros Hf Ho. unfold array_unpack, array_wire. change (len [(1,1)]) with 1.
  cbn [map concat fst snd]. rewrite !app_nil_r. rewrite <- !app_assoc.
  rewrite long_unpack_be by lia. cbn [bind]. rewrite skipn_be, s32be_unpack by auto. cbn [bind].
  change 8%nat with (4 + 4)%nat. rewrite skipn_plus, skipn_be. unfold s32be at 1. rewrite skipn_be.
  unfold ulong_unpack. rewrite unpack_u_be by exact Ho. cbn [bind].
  change (1 <? 0) with false. cbv iota. change (Z.to_nat 1) with 1%nat.
  set (pre := be 4 1 ++ s32be flags ++ be 4 oid).
  replace (be 4 1 ++ s32be flags ++ be 4 oid ++ s32be 1 ++ s32be 1 ++ s32be (-4) ++ post)
    with (pre ++ concat (map (fun d : Z * Z => s32be (fst d) ++ s32be (snd d)) [(1,1)]) ++ s32be (-4) ++ post)
    by (unfold pre; cbn [map concat fst snd]; rewrite app_nil_r, <- !app_assoc; reflexivity).
  assert (Lp : len pre = 12) by (unfold pre; rewrite !len_app, !len_be, len_s32be; reflexivity).
  assert (W : Forall (fun d : Z * Z => is_s32 (fst d) /\ is_s32 (snd d)) [(1,1)]).
  { repeat constructor; cbn; lia. }
  destruct (longs_at_dims [(1,1)] W pre (s32be (-4) ++ post)) as [I1 I2]. rewrite Lp in I1, I2.
  change (12 + 4) with 16 in I2. cbn [length] in I1, I2. rewrite I1, I2. cbn [bind].
  pose proof (elements_unpack_loop (pre ++ s32be 1 ++ s32be 1) post fuel) as R.
  rewrite !len_app, Lp, !len_s32be in R. cbn [map concat fst snd]. rewrite app_nil_r, <- !app_assoc in *.
  change (12 + (4 + 4)) with 20 in R. change (4 * 2 * 1 + 12) with 20. rewrite R. reflexivity.
Qed.

(** ** split_sized_data *)
Lemma usmall_pos a : usmall a -> match a with None => True | Some v => 0 <= len v < 2 ^ 32 - 1 end.
Proof. destruct a; cbn; auto. pose proof (len_nonneg l). lia. Qed.
Lemma split_sized_ok l : Forall usmall l -> forall fuel, (length l <= fuel)%nat ->
  split_sized fuel (concat (map sized_wire l)) = Ok l.
Proof.
  induction 1 as [|a l Ha Hl IH]; intros fuel Hf; cbn [map concat].
  - destruct fuel; reflexivity.
  - destruct fuel as [|fuel]; [cbn in Hf; lia|]. apply usmall_pos in Ha.
    set (rest := concat (map sized_wire l)) in *.
    destruct a as [v|]; cbn [sized_wire].
    + rewrite <- app_assoc. destruct (be 4 (len v) ++ v ++ rest) as [|b t] eqn:Et.
      { apply (f_equal (@length Z)) in Et. rewrite app_length, be_length in Et. cbn in Et. lia. }
      cbn [split_sized]. rewrite <- Et. unfold ulong_unpack. rewrite unpack_u_be by (cbn; lia). cbn [bind].
      destruct (Z.eqb_spec (len v) 4294967295); [lia|]. rewrite skipn_be, take_app_len.
      destruct (Z.ltb_spec (len v) (len v)); [lia|].
      replace (len v + 4) with (len (be 4 (len v) ++ v)) by (rewrite len_app, len_be; lia).
      rewrite app_assoc, slice_app_len. rewrite IH by (cbn in Hf; lia). reflexivity.
    + cbn [split_sized app]. change (ulong_unpack (255 :: 255 :: 255 :: 255 :: rest)) with (Ok 4294967295 : res Z).
      cbn [bind]. rewrite Z.eqb_refl. cbn [skipn]. rewrite IH by (cbn in Hf; lia). reflexivity.
Qed.
Lemma wire_items_len l : (length l <= length (concat (map sized_wire l)))%nat.
Proof. induction l as [|a l IH]; cbn [map concat length]; [lia|]. rewrite app_length. pose proof (sized_wire_len a). unfold len in *. lia. Qed.
Lemma split_sized_data_ok l : Forall usmall l -> split_sized_data (concat (map sized_wire l)) = Ok l.
Proof. intros H. apply split_sized_ok; auto. pose proof (wire_items_len l). lia. Qed.
Lemma split_sized_inv fuel : forall d l, is_bytes d -> split_sized fuel d = Ok l ->
  Forall usmall l /\ d = concat (map sized_wire l).
Proof.
  induction fuel as [|fuel IH]; intros d l Hb H; destruct d as [|b t]; cbn [split_sized] in H; try discriminate;
    try (okinv H; split; [constructor|reflexivity]).
  set (d := b :: t) in *. clearbody d. binv H. unfold ulong_unpack in E. apply unpack_u_inv in E as [E Hr]; auto.
  change (256 ^ Z.of_nat 4) with (2 ^ 32) in Hr.
  destruct (Z.eqb_spec a 4294967295) as [->|N].
  - binv H. okinv H. apply IH in E0 as [I1 I2]; [|apply is_bytes_skipn; auto]. split; [constructor; cbn; auto|].
    cbn [map concat sized_wire]. rewrite E, I2. reflexivity.
  - rewrite take_firstn, slice_from_skipn in H. destruct (Z.ltb_spec (len (firstn (Z.to_nat a) (skipn 4 d))) a) as [L|L]; [discriminate|].
    binv H. okinv H. apply IH in E0 as [I1 I2]; [|apply is_bytes_skipn; auto].
    assert (La : len (firstn (Z.to_nat a) (skipn 4 d)) = a).
    { apply Z.le_antisymm; [|lia]. unfold len. rewrite firstn_length. lia. }
    split; [constructor; [unfold usmall; rewrite La; lia|auto]|]. cbn [map concat sized_wire]. rewrite La, E, <- app_assoc. f_equal.
    rewrite <- E. replace (Z.to_nat (a + 4)) with (4 + Z.to_nat a)%nat in I2 by lia. rewrite skipn_plus in I2. rewrite <- I2.
    symmetry. apply firstn_skipn.
Qed.
Lemma split_sized_terminates fuel : forall d, is_bytes d -> (length d < fuel)%nat -> split_sized fuel d <> Err OutOfFuel.
Proof.
  induction fuel as [|fuel IH]; intros d Hb Hf H; [lia|]. destruct d as [|b t]; cbn [split_sized] in H; [discriminate|].
  set (d := b :: t) in *. assert (Ld : (0 < length d)%nat) by (cbn; lia). clearbody d.
  destruct (ulong_unpack d) as [x|e] eqn:E; cbn [bind] in H.
  2:{ unfold ulong_unpack, unpack_u in E. destruct (_ <? _)%nat in E; congruence. }
  assert (Hx : 0 <= x) by (apply unpack_u_inv in E as [_ E]; [lia|auto]).
  destruct (x =? 4294967295).
  - destruct (split_sized fuel (skipn 4 d)) eqn:E2; cbn [bind] in H; [discriminate|].
    eapply (IH (skipn 4 d)); [apply is_bytes_skipn; auto|rewrite skipn_length; lia|congruence].
  - rewrite slice_from_skipn in H. destruct (_ <? _); [discriminate|].
    destruct (split_sized fuel (skipn (Z.to_nat (x + 4)) d)) eqn:E2; cbn [bind] in H; [discriminate|].
    eapply IH; [| |rewrite E2; congruence]; [apply is_bytes_skipn; auto|]. rewrite skipn_length. lia.
Qed.
Lemma split_sized_data_iff d l : is_bytes d ->
  (split_sized_data d = Ok l <-> Forall usmall l /\ d = concat (map sized_wire l)).
Proof.
  intros Hb. split; [apply split_sized_inv; auto|]. intros [H1 ->]. apply split_sized_data_ok; auto.
Qed.

(** ** hstore *)
Definition kv_items (kv : bytes * option bytes) : list (option bytes) := [Some (fst kv); snd kv].
Lemma hstore_wire_items n l : hstore_wire n l = be 4 n ++ concat (map sized_wire (flat_map kv_items l)).
Proof.
  unfold hstore_wire. f_equal. induction l as [|[k v] l IH]; [reflexivity|].
  cbn [map concat flat_map kv_items app fst snd]. rewrite IH, <- !app_assoc. reflexivity.
Qed.
Lemma hstore_pairs_items l : hstore_pairs (flat_map kv_items l) = Ok l.
Proof. induction l as [|[k v] l IH]; cbn [flat_map kv_items app fst snd hstore_pairs]; [reflexivity|]. rewrite IH. reflexivity. Qed.
Lemma hstore_pairs_inv items l : hstore_pairs items = Ok l -> items = flat_map kv_items l.
Proof.
  revert l. assert (G : forall n items, (length items <= n)%nat -> forall l, hstore_pairs items = Ok l -> items = flat_map kv_items l).
  { induction n as [|n IH]; intros [|[k|] [|v r]] Hn l H; cbn in Hn; try lia; cbn [hstore_pairs] in H; try discriminate;
      try (okinv H; reflexivity).
    binv H. okinv H. cbn [flat_map kv_items app fst snd]. f_equal. f_equal. apply IH; [lia|auto]. }
  intros l. apply (G (length items)); lia.
Qed.
Lemma pack_u_big n x : 256 ^ Z.of_nat n <= x -> pack_u n x = Err StructError.
Proof. intros H. unfold pack_u. destruct (_ && _) eqn:E; [lia|reflexivity]. Qed.
Definition usmall0 (a : option bytes) : Prop := match a with None => True | Some v => len v < 2 ^ 32 end.
Lemma hstore_item_ok kv : len (fst kv) < 2 ^ 32 -> usmall0 (snd kv) ->
  hstore_item_pack kv = Ok (sized_wire (Some (fst kv)) ++ sized_wire (snd kv)).
Proof.
  intros H1 H2. unfold hstore_item_pack, ulong_pack. pose proof (len_nonneg (fst kv)).
  rewrite pack_u_ok by (change (256 ^ Z.of_nat 4) with (2 ^ 32); lia). cbn [bind].
  destruct (snd kv) as [v|]; cbn [sized_wire].
  - pose proof (len_nonneg v). cbn in H2. rewrite pack_u_ok by (change (256 ^ Z.of_nat 4) with (2 ^ 32); lia). cbn [bind]. rewrite <- !app_assoc. reflexivity.
  - rewrite <- app_assoc. reflexivity.
Qed.
Lemma hstore_pack_ok l : len l < 2 ^ 32 -> Forall (fun kv => len (fst kv) < 2 ^ 32 /\ usmall0 (snd kv)) l ->
  hstore_pack l = Ok (hstore_wire (len l) l).
Proof.
  intros H1 H2. unfold hstore_pack, ulong_pack. pose proof (len_nonneg l).
  rewrite pack_u_ok by (change (256 ^ Z.of_nat 4) with (2 ^ 32); lia). cbn [bind].
  rewrite (mapM_ok hstore_item_pack (fun kv => sized_wire (Some (fst kv)) ++ sized_wire (snd kv))); [reflexivity|].
  eapply Forall_impl; [|exact H2]. intros kv [G1 G2]. apply hstore_item_ok; auto.
Qed.
Lemma hstore_unpack_wire n l : 0 <= n < 2 ^ 32 -> Forall (fun kv => usmall (Some (fst kv)) /\ usmall (snd kv)) l ->
  hstore_unpack (hstore_wire n l) = if len (dict_of l) =? n then Ok (dict_of l) else Err ValueError.
Proof.
  intros Hn Hl. unfold hstore_unpack. rewrite hstore_wire_items.
  unfold ulong_unpack. rewrite unpack_u_be by exact Hn. cbn [bind]. rewrite skipn_be.
  rewrite split_sized_data_ok.
  2:{ clear - Hl. induction Hl as [|kv l [H1 H2] H3 IH]; cbn [flat_map kv_items app]; repeat constructor; auto. }
  cbn [bind]. rewrite hstore_pairs_items. cbn [bind]. destruct (_ =? n); reflexivity.
Qed.
Lemma hstore_unpack_inv d r : is_bytes d -> hstore_unpack d = Ok r ->
  exists l, d = hstore_wire (len (dict_of l)) l /\ r = dict_of l /\ len (dict_of l) < 2 ^ 32 /\
            Forall (fun kv => usmall (Some (fst kv)) /\ usmall (snd kv)) l.
Proof.
  intros Hb H. unfold hstore_unpack in H. binv H. binv H. binv H. destruct (negb _) eqn:G; [discriminate|].
  apply negb_false_iff, Z.eqb_eq in G. okinv H. apply unpack_u_inv in E as [E R]; auto.
  apply split_sized_data_iff in E0 as [I1 I2]; [|apply is_bytes_skipn; auto].
  apply hstore_pairs_inv in E1. subst a0. exists a1. rewrite hstore_wire_items. split; [|split; [auto|split]].
  - rewrite <- I2. exact E.
  - change (256 ^ Z.of_nat 4) with (2 ^ 32) in R. lia.
  - clear - I1. induction a1 as [|kv l IH]; constructor; cbn [flat_map kv_items app] in I1; inv I1; inv H2; auto.
Qed.
Lemma hstore_terminates d : is_bytes d -> hstore_unpack d <> Err OutOfFuel.
Proof.
  intros Hb H. unfold hstore_unpack in H. unfold ulong_unpack, unpack_u in H. destruct (_ <? _)%nat; [discriminate|]. cbn [bind] in H.
  destruct (split_sized_data (skipn 4 d)) eqn:E; cbn [bind] in H.
  - destruct (hstore_pairs a) eqn:E2; cbn [bind] in H; [destruct (negb _); discriminate|].
    assert (e = OutOfFuel) by congruence. subst e. revert E2. clear.
    assert (G : forall n (items : list (option bytes)), (length items <= n)%nat -> hstore_pairs items <> Err OutOfFuel).
    { induction n as [|n IH]; intros [|[k|] [|v r]] Hn H; cbn in Hn; try lia; cbn [hstore_pairs] in H; try discriminate.
      destruct (hstore_pairs r) eqn:E; cbn [bind] in H; [discriminate|]. eapply (IH r); [lia|congruence]. }
    apply (G (length a)); lia.
  - assert (e = OutOfFuel) by congruence. subst e. eapply split_sized_terminates; [| |exact E]; [apply is_bytes_skipn; auto|lia].
Qed.
