From Verif Require Import Base BaseProof PBufferModel PBufferSpec.
Require Import Coq.Logic.Decidable.

(** ** slices *)
Lemma slice_from_skipn {A} i (l : list A) : slice_from i l = skipn (Z.to_nat i) l.
Proof.
  unfold slice_from. destruct (Z.leb_spec i (len l)).
  - rewrite Z.min_l; auto.
  - rewrite Z.min_r by lia. unfold len in *. rewrite Nat2Z.id, skipn_all.
    rewrite skipn_all2; [reflexivity|lia].
Qed.
Lemma take_firstn {A} i (l : list A) : take i l = firstn (Z.to_nat i) l.
Proof.
  unfold take. destruct (Z.leb_spec i (len l)).
  - rewrite Z.min_l; auto.
  - rewrite Z.min_r by lia. unfold len in *. rewrite Nat2Z.id, firstn_all.
    rewrite firstn_all2; [reflexivity|lia].
Qed.
Lemma skipn_plus {A} (l : list A) a b : skipn (a + b) l = skipn b (skipn a l).
Proof. revert a; induction l as [|x l IH]; intros [|a]; cbn [skipn plus]; auto.
  destruct b; reflexivity. Qed.
Lemma len_firstn {A} n (l : list A) : len (firstn n l) = Z.min (Z.of_nat n) (len l).
Proof. unfold len. rewrite firstn_length. lia. Qed.
Lemma len_skipn {A} n (l : list A) : len (skipn n l) = Z.max 0 (len l - Z.of_nat n).
Proof. unfold len. rewrite skipn_length. lia. Qed.

Lemma bio_read_spec n b d b' : 0 <= bpos b -> bio_read n b = (d, b') ->
  d = firstn (Z.to_nat n) (skipn (Z.to_nat (bpos b)) (bcont b)) /\
  bcont b' = bcont b /\ bpos b' = bpos b + len d.
Proof.
  intros Hp H. unfold bio_read in H. inv H. cbn.
  rewrite take_firstn, slice_from_skipn. auto.
Qed.

(** ** parsing one message *)
Inductive parsed := PBad | PWait | PMsg (m : msg) (rest : list Z).
Definition parse1 (q : list Z) : parsed :=
  match q with
  | t :: a :: b :: c :: d :: r =>
      let L := unbe [a; b; c; d] in
      if L <? 4 then PBad
      else if len r <? L - 4 then PWait
      else PMsg (t, firstn (Z.to_nat (L - 4)) r) (skipn (Z.to_nat (L - 4)) r)
  | _ => PWait
  end.

Lemma parse1_frame m r : wf_msg m -> parse1 (frame m ++ r) = PMsg m r.
Proof.
  destruct m as [t body]. intros (Ht & Hb & Hl). cbn [fst snd] in *.
  unfold frame. cbn [fst snd].
  pose proof (len_nonneg body) as Hn.
  assert (Hx : 0 <= len body + 4 < 256 ^ Z.of_nat 4) by (cbn; lia).
  pose proof (unbe_be 4 _ Hx) as E. pose proof (be_length 4 (len body + 4)) as El.
  destruct (be 4 (len body + 4)) as [|a [|b [|c [|d [|]]]]]; try discriminate El.
  cbn [app parse1]. rewrite E.
  destruct (Z.ltb_spec (len body + 4) 4); [lia|].
  rewrite len_app. destruct (Z.ltb_spec (len body + len r) (len body + 4 - 4)).
  { pose proof (len_nonneg r). lia. }
  replace (len body + 4 - 4) with (len body) by lia.
  unfold len. rewrite Nat2Z.id, firstn_app_exact, skipn_app_exact; auto.
Qed.

Lemma parse1_PMsg_inv q m r : is_bytes q -> parse1 q = PMsg m r -> wf_msg m /\ q = frame m ++ r.
Proof.
  intros Hq H. destruct q as [|t [|a [|b [|c [|d q]]]]]; cbn [parse1] in H; try discriminate.
  destruct (Z.ltb_spec (unbe [a;b;c;d]) 4) as [|H4]; [discriminate|].
  destruct (Z.ltb_spec (len q) (unbe [a;b;c;d] - 4)) as [|HL]; [discriminate|].
  injection H as <- <-.
  assert (Hh : is_bytes [a;b;c;d]).
  { inv Hq. inv H2. inv H5. inv H6. inv H7. repeat (constructor; auto). }
  pose proof (unbe_range _ Hh) as Hr. cbn [length] in Hr.
  assert (Hbl : len (firstn (Z.to_nat (unbe [a; b; c; d] - 4)) q) = unbe [a;b;c;d] - 4).
  { rewrite len_firstn. lia. }
  split.
  - unfold wf_msg. cbn [fst snd]. inv Hq. split; [auto|]. split.
    + apply is_bytes_firstn. inv H2. inv H5. inv H6. inv H7. auto.
    + rewrite Hbl. change (256 ^ Z.of_nat 4) with (2 ^ 32) in Hr. lia.
  - unfold frame. cbn [fst snd]. rewrite Hbl.
    replace (unbe [a;b;c;d] - 4 + 4) with (unbe [a;b;c;d]) by lia.
    pose proof (be_unbe _ Hh) as Eb. cbn [length] in Eb. rewrite Eb.
    cbn [app]. rewrite firstn_skipn. reflexivity.
Qed.

Lemma parse1_bad q : is_bytes q -> (parse1 q = PBad <-> bad q).
Proof.
  intros Hq. split.
  - intros H. destruct q as [|t [|a [|b [|c [|d q]]]]]; cbn [parse1] in H; try discriminate.
    destruct (Z.ltb_spec (unbe [a;b;c;d]) 4) as [H4|H4];
      [|destruct (_ <? _) in H; discriminate].
    assert (Hh : is_bytes [a;b;c;d]).
    { inv Hq. inv H3. inv H6. inv H7. inv H8. repeat (constructor; auto). }
    exists t, (unbe [a;b;c;d]), q. split.
    + pose proof (be_unbe _ Hh) as Eb. cbn [length] in Eb. rewrite Eb. reflexivity.
    + pose proof (unbe_range _ Hh). lia.
  - intros (t & n & r & -> & Hn).
    assert (Hx : 0 <= n < 256 ^ Z.of_nat 4) by (cbn; lia).
    pose proof (unbe_be 4 _ Hx) as E. pose proof (be_length 4 n) as El.
    destruct (be 4 n) as [|a [|b [|c [|d [|]]]]]; try discriminate El.
    cbn [app parse1]. rewrite E. destruct (Z.ltb_spec n 4); [reflexivity|lia].
Qed.

Lemma parse1_complete q : is_bytes q -> ((exists m r, parse1 q = PMsg m r) <-> complete q).
Proof.
  intros Hq. split.
  - intros (m & r & H). apply parse1_PMsg_inv in H; auto. exists m, r. auto.
  - intros (m & r & Hm & ->). exists m, r. apply parse1_frame; auto.
Qed.

Lemma parse1_waiting q : is_bytes q -> (parse1 q = PWait <-> waiting q).
Proof.
  intros Hq. unfold waiting. rewrite <- parse1_bad, <- parse1_complete by auto.
  destruct (parse1 q) as [| |m r]; split; try congruence; try (intros [H1 H2]); try congruence.
  - intros _. split; [intros (m & r & H); discriminate|discriminate].
  - exfalso. apply H1. eauto.
Qed.

(** ** get_message *)
Lemma get_message_spec b r b' q : 0 <= bpos b -> q = skipn (Z.to_nat (bpos b)) (bcont b) ->
  is_bytes q ->
  get_message b = (r, b') -> bcont b' = bcont b /\
  match parse1 q with
  | PBad => r = Err ValueError
  | PWait => r = Ok None
  | PMsg m rest => r = Ok (Some m) /\ bpos b' = bpos b + (5 + len (snd m)) /\
                   skipn (Z.to_nat (bpos b')) (bcont b') = rest
  end.
Proof.
  intros Hp Hq Hqb H. unfold get_message in H.
  destruct (bio_read 5 b) as [h b1] eqn:E1.
  apply bio_read_spec in E1 as (Eh & Ec1 & Ep1); auto.
  rewrite <- Hq in Eh.
  destruct (Z.ltb_spec (len h) 5) as [Hs|Hs].
  { injection H as <- <-. split; auto. subst h. clear Hq.
    destruct q as [|t [|a [|x [|c [|d q]]]]]; try reflexivity.
    exfalso. change (Z.to_nat 5) with 5%nat in Hs. cbn [firstn len length] in Hs. cbn in Hs. lia. }
  change (Z.to_nat 5) with 5%nat in Eh.
  assert (exists t a x c d q', q = t :: a :: x :: c :: d :: q') as (t & a & x & c & d & q' & Eq).
  { destruct q as [|t [|a [|x [|c [|d q']]]]]; cbn [firstn] in Eh; subst h;
      cbn in Hs; try lia. eauto 10. }
  rewrite Eq in Eh. cbn [firstn] in Eh. subst h.
  unfold xl_unpack in H. cbn [skipn firstn hd] in H.
  rewrite Eq. cbn [parse1].
  destruct (Z.ltb_spec (unbe [a;x;c;d]) 4) as [H4|H4]; [injection H as <- <-; auto|].
  destruct (bio_read (unbe [a; x; c; d] - 4) b1) as [body b2] eqn:E2.
  change (len [t; a; x; c; d]) with 5 in Ep1.
  apply bio_read_spec in E2 as (Eb & Ec2 & Ep2); [|lia].
  rewrite Ec1, Ep1 in Eb.
  replace (Z.to_nat (bpos b + 5)) with (Z.to_nat (bpos b) + 5)%nat in Eb by lia.
  rewrite skipn_plus, <- Hq, Eq in Eb. cbn [skipn] in Eb.
  assert (Hlb : len body = Z.min (unbe [a;x;c;d] - 4) (len q')).
  { rewrite Eb, len_firstn. lia. }
  destruct (Z.ltb_spec (len body) (unbe [a;x;c;d] - 4)) as [Hlt|Hge].
  - injection H as <- <-. split; [congruence|]. destruct (Z.ltb_spec (len q') (unbe [a;x;c;d] - 4)); [reflexivity|lia].
  - injection H as <- <-. split; [congruence|]. destruct (Z.ltb_spec (len q') (unbe [a;x;c;d] - 4)); [lia|].
    split; [rewrite Eb; reflexivity|]. cbn [snd]. rewrite <- Eb. split; [lia|].
    rewrite Ec2, Ec1, Ep2, Ep1, Hlb.
    replace (Z.to_nat (bpos b + 5 + Z.min (unbe [a; x; c; d] - 4) (len q')))
      with (Z.to_nat (bpos b) + (5 + Z.to_nat (unbe [a; x; c; d] - 4)))%nat by lia.
    rewrite skipn_plus, <- Hq, Eq. reflexivity.
Qed.

(** ** compaction *)
Definition inv_io (b : bytesio) (k : Z) : Prop := 0 <= k <= len (bcont b) /\ is_bytes (bcont b).

Lemma bio_write_inside (d : list Z) b : 0 <= bpos b <= len (bcont b) ->
  bcont (bio_write d b) = firstn (Z.to_nat (bpos b)) (bcont b) ++ d ++
                          skipn (Z.to_nat (bpos b + len d)) (bcont b).
Proof.
  intros H. unfold bio_write. cbn [bcont]. rewrite take_firstn, slice_from_skipn.
  replace (Z.to_nat (bpos b - len (bcont b))) with 0%nat by lia. reflexivity.
Qed.

Lemma firstn_plus {A} (l : list A) a b : firstn (a + b) l = firstn a l ++ firstn b (skipn a l).
Proof. revert a; induction l as [|x l IH]; intros [|a]; cbn [firstn skipn plus app]; auto.
  - destruct b; reflexivity.
  - f_equal. apply IH. Qed.
Lemma firstn_len_self {A} (l : list A) k : firstn (length (firstn k l)) l = firstn k l.
Proof. revert k; induction l as [|x l IH]; intros [|k]; cbn; auto. f_equal. auto. Qed.

(** the copy loop: the first [copyto] bytes are already the bytes that were at
    [amt..amt+copyto); what is at [copyfrom = amt + copyto] and beyond is intact *)
Lemma copy_loop_spec fuel orig amt b copyto :
  0 < amt <= len orig -> 0 <= copyto ->
  copyto + amt <= len orig ->
  len (bcont b) = len orig ->
  firstn (Z.to_nat copyto) (bcont b) = firstn (Z.to_nat copyto) (skipn (Z.to_nat amt) orig) ->
  skipn (Z.to_nat (copyto + amt)) (bcont b) = skipn (Z.to_nat (copyto + amt)) orig ->
  (Z.to_nat (len orig - amt - copyto) < fuel)%nat ->
  exists b', copy_loop fuel b copyto (copyto + amt) = Ok b' /\
    firstn (Z.to_nat (len orig - amt)) (bcont b') = skipn (Z.to_nat amt) orig.
Proof.
  revert b copyto. induction fuel as [|fuel IH]; intros b copyto Ha Hc Hle Hlen Hpre Hsuf Hf; [lia|].
  cbn [copy_loop].
  destruct (bio_read block (bio_seek (copyto + amt) b)) as [data b1] eqn:E1.
  apply bio_read_spec in E1 as (Ed & Ec1 & Ep1); [|cbn; lia].
  cbn [bio_seek bpos bcont] in Ed, Ec1, Ep1. rewrite Hsuf in Ed.
  set (b2 := bio_write data (bio_seek copyto b1)).
  assert (Hld : len data = Z.min 512 (len orig - (copyto + amt))).
  { rewrite Ed, len_firstn, len_skipn. unfold block. lia. }
  assert (Ec2 : bcont b2 = firstn (Z.to_nat copyto) (bcont b) ++ data ++
                 skipn (Z.to_nat (copyto + len data)) (bcont b)).
  { unfold b2. rewrite bio_write_inside; cbn [bio_seek bpos bcont]; rewrite Ec1; [reflexivity|lia]. }
  assert (Hln : Z.to_nat (copyto + len data) = (Z.to_nat copyto + length data)%nat).
  { unfold len. lia. }
  assert (Hsplit : firstn (Z.to_nat (copyto + len data)) (skipn (Z.to_nat amt) orig) =
                   firstn (Z.to_nat copyto) (skipn (Z.to_nat amt) orig) ++ data).
  { rewrite Hln, firstn_plus. f_equal. rewrite <- skipn_plus.
    replace (Z.to_nat amt + Z.to_nat copyto)%nat with (Z.to_nat (copyto + amt)) by lia.
    rewrite Ed. apply firstn_len_self. }
  assert (Hpre2 : firstn (Z.to_nat (copyto + len data)) (bcont b2) =
                  firstn (Z.to_nat (copyto + len data)) (skipn (Z.to_nat amt) orig)).
  { rewrite Hsplit, Ec2, app_assoc, <- Hpre, Hln. apply firstn_app_exact.
    rewrite app_length, firstn_length. unfold len in *. lia. }
  assert (Ep2 : bpos b2 = copyto + len data) by reflexivity.
  assert (Hl2 : len (bcont b2) = len orig).
  { rewrite Ec2, !len_app, len_firstn, len_skipn. lia. }
  destruct (Z.eqb_spec (len data) block) as [Eb|Nb]; cbn [negb].
  - rewrite Ep2, Ep1.
    replace (copyto + amt + len data) with (copyto + len data + amt) by lia.
    apply IH; auto; unfold block in Eb; try lia.
    rewrite Ec2, app_assoc.
    replace (Z.to_nat (copyto + len data + amt)) with
      (length (firstn (Z.to_nat copyto) (bcont b) ++ data) + Z.to_nat amt)%nat.
    + rewrite skipn_plus, skipn_app_exact by reflexivity.
      rewrite <- skipn_plus.
      replace (Z.to_nat (copyto + len data) + Z.to_nat amt)%nat with
        (Z.to_nat (copyto + amt) + length data)%nat by (unfold len in *; lia).
      rewrite skipn_plus, Hsuf, <- skipn_plus. f_equal.
      rewrite app_length, firstn_length. unfold len in *. lia.
    + rewrite app_length, firstn_length. unfold len in *. lia.
  - exists b2. split; [reflexivity|]. unfold block in Nb.
    assert (E : copyto + len data = len orig - amt) by lia.
    rewrite <- E, Hpre2. apply firstn_all2. rewrite skipn_length. unfold len in *. lia.
Qed.

Lemma rtruncate_spec b amt : 0 < amt <= len (bcont b) -> exists b',
  rtruncate amt b = Ok b' /\ bcont b' = skipn (Z.to_nat amt) (bcont b).
Proof.
  intros Ha. unfold rtruncate. cbn [bio_seek_end bpos bcont].
  destruct (Z.eqb_spec (len (bcont b)) amt) as [E|N].
  - eexists; split; [reflexivity|]. cbn. rewrite take_firstn. cbn.
    symmetry. apply skipn_all2. unfold len in *. lia.
  - destruct (copy_loop_spec (S (length (bcont b))) (bcont b) amt (bio_seek_end b) 0)
      as (b' & E & Hb'); try lia; try reflexivity.
    { unfold len in *. lia. }
    change (0 + amt) with amt in E. rewrite E. cbn [bind].
    eexists; split; [reflexivity|]. cbn [bio_truncate bcont]. rewrite take_firstn. exact Hb'.
Qed.

(** ** the simulation relation *)
Definition Inv (p : pbuf) (q : list Z) : Prop :=
  0 <= start p <= len (bcont (strio p)) /\ is_bytes (bcont (strio p)) /\
  q = skipn (Z.to_nat (start p)) (bcont (strio p)).

Lemma Inv_init : Inv pb_init [].
Proof. unfold Inv, pb_init; cbn. repeat split; try lia. constructor. Qed.

Lemma Inv_bytes p q : Inv p q -> is_bytes q.
Proof. intros (H & Hb & ->). apply is_bytes_skipn; auto. Qed.

Lemma Inv_move p q b : Inv p q -> bcont b = bcont (strio p) ->
  Inv {| strio := b; start := start p |} q.
Proof. intros (H & Hb & ->) E. unfold Inv; cbn. rewrite E. auto. Qed.

Lemma compact_spec p q : Inv p q -> exists p', compact p = Ok p' /\ Inv p' q.
Proof.
  intros (H & Hb & Hq). unfold compact.
  destruct (start p >? limit) eqn:E.
  - destruct (rtruncate_spec (strio p) (start p)) as (b' & E1 & E2).
    { unfold limit, block in E. lia. }
    rewrite E1. cbn [bind]. eexists; split; [reflexivity|].
    unfold Inv; cbn [start strio]. rewrite E2. split; [|split].
    + pose proof (len_nonneg (skipn (Z.to_nat (start p)) (bcont (strio p)))). lia.
    + apply is_bytes_skipn; auto.
    + exact Hq.
  - exists p. split; auto. split; auto.
Qed.

(** message by message decoding, used to relate the loops to [reads] *)
Fixpoint parse_all (fuel : nat) (q : list Z) (num : Z) : res (list msg * list Z) :=
  match fuel with
  | O => Err OutOfFuel
  | S fuel =>
      if 0 <? num then
        match parse1 q with
        | PBad => Err ValueError
        | PWait => Ok ([], q)
        | PMsg m r => do x <- parse_all fuel r (num - 1); Ok (m :: fst x, snd x)
        end
      else Ok ([], q)
  end.

Lemma frame_len m : len (frame m) = 5 + len (snd m).
Proof. unfold frame. rewrite len_cons, len_app, len_be. lia. Qed.

Lemma parse_all_reads fuel q num : is_bytes q -> (length q < fuel)%nat ->
  match parse_all fuel q num with
  | Ok (ms, q') => reads q num (Ok ms) q'
  | Err e => reads q num (Err e) q
  end.
Proof.
  revert q num; induction fuel as [|fuel IH]; intros q num Hq Hf; [lia|].
  cbn [parse_all].
  destruct (Z.ltb_spec 0 num) as [Hn|Hn].
  2:{ unfold reads. split; [constructor|]. split; [reflexivity|].
      unfold len; cbn. lia. }
  destruct (parse1 q) as [| |m r] eqn:E.
  - apply parse1_bad in E; auto. unfold reads. split; auto. split; auto.
    exists [], q. split; [constructor|]. unfold len; cbn. auto.
  - apply parse1_waiting in E; auto. unfold reads. split; [constructor|].
    split; [reflexivity|]. split; [unfold len; cbn; lia|auto].
  - apply parse1_PMsg_inv in E as [Hm ->]; auto.
    pose proof Hq as Hq'. apply is_bytes_app in Hq as [_ Hr].
    pose proof (frame_len m) as Hl. pose proof (len_nonneg (snd m)).
    specialize (IH r (num - 1) Hr). rewrite app_length in Hf.
    assert (Hfr : (length r < fuel)%nat) by (unfold len in *; lia).
    specialize (IH Hfr).
    destruct (parse_all fuel r (num - 1)) as [[ms q']|e]; cbn [bind fst snd].
    + destruct IH as (I1 & I2 & I3 & I4). unfold reads. split; [constructor; auto|].
      split; [|split].
      * unfold frames in *. cbn [map concat]. rewrite <- app_assoc. f_equal. exact I2.
      * rewrite len_cons. lia.
      * rewrite len_cons. intros. apply I4. lia.
    + destruct IH as (I1 & I2 & ms & q0 & I3 & I4 & I5 & I6). unfold reads.
      split; auto. split; auto. exists (m :: ms), q0. split; [constructor; auto|].
      split; [|split; [auto|]].
      * unfold frames in *. cbn [map concat]. rewrite <- app_assoc. f_equal. exact I4.
      * rewrite len_cons. lia.
Qed.

Lemma read_loop_spec fuel b num l ns q : 0 <= bpos b <= len (bcont b) ->
  is_bytes (bcont b) -> q = skipn (Z.to_nat (bpos b)) (bcont b) ->
  forall r b', read_loop fuel b num l ns = (r, b') ->
  bcont b' = bcont b /\
  match parse_all fuel q (num - len l) with
  | Err e => r = Err e
  | Ok (ms, q') => exists k, r = Ok (l ++ ms, ns + k) /\ 0 <= k /\ bpos b + k <= len (bcont b) /\
                   q' = skipn (Z.to_nat (bpos b + k)) (bcont b)
  end.
Proof.
  revert b l ns q; induction fuel as [|fuel IH]; intros b l ns q Hp Hb Hq r b' H.
  { cbn in *. injection H as <- <-. auto. }
  cbn [read_loop parse_all] in *.
  destruct (Z.ltb_spec (len l) num) as [Hn|Hn].
  2:{ injection H as <- <-. split; auto. destruct (Z.ltb_spec 0 (num - len l)); [lia|].
      exists 0. rewrite app_nil_r, !Z.add_0_r. repeat split; auto; lia. }
  destruct (Z.ltb_spec 0 (num - len l)); [|lia].
  destruct (get_message b) as [g b1] eqn:E.
  assert (Hqb : is_bytes q) by (subst q; apply is_bytes_skipn; auto).
  pose proof (get_message_spec _ _ _ q (proj1 Hp) Hq Hqb E) as [Ec Hg].
  destruct (parse1 q) as [| |m rest] eqn:Ep.
  - subst g. injection H as <- <-. auto.
  - subst g. injection H as <- <-. split; auto. exists 0. rewrite app_nil_r, !Z.add_0_r. repeat split; auto; lia.
  - destruct Hg as (-> & Hpos & Hrest).
    pose proof Ep as Ep'. apply parse1_PMsg_inv in Ep' as [Hm Hqq]; auto.
    assert (Hlq : len q = len (frame m) + len rest) by (rewrite Hqq; apply len_app).
    rewrite frame_len in Hlq. rewrite Hq, len_skipn in Hlq.
    pose proof (len_nonneg rest). pose proof (len_nonneg (snd m)).
    apply (IH b1 (l ++ [m]) _ rest) in H as [Hx1 Hx2]; auto.
    + split; [congruence|]. rewrite len_app in Hx2.
      replace (num - (len l + len [m])) with (num - len l - 1) in Hx2 by (unfold len; cbn; lia).
      destruct (parse_all fuel rest (num - len l - 1)) as [[ms q']|e]; cbn [bind fst snd]; auto.
      destruct Hx2 as (k & -> & Hk1 & Hk2 & ->).
      exists (5 + len (snd m) + k). repeat split; try lia.
      * rewrite <- app_assoc. cbn [app]. f_equal. f_equal. lia.
      * rewrite Hpos, Ec in Hk2. lia.
      * rewrite Hpos, Ec. f_equal. lia.
    + rewrite Hpos, Ec. lia.
    + rewrite Ec. auto.
Qed.

Lemma pb_read_sim num p q r p' : Inv p q -> pb_read num p = (r, p') ->
  exists q', reads q num r q' /\ Inv p' q'.
Proof.
  intros HI H. unfold pb_read in H.
  destruct (compact_spec p q HI) as (p1 & E1 & HI1). rewrite E1 in H.
  pose proof (Inv_bytes _ _ HI1) as Hqb.
  destruct (read_loop _ _ num [] (start p1)) as [x b] eqn:E in H.
  destruct HI1 as (Hs & Hb & Hq).
  apply (read_loop_spec _ _ _ _ _ q) in E; cbn [bio_seek bpos bcont]; auto.
  cbn [bio_seek bpos bcont] in E. destruct E as [Ec E].
  replace (num - len []) with num in E by (unfold len; cbn; lia).
  pose proof (parse_all_reads (S (length (bcont (strio p1)))) q num Hqb) as HR.
  assert (Hl : (length q < S (length (bcont (strio p1))))%nat).
  { rewrite Hq, skipn_length. lia. }
  specialize (HR Hl).
  destruct (parse_all _ q num) as [[ms q']|e].
  - destruct E as (k & -> & Hk1 & Hk2 & Hk3). injection H as <- <-. exists q'. split; auto.
    unfold Inv; cbn [start strio]. rewrite Ec. repeat split; auto; lia.
  - subst x. injection H as <- <-. exists q.
    split; auto. unfold Inv; cbn [start strio]. rewrite Ec. repeat split; auto; lia.
Qed.

Lemma pb_next_message_sim p q r p' : Inv p q -> pb_next_message p = (r, p') ->
  exists q', spec_step q ONextMessage (RMsgOpt r) q' /\ Inv p' q'.
Proof.
  intros HI H. unfold pb_next_message in H.
  destruct (compact_spec p q HI) as (p1 & E1 & HI1). rewrite E1 in H.
  pose proof (Inv_bytes _ _ HI1) as Hqb.
  destruct (get_message _) as [g b] eqn:E in H.
  pose proof HI1 as (Hs & Hb & Hq).
  apply (get_message_spec _ _ _ q) in E; cbn [bio_seek bpos bcont]; auto; try lia.
  cbn [bio_seek bpos bcont] in E. destruct E as [Ec E].
  destruct (parse1 q) as [| |m rest] eqn:Ep.
  - subst g. injection H as <- <-. apply parse1_bad in Ep; auto. eexists. split; [cbn; eauto|].
    apply Inv_move; auto.
  - subst g. injection H as <- <-. apply parse1_waiting in Ep; auto. eexists. split; [cbn; eauto|].
    apply Inv_move; auto.
  - destruct E as (-> & Hpos & Hrest). injection H as <- <-. apply parse1_PMsg_inv in Ep as [Hm Hqq]; auto.
    exists (skipn (Z.to_nat (bpos b)) (bcont b)). split; [cbn; rewrite Hrest; auto|].
    assert (Hlq : len q = len (frame m) + len rest) by (rewrite Hqq; apply len_app).
    rewrite frame_len, Hq, len_skipn, <- Hrest in Hlq.
    pose proof (len_nonneg (skipn (Z.to_nat (bpos b)) (bcont b))). pose proof (len_nonneg (snd m)).
    unfold Inv; cbn [start strio]. rewrite !Ec in *. repeat split; auto; lia.
Qed.

Lemma pb_next_sim p q r p' : Inv p q -> pb_next p = (r, p') ->
  exists q', spec_step q ONext (RMsg r) q' /\ Inv p' q'.
Proof.
  intros HI H. unfold pb_next in H. destruct (pb_next_message p) as [x p1] eqn:E.
  destruct (pb_next_message_sim _ _ _ _ HI E) as (q' & Hs & HI'). exists q'.
  destruct x as [[m|]|e]; inv H; (split; [|auto]); cbn in *; auto.
  destruct Hs as (H1 & -> & H2). auto.
Qed.

Lemma pb_has_message_sim p q r p' : Inv p q -> pb_has_message p = (r, p') ->
  exists q', spec_step q OHasMessage (RBool r) q' /\ Inv p' q'.
Proof.
  intros HI H. pose proof (Inv_bytes _ _ HI) as Hqb. pose proof HI as (Hs & Hb & Hq).
  unfold pb_has_message in H. destruct (bio_read 5 _) as [h b] eqn:E in H.
  apply bio_read_spec in E as (Eh & Ec & Ep); [|cbn; lia].
  cbn [bio_seek bpos bcont] in Eh, Ec, Ep. rewrite <- Hq in Eh.
  exists q.
  change (Z.to_nat 5) with 5%nat in Eh.
  pose proof (parse1_waiting q Hqb) as PW. pose proof (parse1_bad q Hqb) as PB.
  pose proof (parse1_complete q Hqb) as PC.
  assert (Hlq : len q = len (bcont (strio p)) - start p) by (rewrite Hq, len_skipn; lia).
  destruct q as [|t [|a [|x [|c [|d q']]]]]; cbn [firstn] in Eh; subst h;
    try (cbn in H; injection H as <- <-; split; [cbn; split; [apply PW; reflexivity|reflexivity]|apply Inv_move; auto]).
  cbn [len length] in H.
  change (len [t; a; x; c; d] <? 5) with false in H. cbn iota in H.
  unfold xl_unpack in H. cbn [skipn firstn] in H. cbn [parse1] in PW, PB, PC.
  destruct (Z.ltb_spec (unbe [a; x; c; d]) 4) as [H4|H4].
  { injection H as <- <-. split; [cbn; split; [apply PB; reflexivity|auto]|apply Inv_move; auto]. }
  injection H as <- <-. cbn [bio_seek_end bpos bcont]. rewrite Ec.
  rewrite !len_cons in Hlq. pose proof (len_nonneg q').
  split; [|apply Inv_move; auto].
  destruct (Z.ltb_spec (len q') (unbe [a; x; c; d] - 4)) as [HL|HL].
  - replace (len (bcont (strio p)) - start p >=? unbe [a; x; c; d] + 1) with false by lia.
    cbn. split; auto. apply PW; reflexivity.
  - replace (len (bcont (strio p)) - start p >=? unbe [a; x; c; d] + 1) with true by lia.
    cbn. split; auto. apply PC. eauto.
Qed.

Lemma len_loop_spec fuel b count q : 0 <= bpos b <= len (bcont b) ->
  is_bytes (bcont b) -> q = skipn (Z.to_nat (bpos b)) (bcont b) -> (length q < fuel)%nat ->
  forall r b', len_loop fuel b count = (r, b') ->
  bcont b' = bcont b /\
  match r with
  | Ok n => exists ms rest, Forall wf_msg ms /\ q = frames ms ++ rest /\ waiting rest /\ n = count + len ms
  | Err e => e = ValueError /\ exists ms rest, Forall wf_msg ms /\ q = frames ms ++ rest /\ bad rest
  end.
Proof.
  revert b count q; induction fuel as [|fuel IH]; intros b count q Hp Hb Hq Hf r b' H; [lia|].
  cbn [len_loop] in H. destruct (bio_read 5 b) as [h b1] eqn:E.
  apply bio_read_spec in E as (Eh & Ec & Ep); [|lia]. rewrite <- Hq in Eh.
  assert (Hqb : is_bytes q) by (subst q; apply is_bytes_skipn; auto).
  pose proof (parse1_waiting q Hqb) as PW. pose proof (parse1_bad q Hqb) as PB.
  pose proof (fun m r => parse1_PMsg_inv q m r Hqb) as PC.
  assert (Hlq : len q = len (bcont b) - bpos b) by (rewrite Hq, len_skipn; lia).
  change (Z.to_nat 5) with 5%nat in Eh.
  destruct q as [|t [|a [|x [|c [|d q']]]]]; cbn [firstn] in Eh; subst h;
    try (cbn in H; injection H as <- <-; split; [auto|];
         exists [], (skipn (Z.to_nat (bpos b)) (bcont b)); rewrite <- Hq;
         split; [constructor|split;[reflexivity|split;[apply PW; reflexivity|unfold len; cbn; lia]]]).
  change (len [t; a; x; c; d] <? 5) with false in H. cbn iota in H.
  change (len [t; a; x; c; d]) with 5 in Ep.
  unfold xl_unpack in H. cbn [skipn firstn] in H. cbn [parse1] in PW, PB, PC.
  destruct (Z.ltb_spec (unbe [a; x; c; d]) 4) as [H4|H4].
  { injection H as <- <-. split; auto. split; auto. exists [], (t :: a :: x :: c :: d :: q').
    split; [constructor|]. split; [reflexivity|]. apply PB; reflexivity. }
  rewrite !len_cons in Hlq. pose proof (len_nonneg q').
  destruct (bio_read 1 _) as [one b2] eqn:E2 in H.
  apply bio_read_spec in E2 as (E1 & Ec2 & Ep2); [|cbn; lia].
  cbn [bio_seek_cur bpos bcont] in E1, Ec2, Ep2.
  replace (Z.max 0 (bpos b1 + (unbe [a; x; c; d] - 4 - 1))) with (bpos b + unbe [a;x;c;d]) in * by lia.
  assert (Hl1 : len one = Z.min 1 (Z.max 0 (len (bcont b) - (bpos b + unbe [a;x;c;d])))).
  { rewrite E1, len_firstn, len_skipn, Ec. lia. }
  destruct (Z.ltb_spec (len q') (unbe [a; x; c; d] - 4)) as [HL|HL].
  - replace (len one =? 1) with false in H by lia. cbn [negb] in H. injection H as <- <-.
    split; [congruence|]. exists [], (t :: a :: x :: c :: d :: q').
    split; [constructor|]. split; [reflexivity|]. split; [apply PW; reflexivity|].
    unfold len; cbn; lia.
  - replace (len one =? 1) with true in H by lia. cbn [negb] in H.
    destruct (PC _ _ eq_refl) as [Hm Hqq].
    set (L := unbe [a; x; c; d]) in *.
    apply (IH _ _ (skipn (Z.to_nat (L - 4)) q')) in H.
    + destruct H as [H1 H2]. split; [congruence|].
      destruct r as [n|e].
      * destruct H2 as (ms & rest & I1 & I2 & I3 & I4).
        exists ((t, firstn (Z.to_nat (L - 4)) q') :: ms), rest.
        split; [constructor; auto|]. split; [|split; [auto|rewrite len_cons; lia]].
        rewrite Hqq. unfold frames in *. cbn [map concat]. rewrite <- app_assoc. f_equal. exact I2.
      * destruct H2 as (He & ms & rest & I1 & I2 & I3). split; auto.
        exists ((t, firstn (Z.to_nat (L - 4)) q') :: ms), rest.
        split; [constructor; auto|]. split; [|auto].
        rewrite Hqq. unfold frames in *. cbn [map concat]. rewrite <- app_assoc. f_equal. exact I2.
    + rewrite Ec2, Ec. lia.
    + rewrite Ec2, Ec. auto.
    + rewrite Ec2, Ec, Ep2, Hl1.
      replace (Z.to_nat (bpos b + L + _)) with (Z.to_nat (bpos b) + (5 + Z.to_nat (L - 4)))%nat by lia.
      rewrite skipn_plus, <- Hq. reflexivity.
    + rewrite skipn_length. cbn [length] in Hf. lia.
Qed.

Lemma pb_len_sim p q r p' : Inv p q -> pb_len p = (r, p') ->
  exists q', spec_step q OLen (RLen r) q' /\ Inv p' q'.
Proof.
  intros HI H. pose proof HI as (Hs & Hb & Hq). unfold pb_len in H.
  destruct (len_loop _ _ 0) as [x b] eqn:E in H. inv H.
  apply (len_loop_spec _ _ _ (skipn (Z.to_nat (start p)) (bcont (strio p)))) in E; auto.
  - destruct E as [Ec E]. cbn [bio_seek bcont] in Ec.
    eexists. split; [|apply Inv_move; eauto]. cbn. destruct r as [n|e].
    + destruct E as (ms & rest & I1 & I2 & I3 & I4). eauto 10.
    + destruct E as (He & ms & rest & I1 & I2 & I3). eauto 10.
  - cbn [bio_seek bcont]. rewrite skipn_length. lia.
Qed.

Lemma bcont_append d b : bcont (bio_write d (bio_seek_end b)) = bcont b ++ d.
Proof.
  rewrite bio_write_inside; cbn [bio_seek_end bpos bcont]; [|pose proof (len_nonneg (bcont b)); lia].
  unfold len. rewrite Nat2Z.id, firstn_all. rewrite skipn_all2; [|lia].
  rewrite app_nil_r. reflexivity.
Qed.

Lemma pb_step_sim p q o r p' : wf_op o -> Inv p q -> pb_step p o = (r, p') ->
  exists q', spec_step q o r q' /\ Inv p' q'.
Proof.
  intros Hw HI H. destruct o as [d|n| | | | | |]; cbn [pb_step] in H.
  - inv H. exists (q ++ d). split; [reflexivity|]. destruct HI as (Hs & Hb & Hq).
    unfold pb_write, Inv; cbn [strio start].
    assert (E : bcont (bio_write d (bio_seek_end (strio p))) = bcont (strio p) ++ d).
    { rewrite bio_write_inside; cbn [bio_seek_end bpos bcont]; [|pose proof (len_nonneg (bcont (strio p))); lia].
      unfold len. rewrite Nat2Z.id, firstn_all. rewrite skipn_all2; [|lia].
      rewrite app_nil_r. reflexivity. }
    rewrite E, len_app. pose proof (len_nonneg d). repeat split; try lia.
    + apply is_bytes_app; auto.
    + rewrite Hq, skipn_app. f_equal.
      replace (Z.to_nat (start p) - length (bcont (strio p)))%nat with 0%nat by (unfold len in *; lia).
      reflexivity.
  - destruct (pb_read n p) as [x p1] eqn:E. inv H. eapply pb_read_sim; eauto.
  - destruct (pb_next_message p) as [x p1] eqn:E. inv H. eapply pb_next_message_sim; eauto.
  - destruct (pb_next p) as [x p1] eqn:E. inv H. eapply pb_next_sim; eauto.
  - destruct (pb_has_message p) as [x p1] eqn:E. inv H. eapply pb_has_message_sim; eauto.
  - destruct (pb_len p) as [x p1] eqn:E. inv H. eapply pb_len_sim; eauto.
  - inv H. exists q. destruct HI as (Hs & Hb & Hq). split.
    + cbn. split; auto. rewrite Hq. unfold bio_read_all. cbn. apply slice_from_skipn.
    + unfold Inv; cbn. auto.
  - inv H. exists []. split; [reflexivity|]. unfold pb_truncate, Inv; cbn.
    rewrite take_firstn. cbn. repeat split; try lia. constructor.
Qed.

Lemma pb_run_sim p q ops rs p' : Forall wf_op ops -> Inv p q -> pb_run p ops = (rs, p') ->
  exists q', spec_run q ops rs q' /\ Inv p' q'.
Proof.
  revert p q rs; induction ops as [|o ops IH]; intros p q rs Hw HI H; cbn [pb_run] in H.
  - inv H. exists q. split; [constructor|auto].
  - inv Hw. destruct (pb_step p o) as [r p1] eqn:E. destruct (pb_run p1 ops) as [rs1 p2] eqn:E2.
    inv H. destruct (pb_step_sim _ _ _ _ _ H2 HI E) as (q1 & S1 & I1).
    destruct (IH _ _ _ H3 I1 E2) as (q2 & S2 & I2).
    exists q2. split; auto. econstructor; eauto.
Qed.

(** ** the specification is deterministic *)
Lemma excl q : is_bytes q -> (complete q -> bad q -> False).
Proof.
  intros Hq H1 H2. apply parse1_bad in H2; auto. apply parse1_complete in H1 as (m & r & H); auto.
  congruence.
Qed.

Lemma frame_inj m1 m2 r1 r2 : wf_msg m1 -> wf_msg m2 -> frame m1 ++ r1 = frame m2 ++ r2 ->
  m1 = m2 /\ r1 = r2.
Proof.
  intros H1 H2 E. pose proof (parse1_frame m1 r1 H1) as E1. rewrite E, parse1_frame in E1 by auto.
  inv E1. auto.
Qed.

Lemma frames_cons m ms r : frames (m :: ms) ++ r = frame m ++ frames ms ++ r.
Proof. unfold frames. cbn [map concat]. rewrite <- app_assoc. reflexivity. Qed.

(** two decompositions of the same bytes agree as long as both have messages *)
Lemma frames_cmp ms1 ms2 r1 r2 : Forall wf_msg ms1 -> Forall wf_msg ms2 ->
  frames ms1 ++ r1 = frames ms2 ++ r2 ->
  (exists ms, ms2 = ms1 ++ ms /\ r1 = frames ms ++ r2) \/
  (exists ms, ms1 = ms2 ++ ms /\ r2 = frames ms ++ r1).
Proof.
  revert ms2; induction ms1 as [|m ms1 IH]; intros ms2 H1 H2 E.
  - left. exists ms2. auto.
  - destruct ms2 as [|m2 ms2].
    + right. exists (m :: ms1). auto.
    + apply Forall_cons_iff in H1 as [A1 B1]. apply Forall_cons_iff in H2 as [A2 B2].
      rewrite !frames_cons in E.
      apply frame_inj in E as [-> E]; auto.
      destruct (IH _ B1 B2 E) as [(ms & -> & ->)|(ms & -> & ->)]; [left|right]; exists ms; auto.
Qed.

Lemma frames_wf_complete m ms r : wf_msg m -> complete (frames (m :: ms) ++ r).
Proof. intros H. exists m, (frames ms ++ r). rewrite frames_cons. auto. Qed.

Lemma frames_suffix_bytes ms r : is_bytes (frames ms ++ r) -> is_bytes r.
Proof. intros H. apply is_bytes_app in H. tauto. Qed.

Lemma decode_unique ms1 ms2 r1 r2 : is_bytes (frames ms1 ++ r1) ->
  Forall wf_msg ms1 -> Forall wf_msg ms2 ->
  frames ms1 ++ r1 = frames ms2 ++ r2 -> ~ complete r1 -> ~ complete r2 -> ms1 = ms2 /\ r1 = r2.
Proof.
  intros Hb H1 H2 E N1 N2. destruct (frames_cmp _ _ _ _ H1 H2 E) as [(ms & -> & ->)|(ms & -> & ->)];
    destruct ms as [|m ms].
  - rewrite app_nil_r. auto.
  - exfalso. apply N1. apply frames_wf_complete. apply Forall_app in H2 as [_ H2]. inv H2; auto.
  - rewrite app_nil_r. auto.
  - exfalso. apply N2. apply frames_wf_complete. apply Forall_app in H1 as [_ H1]. inv H1; auto.
Qed.

Lemma bad_ncomplete q : is_bytes q -> bad q -> ~ complete q.
Proof. intros H1 H2 H3. eapply excl; eauto. Qed.

Lemma reads_det q n r1 q1 r2 q2 : is_bytes q -> reads q n r1 q1 -> reads q n r2 q2 -> r1 = r2 /\ q1 = q2.
Proof.
  intros Hb H1 H2.
  assert (Hok : forall ms1 ms2 q1 q2, reads q n (Ok ms1) q1 -> reads q n (Ok ms2) q2 -> ms1 = ms2 /\ q1 = q2).
  { clear. intros ms1 ms2 q1 q2 (A1 & B1 & C1 & D1) (A2 & B2 & C2 & D2).
    pose proof B2 as B2'. rewrite B1 in B2'.
    destruct (frames_cmp _ _ _ _ A1 A2 B2') as [(ms & -> & ->)|(ms & -> & ->)];
      destruct ms as [|m ms]; rewrite ?app_nil_r; auto; exfalso.
    - rewrite len_app, len_cons in C2. pose proof (len_nonneg ms). pose proof (len_nonneg ms1).
      destruct D1 as [D _]; [lia|]. apply D, frames_wf_complete. apply Forall_app in A2 as [_ A]. inv A; auto.
    - rewrite len_app, len_cons in C1. pose proof (len_nonneg ms). pose proof (len_nonneg ms2).
      destruct D2 as [D _]; [lia|]. apply D, frames_wf_complete. apply Forall_app in A1 as [_ A]. inv A; auto. }
  assert (Hmix : forall ms1 q1 e q2, reads q n (Ok ms1) q1 -> reads q n (Err e) q2 -> False).
  { clear - Hb. intros ms1 q1 e q2 (A1 & B1 & C1 & D1) (_ & _ & ms2 & q0 & A2 & B2 & Bd & L2).
    pose proof B2 as B2'. rewrite B1 in B2'.
    assert (Hb0 : is_bytes q0) by (apply (frames_suffix_bytes ms2); rewrite <- B2; auto).
    destruct (frames_cmp _ _ _ _ A1 A2 B2') as [(ms & -> & ->)|(ms & -> & ->)];
      destruct ms as [|m ms].
    - rewrite app_nil_r in *. destruct D1 as [_ D]; [lia|]. apply D. auto.
    - rewrite len_app, len_cons in L2. pose proof (len_nonneg ms).
      destruct D1 as [D _]; [lia|]. apply D, frames_wf_complete. apply Forall_app in A2 as [_ A]. inv A; auto.
    - rewrite app_nil_r in *. destruct D1 as [_ D]; [lia|]. apply D. auto.
    - apply (bad_ncomplete _ Hb0 Bd). apply frames_wf_complete. apply Forall_app in A1 as [_ A]. inv A; auto. }
  destruct r1 as [ms1|e1], r2 as [ms2|e2].
  - destruct (Hok _ _ _ _ H1 H2) as [-> ->]. auto.
  - exfalso; eauto.
  - exfalso; eauto.
  - destruct H1 as (-> & -> & _), H2 as (-> & -> & _). auto.
Qed.

Lemma spec_step_det q o r1 q1 r2 q2 : is_bytes q ->
  spec_step q o r1 q1 -> spec_step q o r2 q2 -> r1 = r2 /\ q1 = q2.
Proof.
  intros Hb H1 H2. destruct o as [d|n| | | | | |].
  - destruct r1; try contradiction. destruct r2; try contradiction. cbn in *. subst; auto.
  - destruct r1; try contradiction. destruct r2; try contradiction. cbn in *.
    destruct (reads_det _ _ _ _ _ _ Hb H1 H2) as [-> ->]. auto.
  - destruct r1 as [| |[[m1|]|e1]| | | |]; try contradiction; destruct r2 as [| |[[m2|]|e2]| | | |]; try contradiction;
      cbn in *; unfold waiting in *.
    + destruct H1 as [W1 E1], H2 as [W2 E2]. rewrite E1 in E2. apply frame_inj in E2 as [-> ->]; auto.
    + exfalso. destruct H1 as [W1 E1], H2 as [[W2 _] E2]. apply W2. exists m1, q1; auto.
    + exfalso. destruct H1 as [W1 E1], H2 as [W2 E2]. eapply excl; eauto. exists m1, q1; auto.
    + exfalso. destruct H2 as [W1 E1], H1 as [[W2 _] E2]. apply W2. exists m2, q2; auto.
    + destruct H1 as [_ ->], H2 as [_ ->]. auto.
    + tauto.
    + exfalso. destruct H2 as [W1 E1], H1 as [W2 E2]. eapply excl; eauto. exists m2, q2; auto.
    + tauto.
    + destruct H1 as (_ & -> & ->), H2 as (_ & -> & ->). auto.
  - assert (X : forall e q', spec_step q ONext (RMsg (Err e)) q' ->
              (e = StopIteration /\ waiting q /\ q' = q) \/ (e = ValueError /\ bad q /\ q' = q)).
    { intros e q' H. destruct e; cbn in H; tauto || (destruct H as (? & ? & ?); discriminate). }
    destruct r1 as [| | |[m1|e1]| | |]; try contradiction; destruct r2 as [| | |[m2|e2]| | |]; try contradiction.
    + destruct H1 as [W1 E1], H2 as [W2 E2]. rewrite E1 in E2. apply frame_inj in E2 as [-> ->]; auto.
    + exfalso. destruct H1 as [W1 E1]. apply X in H2. assert (complete q) by (exists m1, q1; auto).
      destruct H2 as [(_ & [? _] & _)|(_ & ? & _)]; [tauto|eapply excl; eauto].
    + exfalso. destruct H2 as [W1 E1]. apply X in H1. assert (complete q) by (exists m2, q2; auto).
      destruct H1 as [(_ & [? _] & _)|(_ & ? & _)]; [tauto|eapply excl; eauto].
    + apply X in H1. apply X in H2. unfold waiting in *.
      destruct H1 as [(-> & A1 & ->)|(-> & A1 & ->)], H2 as [(-> & A2 & ->)|(-> & A2 & ->)]; auto; tauto.
  - destruct r1 as [| | | |[[]|e1]| |]; try contradiction; destruct r2 as [| | | |[[]|e2]| |]; try contradiction;
      cbn in *; unfold waiting in *.
    + destruct H1 as [_ ->], H2 as [_ ->]; auto.
    + tauto.
    + exfalso. eapply excl; [eauto| |]; tauto.
    + tauto.
    + destruct H1 as [_ ->], H2 as [_ ->]; auto.
    + tauto.
    + exfalso. eapply excl; [eauto| |]; tauto.
    + tauto.
    + destruct H1 as (_ & -> & ->), H2 as (_ & -> & ->); auto.
  - assert (X : forall n q', spec_step q OLen (RLen (Ok n)) q' ->
       exists ms r, Forall wf_msg ms /\ q = frames ms ++ r /\ ~ complete r /\ ~ bad r /\ n = len ms /\ q' = q).
    { intros n q' (-> & ms & r & A & B & [C1 C2] & D). exists ms, r. repeat split; auto. }
    assert (Y : forall e q', spec_step q OLen (RLen (Err e)) q' ->
       exists ms r, Forall wf_msg ms /\ q = frames ms ++ r /\ ~ complete r /\ bad r /\ e = ValueError /\ q' = q).
    { intros e q' (-> & -> & ms & r & A & B & C). exists ms, r. repeat split; auto.
      apply bad_ncomplete; auto. apply (frames_suffix_bytes ms). rewrite <- B. auto. }
    destruct r1 as [| | | | |[n1|e1]|]; try contradiction; destruct r2 as [| | | | |[n2|e2]|]; try contradiction.
    + apply X in H1 as (ms1 & x1 & A1 & B1 & C1 & D1 & -> & ->).
      apply X in H2 as (ms2 & x2 & A2 & B2 & C2 & D2 & -> & ->).
      pose proof B2 as B3. rewrite B1 in B3, Hb. destruct (decode_unique _ _ _ _ Hb A1 A2 B3 C1 C2) as [-> ->]. auto.
    + exfalso. apply X in H1 as (ms1 & x1 & A1 & B1 & C1 & D1 & -> & ->).
      apply Y in H2 as (ms2 & x2 & A2 & B2 & C2 & D2 & -> & ->).
      pose proof B2 as B3. rewrite B1 in B3, Hb. destruct (decode_unique _ _ _ _ Hb A1 A2 B3 C1 C2) as [-> ->]. auto.
    + exfalso. apply Y in H1 as (ms1 & x1 & A1 & B1 & C1 & D1 & -> & ->).
      apply X in H2 as (ms2 & x2 & A2 & B2 & C2 & D2 & -> & ->).
      pose proof B2 as B3. rewrite B1 in B3, Hb. destruct (decode_unique _ _ _ _ Hb A1 A2 B3 C1 C2) as [-> ->]. auto.
    + apply Y in H1 as (ms1 & x1 & A1 & B1 & C1 & D1 & -> & ->).
      apply Y in H2 as (ms2 & x2 & A2 & B2 & C2 & D2 & -> & ->). auto.
  - destruct r1; try contradiction. destruct r2; try contradiction. cbn in *.
    destruct H1 as [-> ->], H2 as [-> ->]; auto.
  - destruct r1; try contradiction. destruct r2; try contradiction. cbn in *. subst; auto.
Qed.

(** ** property-level lemmas *)
Lemma buffer_refines_fifo ops rs p : Forall wf_op ops -> pb_run pb_init ops = (rs, p) ->
  exists q, spec_run [] ops rs q /\ fst (pb_getvalue p) = q.
Proof.
  intros Hw H. destruct (pb_run_sim _ _ _ _ _ Hw Inv_init H) as (q & S & (_ & _ & Hq)).
  exists q. split; auto. cbn. unfold bio_read_all. cbn. rewrite slice_from_skipn. auto.
Qed.

Definition writes (chunks : list (list Z)) : list op := map OWrite chunks.

Lemma run_writes chunks p q : Forall is_bytes chunks -> Inv p q ->
  Inv (snd (pb_run p (writes chunks))) (q ++ concat chunks).
Proof.
  revert p q; induction chunks as [|d ds IH]; intros p q Hw HI.
  - cbn. rewrite app_nil_r. auto.
  - inv Hw. cbn [writes map pb_run].
    destruct (pb_step p (OWrite d)) as [r p1] eqn:E.
    destruct (pb_step_sim p q (OWrite d) r p1 H1 HI E) as (q1 & S1 & I1).
    assert (q1 = q ++ d) as ->. { cbn [pb_step] in E. inv E. exact S1. }
    specialize (IH _ _ H2 I1). unfold writes in IH. destruct (pb_run p1 (map OWrite ds)) as [rs p2].
    cbn [snd concat] in *. rewrite app_assoc. exact IH.
Qed.

Lemma buffer_chunking_irrelevant ops chunks1 chunks2 o rs p :
  Forall wf_op ops -> Forall is_bytes chunks1 -> Forall is_bytes chunks2 ->
  concat chunks1 = concat chunks2 -> pb_run pb_init ops = (rs, p) ->
  fst (pb_step (snd (pb_run p (writes chunks1))) o) = fst (pb_step (snd (pb_run p (writes chunks2))) o)
  /\ fst (pb_getvalue (snd (pb_step (snd (pb_run p (writes chunks1))) o)))
     = fst (pb_getvalue (snd (pb_step (snd (pb_run p (writes chunks2))) o))).
Proof.
  intros Hw H1 H2 E H.
  destruct (pb_run_sim _ _ _ _ _ Hw Inv_init H) as (q & _ & HI).
  pose proof (run_writes _ _ _ H1 HI) as I1. pose proof (run_writes _ _ _ H2 HI) as I2.
  rewrite E in I1.
  assert (Hval : forall p q, Inv p q -> fst (pb_getvalue p) = q).
  { intros p0 q0 (_ & _ & ->). cbn. unfold bio_read_all. cbn. apply slice_from_skipn. }
  destruct (pb_step (snd (pb_run p (writes chunks1))) o) as [r1 p1] eqn:S1.
  destruct (pb_step (snd (pb_run p (writes chunks2))) o) as [r2 p2] eqn:S2.
  cbn [fst snd].
  destruct o as [d| | | | | | |].
  2-8: (match type of S1 with pb_step _ ?o = _ => assert (Hwo : wf_op o) by exact I end;
        destruct (pb_step_sim _ _ _ _ _ Hwo I1 S1) as (q1 & T1 & J1);
        destruct (pb_step_sim _ _ _ _ _ Hwo I2 S2) as (q2 & T2 & J2);
        destruct (spec_step_det _ _ _ _ _ _ (Inv_bytes _ _ I1) T1 T2) as [-> ->];
        rewrite (Hval _ _ J1), (Hval _ _ J2); auto).
  (* a write of arbitrary data *)
  cbn [pb_step] in S1, S2. inv S1. inv S2. split; auto.
  assert (Hwr : forall p q, Inv p q -> fst (pb_getvalue (pb_write d p)) = q ++ d).
  { intros p0 q0 (Hs & Hb & ->). cbn. unfold bio_read_all. cbn [bio_seek bpos bcont strio pb_write].
    rewrite slice_from_skipn, bcont_append, skipn_app. f_equal.
    replace (Z.to_nat (start p0) - length (bcont (strio p0)))%nat with 0%nat by (unfold len in *; lia).
    reflexivity. }
  rewrite (Hwr _ _ I1), (Hwr _ _ I2). reflexivity.
Qed.

(** every complete sequence of frames comes out, whatever was consumed before *)
Lemma buffer_delivers ms rest chunks ops rs p num : Forall wf_op ops ->
  pb_run pb_init ops = (rs, p) -> fst (pb_getvalue p) = [] ->
  Forall is_bytes chunks -> Forall wf_msg ms -> concat chunks = frames ms ++ rest ->
  waiting rest -> len ms <= num ->
  fst (pb_read num (snd (pb_run p (writes chunks)))) = Ok ms /\
  fst (pb_getvalue (snd (pb_read num (snd (pb_run p (writes chunks)))))) = rest.
Proof.
  intros Hw H Hv Hc Hm E Hr Hn.
  destruct (pb_run_sim _ _ _ _ _ Hw Inv_init H) as (q & _ & HI).
  assert (Hval : forall p q, Inv p q -> fst (pb_getvalue p) = q).
  { intros p0 q0 (_ & _ & ->). cbn. unfold bio_read_all. cbn. apply slice_from_skipn. }
  rewrite (Hval _ _ HI) in Hv. subst q.
  pose proof (run_writes _ _ _ Hc HI) as I1. cbn [app] in I1. rewrite E in I1.
  destruct (pb_read num (snd (pb_run p (writes chunks)))) as [r p1] eqn:S.
  destruct (pb_read_sim _ _ _ _ _ I1 S) as (q' & T & J). cbn [fst snd].
  assert (T2 : reads (frames ms ++ rest) num (Ok ms) rest).
  { unfold reads. split; auto. split; auto. split; [lia|auto]. }
  destruct (reads_det _ _ _ _ _ _ (Inv_bytes _ _ I1) T T2) as [-> ->].
  rewrite (Hval _ _ J). auto.
Qed.
