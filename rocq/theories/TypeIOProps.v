(** TypeIOProps.v: C06, C09, C10, C11, C12, C13. *)
From Verif Require Import Base BaseProof PBufferModel Element3Model Element3Proof PyList IterModel TypeIOModel TypeIOSpec
  TypeIOProof TypeIOProof2 TypeIOProof3.

(** ** C06.  int2, int4, int8 ([n] = 2, 4, 8): packing gives the two's complement
    big-endian representation, exactly for the values in range; any other value is
    refused; unpacking n bytes is the inverse and every n bytes are accepted. *)
Theorem C06_signed_pack : forall n x d, (n = 2 \/ n = 4 \/ n = 8)%nat ->
  (pack_s n x = Ok d <-> twos n d x).
Proof. intros n x d H. apply signed_pack_iff. lia. Qed.
Print Assumptions C06_signed_pack.
Theorem C06_signed_range : forall n x, (n = 2 \/ n = 4 \/ n = 8)%nat ->
  ((exists d, pack_s n x = Ok d) <-> - 2 ^ (8 * Z.of_nat n - 1) <= x < 2 ^ (8 * Z.of_nat n - 1)).
Proof. intros n x H. apply signed_range. lia. Qed.
Print Assumptions C06_signed_range.
Theorem C06_signed_unpack : forall n d, (n = 2 \/ n = 4 \/ n = 8)%nat -> length d = n -> is_bytes d ->
  exists x, unpack_s n d = Ok x /\ twos n d x.
Proof.
  intros n d Hn Hl Hb. destruct (signed_unpack_total n d) as [x H]; [lia|lia|].
  exists x. split; [exact H|]. apply signed_unpack_iff; auto. lia.
Qed.
Print Assumptions C06_signed_unpack.
Theorem C06_signed_roundtrip : forall n x d, (n = 2 \/ n = 4 \/ n = 8)%nat ->
  pack_s n x = Ok d -> unpack_s n d = Ok x.
Proof.
  intros n x d Hn H. rewrite <- (app_nil_r d). apply unpack_pack_s; [lia|exact H].
Qed.
Print Assumptions C06_signed_roundtrip.
(** unsigned: oid and the sizes *)
Theorem C06_unsigned_pack : forall n x d, pack_u n x = Ok d <-> unsigned n d x.
Proof. exact unsigned_pack_iff. Qed.
Print Assumptions C06_unsigned_pack.
Theorem C06_unsigned_range : forall n x, (exists d, pack_u n x = Ok d) <-> 0 <= x < 2 ^ (8 * Z.of_nat n).
Proof. exact unsigned_range. Qed.
Print Assumptions C06_unsigned_range.
Theorem C06_unsigned_unpack : forall n x d, length d = n -> is_bytes d -> (unpack_u n d = Ok x <-> unsigned n d x).
Proof. exact unsigned_unpack_iff. Qed.
Print Assumptions C06_unsigned_unpack.
(** fewer bytes than the type has are refused *)
Theorem C06_short_data : forall n d, (length d < n)%nat ->
  unpack_u n d = Err StructError /\ unpack_s n d = Err StructError.
Proof. exact unpack_short. Qed.
Print Assumptions C06_short_data.
(** the codecs of the types are these *)
Theorem C06_codecs : short_pack = pack_s 2 /\ short_unpack = unpack_s 2 /\ long_pack = pack_s 4 /\
  long_unpack = unpack_s 4 /\ longlong_pack = pack_s 8 /\ longlong_unpack = unpack_s 8 /\
  ulong_pack = pack_u 4 /\ ulong_unpack = unpack_u 4 /\ ushort_pack = pack_u 2 /\ ushort_unpack = unpack_u 2 /\
  ulonglong_pack = pack_u 8 /\ ulonglong_unpack = unpack_u 8.
Proof. repeat split; reflexivity. Qed.
Print Assumptions C06_codecs.
Example C06_ex : long_pack (-2) = Ok [255;255;255;254] /\ twos 4 [255;255;255;254] (-2) /\
  short_pack 32768 = Err StructError.
Proof. split; [reflexivity|]. split; [apply C06_signed_pack; [lia|reflexivity]|reflexivity]. Qed.

(** ** C09 *)
Theorem C09_record_pack : forall l d, record_pack l = Ok d <-> wf_record l /\ d = record_wire l.
Proof.
  intros l d. split.
  - intros H. pose proof (record_pack_inv _ _ H) as W. split; [exact W|].
    rewrite record_pack_ok in H by exact W. congruence.
  - intros [H ->]. apply record_pack_ok; exact H.
Qed.
Print Assumptions C09_record_pack.
Theorem C09_record_roundtrip : forall l d, record_pack l = Ok d -> record_unpack d = Ok l.
Proof. intros l d H. apply C09_record_pack in H as [H ->]. apply record_unpack_ok; exact H. Qed.
Print Assumptions C09_record_roundtrip.
(** whatever is accepted is exactly a record, nothing missing and nothing left over;
    the one exception is a negative column count, which is read as no column *)
Theorem C09_record_strict : forall d l, is_bytes d -> record_unpack d = Ok l ->
  (wf_record l /\ d = record_wire l) \/
  (l = [] /\ exists c, - 2 ^ 31 <= c < 0 /\ d = be 4 (c mod 2 ^ 32)).
Proof. exact record_unpack_inv. Qed.
Print Assumptions C09_record_strict.
Theorem C09_negative_count_refuted : exists d, is_bytes d /\ record_unpack d = Ok [] /\ d <> record_wire [].
Proof. exists [255;255;255;255]. split; [repeat constructor; unfold is_byte; lia|]. split; [reflexivity|discriminate]. Qed.
Print Assumptions C09_negative_count_refuted.
Example C09_ex : let l := [(23, Some [0;0;0;5]); (25, None); (25, Some [])] in
  exists d, record_pack l = Ok d /\ record_unpack d = Ok l /\ wf_record l.
Proof.
  eexists. split; [vm_compute; reflexivity|]. split; [vm_compute; reflexivity|].
  split; [cbn; lia|]. repeat constructor; cbn; lia.
Qed.

(** ** C10.  The array is given by the pairs (dimension, lower bound). *)
Theorem C10_array_pack : forall flags oid dims elems, wf_array flags oid dims elems ->
  array_pack (mk_array flags oid dims elems) = Ok (array_wire flags oid dims elems).
Proof. exact array_pack_ok. Qed.
Print Assumptions C10_array_pack.
Theorem C10_array_roundtrip : forall flags oid dims elems fuel,
  wf_array flags oid dims elems -> (length elems <= fuel)%nat ->
  array_unpack fuel (array_wire flags oid dims elems) = Ok (mk_array flags oid dims elems).
Proof. exact array_unpack_ok. Qed.
Print Assumptions C10_array_roundtrip.
Example C10_ex : let dims := [(2, 1); (2, -1)] in let els := [Some [1]; None; Some []; Some [2; 3]] in
  wf_array 0 23 dims els /\ array_unpack 4 (array_wire 0 23 dims els) = Ok (mk_array 0 23 dims els).
Proof.
  split; [|vm_compute; reflexivity].
  repeat split; try (cbn; lia); try (unfold is_s32; lia); repeat constructor; cbn; lia.
Qed.

(** ** C11.  The decoders of sized data and of hstore terminate on all bytes, and
    accept exactly the data whose declared sizes add up; the record decoder has no
    loop other than over the columns, and C09_record_strict says what it accepts. *)
Theorem C11_sized_terminates : forall d, is_bytes d -> split_sized_data d <> Err OutOfFuel.
Proof. intros d H. apply split_sized_terminates; [exact H|lia]. Qed.
Print Assumptions C11_sized_terminates.
Theorem C11_sized_exact : forall d l, is_bytes d ->
  (split_sized_data d = Ok l <-> Forall usmall l /\ d = concat (map sized_wire l)).
Proof. exact split_sized_data_iff. Qed.
Print Assumptions C11_sized_exact.
Theorem C11_hstore_terminates : forall d, is_bytes d -> hstore_unpack d <> Err OutOfFuel.
Proof. exact hstore_terminates. Qed.
Print Assumptions C11_hstore_terminates.
(** Array elements: the decoder can run forever only on an element whose declared
    size is negative and not -1 (NULL) ... *)
Theorem C11_array_terminates_partial : forall data off fuel, 0 <= off -> len data - off <= Z.of_nat fuel ->
  elements_unpack fuel data off = Err OutOfFuel ->
  exists o sz, off <= o < len data /\ long_unpack (pyslice data o (o + 4)) = Ok sz /\ sz < -1.
Proof. intros data off fuel. apply elements_unpack_diverges. Qed.
Print Assumptions C11_array_terminates_partial.
(** ... and then it does: no number of rounds is enough (refutes C11 for arrays) *)
Theorem C11_array_loops_refuted : forall flags oid post fuel, is_s32 flags -> 0 <= oid < 2 ^ 32 ->
  array_unpack fuel (array_wire flags oid [(1, 1)] [] ++ s32be (-4) ++ post) = Err OutOfFuel.
Proof. intros. apply array_loop; assumption. Qed.
Print Assumptions C11_array_loops_refuted.
(** and an element with fewer bytes than declared is accepted (refutes C11) *)
Theorem C11_array_truncated_refuted : exists d, is_bytes d /\
  d = array_wire 0 23 [(1, 1)] [] ++ be 4 100 ++ [7] /\
  array_unpack 5 d = Ok (mk_array 0 23 [(1, 1)] [Some [7]]).
Proof.
  eexists. split; [|split; [reflexivity|vm_compute; reflexivity]].
  apply is_bytesb_spec. vm_compute. reflexivity.
Qed.
Print Assumptions C11_array_truncated_refuted.

(** ** C12 *)
Theorem C12_hstore_roundtrip : forall l, NoDup (map fst l) -> len l < 2 ^ 32 ->
  Forall (fun kv => usmall (Some (fst kv)) /\ usmall (snd kv)) l ->
  hstore_pack l = Ok (hstore_wire (len l) l) /\ hstore_unpack (hstore_wire (len l) l) = Ok l.
Proof.
  intros l Hd Hn Hl. split.
  - apply hstore_pack_ok; [exact Hn|]. eapply Forall_impl; [|exact Hl]. intros [k v] [H1 H2]; cbn in *.
    split; [lia|]. destruct v; cbn in *; [lia|exact I].
  - rewrite hstore_unpack_wire by (try exact Hl; pose proof (len_nonneg l); lia).
    rewrite dict_of_nodup by exact Hd. rewrite Z.eqb_refl. reflexivity.
Qed.
Print Assumptions C12_hstore_roundtrip.
(** what is accepted: the declared number is the number of distinct keys *)
Theorem C12_hstore_strict : forall d r, is_bytes d -> hstore_unpack d = Ok r ->
  exists l, d = hstore_wire (len (dict_of l)) l /\ r = dict_of l /\ len (dict_of l) < 2 ^ 32 /\
            Forall (fun kv => usmall (Some (fst kv)) /\ usmall (snd kv)) l.
Proof. exact hstore_unpack_inv. Qed.
Print Assumptions C12_hstore_strict.
Theorem C12_hstore_bad_count : forall n l, 0 <= n < 2 ^ 32 ->
  Forall (fun kv => usmall (Some (fst kv)) /\ usmall (snd kv)) l -> NoDup (map fst l) -> n <> len l ->
  hstore_unpack (hstore_wire n l) = Err ValueError.
Proof.
  intros n l Hn Hl Hd Hne. rewrite hstore_unpack_wire by assumption. rewrite dict_of_nodup by exact Hd.
  destruct (Z.eqb_spec (len l) n); [congruence|reflexivity].
Qed.
Print Assumptions C12_hstore_bad_count.
(** duplicate keys with the declared number of pairs are refused *)
Theorem C12_hstore_duplicates : forall l, len l < 2 ^ 32 ->
  Forall (fun kv => usmall (Some (fst kv)) /\ usmall (snd kv)) l -> len (dict_of l) <> len l ->
  hstore_unpack (hstore_wire (len l) l) = Err ValueError.
Proof.
  intros l Hn Hl Hd. rewrite hstore_unpack_wire by (try exact Hl; pose proof (len_nonneg l); lia).
  destruct (Z.eqb_spec (len (dict_of l)) (len l)); [congruence|reflexivity].
Qed.
Print Assumptions C12_hstore_duplicates.
Example C12_hstore_ex : let l := [([97], Some [49]); ([98], None)] in
  hstore_unpack (hstore_wire 2 l) = Ok l /\ hstore_unpack (hstore_wire 2 [([97], None); ([97], None)]) = Err ValueError.
Proof. split; vm_compute; reflexivity. Qed.

Theorem C12_bool : (forall b, bool_unpack (bool_pack b) = Ok b) /\
  (forall d b, bool_unpack d = Ok b -> d = bool_pack b).
Proof.
  split; [intros []; reflexivity|]. intros d b H. unfold bool_unpack in H.
  destruct (seqb d [1]) eqn:E1; [apply seqb_eq in E1; subst d; okinv H; reflexivity|].
  destruct (seqb d [0]) eqn:E2; [apply seqb_eq in E2; subst d; okinv H; reflexivity|discriminate].
Qed.
Print Assumptions C12_bool.
Theorem C12_jsonb : forall d x, jsonb_unpack d = Ok x <-> d = jsonb_pack x.
Proof.
  intros [|v d] x; cbn; [split; discriminate|]. unfold jsonb_pack.
  destruct (Z.eqb_spec v 1) as [->|N]; split; intros H; try congruence.
Qed.
Print Assumptions C12_jsonb.
Theorem C12_uuid : (forall x, 0 <= x < 2 ^ 128 -> uuid_unpack (uuid_pack x) = Ok x /\ length (uuid_pack x) = 16%nat) /\
  (forall d x, is_bytes d -> uuid_unpack d = Ok x -> uuid_pack x = d).
Proof.
  split.
  - intros x H. unfold uuid_unpack, uuid_pack. rewrite be_length. cbn [Nat.eqb]. rewrite unbe_be by exact H. auto.
  - intros d x Hb H. unfold uuid_unpack in H. destruct (Nat.eqb_spec (length d) 16) as [E|E]; [|discriminate].
    okinv H. unfold uuid_pack. rewrite <- E. apply be_unbe; exact Hb.
Qed.
Print Assumptions C12_uuid.

(** Bit strings: the text gives the bits, most significant first, zero padded; it is
    what str() prints, and the wire gives it back. *)
Theorem C12_varbit : forall s, is_bits s ->
  exists d, varbit_of_str s = Ok (len s, d) /\ is_bytes d /\ length d = ((length s + 7) / 8)%nat /\
    (forall i, (i < length s)%nat -> bit_at d i = (nth i s 0 =? 49)) /\
    (forall i, (length s <= i < 8 * length d)%nat -> bit_at d i = false) /\
    varbit_str (len s, d) = Ok s /\
    (len s < 2 ^ 31 -> pgvarbit_pack (len s, d) = Ok (be 4 (len s) ++ d) /\
                       pgvarbit_unpack (be 4 (len s) ++ d) = Ok (len s, d)).
Proof.
  intros s Hs. destruct (varbit_of_str_ok s Hs) as (d & H1 & H2 & H3 & H4 & H5 & H6 & H7).
  exists d. repeat (split; [assumption|]). intros H. apply pgvarbit_ok; [pose proof (len_nonneg s); lia|exact H7].
Qed.
Print Assumptions C12_varbit.
Theorem C12_varbit_concat : forall s t a b, is_bits s -> is_bits t ->
  varbit_of_str s = Ok a -> varbit_of_str t = Ok b -> varbit_add a b = varbit_of_str (s ++ t).
Proof. exact varbit_add_ok. Qed.
Print Assumptions C12_varbit_concat.
Theorem C12_varbit_repeat : forall s n a, is_bits s -> varbit_of_str s = Ok a ->
  varbit_mul a n = varbit_of_str (concat (repeat s (Z.to_nat n))).
Proof. exact varbit_mul_ok. Qed.
Print Assumptions C12_varbit_repeat.
Example C12_varbit_ex : varbit_of_str [49;48;49;49;48;48;48;48;49;49] = Ok (10, [176; 192]) /\
  varbit_str (10, [176;192]) = Ok [49;48;49;49;48;48;48;48;49;49].
Proof. split; vm_compute; reflexivity. Qed.
(** refuted: no bit of a bit string can ever be read by index *)
Theorem C12_getbit_refuted : forall v off r, getbit v off <> Ok r.
Proof. exact getbit_never. Qed.
Print Assumptions C12_getbit_refuted.
(** refuted: no oidvector nor int2vector can be packed *)
Theorem C12_vectors_refuted : forall seq, (forall r, oidvector_pack seq <> Ok r /\ int2vector_pack seq <> Ok r) /\
  (Forall (fun x => 0 <= x < 2 ^ 32) seq -> oidvector_pack seq = Err TypeError) /\
  (Forall (fun x => - 2 ^ 15 <= x < 2 ^ 15) seq -> int2vector_pack seq = Err TypeError).
Proof.
  intros seq. unfold oidvector_pack, int2vector_pack. split; [|split].
  - intros r. split; destruct (mapM _ seq); discriminate.
  - intros F. assert (M : exists l, mapM ulong_pack seq = Ok l); [|destruct M as (l & ->); reflexivity]. induction F as [|x l X F (m & IH)]; [eexists; reflexivity|].
    pose proof (pack_u_ok 4 x X) as E. change (pack_u 4 x) with (ulong_pack x) in E. cbn [mapM]. rewrite E. cbn [bind]. rewrite IH. eexists. reflexivity.
  - intros F. assert (M : exists l, mapM short_pack seq = Ok l); [|destruct M as (l & ->); reflexivity]. induction F as [|x l X F (m & IH)]; [eexists; reflexivity|].
    destruct (proj2 (signed_range 2 x ltac:(lia)) X) as (b & E). change (pack_s 2 x) with (short_pack x) in E. cbn [mapM]. rewrite E. cbn [bind]. rewrite IH. eexists. reflexivity.
Qed.
Print Assumptions C12_vectors_refuted.
(** read: exactly 32 unsigned words of 4 bytes, or 32 signed words of 2 bytes; data of
    any other size is refused *)
Theorem C12_oidvector_read : forall d, is_bytes d ->
  (length d = 128%nat -> exists ws l, oidvector_unpack d = Ok l /\ length l = 32%nat /\ d = concat ws /\ Forall2 (unsigned 4) ws l) /\
  (length d <> 128%nat -> oidvector_unpack d = Err StructError).
Proof.
  intros d B. unfold oidvector_unpack. split; intros L; destruct (Nat.eqb_spec (length d) 128); try congruence.
  destruct (words_u 32 d B L) as (ws & E & F). exists ws, (unpack_Ls 32 d). split; [reflexivity|]. split; [reflexivity|]. auto.
Qed.
Print Assumptions C12_oidvector_read.
Theorem C12_int2vector_read : forall d, is_bytes d ->
  (length d = 64%nat -> exists ws l, int2vector_unpack d = Ok l /\ length l = 32%nat /\ d = concat ws /\ Forall2 (twos 2) ws l) /\
  (length d <> 64%nat -> int2vector_unpack d = Err StructError).
Proof.
  intros d B. unfold int2vector_unpack. split; intros L; destruct (Nat.eqb_spec (length d) 64); try congruence.
  destruct (words_s 32 d B L) as (ws & E & F). exists ws, (map (to_signed 2) (parse_pairs2 32 d)). split; [reflexivity|]. split; [reflexivity|]. auto.
Qed.
Print Assumptions C12_int2vector_read.

(** ** C13 *)
Theorem C13_inet_roundtrip : forall v a, wf_addr v a ->
  exists d, inet_pack (v, a) = Ok d /\ inet_unpack d = Ok (v, a).
Proof. intros v a H. eexists. split; [apply inet_pack_ok; exact H|apply inet_unpack_ok; exact H]. Qed.
Print Assumptions C13_inet_roundtrip.
(** an address received with any prefix length and flag is the address *)
Theorem C13_inet_receive : forall v a p c, wf_addr v a ->
  inet_unpack (net_wire (pgfam v) p c (be (addr_bytes v) a)) = Ok (v, a).
Proof. exact inet_unpack_ok. Qed.
Print Assumptions C13_inet_receive.
Theorem C13_cidr_roundtrip : forall v a m, wf_addr v a -> 0 <= m <= width v -> a mod 2 ^ (width v - m) = 0 ->
  cidr_pack (v, a, m) = Ok (net_wire (pgfam v) m 1 (be (addr_bytes v) a)) /\
  cidr_unpack (net_wire (pgfam v) m 1 (be (addr_bytes v) a)) = Ok (v, a, m).
Proof. exact cidr_ok. Qed.
Print Assumptions C13_cidr_roundtrip.
(** refuted: a host address is sent with prefix length 0, never with its full width,
    so that the server reads a.b.c.d/0 *)
Theorem C13_host_prefix_refuted : forall v a, wf_addr v a ->
  inet_pack (v, a) = Ok (net_wire (pgfam v) 0 0 (be (addr_bytes v) a)) /\ width v <> 0.
Proof.
  intros v a H. split; [apply inet_pack_ok; exact H|]. destruct H as [[-> _]|[-> _]]; cbn; lia.
Qed.
Print Assumptions C13_host_prefix_refuted.
(** 6 bytes are printed as xx:xx:xx:xx:xx:xx; any other number is refused *)
Theorem C13_macaddr_unpack : forall a b c d e f, is_bytes [a;b;c;d;e;f] ->
  macaddr_unpack [a;b;c;d;e;f] = Ok (mac_colon a b c d e f).
Proof. exact macaddr_unpack_colon. Qed.
Print Assumptions C13_macaddr_unpack.
(** all the spellings of the manual are understood; the first one is the printed one *)
Theorem C13_macaddr_pack : forall a b c d e f s, is_bytes [a;b;c;d;e;f] ->
  In s (mac_spellings a b c d e f) -> macaddr_pack s = Ok [a;b;c;d;e;f].
Proof. exact macaddr_pack_spellings. Qed.
Print Assumptions C13_macaddr_pack.
Example C13_ex : wf_addr 4 3232235776 /\ 3232235776 mod 2 ^ (32 - 24) = 0 /\
  cidr_unpack [2;24;1;4;192;168;1;0] = Ok (4, 3232235776, 24) /\
  macaddr_unpack [8;0;43;1;2;255] = Ok [48;56;58;48;48;58;50;98;58;48;49;58;48;50;58;102;102].
Proof. split; [left; lia|]. repeat split; vm_compute; reflexivity. Qed.
