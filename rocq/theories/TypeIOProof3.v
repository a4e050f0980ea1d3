(** TypeIOProof3.v: bit strings, network and MAC addresses. *)
From Verif Require Import Base BaseProof PBufferModel PBufferProof Element3Model Element3Spec Element3Proof
  PyList PyListProof IterModel IterSpec IterProof TypeIOModel TypeIOSpec TypeIOProof TypeIOProof2.

(** ** bit strings *)
Lemma bits8 s : is_bits s -> length s = 8%nat -> exists b, int_base2 s = Ok b /\ is_byte b /\ bin8 b = s.
Proof.
  intros H L.
  do 8 (destruct s as [|? s]; [discriminate L|]). destruct s as [|? s]; [|discriminate L].
  unfold is_bits in H.
  repeat (match goal with H : Forall _ (_ :: _) |- _ => apply Forall_cons_iff in H as [[->| ->] H] end).
  all: eexists; split; [vm_compute; reflexivity|split; [unfold is_byte; lia|vm_compute; reflexivity]].
Qed.
Lemma is_bits_app a b : is_bits (a ++ b) <-> is_bits a /\ is_bits b. Proof. apply Forall_app. Qed.
Lemma is_bits_firstn n s : is_bits s -> is_bits (firstn n s).
Proof. intros H. rewrite <- (firstn_skipn n s) in H. apply is_bits_app in H. tauto. Qed.
Lemma is_bits_skipn n s : is_bits s -> is_bits (skipn n s).
Proof. intros H. rewrite <- (firstn_skipn n s) in H. apply is_bits_app in H. tauto. Qed.
Lemma is_bits_repeat n : is_bits (repeat 48 n).
Proof. induction n; constructor; auto. Qed.

Definition unbits (d : bytes) := concat (map bin8 d).
Lemma unbits_len d : length (unbits d) = (8 * length d)%nat.
Proof. induction d as [|b d IH]; [reflexivity|]. unfold unbits in *. cbn [map concat]. rewrite app_length, IH. cbn. lia. Qed.

Lemma pack_bits_ok fuel : forall s, is_bits s -> (length s <= fuel)%nat ->
  exists d, pack_bits fuel s = Ok d /\ is_bytes d /\ length d = ((length s + 7) / 8)%nat /\
            unbits d = s ++ repeat 48 (8 * length d - length s).
Proof.
  induction fuel as [|fuel IH]; intros s Hs Hf.
  - destruct s; [|cbn in Hf; lia]. exists []. repeat split; auto. constructor.
  - destruct s as [|c s0]; [exists []; repeat split; auto; constructor|].
    cbn [pack_bits]. set (s := c :: s0) in *. assert (L0 : (0 < length s)%nat) by (cbn; lia). clearbody s.
    destruct (Nat.ltb_spec (length s) 8) as [L|L].
    + destruct (bits8 (ljust8 s)) as (b & E & Hb & Eb).
      * apply is_bits_app; split; auto. apply is_bits_repeat.
      * unfold ljust8. rewrite app_length, repeat_length. lia.
      * rewrite E. cbn [bind]. exists [b]. split; [reflexivity|]. split; [repeat constructor; apply Hb|].
        assert (E8 : ((length s + 7) / 8 = 1)%nat) by (symmetry; apply (Nat.div_unique _ _ 1 (length s - 1)); lia).
        split; [cbn [length]; lia|]. unfold unbits. cbn [map concat length]. rewrite app_nil_r, Eb. reflexivity.
    + destruct (bits8 (firstn 8 s)) as (b & E & Hb & Eb).
      * apply is_bits_firstn; auto.
      * rewrite firstn_length. lia.
      * rewrite E. cbn [bind]. destruct (IH (skipn 8 s)) as (d & Ed & Hd & Ld & Ud).
        { apply is_bits_skipn; auto. } { rewrite skipn_length. lia. }
        rewrite Ed. cbn [bind]. exists (b :: d). split; [reflexivity|]. split; [constructor; auto|].
        rewrite skipn_length in Ld, Ud. cbn [length].
        assert (E8 : ((length s + 7) / 8 = S ((length s - 8 + 7) / 8))%nat).
        { replace (length s + 7)%nat with (length s - 8 + 7 + 1 * 8)%nat by lia. rewrite Nat.div_add by lia. lia. }
        split; [lia|]. unfold unbits in *. cbn [map concat]. rewrite Eb, Ud, app_assoc, firstn_skipn. f_equal. f_equal. lia.
Qed.

Lemma varbit_str_ok bits d : is_bytes d -> d <> [] -> 8 * (len d - 1) < bits <= 8 * len d ->
  varbit_str (bits, d) = Ok (firstn (Z.to_nat bits) (unbits d)).
Proof.
  intros Hd Hne Hb. unfold varbit_str.
  destruct (Z.eqb_spec bits 0) as [->|N0]; [destruct d; [congruence|rewrite len_cons in Hb; pose proof (len_nonneg d); lia]|].
  destruct (exists_last Hne) as (d0 & b & ->). rewrite map_app, rev_app_distr. cbn [map rev app].
  rewrite rev_involutive. f_equal. unfold unbits. rewrite map_app, concat_app. cbn [map concat]. rewrite app_nil_r.
  fold (unbits d0). rewrite len_app in Hb. change (len [b]) with 1 in Hb.
  set (m := if bits mod 8 =? 0 then 8 else bits mod 8).
  assert (Em : Z.to_nat bits = (length (unbits d0) + Z.to_nat m)%nat).
  { rewrite unbits_len. unfold len in Hb. assert (Hm : m = bits - 8 * Z.of_nat (length d0)).
    { unfold m. destruct (Z.eqb_spec (bits mod 8) 0); lia. }
    lia. }
  rewrite Em, firstn_plus, firstn_app_exact, skipn_app_exact by auto. reflexivity.
Qed.

Lemma from_bits_canonical bits d : bits <> 1 \/ d = [0] \/ d = [128] -> from_bits bits d = Ok (bits, d).
Proof.
  unfold from_bits. destruct (Z.eqb_spec bits 1) as [->|N]; [|reflexivity].
  intros [H|[->| ->]]; [congruence| |]; reflexivity.
Qed.
Lemma bit_at_unbits d i : (i < 8 * length d)%nat -> nth i (unbits d) 0 = if bit_at d i then 49 else 48.
Proof.
  revert i; induction d as [|b d IH]; intros i H; [cbn in H; lia|].
  unfold unbits in *. cbn [map concat]. destruct (Nat.lt_ge_cases i 8) as [L|L].
  - rewrite app_nth1 by (cbn; lia). unfold bit_at.
    do 8 (destruct i as [|i]; [reflexivity|]). lia.
  - rewrite app_nth2 by (cbn; lia). change (length (bin8 b)) with 8%nat. rewrite IH by (cbn in H; lia).
    unfold bit_at. replace i with (i - 8 + 1 * 8)%nat at 3 4 by lia. rewrite Nat.div_add, Nat.mod_add by lia.
    rewrite Nat.add_1_r. reflexivity.
Qed.

Lemma varbit_of_str_ok s : is_bits s ->
  exists d, varbit_of_str s = Ok (len s, d) /\ is_bytes d /\ length d = ((length s + 7) / 8)%nat /\
    (forall i, (i < length s)%nat -> bit_at d i = (nth i s 0 =? 49)) /\
    (forall i, (length s <= i < 8 * length d)%nat -> bit_at d i = false) /\
    varbit_str (len s, d) = Ok s /\ (len s <> 1 \/ d = [0] \/ d = [128]).
Proof.
  intros Hs. destruct (pack_bits_ok (length s) s Hs ltac:(lia)) as (d & E & Hb & L & U).
  exists d. unfold varbit_of_str. rewrite E. cbn [bind].
  assert (Lb : (length s <= 8 * length d)%nat).
  { rewrite L. pose proof (Nat.div_mod (length s + 7) 8 ltac:(lia)). pose proof (Nat.mod_upper_bound (length s + 7) 8 ltac:(lia)). lia. }
  assert (Hbit : forall i, (i < length s)%nat -> bit_at d i = (nth i s 0 =? 49)).
  { intros i Hi. pose proof (bit_at_unbits d i ltac:(lia)) as B. rewrite U, app_nth1 in B by lia.
    rewrite B. destruct (bit_at d i); reflexivity. }
  assert (Hpad : forall i, (length s <= i < 8 * length d)%nat -> bit_at d i = false).
  { intros i Hi. pose proof (bit_at_unbits d i ltac:(lia)) as B. rewrite U, app_nth2 in B by lia.
    rewrite nth_repeat with (n := (i - length s)%nat) in B || idtac.
    destruct (nth_in_or_default (i - length s) (repeat 48 (8 * length d - length s)) 0) as [I|I].
    - apply repeat_spec in I. rewrite I in B. destruct (bit_at d i); [discriminate|reflexivity].
    - rewrite I in B. destruct (bit_at d i); discriminate. }
  assert (C : len s <> 1 \/ d = [0] \/ d = [128]).
  { destruct (Z.eq_dec (len s) 1) as [E1|]; [right|left; auto].
    destruct s as [|c [|]]; unfold len in E1; cbn in E1; try lia. apply Forall_cons_iff in Hs as [[->| ->] _]; cbn in E; okinv E; auto. }
  split; [apply from_bits_canonical; auto|]. repeat (split; auto).
  destruct s as [|c s0].
  - reflexivity.
  - set (s := c :: s0) in *. assert (0 < length s)%nat by (cbn; lia). clearbody s.
    assert (Ld : (length s + 7 = 8 * ((length s + 7) / 8) + (length s + 7) mod 8)%nat) by (apply Nat.div_mod; lia).
    pose proof (Nat.mod_upper_bound (length s + 7) 8 ltac:(lia)).
    rewrite varbit_str_ok; auto.
    + rewrite U, to_nat_len. f_equal. apply firstn_app_exact; auto.
    + intros E0. rewrite E0 in L. change (length (@nil Z)) with 0%nat in L. lia.
    + unfold len. lia.
Qed.
Lemma pgvarbit_ok bits d : 0 <= bits < 2 ^ 31 -> (bits <> 1 \/ d = [0] \/ d = [128]) ->
  pgvarbit_pack (bits, d) = Ok (be 4 bits ++ d) /\ pgvarbit_unpack (be 4 bits ++ d) = Ok (bits, d).
Proof.
  intros Hb Hc. split.
  - unfold pgvarbit_pack, varbit_pack. cbn [fst snd]. rewrite long_pack_small by lia. reflexivity.
  - unfold pgvarbit_unpack, varbit_unpack. rewrite firstn_be, skipn_be.
    rewrite <- (app_nil_r (be 4 bits)), long_unpack_be by lia. cbn [bind fst snd]. apply from_bits_canonical; auto.
Qed.
Lemma varbit_add_ok s t a b : is_bits s -> is_bits t -> varbit_of_str s = Ok a -> varbit_of_str t = Ok b ->
  varbit_add a b = varbit_of_str (s ++ t).
Proof.
  intros Hs Ht Ha Hb.
  destruct (varbit_of_str_ok s Hs) as (d & E & _ & _ & _ & _ & S1 & _). rewrite E in Ha. okinv Ha.
  destruct (varbit_of_str_ok t Ht) as (d' & E' & _ & _ & _ & _ & S2 & _). rewrite E' in Hb. okinv Hb.
  unfold varbit_add. rewrite S1. cbn [bind]. rewrite S2. reflexivity.
Qed.
Lemma varbit_mul_ok s n a : is_bits s -> varbit_of_str s = Ok a ->
  varbit_mul a n = varbit_of_str (concat (repeat s (Z.to_nat n))).
Proof.
  intros Hs Ha. destruct (varbit_of_str_ok s Hs) as (d & E & _ & _ & _ & _ & S1 & _). rewrite E in Ha. okinv Ha.
  unfold varbit_mul. rewrite S1. reflexivity.
Qed.
Lemma getbit_never v off r : getbit v off <> Ok r.
Proof. unfold getbit. destruct (negb _); [discriminate|]. destruct (pyindex _ _); discriminate. Qed.

(** ** networks *)
Lemma net_pack_ok v a m : wf_addr v a -> match m with None => True | Some m => 0 <= m <= 128 end ->
  net_pack v m (packed v a) = Ok (net_wire (pgfam v) (match m with None => 0 | Some m => m end) (match m with None => 0 | Some _ => 1 end) (packed v a)).
Proof.
  intros Hv Hm. unfold net_pack. assert (F : fam_to_pg v = Ok (pgfam v)) by (destruct Hv as [[-> _]|[-> _]]; reflexivity).
  rewrite F. cbn [bind]. unfold mk_bytes.
  assert (is_bytesb [pgfam v; match m with Some m => m | None => 0 end; match m with None => 0 | Some _ => 1 end; len (packed v a)] = true) as ->.
  { apply is_bytesb_spec. unfold packed. rewrite len_be. unfold is_byte, is_bytes.
    destruct Hv as [[-> _]|[-> _]]; cbn; repeat constructor; destruct m; cbn; unfold is_byte; lia. }
  reflexivity.
Qed.
Lemma addr_of_packed v a : wf_addr v a -> addr_of_bytes (packed v a) = Ok (v, a).
Proof.
  intros [[-> H]|[-> H]]; unfold addr_of_bytes, packed; rewrite be_length; cbn; rewrite unbe_be by exact H; reflexivity.
Qed.
Lemma net_unpack_ok v p c d : v = 4 \/ v = 6 -> net_unpack (net_wire (pgfam v) p c d) = Ok (v, p, d).
Proof. intros [-> | ->]; reflexivity. Qed.
Lemma inet_pack_ok v a : wf_addr v a -> inet_pack (v, a) = Ok (net_wire (pgfam v) 0 0 (packed v a)).
Proof. intros H. unfold inet_pack. cbn [fst snd]. apply (net_pack_ok v a None); auto. Qed.
Lemma wf_addr_v v a : wf_addr v a -> v = 4 \/ v = 6. Proof. unfold wf_addr; tauto. Qed.
Lemma inet_unpack_ok v a p c : wf_addr v a -> inet_unpack (net_wire (pgfam v) p c (packed v a)) = Ok (v, a).
Proof.
  intros H. unfold inet_unpack. rewrite net_unpack_ok by (eapply wf_addr_v; eauto). cbn [bind snd].
  apply addr_of_packed; auto.
Qed.
Lemma land_net w m a : 0 <= m <= w -> 0 <= a < 2 ^ w -> a mod 2 ^ (w - m) = 0 ->
  Z.land a (Z.shiftl (2 ^ w - 1) (w - m)) = a.
Proof.
  intros Hm Ha Hz. replace (2 ^ w - 1) with (Z.ones w) by (rewrite Z.ones_equiv; lia).
  apply Z.bits_inj'. intros n Hn. rewrite Z.land_spec.
  destruct (Z.testbit a n) eqn:E; [|reflexivity]. cbn [andb].
  rewrite Z.shiftl_spec by lia.
  assert (n < w).
  { destruct (Z.lt_ge_cases n w); auto. exfalso. 
    rewrite <- (Z.mod_small a (2 ^ w)) in E by lia. rewrite Z.mod_pow2_bits_high in E by lia. discriminate. }
  assert (w - m <= n).
  { destruct (Z.lt_ge_cases n (w - m)); auto. exfalso.
    rewrite <- (Z.mod_pow2_bits_low a (w - m) n) in E by lia. rewrite Hz, Z.bits_0 in E. discriminate. }
  rewrite Z.ones_spec_low by lia. reflexivity.
Qed.
Lemma cidr_ok v a m : wf_addr v a -> 0 <= m <= width v -> a mod 2 ^ (width v - m) = 0 ->
  cidr_pack (v, a, m) = Ok (net_wire (pgfam v) m 1 (packed v a)) /\
  cidr_unpack (net_wire (pgfam v) m 1 (packed v a)) = Ok (v, a, m).
Proof.
  intros H Hm Hz. split.
  - apply (net_pack_ok v a (Some m)); auto. destruct H as [[-> _]|[-> _]]; cbn in Hm; lia.
  - unfold cidr_unpack. rewrite net_unpack_ok by (eapply wf_addr_v; eauto). cbn [bind].
    rewrite addr_of_packed by auto. cbn [bind]. destruct (Z.gtb_spec m (width v)); [lia|].
    rewrite land_net; auto. destruct H as [[-> H]|[-> H]]; exact H.
Qed.

(** ** MAC addresses *)
Lemma hexd x : 0 <= x < 16 -> hex_val (hex_digit x) = Ok x /\ hex_digit x <> 58 /\ hex_digit x <> 45 /\ hex_digit x <> 46.
Proof.
  intros H. assert (x = 0 \/ x = 1 \/ x = 2 \/ x = 3 \/ x = 4 \/ x = 5 \/ x = 6 \/ x = 7 \/ x = 8 \/ x = 9 \/ x = 10 \/ x = 11 \/ x = 12 \/ x = 13 \/ x = 14 \/ x = 15) by lia.
  repeat match goal with H : _ \/ _ |- _ => destruct H end; subst; vm_compute; repeat split; congruence.
Qed.
Lemma hex2_val b : is_byte b -> int_base16 (hex2 b) = Ok b.
Proof.
  unfold is_byte. intros H. unfold int_base16, hex2. cbn [mapM].
  rewrite (proj1 (hexd (b / 16) ltac:(lia))), (proj1 (hexd (b mod 16) ltac:(lia))). cbn [bind fold_left]. f_equal. lia.
Qed.
Definition nosep (s : list Z) := ~ In 58 s /\ ~ In 45 s /\ ~ In 46 s.
Lemma nosep_hex2 b : is_byte b -> nosep (hex2 b).
Proof.
  unfold is_byte. intros H. destruct (hexd (b / 16) ltac:(lia)) as (_ & A1 & A2 & A3).
  destruct (hexd (b mod 16) ltac:(lia)) as (_ & B1 & B2 & B3). unfold nosep, hex2; cbn. tauto.
Qed.
Lemma nosep_app a b : nosep a -> nosep b -> nosep (a ++ b).
Proof. unfold nosep. rewrite !in_app_iff. tauto. Qed.
Lemma split_all_join c l : Forall (fun s => ~ In c s) l -> l <> [] -> split_all c (join [c] l) = l.
Proof.
  induction 1 as [|x l H1 H2 IH]; intros Hne; [congruence|]. destruct l as [|y l].
  - cbn [join]. apply split_all_none; auto.
  - cbn [join app]. change (x ++ [c] ++ join [c] (y :: l)) with (x ++ c :: join [c] (y :: l)).
    rewrite split_all_app by auto. f_equal. apply IH. discriminate.
Qed.
Lemma In_join c sep l : ~ In c sep -> Forall (fun s => ~ In c s) l -> ~ In c (join sep l).
Proof.
  intros Hs. induction 1 as [|x l H1 H2 IH]; [auto|]. destruct l as [|y l]; [auto|].
  change (join sep (x :: y :: l)) with (x ++ sep ++ join sep (y :: l)). rewrite !in_app_iff. tauto.
Qed.
Lemma macaddr_unpack_ok d : length d = 6%nat -> macaddr_unpack d = Ok (join [58] (map hex2 d)).
Proof. intros H. unfold macaddr_unpack, len. rewrite H. reflexivity. Qed.

(** the six spellings of the PostgreSQL manual *)
Definition mac_forms (a b c d e f : Z) : list (list Z) :=
  let h := hex2 in
  [ join [58] (map h [a;b;c;d;e;f]);  join [45] (map h [a;b;c;d;e;f]);
    join [58] [h a ++ h b ++ h c; h d ++ h e ++ h f];  join [45] [h a ++ h b ++ h c; h d ++ h e ++ h f];
    join [46] [h a ++ h b; h c ++ h d; h e ++ h f];  h a ++ h b ++ h c ++ h d ++ h e ++ h f ].
Lemma macaddr_pack_forms a b c d e f s : is_bytes [a;b;c;d;e;f] -> In s (mac_forms a b c d e f) ->
  macaddr_pack s = Ok [a;b;c;d;e;f].
Proof.
  intros Hb Hin. unfold is_bytes in Hb.
  assert (Hbytes : mk_bytes [a;b;c;d;e;f] = Ok [a;b;c;d;e;f]).
  { unfold mk_bytes. destruct (is_bytesb [a;b;c;d;e;f]) eqn:E; [reflexivity|]. apply is_bytesb_spec in Hb. congruence. }
  repeat (match goal with H : Forall _ (_ :: _) |- _ => apply Forall_cons_iff in H as [? H] end). clear Hb.
  assert (N : forall x y, is_byte x -> is_byte y -> nosep (hex2 x ++ hex2 y)) by (intros; apply nosep_app; apply nosep_hex2; auto).
  assert (N3 : forall x y z, is_byte x -> is_byte y -> is_byte z -> nosep (hex2 x ++ hex2 y ++ hex2 z)) by (intros; repeat apply nosep_app; apply nosep_hex2; auto).
  assert (M : mapM int_base16 (map hex2 [a;b;c;d;e;f]) = Ok [a;b;c;d;e;f]).
  { cbn [map mapM]. rewrite !hex2_val by auto. reflexivity. }
  assert (S6 : Forall nosep (map hex2 [a;b;c;d;e;f])) by (repeat constructor; apply nosep_hex2; auto).
  assert (S2 : Forall nosep [hex2 a ++ hex2 b ++ hex2 c; hex2 d ++ hex2 e ++ hex2 f]) by (repeat constructor; apply N3; auto).
  assert (S3 : Forall nosep [hex2 a ++ hex2 b; hex2 c ++ hex2 d; hex2 e ++ hex2 f]) by (repeat constructor; apply N; auto).
  assert (W : forall q, In q [58;45;46] -> forall l, Forall nosep l -> Forall (fun s => ~ In q s) l).
  { intros q Hq l Hl. eapply Forall_impl; [|exact Hl]. unfold nosep. cbn in Hq. intuition; subst; auto. }
  assert (NI : forall q r l, In q [58;45;46] -> q <> r -> Forall nosep l -> ~ In q (join [r] l)).
  { intros q r l Hq Hr Hl. apply In_join; [cbn; intuition|]. apply W; auto. }
  unfold mac_forms in Hin. cbn [In] in Hin. unfold macaddr_pack.
  destruct Hin as [<-|[<-|[<-|[<-|[<-|[<-|[]]]]]]].
  - rewrite (split_all_join 58) by (try discriminate; apply W; cbn; auto).
    cbn [map bind]. change [hex2 a; hex2 b; hex2 c; hex2 d; hex2 e; hex2 f] with (map hex2 [a;b;c;d;e;f]). rewrite M. exact Hbytes.
  - rewrite (split_all_join 45) by (try discriminate; apply W; cbn; auto).
    rewrite (split_all_none _ 58) by (apply NI; cbn; auto; lia).
    cbn [map bind]. change [hex2 a; hex2 b; hex2 c; hex2 d; hex2 e; hex2 f] with (map hex2 [a;b;c;d;e;f]). rewrite M. exact Hbytes.
  - rewrite (split_all_join 58) by (try discriminate; apply W; cbn; auto).
    rewrite (split_all_none _ 45) by (apply NI; cbn; auto; lia).
    cbn [bind hex2 app firstn skipn]. change [?x; ?y] with [x; y].
    change (mapM int_base16 _) with (mapM int_base16 (map hex2 [a;b;c;d;e;f])). rewrite M. exact Hbytes.
  - rewrite (split_all_join 45) by (try discriminate; apply W; cbn; auto).
    rewrite (split_all_none _ 58) by (apply NI; cbn; auto; lia).
    cbn [bind hex2 app firstn skipn].
    change (mapM int_base16 _) with (mapM int_base16 (map hex2 [a;b;c;d;e;f])). rewrite M. exact Hbytes.
  - rewrite (split_all_join 46) by (try discriminate; apply W; cbn; auto).
    rewrite (split_all_none _ 58) by (apply NI; cbn; auto; lia).
    rewrite (split_all_none _ 45) by (apply NI; cbn; auto; lia).
    cbn [bind hex2 app firstn skipn].
    change (mapM int_base16 _) with (mapM int_base16 (map hex2 [a;b;c;d;e;f])). rewrite M. exact Hbytes.
  - assert (NS : nosep (hex2 a ++ hex2 b ++ hex2 c ++ hex2 d ++ hex2 e ++ hex2 f)) by (repeat apply nosep_app; apply nosep_hex2; auto).
    destruct NS as (N1 & N2 & N4).
    rewrite (split_all_none _ 58) by auto. rewrite (split_all_none _ 45) by auto. rewrite (split_all_none _ 46) by auto.
    cbn [bind hex2 app firstn skipn].
    change (mapM int_base16 _) with (mapM int_base16 (map hex2 [a;b;c;d;e;f])). rewrite M. exact Hbytes.
Qed.

Lemma hexbyte_hex2 b : is_byte b -> hexbyte b = hex2 b.
Proof.
  intros H. assert (D : forall x, 0 <= x < 16 -> nth (Z.to_nat x) hexdigits 0 = hex_digit x).
  { intros x Hx. assert (x = 0 \/ x = 1 \/ x = 2 \/ x = 3 \/ x = 4 \/ x = 5 \/ x = 6 \/ x = 7 \/ x = 8 \/ x = 9 \/ x = 10 \/ x = 11 \/ x = 12 \/ x = 13 \/ x = 14 \/ x = 15) by lia.
    repeat match goal with H : _ \/ _ |- _ => destruct H end; subst; reflexivity. }
  unfold hexbyte, hex2. unfold is_byte in H. rewrite !D by lia. reflexivity.
Qed.
Lemma spellings_forms a b c d e f : is_bytes [a;b;c;d;e;f] -> mac_spellings a b c d e f = mac_forms a b c d e f.
Proof.
  intros H. unfold is_bytes in H.
  repeat (match goal with H : Forall _ (_ :: _) |- _ => apply Forall_cons_iff in H as [? H] end).
  unfold mac_spellings, mac_colon, mac_dash. rewrite !hexbyte_hex2 by assumption.
  unfold mac_forms. cbn [join map]. rewrite <- !app_assoc. reflexivity.
Qed.
Lemma macaddr_pack_spellings a b c d e f s : is_bytes [a;b;c;d;e;f] -> In s (mac_spellings a b c d e f) ->
  macaddr_pack s = Ok [a;b;c;d;e;f].
Proof. intros H Hs. rewrite spellings_forms in Hs by exact H. apply macaddr_pack_forms; auto. Qed.
Lemma macaddr_unpack_colon a b c d e f : is_bytes [a;b;c;d;e;f] ->
  macaddr_unpack [a;b;c;d;e;f] = Ok (mac_colon a b c d e f).
Proof.
  intros H. rewrite macaddr_unpack_ok by reflexivity. f_equal.
  pose proof (spellings_forms _ _ _ _ _ _ H) as E. apply (f_equal (hd [])) in E. symmetry. exact E.
Qed.

(** oidvector and int2vector: the words of a vector *)
Lemma words_u (k : nat) (d : bytes) : is_bytes d -> (length d = k * 4)%nat ->
  exists ws, d = concat ws /\ Forall2 (fun w x => unsigned 4 w x) ws (unpack_Ls k d).
Proof.
  revert d. induction k as [|k IH]; intros d B L.
  - destruct d; [|discriminate]. exists []. split; [reflexivity|constructor].
  - destruct (IH (skipn 4 d)) as (ws & E & F).
    + apply Forall_forall. intros x I. eapply Forall_forall; [exact B|]. rewrite <- (firstn_skipn 4 d). apply in_or_app. auto.
    + rewrite skipn_length. lia.
    + exists (firstn 4 d :: ws). cbn [concat unpack_Ls]. rewrite <- E, firstn_skipn. split; [reflexivity|]. constructor; [|exact F].
      split; [apply firstn_length_le; lia|]. split; [|apply be_value_unbe].
      apply Forall_forall. intros x I. eapply Forall_forall; [exact B|]. rewrite <- (firstn_skipn 4 d). apply in_or_app. auto.
Qed.
Lemma words_s (k : nat) (d : bytes) : is_bytes d -> (length d = k * 2)%nat ->
  exists ws, d = concat ws /\ Forall2 (fun w x => twos 2 w x) ws (map (to_signed 2) (parse_pairs2 k d)).
Proof.
  revert d. induction k as [|k IH]; intros d B L.
  - destruct d; [|discriminate]. exists []. split; [reflexivity|constructor].
  - destruct (IH (skipn 2 d)) as (ws & E & F).
    + apply Forall_forall. intros x I. eapply Forall_forall; [exact B|]. rewrite <- (firstn_skipn 2 d). apply in_or_app. auto.
    + rewrite skipn_length. lia.
    + exists (firstn 2 d :: ws). cbn [concat parse_pairs2 map]. rewrite <- E, firstn_skipn. split; [reflexivity|]. constructor; [|exact F].
      assert (L2 : length (firstn 2 d) = 2%nat) by (apply firstn_length_le; lia).
      assert (B2 : is_bytes (firstn 2 d)).
      { apply Forall_forall. intros x I. eapply Forall_forall; [exact B|]. rewrite <- (firstn_skipn 2 d). apply in_or_app. auto. }
      apply signed_unpack_iff; auto. unfold unpack_s, unpack_u. rewrite L2. cbn [Nat.ltb Nat.leb bind]. 
      rewrite firstn_all2 by lia. reflexivity.
Qed.
