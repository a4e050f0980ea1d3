From Verif Require Import Base BaseProof PBufferModel PBufferSpec PBufferProof Element3Model Element3Spec.

Lemma split1_app a b c : ~ In c a -> split1 c (a ++ c :: b) = Some (a, b).
Proof.
  induction a as [|x a IH]; intros H; cbn [app split1].
  - rewrite Z.eqb_refl. reflexivity.
  - destruct (Z.eqb_spec x c) as [->|N]; [exfalso; apply H; left; auto|].
    rewrite IH; [reflexivity|]. intros Hi; apply H; right; auto.
Qed.
Lemma split1_none a c : ~ In c a -> split1 c a = None.
Proof.
  induction a as [|x a IH]; intros H; cbn [split1]; [reflexivity|].
  destruct (Z.eqb_spec x c) as [->|N]; [exfalso; apply H; left; auto|].
  rewrite IH; [reflexivity|]. intros Hi; apply H; right; auto.
Qed.
Lemma split_all_app a b c : ~ In c a -> split_all c (a ++ c :: b) = a :: split_all c b.
Proof.
  induction a as [|x a IH]; intros H; cbn [app split_all].
  - rewrite Z.eqb_refl. reflexivity.
  - destruct (Z.eqb_spec x c) as [->|N]; [exfalso; apply H; left; auto|].
    rewrite IH; [reflexivity|]. intros Hi; apply H; right; auto.
Qed.
Lemma split_all_none a c : ~ In c a -> split_all c a = [a].
Proof.
  induction a as [|x a IH]; intros H; cbn [split_all]; [reflexivity|].
  destruct (Z.eqb_spec x c) as [->|N]; [exfalso; apply H; left; auto|].
  rewrite IH; [reflexivity|]. intros Hi; apply H; right; auto.
Qed.
Lemma splitn2_app a b r c : ~ In c a -> ~ In c b -> splitn 2 c (a ++ [c] ++ b ++ [c] ++ r) = [a; b; r].
Proof.
  intros Ha Hb. cbn [splitn app]. rewrite split1_app by auto. rewrite split1_app by auto. reflexivity.
Qed.

Lemma rstrip0_snoc d : rstrip0 (d ++ [0]) = rstrip0 d.
Proof. induction d as [|x d IH]; cbn [app rstrip0]; [reflexivity|]. rewrite IH. reflexivity. Qed.
Lemma rstrip0_id d : (forall r, d <> r ++ [0]) -> rstrip0 d = d.
Proof.
  induction d as [|x d IH]; intros H; cbn [rstrip0]; [reflexivity|].
  destruct d as [|y d].
  - cbn. destruct (Z.eqb_spec x 0) as [->|N]; [|reflexivity]. exfalso. apply (H []). reflexivity.
  - rewrite IH; [reflexivity|]. intros r E. apply (H (x :: r)). cbn. f_equal. exact E.
Qed.

Lemma parse_string_app d : parse_string (d ++ [0]) = Ok d.
Proof. unfold parse_string. rewrite rev_app_distr. cbn. rewrite rev_involutive. reflexivity. Qed.

Lemma dict_set_new {V} k (v : V) d : ~ In k (map fst d) -> dict_set k v d = d ++ [(k, v)].
Proof.
  induction d as [|[k' v'] d IH]; intros H; cbn in *; [reflexivity|].
  destruct (seqb k' k) eqn:E.
  - apply seqb_eq in E. subst. tauto.
  - rewrite IH; auto.
Qed.
Lemma dict_of_acc {V} (l acc : list (bytes * V)) : NoDup (map fst (acc ++ l)) ->
  fold_left (fun d kv => dict_set (fst kv) (snd kv) d) l acc = acc ++ l.
Proof.
  revert acc; induction l as [|[k v] l IH]; intros acc H; cbn [fold_left fst snd].
  - rewrite app_nil_r. reflexivity.
  - rewrite dict_set_new.
    + rewrite IH; rewrite <- app_assoc; auto.
    + rewrite map_app in H. cbn in H. apply NoDup_remove_2 in H.
      intros Hi. apply H. apply in_or_app; left; auto.
Qed.
Lemma dict_of_nodup {V} (l : list (bytes * V)) : NoDup (map fst l) -> dict_of l = l.
Proof. intros H. unfold dict_of. rewrite dict_of_acc; auto. Qed.

Lemma pack_u4 x : u32 x -> pack_u 4 x = Ok (be 4 x).
Proof. intros H. apply pack_u_ok. exact H. Qed.
Lemma pack_u2 x : u16 x -> pack_u 2 x = Ok (be 2 x).
Proof. intros H. apply pack_u_ok. exact H. Qed.
Lemma unpack_u_be' n x : 0 <= x < 256 ^ Z.of_nat n -> unpack_u n (be n x) = Ok x.
Proof. intros H. rewrite <- (app_nil_r (be n x)). apply unpack_u_be; auto. Qed.
Lemma firstn_be n x r : firstn n (be n x ++ r) = be n x.
Proof. apply firstn_app_exact, be_length. Qed.
Lemma skipn_be n x r : skipn n (be n x ++ r) = r.
Proof. apply skipn_app_exact, be_length. Qed.
Lemma len_u16 {A} (l : list A) : len l < 2 ^ 16 -> u16 (len l).
Proof. intros H. split; [apply len_nonneg|auto]. Qed.
Lemma to_nat_len {A} (l : list A) : Z.to_nat (len l) = length l.
Proof. unfold len. apply Nat2Z.id. Qed.
Lemma take_app_len {A} (l r : list A) : take (len l) (l ++ r) = l.
Proof. rewrite take_firstn, to_nat_len. apply firstn_app_exact; auto. Qed.
Lemma slice_app_len {A} (l r : list A) : slice_from (len l) (l ++ r) = r.
Proof. rewrite slice_from_skipn, to_nat_len. apply skipn_app_exact; auto. Qed.

Lemma unpack_Ls_concat l x r : Forall u32 l -> mapM (pack_u 4) l = Ok x ->
  unpack_Ls (length l) (concat x ++ r) = l /\ len (concat x) = len l * 4.
Proof.
  revert x; induction l as [|y l IH]; intros x Hl H; cbn [mapM] in H.
  - inv H. auto.
  - inv Hl. rewrite pack_u4 in H by auto. cbn [bind] in H. binv H. inv H.
    destruct (IH _ H3 E) as [I1 I2]. cbn [concat length unpack_Ls].
    rewrite <- app_assoc, firstn_be, skipn_be, I1. rewrite unbe_be by exact H2.
    rewrite len_app, len_be, I2, len_cons. split; auto. lia.
Qed.
Lemma mapM_pack_ok n l : Forall (fun x => 0 <= x < 256 ^ Z.of_nat n) l -> mapM (pack_u n) l = Ok (map (be n) l).
Proof.
  induction 1 as [|x l H1 H2 IH]; cbn [mapM map]; [reflexivity|].
  rewrite pack_u_ok by auto. cbn [bind]. rewrite IH. reflexivity.
Qed.
Lemma parse_pairs2_concat l r : Forall u16 l ->
  parse_pairs2 (length l) (concat (map (be 2) l) ++ r) = l /\ len (concat (map (be 2) l)) = len l * 2.
Proof.
  induction 1 as [|x l H1 H2 [I1 I2]]; cbn [length parse_pairs2 map concat]; [auto|].
  rewrite <- app_assoc, firstn_be, skipn_be, I1, unbe_be by exact H1.
  rewrite len_app, len_be, I2, len_cons. split; auto. lia.
Qed.
Lemma unpack_2s_concat l : Forall wf_format l -> unpack_2s (length l) (concat l) = Ok l /\ len (concat l) = 2 * len l.
Proof.
  induction 1 as [|x l H1 H2 [I1 I2]]; cbn [length unpack_2s concat]; [auto|].
  unfold wf_format in H1. rewrite app_length, H1.
  destruct (Nat.ltb_spec (2 + length (concat l)) 2); [lia|].
  rewrite skipn_app_exact, I1, firstn_app_exact by auto. cbn [bind].
  rewrite len_app, I2, len_cons. split; [reflexivity|]. unfold len at 1. rewrite H1. lia.
Qed.

Lemma nullmark_be (d : bytes) : len d < 2 ^ 32 - 1 -> seqb (be 4 (len d)) nullmark = false.
Proof.
  intros H. apply seqb_neq. intros E. pose proof (len_nonneg d).
  assert (unbe (be 4 (len d)) = unbe nullmark) by (f_equal; exact E).
  rewrite unbe_be in H1 by (cbn; lia). assert (E3 : unbe nullmark = 4294967295) by reflexivity. lia.
Qed.

Lemma pack_att_ok a : wf_att a -> exists x, pack_att a = Ok x.
Proof.
  destruct a as [d|]; cbn; [|eauto]. intros H. pose proof (len_nonneg d).
  rewrite pack_u4 by (unfold u32; lia). cbn. eauto.
Qed.
Lemma pack_tuple_data_ok l : Forall wf_att l -> exists x, pack_tuple_data l = Ok x.
Proof.
  unfold pack_tuple_data. induction 1 as [|a l H1 H2 [x IH]]; [cbn; eauto|].
  cbn [mapM]. destruct (pack_att_ok a H1) as [y ->]. cbn [bind].
  apply bind_Ok in IH as [z [-> _]]. cbn. eauto.
Qed.

Lemma parse_atts_pack l x r : Forall wf_att l -> pack_tuple_data l = Ok x ->
  parse_atts (length l) (x ++ r) = Ok (l, r).
Proof.
  unfold pack_tuple_data. intros Hl H. binv H. inv H. revert a E.
  induction Hl as [|y l H1 H2 IH]; intros x H; cbn [mapM] in H.
  - inv H. reflexivity.
  - binv H. binv H. inv H. specialize (IH _ E0). cbn [length parse_atts concat].
    rewrite <- app_assoc.
    destruct y as [d|]; cbn [pack_att] in E.
    + cbn in H1. pose proof (len_nonneg d).
      rewrite pack_u4 in E by (unfold u32; lia). cbn [bind] in E. okinv E.
      rewrite <- app_assoc, firstn_be, skipn_be, nullmark_be by auto.
      rewrite unpack_u_be' by (cbn; lia). cbn [bind].
      rewrite slice_app_len, take_app_len, IH. reflexivity.
    + inv E. cbn [app nullmark firstn skipn]. rewrite seqb_refl.
      unfold nullmark. cbn [app firstn skipn]. rewrite IH. reflexivity.
Qed.

Lemma pack_s_ok' n x : (0 < n)%nat -> - (256 ^ Z.of_nat n / 2) <= x < 256 ^ Z.of_nat n / 2 ->
  pack_s n x = Ok (be n (x mod 256 ^ Z.of_nat n)) /\ to_signed n (unbe (be n (x mod 256 ^ Z.of_nat n))) = x.
Proof.
  intros Hn H. split; [apply pack_s_ok; auto|].
  rewrite unbe_be by (apply Z.mod_pos_bound, pow256_pos). apply to_signed_mod; auto.
Qed.

Lemma parse_attdescs_pack l : Forall (fun a => nonul (an a) /\ u32 (arel a) /\ s16 (acol a) /\ u32 (atyp a) /\
                       s16 (alen a) /\ s32 (amod a) /\ s16 (afmt a)) l ->
  exists x, mapM pack_attdesc l = Ok x /\ parse_attdescs (length l) (concat x) = Ok l.
Proof.
  induction 1 as [|a l (Hn & Hr & Hc & Ht & Hl & Hm & Hf) H2 (x & E & IH)]; [exists []; auto|].
  destruct (pack_s_ok' 2 (acol a)) as [C1 C2]; [lia|exact Hc|].
  destruct (pack_s_ok' 2 (alen a)) as [L1 L2]; [lia|exact Hl|].
  destruct (pack_s_ok' 4 (amod a)) as [M1 M2]; [lia|exact Hm|].
  destruct (pack_s_ok' 2 (afmt a)) as [F1 F2]; [lia|exact Hf|].
  cbn [mapM]. rewrite E. unfold pack_attdesc.
  rewrite (pack_u4 _ Hr), (pack_u4 _ Ht), C1, L1, M1, F1. cbn [bind].
  eexists; split; [reflexivity|].
  cbn [length parse_attdescs concat]. rewrite <- !app_assoc. cbn [app].
  rewrite split1_app by exact Hn.
  pose proof (unbe_be 4 _ Hr) as R2. pose proof (unbe_be 4 _ Ht) as T2.
  set (c := be 2 _) in *. set (lb := be 2 (alen a mod _)) in *. set (f := be 2 (afmt a mod _)) in *.
  set (m := be 4 (amod a mod _)) in *. set (r := be 4 (arel a)) in *. set (t := be 4 (atyp a)) in *.
  pose proof (be_length 4 (arel a)) as Er. pose proof (be_length 4 (atyp a)) as Et.
  pose proof (be_length 2 (acol a mod 256 ^ Z.of_nat 2)) as Ec.
  pose proof (be_length 2 (alen a mod 256 ^ Z.of_nat 2)) as El.
  pose proof (be_length 2 (afmt a mod 256 ^ Z.of_nat 2)) as Ef.
  pose proof (be_length 4 (amod a mod 256 ^ Z.of_nat 4)) as Em.
  fold r in Er. fold t in Et. fold c in Ec. fold lb in El. fold f in Ef. fold m in Em.
  clearbody c lb f m r t.
  destruct r as [|r1 [|r2 [|r3 [|r4 [|]]]]]; try discriminate Er.
  destruct t as [|t1 [|t2 [|t3 [|t4 [|]]]]]; try discriminate Et.
  destruct m as [|m1 [|m2 [|m3 [|m4 [|]]]]]; try discriminate Em.
  destruct c as [|c1 [|c2 [|]]]; try discriminate Ec.
  destruct lb as [|l1 [|l2 [|]]]; try discriminate El.
  destruct f as [|f1 [|f2 [|]]]; try discriminate Ef.
  cbn [app firstn length skipn Nat.eqb]. rewrite IH. cbn [bind].
  rewrite R2, T2, C2, L2, M2, F2. destruct a; reflexivity.
Qed.

Lemma split_all_join0 l : Forall nonul l -> l <> [] -> split_all 0 (join [0] l ++ [0]) = l ++ [[]].
Proof.
  induction 1 as [|x l H1 H2 IH]; intros Hne; [congruence|].
  destruct l as [|y l].
  - cbn [join]. rewrite split_all_app by exact H1. reflexivity.
  - cbn [join]. rewrite <- !app_assoc. cbn [app]. rewrite split_all_app by exact H1.
    cbn [app]. f_equal. apply IH. congruence.
Qed.

Lemma split_all_startup d : Forall (fun kv => nonul (fst kv) /\ nonul (snd kv)) d ->
  split_all 0 (concat (map (fun kv => fst kv ++ [0] ++ snd kv ++ [0]) d) ++ [0])
  = flat_map (fun kv => [fst kv; snd kv]) d ++ [[]; []].
Proof.
  induction 1 as [|[k v] d [H1 H2] H3 IH]; cbn [map concat flat_map fst snd app] in *.
  - reflexivity.
  - rewrite <- !app_assoc. cbn [app]. rewrite <- app_assoc. rewrite split_all_app by exact H1. cbn [app].
    rewrite split_all_app by exact H2. rewrite IH. reflexivity.
Qed.
Lemma pair_up_flat (d : list (bytes * bytes)) : pair_up (flat_map (fun kv => [fst kv; snd kv]) d) = d.
Proof. induction d as [|[k v] d IH]; cbn; [reflexivity|]. rewrite IH. reflexivity. Qed.
Lemma drop_last2_app {A} (l : list A) a b : drop_last2 (l ++ [a; b]) = l.
Proof. unfold drop_last2. rewrite app_length. cbn [length].
  replace (length l + 2 - 2)%nat with (length l) by lia. apply firstn_app_exact; auto. Qed.

Lemma seqb_first_be n x r : seqb (firstn n (be n x ++ r)) (be n x) = true.
Proof. rewrite firstn_be. apply seqb_refl. Qed.

Lemma parse_serialize m : wf_message m -> exists d, serialize m = Ok d /\ parse (kind_of m) d = Ok m.
Proof.
  intros H. destruct m; cbn [wf_message] in H; cbn [serialize kind_of parse].
  - (* Notify *) destruct H as (Hp & Hc & Hl). rewrite pack_u4 by auto. cbn [bind]. eexists; split; [reflexivity|].
    rewrite unpack_u_be by exact Hp. cbn [bind]. rewrite skipn_be.
    change (channel ++ [0] ++ payload ++ [0]) with (channel ++ [0] ++ payload ++ [0] ++ []).
    rewrite splitn2_app by auto. reflexivity.
  - (* ShowOption *) destruct H as (Hn & Hv). eexists; split; [reflexivity|].
    change (name ++ [0] ++ value ++ [0]) with (name ++ [0] ++ value ++ [0] ++ []).
    rewrite splitn2_app by auto. reflexivity.
  - (* Complete *) eexists; split; [reflexivity|]. rewrite rstrip0_snoc, rstrip0_id by auto. reflexivity.
  - (* Empty *) eexists; split; reflexivity.
  - (* Ready *) eexists; split; [reflexivity|]. destruct H as [-> | [-> | ->] ]; reflexivity.
  - (* Notice *) destruct H as (Hd & Hf). eexists; split; [reflexivity|].
    assert (Ef : filter (fun kv : bytes * bytes => negb (seqb (fst kv) [])) d = d).
    { clear Hd. induction Hf as [|[k v] d (Hk & _) H2 IH]; cbn; auto.
      destruct k; [discriminate|]. cbn. rewrite IH. reflexivity. }
    rewrite Ef. f_equal. f_equal.
    assert (Es : filter (fun x => negb (seqb x []))
        (split_all 0 (join [0] (map (fun kv : bytes * bytes => fst kv ++ snd kv) d) ++ [0]))
        = map (fun kv : bytes * bytes => fst kv ++ snd kv) d).
    { destruct d as [|kv d]; [reflexivity|].
      rewrite split_all_join0.
      - rewrite filter_app. cbn [filter seqb negb]. rewrite app_nil_r.
        clear Hd Ef. induction Hf as [|[k v] l (Hk & _) H2 IH]; cbn [map filter fst snd]; auto.
        destruct k; [discriminate|]. cbn [app seqb negb]. rewrite IH. reflexivity.
      - apply Forall_map. apply (Forall_impl _ (P := fun kv => length (fst kv) = 1%nat /\ nonul (fst kv) /\ nonul (snd kv))); auto.
        intros [k v] (_ & H1 & H2) Hi. cbn in *. apply in_app_or in Hi. destruct Hi; auto.
      - discriminate. }
    rewrite Es, map_map.
    assert (Em : map (fun x : bytes * bytes => (firstn 1 (fst x ++ snd x), skipn 1 (fst x ++ snd x))) d = d).
    { clear - Hf. induction Hf as [|[k v] l (Hk & _) H2 IH]; cbn [map fst snd]; auto.
      rewrite firstn_app_exact, skipn_app_exact, IH by exact Hk. reflexivity. }
    rewrite Em. apply dict_of_nodup; auto.
  - (* FunctionResult *) destruct r as [d|].
    + cbn in H. pose proof (len_nonneg d). rewrite pack_u4 by (unfold u32; lia). cbn [bind].
      eexists; split; [reflexivity|].
      destruct (seqb (be 4 (len d) ++ d) nullmark) eqn:E.
      * exfalso. apply seqb_eq in E. assert (E2 : firstn 4 (be 4 (len d) ++ d) = nullmark) by (rewrite E; reflexivity).
        rewrite firstn_be in E2. pose proof (nullmark_be d H) as N. rewrite E2, seqb_refl in N. discriminate.
      * rewrite firstn_be, skipn_be. rewrite unpack_u_be' by (cbn; lia). cbn [bind].
        rewrite Z.eqb_refl. reflexivity.
    + eexists; split; reflexivity.
  - (* AttributeTypes *) destruct H as (Hn & Hl). rewrite pack_u2 by (apply len_u16; auto). cbn [bind].
    rewrite (mapM_pack_ok 4) by exact Hl. cbn [bind]. eexists; split; [reflexivity|].
    rewrite firstn_be, skipn_be, unpack_u_be' by (apply len_u16; auto). cbn [bind].
    destruct (unpack_Ls_concat l _ [] Hl (mapM_pack_ok 4 l Hl)) as [E1 E2].
    rewrite app_nil_r in E1. rewrite E2, Z.eqb_refl, to_nat_len, E1. reflexivity.
  - (* TupleDescriptor *) destruct H as (Hn & Hl). rewrite pack_u2 by (apply len_u16; auto). cbn [bind].
    destruct (parse_attdescs_pack l Hl) as (x & -> & E). cbn [bind]. eexists; split; [reflexivity|].
    rewrite firstn_be, skipn_be, unpack_u_be' by (apply len_u16; auto). cbn [bind].
    rewrite to_nat_len, E. reflexivity.
  - (* Tuple *) destruct H as (Hn & Hl). rewrite pack_u2 by (apply len_u16; auto). cbn [bind].
    destruct (pack_tuple_data_ok l Hl) as (x & E). rewrite E. cbn [bind]. eexists; split; [reflexivity|].
    rewrite firstn_be, skipn_be, unpack_u_be' by (apply len_u16; auto). cbn [bind].
    rewrite to_nat_len. pose proof (parse_atts_pack l x [] Hl E) as E1. rewrite app_nil_r in E1. rewrite E1. reflexivity.
  - (* KillInformation *) destruct H as (Hp & Hk). rewrite !pack_u4 by auto. cbn [bind]. eexists; split; [reflexivity|].
    rewrite app_length, !be_length. cbn [Nat.add Nat.eqb].
    rewrite firstn_be, skipn_be, !unbe_be by (exact Hp || exact Hk). reflexivity.
  - (* CancelRequest *) destruct H as (Hp & Hk). rewrite !pack_u4 by auto. cbn [bind]. eexists; split; [reflexivity|].
    rewrite (firstn_app_exact cancel_code) by reflexivity. rewrite seqb_refl. cbn [negb].
    rewrite (skipn_app_exact cancel_code) by reflexivity.
    rewrite app_length, !be_length. cbn [Nat.add Nat.eqb].
    rewrite firstn_be, skipn_be, !unbe_be by (exact Hp || exact Hk). reflexivity.
  - (* NegotiateSSL *) eexists; split; reflexivity.
  - (* Startup *) destruct H as (Hd & Hf). eexists; split; [reflexivity|].
    rewrite (firstn_app_exact v3_0) by reflexivity. rewrite seqb_refl. cbn [negb].
    rewrite (skipn_app_exact v3_0) by reflexivity.
    rewrite split_all_startup, drop_last2_app, pair_up_flat, dict_of_nodup by auto. reflexivity.
  - (* Authentication *) rewrite pack_u4 by auto. cbn [bind]. eexists; split; [reflexivity|].
    rewrite firstn_be, skipn_be, unpack_u_be' by exact H. reflexivity.
  - (* String *) eexists; split; [reflexivity|]. rewrite parse_string_app. reflexivity.
  - (* Parse *) destruct H as (Hn & Hs & Ha & Hl). rewrite pack_u2 by (apply len_u16; auto). cbn [bind].
    rewrite (mapM_pack_ok 4) by exact Hl. cbn [bind]. eexists; split; [reflexivity|].
    rewrite splitn2_app by auto.
    rewrite firstn_be, skipn_be, unpack_u_be' by (apply len_u16; auto). cbn [bind].
    destruct (unpack_Ls_concat argtypes _ [] Hl (mapM_pack_ok 4 argtypes Hl)) as [E1 E2].
    rewrite app_nil_r in E1. rewrite E2, Z.eqb_refl, to_nat_len, E1. reflexivity.
  - (* Bind *) destruct H as (Hn & Hs & Hal & Haf & (Hac & Hat) & Hrn & Hrf).
    rewrite (pack_u2 (len args)) by (apply len_u16; auto). cbn [bind].
    destruct (pack_tuple_data_ok args Hat) as (x & E). rewrite E. cbn [bind].
    rewrite (pack_u2 (len rformats)) by (apply len_u16; auto). cbn [bind]. eexists; split; [reflexivity|].
    rewrite splitn2_app by auto.
    rewrite firstn_be, unpack_u_be' by (apply len_u16; auto). cbn [bind].
    rewrite skipn_be.
    assert (Hl2 : len aformats = len args) by (unfold len; lia).
    destruct (unpack_2s_concat aformats Haf) as [F1 F2]. rewrite Hl2 in F2.
    rewrite <- F2 at 1. rewrite take_app_len, to_nat_len, <- Hal, F1. cbn [bind].
    replace (2 + 2 * len args) with (len (be 2 (len args) ++ concat aformats))
      by (rewrite len_app, len_be, F2; lia).
    rewrite (app_assoc (be 2 (len args)) (concat aformats)), slice_app_len.
    rewrite firstn_be, skipn_be, unpack_u_be' by (apply len_u16; auto). cbn [bind].
    rewrite to_nat_len, (parse_atts_pack args x _ Hat E). cbn [bind fst snd].
    rewrite firstn_be, skipn_be, unpack_u_be' by (apply len_u16; auto). cbn [bind].
    destruct (unpack_2s_concat rformats Hrf) as [G1 G2].
    rewrite <- G2 at 1. rewrite <- (app_nil_r (concat rformats)) at 2. rewrite take_app_len, to_nat_len, G1. reflexivity.
  - (* Execute *) destruct H as (Hn & Hm). rewrite pack_u4 by auto. cbn [bind]. eexists; split; [reflexivity|].
    cbn [splitn app]. rewrite split1_app by auto. rewrite unpack_u_be' by exact Hm. reflexivity.
  - (* Describe *) eexists; split; [reflexivity|]. cbn [app firstn skipn]. rewrite seqb_refl, parse_string_app. reflexivity.
  - (* Close *) eexists; split; [reflexivity|]. cbn [app firstn skipn]. rewrite seqb_refl, parse_string_app. reflexivity.
  - (* Function *) destruct H as (Ho & Hal & Haf & (Hac & Hat)).
    rewrite (pack_u2 (len args)) by (apply len_u16; auto). cbn [bind].
    rewrite pack_u4 by auto. cbn [bind].
    destruct (pack_tuple_data_ok args Hat) as (x & E). rewrite E. cbn [bind]. eexists; split; [reflexivity|].
    rewrite firstn_be, unpack_u_be' by exact Ho. cbn [bind]. rewrite skipn_be.
    rewrite firstn_be, unpack_u_be' by (apply len_u16; auto). cbn [bind].
    change 6%nat with (4 + 2)%nat at 1. rewrite skipn_plus, !skipn_be.
    assert (Hl2 : len aformats = len args) by (unfold len; lia).
    destruct (unpack_2s_concat aformats Haf) as [F1 F2]. rewrite Hl2 in F2.
    rewrite <- F2 at 1. rewrite take_app_len, to_nat_len, <- Hal, F1. cbn [bind].
    replace (6 + 2 * len args) with (len (be 4 oid ++ be 2 (len args) ++ concat aformats))
      by (rewrite !len_app, !len_be, F2; lia).
    replace (be 4 oid ++ be 2 (len args) ++ concat aformats ++ be 2 (len args) ++ x ++ rformat)
      with ((be 4 oid ++ be 2 (len args) ++ concat aformats) ++ be 2 (len args) ++ x ++ rformat)
      by (rewrite <- !app_assoc; reflexivity).
    rewrite slice_app_len.
    rewrite firstn_be, skipn_be, unpack_u_be' by (apply len_u16; auto). cbn [bind].
    rewrite to_nat_len, (parse_atts_pack args x _ Hat E). reflexivity.
  - (* CopyBegin *) destruct H as (Hf & Hn & Hl). rewrite pack_u_ok by exact Hf. cbn [bind].
    rewrite pack_u2 by (apply len_u16; auto). cbn [bind].
    rewrite (mapM_pack_ok 2) by exact Hl. cbn [bind]. eexists; split; [reflexivity|].
    assert (E3 : length (firstn 3 (be 1 format ++ be 2 (len formats) ++ concat (map (be 2) formats))) = 3%nat).
    { rewrite firstn_length, !app_length, !be_length. lia. }
    rewrite E3. cbn [Nat.eqb]. rewrite firstn_be, skipn_be, firstn_be.
    change 3%nat with (1 + 2)%nat. rewrite skipn_plus, !skipn_be.
    rewrite !unbe_be by (exact Hf || (apply len_u16; auto)).
    destruct (parse_pairs2_concat formats [] Hl) as [E1 E2]. rewrite app_nil_r in E1.
    rewrite E2, Z.eqb_refl, to_nat_len, E1. reflexivity.
  - eexists; split; reflexivity.
Qed.

(** ** framing *)
Lemma be_pack_s_small n x d : pack_s n x = Ok d -> 0 <= x -> d = be n x.
Proof.
  intros H Hx. apply pack_s_inv in H as [H ->]. f_equal. apply Z.mod_small.
  pose proof (pow256_pos n). split; [lia|]. 
  assert (256 ^ Z.of_nat n / 2 <= 256 ^ Z.of_nat n) by (apply Z.div_le_upper_bound; lia). lia.
Qed.

Lemma item_frame i d : typed i -> item_bytes i = Ok d -> is_bytes d ->
  exists m, denotes i m /\ wf_msg m /\ d = frame m.
Proof.
  intros Ht H Hb. destruct i as [m|r|l]; cbn [item_bytes] in H.
  - unfold message_bytes in H. binv H. binv H. cbn in Ht.
    destruct (type_of (kind_of m)) as [t|] eqn:Et; [|congruence]. okinv H.
    apply pack_u_inv in E0 as [E0 ->].
    exists (t, a). split; [constructor; auto|].
    apply Forall_cons_iff in Hb as [Hx Hb]. apply is_bytes_app in Hb as [_ H2].
    split; [|reflexivity]. unfold wf_msg; cbn [fst snd].
    change (256 ^ Z.of_nat 4) with (2 ^ 32) in E0. split; [auto|split; [auto|lia]].
  - binv H. pose proof (pack_s_inv _ _ _ E) as [Hr _]. change (256 ^ Z.of_nat 4 / 2) with (2 ^ 31) in Hr.
    pose proof (len_nonneg r).
    apply be_pack_s_small in E; [|lia]. subst a. okinv H. apply Forall_cons_iff in Hb as [Hx Hb]. apply is_bytes_app in Hb as [_ H4].
    exists (100, r). split; [constructor|]. split; [|reflexivity].
    unfold wf_msg; cbn [fst snd]. split; [auto|split; [auto|lia]].
  - binv H. binv H. binv H. okinv H.
    pose proof (pack_s_inv _ _ _ E0) as [Hr _]. change (256 ^ Z.of_nat 4 / 2) with (2 ^ 31) in Hr.
    pose proof (len_nonneg a).
    apply be_pack_s_small in E0; [|lia]. subst a0.
    pose proof (pack_u_inv _ _ _ E1) as [_ ->].
    exists (68, be 2 (len l) ++ a). split; [|split].
    + constructor. cbn [serialize]. rewrite E1. cbn [bind]. rewrite E. reflexivity.
    + unfold wf_msg; cbn [fst snd]. apply Forall_cons_iff in Hb as [Hx Hb]. apply is_bytes_app in Hb as [_ H3].
      rewrite len_app, len_be. split; [auto|split; [auto|lia]].
    + unfold frame; cbn [fst snd]. rewrite len_app, len_be.
      replace (Z.of_nat 2 + len a + 4) with (len a + 6) by lia. reflexivity.
Qed.

Lemma cat_messages_frames items d : Forall typed items -> cat_messages items = Ok d -> is_bytes d ->
  exists ms, Forall2 denotes items ms /\ Forall wf_msg ms /\ d = frames ms.
Proof.
  unfold cat_messages. intros Ht H Hb. binv H. inv H. revert a E Hb.
  induction Ht as [|i items Hi Hs IH]; intros x H Hb; cbn [mapM] in H.
  - inv H. exists []. repeat constructor.
  - binv H. binv H. inv H. cbn [concat] in Hb. apply is_bytes_app in Hb as [B1 B2].
    destruct (item_frame _ _ Hi E B1) as (m & M1 & M2 & ->).
    destruct (IH _ E0 B2) as (ms & N1 & N2 & N3).
    exists (m :: ms). split; [constructor; auto|]. split; [constructor; auto|].
    unfold frames in *. cbn [concat map]. f_equal. exact N3.
Qed.

Lemma nil_waiting : waiting [].
Proof. split; [intros (m & r & _ & E); unfold frame in E; discriminate|intros (t & n & r & E & _); discriminate]. Qed.

Lemma cat_messages_received items d chunks num : Forall typed items -> cat_messages items = Ok d ->
  Forall is_bytes chunks -> concat chunks = d -> len items <= num ->
  exists ms, Forall2 denotes items ms /\
    fst (pb_read num (snd (pb_run pb_init (writes chunks)))) = Ok ms /\
    fst (pb_getvalue (snd (pb_read num (snd (pb_run pb_init (writes chunks)))))) = [].
Proof.
  intros Ht H Hc E Hn.
  assert (Hb : is_bytes d).
  { subst d. clear - Hc. induction Hc as [|x l H1 H2 IH]; cbn; [constructor|].
    apply is_bytes_app; auto. }
  destruct (cat_messages_frames _ _ Ht H Hb) as (ms & M1 & M2 & M3).
  exists ms. split; auto.
  apply (buffer_delivers ms [] chunks [] [] pb_init num); auto.
  - rewrite E, app_nil_r. exact M3.
  - apply nil_waiting.
  - apply Forall2_len in M1. unfold len in *. lia.
Qed.

(** every message's length is right: no item is emitted when it does not fit *)
Lemma raw_too_big d : 2 ^ 31 - 4 <= len d -> item_bytes (IRaw d) = Err StructError.
Proof.
  intros H. cbn [item_bytes]. unfold pack_s. change (256 ^ Z.of_nat 4 / 2) with (2 ^ 31).
  destruct (_ && _) eqn:E; [lia|reflexivity].
Qed.

(** Tuple.parse on truncated data and on trailing data *)
Lemma tuple_truncated_accepted :
  (exists (d v : bytes), parse KTuple (be 2 1 ++ be 4 (len d) ++ v) = Ok (MTuple [Some v]) /\ len v < len d) /\ (exists r : bytes, r <> [] /\ parse KTuple (be 2 1 ++ be 4 1 ++ [7] ++ r) = Ok (MTuple [Some [7]])).
Proof.
  split.
  - exists [1;2;3;4;5;6;7;8;9;10], [7]. split; [vm_compute; reflexivity|unfold len; cbn; lia].
  - exists [1; 2]. split; [discriminate|vm_compute; reflexivity].
Qed.

Lemma bind_formats_unchecked : exists d, serialize (MBind [] [] [] [Some [1]] []) = Ok d /\
  parse KBind d <> Ok (MBind [] [] [] [Some [1]] []).
Proof. eexists. split; [reflexivity|]. intros H. vm_compute in H. discriminate. Qed.

Lemma nul_unchecked : exists d, serialize (MParse [97] [98; 0; 99] []) = Ok d /\ parse KParse d <> Ok (MParse [97] [98; 0; 99] []).
Proof. eexists. split; [reflexivity|]. intros H. vm_compute in H. discriminate. Qed.

(** extract_count: the tag "<words> <digits>" *)
Definition dec_digits (n : Z) (l : bytes) : Prop :=
  l <> [] /\ forallb is_digit l = true /\ digits_value l = n.
Lemma last_count_snoc l x : forallb is_digit x = true -> last_count (l ++ [x]) = Some (digits_value x).
Proof. intros H. induction l as [|y l IH]; cbn; [rewrite H; auto|rewrite IH; auto]. Qed.
Lemma fields_cons x xs : fields (x :: xs) =
  if is_space x then fields xs
  else match xs with
       | [] => [[x]]
       | y :: _ => if is_space y then [x] :: fields xs
                   else match fields xs with f :: fs => (x :: f) :: fs | [] => [[x]] end
       end.
Proof. reflexivity. Qed.
Lemma fields_word w : w <> [] -> forallb (fun c => negb (is_space c)) w = true -> fields w = [w].
Proof.
  induction w as [|x w IH]; intros Hne H; [congruence|]. cbn [forallb] in H.
  apply andb_true_iff in H as [H1 H2]. rewrite fields_cons.
  destruct (is_space x); [discriminate|]. destruct w as [|y w]; [reflexivity|].
  pose proof H2 as H3. cbn [forallb] in H3. apply andb_true_iff in H3 as [H3 _].
  destruct (is_space y); [discriminate|]. rewrite IH; auto; discriminate.
Qed.
Lemma fields_nonempty x l : is_space x = false -> fields (x :: l) <> [].
Proof.
  revert x; induction l as [|y l IH]; intros x H; rewrite fields_cons, H; [discriminate|].
  destruct (is_space y) eqn:E; [discriminate|]. destruct (fields (y :: l)); discriminate.
Qed.
Lemma fields_snoc p w : w <> [] -> forallb (fun c => negb (is_space c)) w = true ->
  fields (p ++ 32 :: w) = fields p ++ [w].
Proof.
  intros Hne Hw. induction p as [|x p IH]; cbn [app].
  - rewrite fields_cons. change (is_space 32) with true. cbn iota. apply fields_word; auto.
  - rewrite (fields_cons x p), (fields_cons x (p ++ 32 :: w)). destruct (is_space x) eqn:Ex; [exact IH|].
    destruct p as [|y p].
    + cbn [app]. change (is_space 32) with true. cbn iota.
      change (32 :: w) with ([] ++ 32 :: w). rewrite IH. reflexivity.
    + cbn [app]. cbn [app] in IH. destruct (is_space y) eqn:Ey.
      * rewrite IH. reflexivity.
      * rewrite IH. pose proof (fields_nonempty y p Ey) as Hn.
        destruct (fields (y :: p)); [congruence|]. reflexivity.
Qed.
Lemma extract_count_tag words n ds : dec_digits n ds -> extract_count (words ++ [32] ++ ds) = Some n.
Proof.
  intros (Hne & Hd & Hn). unfold extract_count. cbn [app]. rewrite fields_snoc.
  - rewrite last_count_snoc by auto. rewrite Hn. reflexivity.
  - auto.
  - rewrite forallb_forall in *. intros c Hc. specialize (Hd c Hc).
    unfold is_digit, is_space in *. lia.
Qed.
