(** Element3Wire.v: the serializers and parsers against the documented formats. *)
From Verif Require Import Base BaseProof PBufferModel PBufferSpec PBufferProof Element3Model Element3Spec Element3Proof.

Lemma be_u4 x : u32 x -> be 4 (x mod 2 ^ 32) = be 4 x.
Proof. unfold u32. intros H. rewrite Z.mod_small by lia. reflexivity. Qed.
Lemma be_u2 x : u16 x -> be 2 (x mod 2 ^ 16) = be 2 x.
Proof. unfold u16. intros H. rewrite Z.mod_small by lia. reflexivity. Qed.
Lemma u32s l : Forall u32 l -> concat (map field_bytes (map FI32 l)) = concat (map (be 4) l).
Proof. induction 1 as [|x l H _ IH]; [reflexivity|]. cbn [map concat field_bytes]. rewrite IH, be_u4 by auto. reflexivity. Qed.
Lemma u16s l : Forall u16 l -> concat (map field_bytes (map FI16 l)) = concat (map (be 2) l).
Proof. induction 1 as [|x l H _ IH]; [reflexivity|]. cbn [map concat field_bytes]. rewrite IH, be_u2 by auto. reflexivity. Qed.
Lemma bytess l : concat (map field_bytes (map FBytes l)) = concat l.
Proof. induction l as [|x l IH]; [reflexivity|]. cbn [map concat field_bytes]. rewrite IH. reflexivity. Qed.
Lemma pack_att_wire a x : wf_att a -> pack_att a = Ok x -> x = field_bytes (FValue a).
Proof.
  destruct a as [d|]; cbn [wf_att pack_att field_bytes]; intros H E.
  - pose proof (len_nonneg d). rewrite pack_u4 in E by (unfold u32; lia). cbn [bind] in E. injection E as <-.
    rewrite be_u4 by (unfold u32; lia). reflexivity.
  - injection E as <-. reflexivity.
Qed.
Lemma pack_tuple_wire l x : Forall wf_att l -> pack_tuple_data l = Ok x -> x = concat (map field_bytes (map FValue l)).
Proof.
  unfold pack_tuple_data. intros F E. apply bind_Ok in E as (y & E & E1). injection E1 as <-. revert y E.
  induction F as [|a l H F IH]; intros y E; cbn [mapM] in E; [injection E as <-; reflexivity|].
  apply bind_Ok in E as (z & E1 & E). apply bind_Ok in E as (zs & E2 & E). injection E as <-.
  cbn [concat map]. rewrite (pack_att_wire _ _ H E1), (IH _ E2). reflexivity.
Qed.
Lemma pack_s2 x d : s16 x -> pack_s 2 x = Ok d -> d = be 2 (x mod 2 ^ 16).
Proof. unfold s16. intros H E. apply pack_s_inv in E as [_ ->]. reflexivity. Qed.
Lemma pack_s4 x d : s32 x -> pack_s 4 x = Ok d -> d = be 4 (x mod 2 ^ 32).
Proof. unfold s32. intros H E. apply pack_s_inv in E as [_ ->]. reflexivity. Qed.
Lemma attdesc_wire a x : (nonul (an a) /\ u32 (arel a) /\ s16 (acol a) /\ u32 (atyp a) /\ s16 (alen a) /\ s32 (amod a) /\ s16 (afmt a)) ->
  pack_attdesc a = Ok x -> x = concat (map field_bytes [FStr (an a); FI32 (arel a); FI16 (acol a); FI32 (atyp a); FI16 (alen a); FI32 (amod a); FI16 (afmt a)]).
Proof.
  intros (_ & H1 & H2 & H3 & H4 & H5 & H6) E. unfold pack_attdesc in E. rewrite !pack_u4 in E by auto. cbn [bind] in E.
  apply bind_Ok in E as (c & E1 & E). apply bind_Ok in E as (l & E2 & E). apply bind_Ok in E as (m & E3 & E). apply bind_Ok in E as (f & E4 & E).
  injection E as <-. rewrite (pack_s2 _ _ H2 E1), (pack_s2 _ _ H4 E2), (pack_s4 _ _ H5 E3), (pack_s2 _ _ H6 E4).
  cbn [map concat field_bytes]. rewrite (be_u4 (arel a)), (be_u4 (atyp a)) by auto. rewrite <- !app_assoc, app_nil_r. reflexivity.
Qed.
Lemma flat_wire {A} (f : A -> list field) l : concat (map field_bytes (flat_map f l)) = concat (map (fun a => concat (map field_bytes (f a))) l).
Proof. induction l as [|a l IH]; [reflexivity|]. cbn [flat_map map concat]. rewrite map_app, concat_app, IH. reflexivity. Qed.
Lemma attdescs_wire l x : Forall (fun a => nonul (an a) /\ u32 (arel a) /\ s16 (acol a) /\ u32 (atyp a) /\ s16 (alen a) /\ s32 (amod a) /\ s16 (afmt a)) l ->
  mapM pack_attdesc l = Ok x ->
  concat x = concat (map field_bytes (flat_map (fun a => [FStr (an a); FI32 (arel a); FI16 (acol a); FI32 (atyp a); FI16 (alen a); FI32 (amod a); FI16 (afmt a)]) l)).
Proof.
  intros F. revert x. induction F as [|a l H F IH]; intros x E; cbn [mapM] in E; [injection E as <-; reflexivity|].
  apply bind_Ok in E as (z & E1 & E). apply bind_Ok in E as (zs & E2 & E). injection E as <-.
  cbn [concat flat_map]. rewrite map_app, concat_app, (IH _ E2), (attdesc_wire _ _ H E1). reflexivity.
Qed.
Lemma startup_wire d : concat (map field_bytes (flat_map (fun kv : bytes * bytes => [FStr (fst kv); FStr (snd kv)]) d)) =
  concat (map (fun kv => fst kv ++ [0] ++ snd kv ++ [0]) d).
Proof.
  rewrite flat_wire. f_equal. apply map_ext. intros kv. cbn [map concat field_bytes]. rewrite app_nil_r, <- !app_assoc. reflexivity.
Qed.

Lemma serialize_wire m : wf_message m -> (forall e d, m <> MNotice e d) -> serialize m = Ok (wire_body m).
Proof.
  intros H Nn. unfold wire_body. destruct m; cbn [wf_message] in H; cbn [serialize wire_fields]; try (exfalso; eapply Nn; reflexivity).
  - destruct H as (Hp & _ & _). rewrite pack_u4 by auto. cbn [bind map concat field_bytes]. rewrite be_u4, app_nil_r, <- !app_assoc by auto. reflexivity.
  - cbn [map concat field_bytes]. rewrite app_nil_r, <- !app_assoc. reflexivity.
  - cbn [map concat field_bytes]. rewrite app_nil_r. reflexivity.
  - reflexivity.
  - cbn [map concat field_bytes]. rewrite app_nil_r. reflexivity.
  - destruct r as [d|]; cbn [map concat field_bytes]; rewrite app_nil_r; [|reflexivity].
    cbn in H. pose proof (len_nonneg d). rewrite pack_u4 by (unfold u32; lia). cbn [bind]. rewrite be_u4 by (unfold u32; lia). reflexivity.
  - destruct H as (Hn & Hl). rewrite pack_u2 by (apply len_u16; auto). cbn [bind]. rewrite (mapM_pack_ok 4) by exact Hl. cbn [bind map concat field_bytes].
    rewrite be_u2 by (apply len_u16; auto). rewrite u32s by auto. reflexivity.
  - destruct H as (Hn & Hl). rewrite pack_u2 by (apply len_u16; auto). cbn [bind]. destruct (parse_attdescs_pack l Hl) as (x & E & _).
    rewrite E. cbn [bind map concat field_bytes]. rewrite be_u2 by (apply len_u16; auto). rewrite <- (attdescs_wire _ _ Hl E). reflexivity.
  - destruct H as (Hn & Hl). rewrite pack_u2 by (apply len_u16; auto). cbn [bind]. destruct (pack_tuple_data_ok l Hl) as (x & E).
    rewrite E. cbn [bind map concat field_bytes]. rewrite be_u2 by (apply len_u16; auto). rewrite <- (pack_tuple_wire _ _ Hl E). reflexivity.
  - destruct H as (Hp & Hk). rewrite !pack_u4 by auto. cbn [bind map concat field_bytes]. rewrite !be_u4, app_nil_r by auto. reflexivity.
  - destruct H as (Hp & Hk). rewrite !pack_u4 by auto. cbn [bind map concat field_bytes]. rewrite (be_u4 pid), (be_u4 key), app_nil_r by auto. reflexivity.
  - reflexivity.
  - rewrite !map_app, !concat_app, startup_wire. reflexivity.
  - rewrite pack_u4 by auto. cbn [bind map concat field_bytes]. rewrite be_u4, app_nil_r by auto. reflexivity.
  - cbn [map concat field_bytes]. rewrite app_nil_r. reflexivity.
  - destruct H as (Hn & Hs & Ha & Hl). rewrite pack_u2 by (apply len_u16; auto). cbn [bind]. rewrite (mapM_pack_ok 4) by exact Hl. cbn [bind].
    rewrite map_app, concat_app, u32s by auto. cbn [map concat field_bytes]. rewrite be_u2 by (apply len_u16; auto). rewrite app_nil_r, <- !app_assoc. reflexivity.
  - destruct H as (Hn & Hs & Hal & Haf & (Hac & Hat) & Hrn & Hrf).
    rewrite (pack_u2 (len args)) by (apply len_u16; auto). cbn [bind]. destruct (pack_tuple_data_ok args Hat) as (x & E). rewrite E. cbn [bind].
    rewrite (pack_u2 (len rformats)) by (apply len_u16; auto). cbn [bind]. assert (Hl2 : len aformats = len args) by (unfold len; lia). rewrite Hl2.
    rewrite !map_app, !concat_app, !bytess, <- (pack_tuple_wire _ _ Hat E). cbn [map concat field_bytes].
    rewrite !be_u2 by (apply len_u16; auto). rewrite !app_nil_r, <- !app_assoc. reflexivity.
  - destruct H as (Hn & Hm). rewrite pack_u4 by auto. cbn [bind map concat field_bytes]. rewrite be_u4, app_nil_r, <- !app_assoc by auto. reflexivity.
  - cbn [map concat field_bytes]. rewrite app_nil_r. destruct stmt; reflexivity.
  - cbn [map concat field_bytes]. rewrite app_nil_r. destruct stmt; reflexivity.
  - destruct H as (Ho & Hal & Haf & (Hac & Hat)). rewrite (pack_u2 (len args)) by (apply len_u16; auto). cbn [bind].
    rewrite pack_u4 by auto. cbn [bind]. destruct (pack_tuple_data_ok args Hat) as (x & E). rewrite E. cbn [bind].
    assert (Hl2 : len aformats = len args) by (unfold len; lia). rewrite Hl2.
    rewrite !map_app, !concat_app, !bytess, <- (pack_tuple_wire _ _ Hat E). cbn [map concat field_bytes].
    rewrite !be_u2 by (apply len_u16; auto). rewrite be_u4 by auto. rewrite !app_nil_r, <- !app_assoc. reflexivity.
  - destruct H as (Hf & Hn & Hl). rewrite pack_u_ok by exact Hf. cbn [bind]. rewrite pack_u2 by (apply len_u16; auto). cbn [bind].
    rewrite (mapM_pack_ok 2) by exact Hl. cbn [bind]. rewrite map_app, concat_app, u16s by auto. cbn [map concat field_bytes].
    rewrite be_u2 by (apply len_u16; auto). rewrite app_nil_r, <- !app_assoc. replace (be 1 format) with [format]; [reflexivity|]. change (be 1 format) with [format mod 256]. rewrite Z.mod_small by lia. reflexivity.
  - cbn [map concat field_bytes]. rewrite app_nil_r. reflexivity.
Qed.

Lemma split_notice d : Forall (fun kv : bytes * bytes => length (fst kv) = 1%nat /\ nonul (fst kv) /\ nonul (snd kv)) d ->
  split_all 0 (concat (map (fun kv => fst kv ++ snd kv ++ [0]) d) ++ [0]) = map (fun kv => fst kv ++ snd kv) d ++ [[]; []].
Proof.
  induction 1 as [|[k v] d (H1 & H2 & H3) F IH]; [reflexivity|]. cbn [map concat fst snd] in *. rewrite <- !app_assoc.
  rewrite app_assoc. cbn [app]. rewrite split_all_app by (intros Hi; apply in_app_or in Hi; destruct Hi; auto). rewrite IH. reflexivity.
Qed.
Lemma notice_dec m : (exists e d, m = MNotice e d) \/ (forall e d, m <> MNotice e d).
Proof. destruct m; try (right; intros; discriminate). left; eauto. Qed.
Lemma parse_wire m : wf_message m -> parse (kind_of m) (wire_body m) = Ok m.
Proof.
  intros H. destruct (notice_dec m) as [(e & d & ->)|N].
  2:{ destruct (parse_serialize m H) as (d & E1 & E2). rewrite (serialize_wire m H N) in E1. injection E1 as <-. exact E2. }
  destruct H as (Hd & Hf). cbn [kind_of parse]. f_equal. f_equal. unfold wire_body. cbn [wire_fields]. rewrite map_app, concat_app, flat_wire.
  cbn [map concat field_bytes app]. 
  replace (concat (map (fun a : bytes * bytes => fst a ++ (snd a ++ [0]) ++ []) d)) with (concat (map (fun kv : bytes * bytes => fst kv ++ snd kv ++ [0]) d))
    by (f_equal; apply map_ext; intros; rewrite app_nil_r; reflexivity).
  rewrite split_notice by exact Hf. rewrite filter_app. cbn [filter seqb negb app]. rewrite app_nil_r.
  assert (Es : filter (fun x => negb (seqb x [])) (map (fun kv : bytes * bytes => fst kv ++ snd kv) d) = map (fun kv : bytes * bytes => fst kv ++ snd kv) d).
  { clear Hd. induction Hf as [|[k v] l (Hk & _) H2 IH]; cbn [map filter fst snd]; auto.
    destruct k; [discriminate|]. cbn [app seqb negb]. rewrite IH. reflexivity. }
  rewrite Es, map_map.
  assert (Em : map (fun x : bytes * bytes => (firstn 1 (fst x ++ snd x), skipn 1 (fst x ++ snd x))) d = d).
  { clear - Hf. induction Hf as [|[k v] l (Hk & _) H2 IH]; cbn [map fst snd]; auto.
    rewrite firstn_app_exact, skipn_app_exact, IH by exact Hk. reflexivity. }
  rewrite Em. apply dict_of_nodup; auto.
Qed.

Lemma type_wire m : type_of (kind_of m) = wire_type m.
Proof. destruct m; try reflexivity; try (destruct k; reflexivity); try (destruct error; reflexivity); try (destruct to; reflexivity). Qed.
Lemma message_wire m d : wf_message m -> (forall e d, m <> MNotice e d) -> message_bytes m = Ok d -> d = wire m.
Proof.
  intros H N E. unfold message_bytes in E. rewrite serialize_wire in E by auto. cbn [bind] in E. apply bind_Ok in E as (l & E1 & E).
  apply pack_u_inv in E1 as [_ ->]. rewrite type_wire in E. unfold wire. destruct (wire_type m); injection E as <-; reflexivity.
Qed.
Lemma wf_item_msg m : wf_item (IMsg m) -> wf_message m /\ (forall e d, m <> MNotice e d).
Proof. destruct m; cbn; intros H; try contradiction; split; auto; intros; discriminate. Qed.
Lemma item_bytes_wire i d : wf_item i -> item_bytes i = Ok d -> d = item_wire i.
Proof.
  destruct i as [m|r|l]; cbn [item_bytes item_wire].
  - intros W. apply wf_item_msg in W as [W N]. apply message_wire; auto.
  - intros _ E. apply bind_Ok in E as (h & E1 & E). injection E as <-. pose proof (len_nonneg r). apply be_pack_s_small in E1; [|lia]. subst h.
    unfold wire, wire_body. cbn [wire_fields map concat field_bytes wire_type]. rewrite app_nil_r. reflexivity.
  - intros (Hn & Hl) E. apply bind_Ok in E as (r & E1 & E). apply bind_Ok in E as (h & E2 & E). apply bind_Ok in E as (n & E3 & E). injection E as <-.
    apply (pack_tuple_wire _ _ Hl) in E1. pose proof (len_nonneg r). apply be_pack_s_small in E2; [|lia]. apply pack_u_inv in E3 as [E3 ->]. subst h.
    unfold wire, wire_body. cbn [wire_fields map concat field_bytes wire_type]. rewrite be_u2 by (apply len_u16; auto). rewrite <- E1.
    rewrite len_app, len_be. do 3 f_equal. lia.
Qed.
Lemma cat_messages_wire items d : Forall wf_item items -> cat_messages items = Ok d -> d = concat (map item_wire items).
Proof.
  unfold cat_messages. intros F E. apply bind_Ok in E as (x & E & E1). injection E1 as <-. revert x E.
  induction F as [|i l H F IH]; intros x E; cbn [mapM] in E; [injection E as <-; reflexivity|].
  apply bind_Ok in E as (z & E1 & E). apply bind_Ok in E as (zs & E2 & E). injection E as <-.
  cbn [concat map]. rewrite (item_bytes_wire _ _ H E1), (IH _ E2). reflexivity.
Qed.
