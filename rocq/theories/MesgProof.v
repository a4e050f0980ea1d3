(** MesgProof.v: fields of errors and notices *)
From Verif Require Import Base BaseProof PyStr PyDict PyDictProof PyListProof Element3Model ExcModel ExcTable ExcSpec MesgModel MesgSpec.
Open Scope Z_scope.
Local Opaque ErrorLookup WarningLookup.

Lemma table_field k n : dget k notice_field_to_name = Some n <-> exists z, k = [z] /\ field z n.
Proof.
  split.
  - intros H. apply dget_In in H. unfold notice_field_to_name in H. cbn [In] in H.
    repeat (destruct H as [H|H]; [injection H as <- <-; eexists; split; [reflexivity|constructor]|]). contradiction.
  - intros (z & -> & F). destruct F; reflexivity.
Qed.
Lemma field_fun z n n' : field z n -> field z n' -> n = n'.
Proof. intros A B. destruct A; inversion B; reflexivity. Qed.
Lemma field_inj z z' n : field z n -> field z' n -> z = z'.
Proof.
  intros A B. assert (G : forall x y, field x y -> In (x, y) (map (fun p => (hd 0 (fst p), snd p)) notice_field_to_name)).
  { intros x y F. destruct F; vm_compute; auto 15. }
  pose proof (G _ _ B) as GB. clear G. destruct A; vm_compute in GB;
  repeat (destruct GB as [GB|GB]; [injection GB; intros; try discriminate; auto|]); try contradiction.
Qed.
Definition name_of (x : bytes * text) : option text := dget (fst x) notice_field_to_name.
Lemma fields_acc (l : list (bytes * text)) : NoDup (map fst l) -> forall (d : list (text * text)) name,
  (forall k t, In (k, t) l -> dget k notice_field_to_name = Some name ->
     dget name (fold_left (fun d x => match dget (fst x) notice_field_to_name with Some n => dset n (snd x) d | None => d end) l d) = Some t) /\
  ((forall k t, In (k, t) l -> dget k notice_field_to_name <> Some name) ->
     dget name (fold_left (fun d x => match dget (fst x) notice_field_to_name with Some n => dset n (snd x) d | None => d end) l d) = dget name d).
Proof.
  induction l as [|[k v] l IH]; intros ND d name; cbn [fold_left].
  - split; [intros k t []|auto].
  - cbn [map fst] in ND. inversion ND as [|? ? N1 N2]; subst. cbn [fst snd]. split.
    + intros k' t [E|IN] F.
      * injection E as <- <-. rewrite F. rewrite (proj2 (IH N2 _ name)).
        -- apply dget_set_same.
        -- intros k2 t2 IN2 F2. apply table_field in F as (z & -> & F). apply table_field in F2 as (z2 & -> & F2).
           rewrite (field_inj _ _ _ F2 F) in IN2. apply N1. apply in_map_iff. now exists ([z], t2).
      * now apply (proj1 (IH N2 _ name) k').
    + intros NF. rewrite (proj2 (IH N2 _ name)); [|intros; eapply NF; right; eassumption].
      destruct (dget k notice_field_to_name) as [n|] eqn:E; [|reflexivity]. apply dget_set_other. intros ->. eapply NF; [left; reflexivity|exact E].
Qed.
Lemma known_nodup l : NoDup (dkeys (known_fields l)).
Proof.
  unfold known_fields. assert (G : forall d : list (text * text), NoDup (dkeys d) -> NoDup (dkeys (fold_left (fun d x => match dget (fst x) notice_field_to_name with Some n => dset n (snd x) d | None => d end) l d))).
  { induction l as [|x l IH]; intros d D; cbn [fold_left]; [exact D|]. apply IH. destruct (dget (fst x) notice_field_to_name); [|exact D]. now apply dset_nodup. }
  apply G. constructor.
Qed.
Lemma known_spec l : NoDup (map fst l) -> forall name t, dget name (known_fields l) = Some t <-> exists z, In ([z], t) l /\ field z name.
Proof.
  intros ND name t. split.
  - intros H. destruct (existsb (fun x => match dget (fst x) notice_field_to_name with Some n => seqb name n | None => false end) l) eqn:E.
    + apply existsb_exists in E as ([k v] & IN & E). cbn [fst] in E. destruct (dget k notice_field_to_name) as [n|] eqn:F; [|discriminate].
      apply seqb_eq in E as <-. pose proof (proj1 (fields_acc l ND [] name) k v IN F) as G. unfold known_fields in H. rewrite G in H. injection H as ->.
      apply table_field in F as (z & -> & F). now exists z.
    + unfold known_fields in H. rewrite (proj2 (fields_acc l ND [] name)) in H; [discriminate|]. intros k v IN F.
      assert (X : existsb (fun x => match dget (fst x) notice_field_to_name with Some n => seqb name n | None => false end) l = true).
      { apply existsb_exists. exists (k, v). split; [exact IN|]. cbn [fst]. rewrite F. apply seqb_refl. }
      congruence.
  - intros (z & IN & F). apply (proj1 (fields_acc l ND [] name) [z] t IN). apply table_field. now exists z.
Qed.

(** ** the fallback *)
Lemma slice_repr b : pyslice (repr_bytes b) 2 (len (repr_bytes b) - 1) = flat_map (repr_byte (repr_quote b)) b.
Proof.
  unfold repr_bytes. rewrite (app_assoc (str "b")). apply pyslice_app; [reflexivity|]. rewrite !len_app. change (len (str "b")) with 1.
  change (len [repr_quote b]) with 1. lia.
Qed.
Lemma hexd_ok x : 0 <= x < 16 -> unhexd (hexd x) = x /\ printable (hexd x) /\ hexd x <> 92.
Proof. intros H. unfold hexd, unhexd, printable. destruct (x <? 10) eqn:E; [destruct (48 + x <? 58) eqn:F|destruct (87 + x <? 58) eqn:F]; lia. Qed.
Lemma repr_byte_back q b r : (q = 34 \/ q = 39) -> is_byte b -> unescape (repr_byte q b ++ r) = b :: unescape r.
Proof.
  intros Q B. unfold repr_byte.
  destruct ((b =? q) || (b =? 92)) eqn:E1; [cbn [app unescape]; change (92 =? 92) with true; cbv iota;
    destruct (b =? 116) eqn:A1; [lia|]; destruct (b =? 110) eqn:A2; [lia|]; destruct (b =? 114) eqn:A3; [lia|]; destruct (b =? 120) eqn:A4; [lia|]; reflexivity|].
  destruct (b =? 9) eqn:E2; [assert (b = 9) as -> by lia; reflexivity|].
  destruct (b =? 10) eqn:E3; [assert (b = 10) as -> by lia; reflexivity|].
  destruct (b =? 13) eqn:E4; [assert (b = 13) as -> by lia; reflexivity|].
  destruct ((b <? 32) || (127 <=? b)) eqn:E5.
  - unfold is_byte in B. destruct (hexd_ok (b / 16)) as (H1 & _ & _); [split; [apply Z.div_pos; lia|apply Z.div_lt_upper_bound; lia]|].
    destruct (hexd_ok (b mod 16)) as (H2 & _ & _); [apply Z.mod_pos_bound; lia|].
    change (str "\x" ++ [hexd (b / 16); hexd (b mod 16)]) with (92 :: 120 :: hexd (b / 16) :: hexd (b mod 16) :: []). cbn [app unescape].
    change (92 =? 92) with true. change (120 =? 116) with false. change (120 =? 110) with false. change (120 =? 114) with false. change (120 =? 120) with true. cbv iota.
    rewrite H1, H2. f_equal. pose proof (Z.div_mod b 16). lia.
  - cbn [app unescape]. destruct (b =? 92) eqn:E6; [lia|reflexivity].
Qed.
Lemma repr_byte_printable q b : is_byte b -> (q = 34 \/ q = 39) -> Forall printable (repr_byte q b).
Proof.
  intros B Q. unfold repr_byte, is_byte in *.
  destruct ((b =? q) || (b =? 92)) eqn:E1; [repeat (apply Forall_cons; [unfold printable; lia|]); apply Forall_nil|].
  destruct (b =? 9); [repeat (apply Forall_cons; [unfold printable; cbn; lia|]); apply Forall_nil|].
  destruct (b =? 10); [repeat (apply Forall_cons; [unfold printable; cbn; lia|]); apply Forall_nil|].
  destruct (b =? 13); [repeat (apply Forall_cons; [unfold printable; cbn; lia|]); apply Forall_nil|].
  destruct ((b <? 32) || (127 <=? b)) eqn:E5.
  - destruct (hexd_ok (b / 16)) as (_ & H1 & _); [split; [apply Z.div_pos; lia|apply Z.div_lt_upper_bound; lia]|].
    destruct (hexd_ok (b mod 16)) as (_ & H2 & _); [apply Z.mod_pos_bound; lia|].
    change (str "\x" ++ [hexd (b / 16); hexd (b mod 16)]) with (92 :: 120 :: hexd (b / 16) :: hexd (b mod 16) :: []).
    apply Forall_cons; [unfold printable; lia|]. apply Forall_cons; [unfold printable; lia|]. auto.
  - apply Forall_cons; [unfold printable; lia|apply Forall_nil].
Qed.
Lemma repr_back q l : (q = 34 \/ q = 39) -> is_bytes l -> unescape (flat_map (repr_byte q) l) = l /\ Forall printable (flat_map (repr_byte q) l).
Proof.
  intros Q B. induction B as [|b l Hb B IH]; cbn [flat_map]; [split; constructor|]. destruct IH as [I1 I2]. split.
  - now rewrite repr_byte_back, I1.
  - apply Forall_app. split; [now apply repr_byte_printable|exact I2].
Qed.
Lemma repr_quote_cases b : repr_quote b = 34 \/ repr_quote b = 39.
Proof. unfold repr_quote. destruct (_ && _); auto. Qed.

Section m.
Context (csource : option class -> text) (decode_in : text -> bytes -> option text) (codec : text).
Definition shown (v : bytes) : text := match decode_in codec v with Some t => t | None => flat_map (repr_byte (repr_quote v)) v end.
Lemma shown_shows v : is_bytes v -> shows (decode_in codec) v (shown v).
Proof.
  intros B. unfold shows, shown. destruct (decode_in codec v) as [t|]; [auto|]. right. split; [reflexivity|]. apply repr_back; [apply repr_quote_cases|exact B].
Qed.
Lemma failsafe_map l : failsafe_outer decode_in codec l = map (fun x => (fst x, shown (snd x))) l /\ failsafe_inner decode_in codec l = map (fun x => (fst x, shown (snd x))) l.
Proof.
  induction l as [|x l [I1 I2]]; [split; reflexivity|].
  assert (E1 : failsafe_outer decode_in codec (x :: l) = match decode_in codec (snd x) with Some t => (fst x, t) :: failsafe_inner decode_in codec l
     | None => (fst x, pyslice (repr_bytes (snd x)) 2 (len (repr_bytes (snd x)) - 1)) :: failsafe_outer decode_in codec l end) by reflexivity.
  assert (E2 : failsafe_inner decode_in codec (x :: l) = failsafe_outer decode_in codec (x :: l)) by reflexivity.
  rewrite E2, E1, I1, I2, slice_repr. cbn [map].
  assert (E3 : shown (snd x) = match decode_in codec (snd x) with Some t => t | None => flat_map (repr_byte (repr_quote (snd x))) (snd x) end) by reflexivity.
  rewrite E3. destruct (decode_in codec (snd x)); auto.
Qed.
Lemma decode_spec l : NoDup (map fst l) -> forall name t, dget name (decode_notice decode_in codec l) = Some t <-> exists z v, In ([z], v) l /\ field z name /\ t = shown v.
Proof.
  intros ND name t. unfold decode_notice. rewrite (proj1 (failsafe_map l)). rewrite known_spec.
  - split.
    + intros (z & IN & F). apply in_map_iff in IN as ([k v] & E & IN). injection E as -> <-. now exists z, v.
    + intros (z & v & IN & F & ->). exists z. split; [|exact F]. apply in_map_iff. now exists ([z], v).
  - rewrite map_map. exact ND.
Qed.
Lemma ddel_nodup {V} k (d : list (text * V)) : NoDup (dkeys d) -> NoDup (dkeys (ddel k d)).
Proof.
  unfold dkeys, ddel. induction d as [|[i w] d IH]; cbn [map fst filter]; intros N; [constructor|]. inversion N as [|? ? N1 N2]; subst.
  destruct (negb (seqb k i)); [|auto]. cbn [map fst]. constructor; [|auto]. intros H. apply N1. apply in_map_iff in H as ([i' w'] & E & H). cbn [fst] in E. subst.
  apply filter_In in H as [H _]. apply in_map_iff. now exists (i, w').
Qed.
Lemma two_pops (a b : text) (d : list (text * text)) va vb : a <> b -> dget a d = Some va -> dget b d = Some vb ->
  dpop a d = Ok (va, ddel a d) /\ dpop b (ddel a d) = Ok (vb, ddel b (ddel a d)).
Proof.
  intros N A B. unfold dpop. rewrite A, dget_del, (seqb_ne b a), B by congruence. auto.
Qed.
(** the details that remain once code and message are taken out *)
Lemma rest_details (a b : text) l : (a = str "code" /\ b = str "message" \/ a = str "message" /\ b = str "code") -> NoDup (map fst l) ->
  Forall (fun kv => is_bytes (snd kv)) l -> details_of (shows (decode_in codec)) l (ddel b (ddel a (decode_notice decode_in codec l))).
Proof.
  intros AB ND FB. split; [|split].
  - apply ddel_nodup, ddel_nodup. unfold decode_notice. apply known_nodup.
  - intros name t H. rewrite !dget_del in H. destruct (seqb_spec name b) as [|Nb]; [discriminate|]. destruct (seqb_spec name a) as [|Na]; [discriminate|].
    apply decode_spec in H as (z & v & IN & F & ->); [|exact ND]. exists z, v. split; [exact IN|]. split; [exact F|]. split.
    + apply shown_shows. rewrite Forall_forall in FB. apply (FB _ IN).
    + destruct AB as [[-> ->]|[-> ->]]; auto.
  - intros z v name IN F N1 N2. exists (shown v). rewrite !dget_del. rewrite !seqb_ne by (destruct AB as [[-> ->]|[-> ->]]; congruence).
    apply decode_spec; [exact ND|]. now exists z, v.
Qed.
Lemma field_get z v name l : NoDup (map fst l) -> In ([z], v) l -> field z name -> dget name (decode_notice decode_in codec l) = Some (shown v).
Proof. intros ND IN F. apply decode_spec; [exact ND|]. now exists z, v. Qed.
Lemma new_code c ms k d src cr db : m_code (new_message csource c ms (Some k) d src cr db) = k.
Proof. unfold new_message. cbn [m_code]. destruct (seqb_spec (class_code c) k); auto. Qed.
Lemma new_source c ms k d src cr db : m_source (new_message csource c ms k d (Some src) cr db) = src.
Proof. unfold new_message. cbn [m_source]. destruct (seqb_spec (csource c) src); auto. Qed.
Lemma raise_server l c m creator db : NoDup (map fst l) -> Forall (fun kv => is_bytes (snd kv)) l -> In (str "C", c) l -> In (str "M", m) l ->
  exists e, raise_server_error csource decode_in codec l creator db = Ok e /\ carries (shows (decode_in codec)) l c m e /\
    m_class e = Some (ErrorLookup (m_code e)) /\ m_source e = str "SERVER" /\ m_creator e = creator /\ m_database e = db.
Proof.
  intros ND FB IC IM. unfold raise_server_error, raise_fields.
  pose proof (field_get 67 c (str "code") l ND IC f_code) as GC. pose proof (field_get 77 m (str "message") l ND IM f_message) as GM.
  destruct (two_pops (str "code") (str "message") _ _ _ ltac:(discriminate) GC GM) as [P1 P2].
  rewrite P1. cbn [bind]. rewrite P2. cbn [bind]. eexists. split; [reflexivity|]. unfold carries. rewrite new_code, new_source. rewrite Forall_forall in FB.
  split; [|auto]. split; [apply shown_shows, (FB _ IC)|]. split; [apply shown_shows, (FB _ IM)|]. apply rest_details; [auto|exact ND|]. now rewrite Forall_forall.
Qed.
Lemma no_field l k name : NoDup (map fst l) -> field k name -> (forall v, ~ In ([k], v) l) -> dget name (decode_notice decode_in codec l) = None.
Proof.
  intros ND F NI. destruct (dget name (decode_notice decode_in codec l)) eqn:E; [|reflexivity]. apply decode_spec in E as (z & v & IN & F' & _); [|exact ND].
  rewrite (field_inj _ _ _ F' F) in IN. now apply NI in IN.
Qed.
End m.
