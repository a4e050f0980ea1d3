(** PercentProof2.v: Python's formatting and _convert_query *)
From Verif Require Import PyStr PyStrProof RegexModel StrModel StrSpec PyInt PyDict PyDictProof PyListProof PercentModel PercentSpec BaseProof StrProof3 PercentProof.

(** ** formatting *)
Lemma dollar_eq n : dollar n = dollar_n n.
Proof. reflexivity. Qed.
Lemma tkey_eq k r : tok_text (TKey k) ++ r = 37 :: 40 :: k ++ 41 :: 115 :: r.
Proof. cbn [tok_text]. change (str "%(") with [37; 40]. change (str ")s") with [41; 115]. rewrite <- !app_assoc. reflexivity. Qed.
Lemma fmt_seq_char c t args : c <> 37 -> fmt_seq (c :: t) args = bind (fmt_seq t args) (fun x => Ok (c :: x)).
Proof. intros N. cbn [fmt_seq]. destruct (Z.eqb_spec c 37); [contradiction|reflexivity]. Qed.
Lemma fmt_seq_pos ts : forall n, Forall tok_ok ts -> existsb is_key ts = false ->
  fmt_seq (toks_text ts) (dollars n (length (filter is_pos ts))) = Ok (out_pos [37] (n + 1) ts).
Proof.
  induction ts as [|t ts IH]; intros n F K; [reflexivity|]. inversion F as [|? ? Ht Fts]; subst. cbn [existsb] in K. apply orb_false_iff in K as [K1 K2].
  rewrite toks_cons. destruct t as [c| | |k]; cbn [filter is_pos tok_text app] in *.
  - rewrite fmt_seq_char by exact Ht. rewrite IH by assumption. reflexivity.
  - change (str "%%" ++ toks_text ts) with (37 :: 37 :: toks_text ts). cbn [fmt_seq Z.eqb Pos.eqb]. rewrite IH by assumption. reflexivity.
  - change (str "%s" ++ toks_text ts) with (37 :: 115 :: toks_text ts). cbn [List.length dollars fmt_seq Z.eqb Pos.eqb]. rewrite IH by assumption.
    cbn [bind out_pos]. rewrite dollar_eq. reflexivity.
  - discriminate.
Qed.
Lemma fmt_seq_key ts : forall args, Forall tok_ok ts -> existsb is_key ts = true -> fmt_seq (toks_text ts) args = Err TypeError.
Proof.
  induction ts as [|t ts IH]; intros args F K; [discriminate|]. inversion F as [|? ? Ht Fts]; subst.
  rewrite toks_cons. destruct t as [c| | |k]; cbn [existsb is_key orb] in K.
  - cbn [tok_text app]. rewrite fmt_seq_char by exact Ht. rewrite IH by assumption. reflexivity.
  - change (tok_text TPct ++ toks_text ts) with (37 :: 37 :: toks_text ts). cbn [fmt_seq Z.eqb Pos.eqb]. rewrite IH by assumption. reflexivity.
  - change (tok_text TPos ++ toks_text ts) with (37 :: 115 :: toks_text ts). cbn [fmt_seq Z.eqb Pos.eqb]. destruct args; [reflexivity|]. rewrite IH by assumption. reflexivity.
  - rewrite tkey_eq. reflexivity.
Qed.
Lemma fmt_key_ok k r : ~ In 40 k -> ~ In 41 k -> fmt_key 0 (k ++ 41 :: r) = Some (k, r).
Proof.
  induction k as [|c k IH]; intros A B; [reflexivity|]. cbn [app fmt_key].
  destruct (Z.eqb_spec c 41); [exfalso; apply B; left; auto|]. destruct (Z.eqb_spec c 40); [exfalso; apply A; left; auto|].
  rewrite IH; [reflexivity| |]; intros I; [apply A|apply B]; now right.
Qed.
Lemma fmt_map_ok m num n : forall ts, (length (toks_text ts) <= n)%nat -> Forall tok_ok ts -> existsb is_pos ts = false ->
  (forall k, In (TKey k) ts -> dget k m = Some (dollar (num k))) ->
  fmt_map n (toks_text ts) m = Ok (concat (map (out_key num [37]) ts)).
Proof.
  induction n as [|n IH]; intros ts Hn F P M.
  - destruct ts as [|[]]; [reflexivity|cbn in Hn; lia..].
  - destruct ts as [|t ts]; [reflexivity|]. inversion F as [|? ? Ht Fts]; subst. rewrite toks_cons in *. cbn [existsb] in P. apply orb_false_iff in P as [P1 P2].
    assert (M' : forall k, In (TKey k) ts -> dget k m = Some (dollar (num k))) by (intros k I; apply M; now right).
    destruct t as [c| | |k]; cbn [map out_key concat] in *.
    + cbn [tok_text app] in *. cbn [fmt_map]. cbn in Ht. destruct (Z.eqb_spec c 37); [contradiction|]. rewrite IH; auto. cbn in Hn; lia.
    + change (tok_text TPct ++ toks_text ts) with (37 :: 37 :: toks_text ts) in *. cbn [fmt_map Z.eqb Pos.eqb]. rewrite IH; auto. cbn in Hn; lia.
    + discriminate.
    + rewrite tkey_eq in *. cbn [fmt_map Z.eqb Pos.eqb]. cbn in Ht. rewrite fmt_key_ok by tauto. rewrite (M k (or_introl eq_refl)).
      cbn [Z.eqb Pos.eqb]. rewrite IH; auto. cbn [List.length] in Hn. rewrite app_length in Hn. cbn in Hn. lia.
Qed.

(** ** scanning *)
Definition knames (ts : list tok) : list text := flat_map (fun t => match t with TKey k => [k] | _ => [] end) ts.
Definition kinv (keys : list text) (kmap : list (text * text)) : Prop :=
  NoDup keys /\ forall i k, nth_error keys i = Some k -> dget k kmap = Some (dollar (Z.of_nat i + 1)).
Lemma existsb_seqb x l : existsb (seqb x) l = true <-> In x l.
Proof.
  rewrite existsb_exists. split.
  - intros (y & I & E). destruct (seqb_spec x y); [subst; exact I|discriminate].
  - intros I. exists x. split; [exact I|]. destruct (seqb_spec x x); congruence.
Qed.
Lemma slice_group k : pyslice (40 :: k ++ [41; 115]) 1 (-2) = k.
Proof.
  assert (L : len (40 :: k ++ [41; 115]) = len k + 3) by (unfold len; cbn; rewrite app_length; cbn; lia).
  transitivity (pyslice ([40] ++ k ++ [41; 115]) 1 (len k + 1)).
  - cbn [app]. unfold pyslice, py_bound. rewrite L. pose proof (len_nonneg k). change (-2 <? 0) with true. cbn [Z.ltb Z.compare].
    destruct (Z.ltb_spec (len k + 1) 0); [lia|]. f_equal; f_equal; f_equal; lia.
  - apply pyslice_app; [reflexivity|]. change (len [40]) with 1. lia.
Qed.
Lemma kinv_add keys kmap x : kinv keys kmap -> ~ In x keys -> kinv (keys ++ [x]) (dset x (dollar (len keys + 1)) kmap).
Proof.
  intros (N & M) Hx. split.
  - rewrite <- (rev_involutive (keys ++ [x])), rev_app_distr. apply NoDup_rev. cbn. constructor; [now rewrite <- in_rev|now apply NoDup_rev].
  - intros i k H. destruct (Nat.lt_ge_cases i (length keys)) as [L|L].
    + rewrite nth_error_app1 in H by exact L. rewrite dget_set_other; [apply M, H|]. intros ->. apply Hx. eapply nth_error_In, H.
    + rewrite nth_error_app2 in H by exact L. destruct (i - length keys)%nat as [|j] eqn:E; [|destruct j; discriminate].
      cbn in H. injection H as <-. rewrite dget_set_same. f_equal. f_equal. unfold len. lia.
Qed.
Lemma scan_toks ts : forall p keys kmap, kinv keys kmap -> exists keys' kmap', 
  cq_scan (flat_map tok_group ts) p keys kmap = (p + len (filter is_pos ts), keys', kmap') /\ kinv keys' kmap' /\
  (exists e, keys' = keys ++ e) /\ (forall k, In k keys' <-> In k keys \/ In k (knames ts)) /\ (knames ts = [] -> keys' = keys /\ kmap' = kmap).
Proof.
  induction ts as [|t ts IH]; intros p keys kmap I.
  - exists keys, kmap. cbn. split; [f_equal; f_equal; lia|]. split; [exact I|]. split; [exists []; now rewrite app_nil_r|]. split; [tauto|auto].
  - destruct t as [c| | |k]; cbn [flat_map tok_group app filter is_pos].
    + apply IH, I.
    + apply IH, I.
    + cbn [cq_scan]. change (seqb [115] [115]) with true. cbn iota. destruct (IH (p + 1) keys kmap I) as (keys' & kmap' & E & R).
      exists keys', kmap'. split; [|exact R]. rewrite E. f_equal. f_equal. rewrite len_cons. lia.
    + cbn [cq_scan]. assert (S : seqb (40 :: k ++ [41; 115]) [115] = false) by reflexivity. rewrite S, slice_group. clear S.
      destruct (existsb (seqb k) keys) eqn:X.
      * apply existsb_seqb in X. destruct (IH p keys kmap I) as (keys' & kmap' & E & I' & (e & R1) & R2 & R3).
        exists keys', kmap'. split; [exact E|]. split; [exact I'|]. split; [exists e; exact R1|]. split; [|discriminate].
        intros j. rewrite R2. cbn. intuition. subst. auto.
      * assert (Nk : ~ In k keys) by (intros Y; apply existsb_seqb in Y; congruence).
        destruct (IH p _ _ (kinv_add _ _ _ I Nk)) as (keys' & kmap' & E & I' & (e & R1) & R2 & R3).
        exists keys', kmap'. split; [exact E|]. split; [exact I'|]. split; [exists (k :: e); rewrite R1, <- app_assoc; reflexivity|]. split; [|discriminate].
        intros j. rewrite R2, in_app_iff. cbn. intuition.
Qed.

(** ** the parts *)
Lemma groups_nil ts : flat_map tok_group ts = [] <-> existsb placeholder ts = false.
Proof. induction ts as [|[]]; cbn; intuition discriminate. Qed.
Lemma pos_nil ts : existsb is_pos ts = false -> filter is_pos ts = [].
Proof. induction ts as [|t ts IH]; intros H; [reflexivity|]. cbn in *. apply orb_false_iff in H as [H1 H2]. rewrite H1. auto. Qed.
Lemma no_ph_out ts num : existsb placeholder ts = false -> concat (map (out_key num (str "%%")) ts) = toks_text ts.
Proof.
  induction ts as [|t ts IH]; intros H; [reflexivity|]. cbn [existsb] in H. apply orb_false_iff in H as [H1 H2].
  rewrite toks_cons. cbn [map concat]. rewrite IH by assumption. destruct t; try discriminate; reflexivity.
Qed.
Lemma no_ph_pos ts : forall n, existsb placeholder ts = false -> out_pos (str "%%") n ts = toks_text ts.
Proof.
  induction ts as [|t ts IH]; intros n H; [reflexivity|]. cbn [existsb] in H. apply orb_false_iff in H as [H1 H2].
  rewrite toks_cons. destruct t; try discriminate; cbn [out_pos]; rewrite IH by assumption; reflexivity.
Qed.
Lemma ph_split ts : existsb placeholder ts = existsb is_pos ts || existsb is_key ts.
Proof. induction ts as [|t ts IH]; [reflexivity|]. cbn. rewrite IH. unfold placeholder. destruct (is_pos t), (is_key t), (existsb is_pos ts); reflexivity. Qed.
Lemma knames_nil ts : knames ts = [] <-> existsb is_key ts = false.
Proof. induction ts as [|[]]; cbn; intuition discriminate. Qed.
Lemma count_pos ts : existsb is_pos ts = true -> len (filter is_pos ts) <> 0.
Proof.
  induction ts as [|t ts IH]; intros H; [discriminate|]. cbn in *. destruct (is_pos t); [rewrite len_cons; pose proof (len_nonneg (filter is_pos ts)); lia|auto].
Qed.
(** any part *)
Definition set_parts (s : cq) l := {| cq_count := cq_count s; cq_keys := cq_keys s; cq_kmap := cq_kmap s; cq_rparts := l |}.
Lemma part_pos s ts : kinv (cq_keys s) (cq_kmap s) -> Forall tok_ok ts -> existsb is_key ts = false ->
  cq_part s (PU (toks_text ts)) =
  Ok {| cq_count := cq_count s + len (filter is_pos ts); cq_keys := cq_keys s; cq_kmap := cq_kmap s;
        cq_rparts := cq_rparts s ++ [PU (out_pos (pct_out ts) (cq_count s + 1) ts)] |}.
Proof.
  intros I F K. unfold cq_part. rewrite percent_toks by exact F.
  destruct (scan_toks ts 0 _ _ I) as (keys' & kmap' & E & I' & R1 & R2 & R3). rewrite E.
  apply knames_nil in K as K'. destruct (R3 K') as [-> ->].
  pose proof (ph_split ts) as PS. rewrite K, orb_false_r in PS. unfold pct_out.
  destruct (flat_map tok_group ts) as [|g gs] eqn:G.
  - apply groups_nil in G. rewrite G, no_ph_pos by exact G. rewrite G in PS. rewrite pos_nil by auto. cbn [len List.length Z.of_nat]. f_equal. f_equal. unfold len. cbn. lia.
  - destruct (existsb placeholder ts) eqn:P; [|apply groups_nil in P; congruence].
    assert (C : len (filter is_pos ts) <> 0) by (apply count_pos; auto).
    rewrite (proj2 (Z.eqb_neq _ _)) by lia. cbn [negb]. replace (Z.to_nat (0 + len (filter is_pos ts))) with (length (filter is_pos ts)) by (unfold len; lia).
    rewrite fmt_seq_pos by assumption. reflexivity.
Qed.
Lemma part_key s ts : kinv (cq_keys s) (cq_kmap s) -> Forall tok_ok ts -> existsb is_pos ts = false ->
  exists s', cq_part s (PU (toks_text ts)) = Ok s' /\ cq_count s' = cq_count s /\ kinv (cq_keys s') (cq_kmap s') /\
    (exists e, cq_keys s' = cq_keys s ++ e) /\ (forall k, In k (cq_keys s') <-> In k (cq_keys s) \/ In k (knames ts)) /\
    forall num, (forall i k, nth_error (cq_keys s') i = Some k -> num k = Z.of_nat i + 1) ->
      cq_rparts s' = cq_rparts s ++ [PU (concat (map (out_key num (pct_out ts)) ts))].
Proof.
  intros I F K. unfold cq_part. rewrite percent_toks by exact F.
  destruct (scan_toks ts 0 _ _ I) as (keys' & kmap' & E & I' & R1 & R2 & R3). rewrite E.
  rewrite pos_nil by exact K. change (0 + len (@nil tok)) with 0. cbn [Z.eqb negb]. unfold pct_out.
  destruct (flat_map tok_group ts) as [|g gs] eqn:G.
  - apply groups_nil in G. eexists. split; [reflexivity|]. cbn [cq_count cq_keys cq_kmap cq_rparts]. split; [reflexivity|]. split; [exact I'|]. split; [exact R1|]. split; [exact R2|].
    intros num _. rewrite G, no_ph_out by exact G. reflexivity.
  - destruct (existsb placeholder ts) eqn:P; [|apply groups_nil in P; congruence].
    assert (FM : forall num, (forall i k, nth_error keys' i = Some k -> num k = Z.of_nat i + 1) -> fmt_map (length (toks_text ts)) (toks_text ts) kmap' = Ok (concat (map (out_key num [37]) ts))).
    { intros num0 N. apply fmt_map_ok; auto. intros k Ik. assert (In k keys').
      { apply R2. right. unfold knames. apply in_flat_map. exists (TKey k). cbn; auto. }
      apply In_nth_error in H as (i & H). rewrite (proj2 I' _ _ H). now rewrite (N _ _ H). }
    destruct (fmt_map (length (toks_text ts)) (toks_text ts) kmap') as [x|e] eqn:X.
    + cbn [bind]. eexists. split; [reflexivity|]. cbn [cq_count cq_keys cq_kmap cq_rparts]. split; [reflexivity|]. split; [exact I'|]. split; [exact R1|]. split; [exact R2|].
      intros num0 N. specialize (FM num0 N). injection FM as ->. reflexivity.
    + exfalso. assert (exists num, forall i k, nth_error keys' i = Some k -> num k = Z.of_nat i + 1) as (num0 & N).
      { destruct I' as (ND & _). clear - ND. revert ND. generalize keys' as l. clear. intros l. assert (G : forall l b, NoDup l -> exists num, forall i (k : text), nth_error l i = Some k -> num k = Z.of_nat i + b).
        { clear. induction l as [|x l IH]; intros b N; [exists (fun _ => 0); intros [] ? H; discriminate|]. inversion N as [|? ? Hx Nl]; subst.
          destruct (IH (b + 1) Nl) as (num & Hn). exists (fun k => if seqb k x then b else num k). intros [|i] k H; cbn in H.
          - injection H as <-. destruct (seqb_spec x x); [cbn; lia|congruence].
          - destruct (seqb_spec k x) as [->|]; [exfalso; apply Hx; eapply nth_error_In, H|]. rewrite (Hn _ _ H). lia. }
        intros ND. apply G, ND. }
      specialize (FM num0 N). discriminate.
Qed.
Lemma part_any s ts : kinv (cq_keys s) (cq_kmap s) -> Forall tok_ok ts ->
  cq_part s (PU (toks_text ts)) = Err TypeError \/
  exists s', cq_part s (PU (toks_text ts)) = Ok s' /\ cq_count s' = cq_count s + len (filter is_pos ts) /\ kinv (cq_keys s') (cq_kmap s') /\
    (forall k, In k (cq_keys s') <-> In k (cq_keys s) \/ In k (knames ts)).
Proof.
  intros I F. destruct (existsb is_key ts) eqn:K.
  - destruct (existsb is_pos ts) eqn:P.
    + left. unfold cq_part. rewrite percent_toks by exact F. destruct (scan_toks ts 0 _ _ I) as (keys' & kmap' & E & I' & R1 & R2 & R3). rewrite E.
      destruct (flat_map tok_group ts) as [|g gs] eqn:G; [apply groups_nil in G; rewrite ph_split, P in G; discriminate|].
      pose proof (count_pos _ P). rewrite (proj2 (Z.eqb_neq _ _)) by lia. cbn [negb]. rewrite fmt_seq_key by assumption. reflexivity.
    + right. destruct (part_key s ts I F P) as (s' & H1 & H2 & H3 & H4 & H5 & _). exists s'. split; [exact H1|]. rewrite (pos_nil _ P). split; [unfold len; cbn; lia|]. auto.
  - right. eexists. split; [apply part_pos; assumption|]. cbn [cq_count cq_keys cq_kmap]. split; [reflexivity|]. split; [exact I|].
    intros k. apply knames_nil in K. rewrite K. cbn. tauto.
Qed.
