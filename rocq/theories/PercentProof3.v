(** PercentProof3.v: whole statements *)
From Verif Require Import PyStr PyStrProof RegexModel StrModel StrSpec PyInt PyDict PyDictProof PyListProof PercentModel PercentSpec BaseProof StrProof3 PercentProof PercentProof2 TypeIOProof2.

Definition toks_good (l : list spart) : Prop := Forall (fun p => match p with SU ts => Forall tok_ok ts | SQ _ _ => True end) l.
Lemma names_cons_u ts l : names (SU ts :: l) = knames ts ++ names l.
Proof. unfold names, toks_of. cbn. now rewrite flat_map_app. Qed.
Lemma names_cons_q q b l : names (SQ q b :: l) = names l.
Proof. reflexivity. Qed.
Lemma positions_cons_u ts l : positions (SU ts :: l) = len (filter is_pos ts) + positions l.
Proof. unfold positions, toks_of. cbn. now rewrite filter_app, len_app. Qed.
Lemma positions_cons_q q b l : positions (SQ q b :: l) = positions l.
Proof. reflexivity. Qed.

Fixpoint pos_parts (n : Z) (l : list spart) : list part :=
  match l with
  | [] => []
  | SU ts :: r => PU (out_pos (pct_out ts) n ts) :: pos_parts (n + len (filter is_pos ts)) r
  | SQ q b :: r => PQ q b :: pos_parts n r
  end.
Definition key_part (num : text -> Z) (p : spart) : part :=
  match p with SU ts => PU (concat (map (out_key num (pct_out ts)) ts)) | SQ q b => PQ q b end.
Lemma loop_pos l : forall s, kinv (cq_keys s) (cq_kmap s) -> toks_good l -> names l = [] ->
  cq_loop s (stmt_parts l) = Ok {| cq_count := cq_count s + positions l; cq_keys := cq_keys s; cq_kmap := cq_kmap s; cq_rparts := cq_rparts s ++ pos_parts (cq_count s + 1) l |}.
Proof.
  induction l as [|[ts|q b] l IH]; intros s I G N.
  - cbn. rewrite app_nil_r. destruct s; cbn. f_equal. f_equal. unfold positions, len. cbn. lia.
  - inversion G as [|? ? G1 G2]; subst. rewrite names_cons_u in N. apply app_eq_nil in N as [N1 N2]. cbn [stmt_parts map cq_loop spart_part].
    rewrite part_pos; [|exact I|exact G1|now apply knames_nil]. cbn [bind]. change (map spart_part l) with (stmt_parts l). rewrite IH; [|exact I|exact G2|exact N2].
    cbn [cq_count cq_keys cq_kmap cq_rparts]. rewrite positions_cons_u, <- app_assoc. cbn [app pos_parts]. f_equal. f_equal; [lia|]. do 3 f_equal. lia.
  - inversion G as [|? ? G1 G2]; subst. cbn [stmt_parts map cq_loop spart_part cq_part bind]. change (map spart_part l) with (stmt_parts l).
    rewrite IH; [|exact I|exact G2|exact N]. cbn [cq_count cq_keys cq_kmap cq_rparts]. rewrite <- app_assoc. reflexivity.
Qed.
Lemma pos0 ts r : len (filter is_pos ts) + r = 0 -> 0 <= r -> existsb is_pos ts = false /\ r = 0.
Proof.
  intros H R. pose proof (len_nonneg (filter is_pos ts)). split; [|lia].
  destruct (existsb is_pos ts) eqn:E; [|reflexivity]. apply count_pos in E. lia.
Qed.
Lemma positions_nonneg l : 0 <= positions l.
Proof. apply len_nonneg. Qed.
Lemma loop_key l : forall s, kinv (cq_keys s) (cq_kmap s) -> toks_good l -> positions l = 0 ->
  exists s', cq_loop s (stmt_parts l) = Ok s' /\ cq_count s' = cq_count s /\ kinv (cq_keys s') (cq_kmap s') /\
    (exists e, cq_keys s' = cq_keys s ++ e) /\ (forall k, In k (cq_keys s') <-> In k (cq_keys s) \/ In k (names l)) /\
    forall num, (forall i k, nth_error (cq_keys s') i = Some k -> num k = Z.of_nat i + 1) ->
      cq_rparts s' = cq_rparts s ++ map (key_part num) l.
Proof.
  induction l as [|[ts|q b] l IH]; intros s I G N.
  - exists s. split; [reflexivity|]. split; [reflexivity|]. split; [exact I|]. split; [exists []; now rewrite app_nil_r|]. split; [cbn; tauto|].
    intros num _. cbn. now rewrite app_nil_r.
  - inversion G as [|? ? G1 G2]; subst. rewrite positions_cons_u in N. destruct (pos0 _ _ N (positions_nonneg l)) as [P1 P2].
    destruct (part_key s ts I G1 P1) as (s1 & A1 & A2 & A3 & (e1 & A4) & A5 & A6).
    destruct (IH s1 A3 G2 P2) as (s' & B1 & B2 & B3 & (e2 & B4) & B5 & B6).
    exists s'. cbn [stmt_parts map cq_loop spart_part]. rewrite A1. cbn [bind]. split; [exact B1|]. split; [congruence|]. split; [exact B3|].
    split; [exists (e1 ++ e2); now rewrite B4, A4, app_assoc|]. split.
    + intros k. rewrite B5, A5, names_cons_u, in_app_iff. tauto.
    + intros num Hn. rewrite (B6 num Hn). rewrite (A6 num).
      * rewrite <- app_assoc. reflexivity.
      * intros i k H. apply Hn. rewrite B4. rewrite nth_error_app1; [exact H|]. apply nth_error_Some. congruence.
  - inversion G as [|? ? G1 G2]; subst. cbn [stmt_parts map cq_loop spart_part cq_part bind].
    destruct (IH {| cq_count := cq_count s; cq_keys := cq_keys s; cq_kmap := cq_kmap s; cq_rparts := cq_rparts s ++ [PQ q b] |} I G2 N) as (s' & B1 & B2 & B3 & B4 & B5 & B6).
    exists s'. split; [exact B1|]. split; [exact B2|]. split; [exact B3|]. split; [exact B4|]. split; [exact B5|].
    intros num Hn. rewrite (B6 num Hn). cbn [cq_rparts]. rewrite <- app_assoc. reflexivity.
Qed.
Lemma loop_any l : forall s, kinv (cq_keys s) (cq_kmap s) -> toks_good l ->
  cq_loop s (stmt_parts l) = Err TypeError \/
  exists s', cq_loop s (stmt_parts l) = Ok s' /\ cq_count s' = cq_count s + positions l /\ 
    (forall k, In k (cq_keys s') <-> In k (cq_keys s) \/ In k (names l)).
Proof.
  induction l as [|[ts|q b] l IH]; intros s I G.
  - right. exists s. split; [reflexivity|]. split; [unfold positions, len; cbn; lia|]. cbn. tauto.
  - inversion G as [|? ? G1 G2]; subst. cbn [stmt_parts map cq_loop spart_part]. 
    destruct (part_any s ts I G1) as [->|(s1 & A1 & A2 & A3 & A5)]; [left; reflexivity|]. rewrite A1. cbn [bind].
    destruct (IH s1 A3 G2) as [E|(s' & B1 & B2 & B5)]; [left; exact E|right]. exists s'. split; [exact B1|]. rewrite positions_cons_u. split; [lia|].
    intros k. rewrite B5, A5, names_cons_u, in_app_iff. tauto.
  - inversion G as [|? ? G1 G2]; subst. cbn [stmt_parts map cq_loop spart_part cq_part bind].
    apply (IH {| cq_count := cq_count s; cq_keys := cq_keys s; cq_kmap := cq_kmap s; cq_rparts := cq_rparts s ++ [PQ q b] |} I G2).
Qed.

(** ** unsplit *)
Fixpoint shape (l : list part) : Prop :=
  match l with
  | PU _ :: r => match r with [] => True | PQ _ _ :: r' => r' <> [] /\ shape r' | PU _ :: _ => False end
  | _ => False
  end.
Lemma wf_shape U n : forall l, (length l <= n)%nat -> wf_parts U l -> shape l.
Proof.
  induction n as [|n IH]; intros l Hn W; [destruct l; [exact W|cbn in Hn; lia]|]. destruct l as [|[u|] [|[|q b] r]]; cbn in *; try tauto.
  split; [tauto|]. apply IH; [lia|tauto].
Qed.
Lemma unsplit_shape n : forall l s e, (length l <= n)%nat -> shape l -> unsplit_go s e l = Ok (s ++ e ++ render l).
Proof.
  induction n as [|n IH]; intros l s e Hn W; [destruct l; [contradiction|cbn in Hn; lia]|].
  destruct l as [|[u|] [|[|q b] r]]; cbn in W; try tauto; cbn [unsplit_go].
  - unfold render. cbn. now rewrite app_nil_r.
  - rewrite IH; [|cbn in Hn; lia|tauto]. unfold render. cbn [map render1 concat]. unfold end_quote, closing. rewrite <- !app_assoc. reflexivity.
Qed.
Lemma str_unsplit_shape l : shape l -> str_unsplit l = Ok (render l).
Proof. intros S. unfold str_unsplit. rewrite (unsplit_shape (length l)) by auto. reflexivity. Qed.
Definition same_kind (a b : part) : Prop := match a, b with PU _, PU _ => True | PQ _ _, PQ _ _ => True | _, _ => False end.
Lemma shape_same n : forall l l', (length l <= n)%nat -> Forall2 same_kind l l' -> shape l -> shape l'.
Proof.
  induction n as [|n IH]; intros l l' Hn F S.
  - destruct l; [destruct S|cbn in Hn; lia].
  - inversion F as [|a b ? ? H1 H2]; subst; [destruct S|]. destruct a, b; cbn in H1; try contradiction; cbn in S; try contradiction.
    inversion H2 as [|a b ? ? H3 H4]; subst; [exact Logic.I|]. destruct a, b; cbn in H3; try contradiction. destruct S as [S1 S2]. cbn. split.
    + inversion H4; congruence.
    + eapply IH; [|exact H4|exact S2]. cbn in Hn. lia.
Qed.
Lemma shape_pos l : forall n, Forall2 same_kind (stmt_parts l) (pos_parts n l).
Proof. induction l as [|[|] l IH]; intros n; cbn; constructor; cbn; auto. Qed.
Lemma shape_key num l : Forall2 same_kind (stmt_parts l) (map (key_part num) l).
Proof. induction l as [|[|] l IH]; cbn; constructor; cbn; auto. Qed.
Lemma render_pos l : forall n, render (pos_parts n l) = stmt_pos n l.
Proof. induction l as [|[|] l IH]; intros n; [reflexivity| |]; cbn; fold (render (pos_parts n l)); unfold render in *; cbn; rewrite IH; [reflexivity|]. rewrite <- !app_assoc. reflexivity. Qed.
Lemma render_key num l : render (map (key_part num) l) = stmt_key num l.
Proof. unfold render, stmt_key. rewrite map_map. f_equal. apply map_ext. intros [|]; reflexivity. Qed.

(** ** the theorems *)
Lemma kinv_nil : kinv [] [].
Proof. split; [constructor|]. intros [] k H; discriminate. Qed.
Lemma convert_pos U l : unicode_ok U -> stmt_ok U l -> names l = [] ->
  convert_query U (stmt_text l) = Ok (stmt_pos 1 l, XTuple, positions l).
Proof.
  intros UO (W & G) N. unfold convert_query, stmt_text. rewrite str_split_render by assumption.
  rewrite (loop_pos l {| cq_count := 0; cq_keys := []; cq_kmap := []; cq_rparts := [] |} kinv_nil G N). cbn [bind cq_keys cq_rparts cq_count app].
  change (0 + 1) with 1. rewrite str_unsplit_shape by (eapply shape_same; [|apply shape_pos|eapply wf_shape; [|exact W]]; reflexivity).
  cbn [bind]. rewrite render_pos. destruct l as [|[|] l]; [destruct W|reflexivity..].
Qed.
Lemma convert_key U l : unicode_ok U -> stmt_ok U l -> positions l = 0 -> names l <> [] -> exists keys,
  NoDup keys /\ (forall k, In k keys <-> In k (names l)) /\
  forall num, (forall i k, nth_error keys i = Some k -> num k = Z.of_nat i + 1) ->
  convert_query U (stmt_text l) = Ok (stmt_key num l, XKeys keys, len keys).
Proof.
  intros UO (W & G) N NE. unfold convert_query, stmt_text. rewrite str_split_render by assumption.
  destruct (loop_key l {| cq_count := 0; cq_keys := []; cq_kmap := []; cq_rparts := [] |} kinv_nil G N) as (s' & -> & B2 & B3 & _ & B5 & B6).
  exists (cq_keys s'). split; [apply B3|]. assert (K : forall k, In k (cq_keys s') <-> In k (names l)) by (intros k; rewrite B5; cbn; tauto). split; [exact K|].
  intros num Hn. cbn [bind]. rewrite B2. cbn [cq_count Z.eqb negb].
  destruct (cq_keys s') as [|k ks] eqn:E. { destruct (names l) as [|k ks]; [congruence|]. exfalso. apply (K k). now left. }
  rewrite (B6 num Hn). cbn [cq_rparts app]. rewrite str_unsplit_shape by (eapply shape_same; [|apply shape_key|eapply wf_shape; [|exact W]]; reflexivity).
  cbn [bind]. rewrite render_key. destruct l as [|[|] l]; [destruct W|reflexivity..].
Qed.
Lemma convert_mixed U l : unicode_ok U -> stmt_ok U l -> positions l <> 0 -> names l <> [] -> convert_query U (stmt_text l) = Err TypeError.
Proof.
  intros UO (W & G) P N. unfold convert_query, stmt_text. rewrite str_split_render by assumption.
  destruct (loop_any l {| cq_count := 0; cq_keys := []; cq_kmap := []; cq_rparts := [] |} kinv_nil G) as [->|(s' & -> & B2 & B5)]; [reflexivity|].
  cbn [bind]. cbn in B2. destruct (cq_keys s') as [|k ks] eqn:E.
  - destruct (names l) as [|k ks] eqn:NN; [congruence|]. exfalso. apply (B5 k). right. now left.
  - rewrite B2. destruct (Z.eqb_spec (positions l) 0); [contradiction|reflexivity].
Qed.
Lemma numbering (l : list text) : NoDup l -> exists num, forall i k, nth_error l i = Some k -> num k = Z.of_nat i + 1.
Proof.
  assert (G : forall b, NoDup l -> exists num, forall i (k : text), nth_error l i = Some k -> num k = Z.of_nat i + b).
  { induction l as [|x l' IH]; intros b N; [exists (fun _ => 0); intros [] ? H; discriminate|]. inversion N as [|? ? Hx Nl]; subst.
    destruct (IH (b + 1) Nl) as (num & Hn). exists (fun k => if seqb k x then b else num k). intros [|i] k H; cbn in H.
    - injection H as <-. destruct (seqb_spec x x); [cbn; lia|congruence].
    - destruct (seqb_spec k x) as [->|]; [exfalso; apply Hx; eapply nth_error_In, H|]. rewrite (Hn _ _ H). lia. }
  apply G.
Qed.
Lemma execute_pos {V} U l (vs : list V) : unicode_ok U -> stmt_ok U l -> names l = [] ->
  execute_query U (stmt_text l) (PSeq vs) = if len vs =? positions l then Ok (stmt_pos 1 l, vs) else Err TypeError.
Proof.
  intros UO W N. unfold execute_query. rewrite convert_pos by assumption. cbn [bind params_len]. destruct (len vs =? positions l); reflexivity.
Qed.
Lemma dget_some_in {V} k (m : list (text * V)) : In k (dkeys m) -> exists v, dget k m = Some v.
Proof.
  intros I. destruct (dget k m) eqn:E; [eauto|]. exfalso. induction m as [|[j v] m IH]; [exact I|]. cbn in *.
  destruct (seqb_spec k j) as [->|]; [discriminate|]. destruct I as [->|I]; [congruence|auto].
Qed.
Lemma dget_in_keys {V} k (m : list (text * V)) v : dget k m = Some v -> In k (dkeys m).
Proof. intros H. apply dget_In in H. change k with (fst (k, v)). now apply in_map. Qed.
Lemma execute_key {V} U l (m : list (text * V)) : unicode_ok U -> stmt_ok U l -> positions l = 0 -> names l <> [] -> NoDup (dkeys m) ->
  (forall k, In k (dkeys m) <-> In k (names l)) -> exists num args,
  execute_query U (stmt_text l) (PMap m) = Ok (stmt_key num l, args) /\ len args = len m /\
  (forall k, In k (names l) -> 1 <= num k <= len args /\ nth_error args (Z.to_nat (num k - 1)) = dget k m).
Proof.
  intros UO W P N ND SK. destruct (convert_key U l UO W P N) as (keys & K1 & K2 & K3). destruct (numbering keys K1) as (num & Hn).
  assert (L : len keys = len m).
  { unfold len. f_equal. rewrite <- (map_length fst m). change (map fst m) with (dkeys m). apply Nat.le_antisymm; apply NoDup_incl_length; auto; intros k I; [apply SK, K2, I|apply K2, SK, I]. }
  destruct (mapM (fun k => match dget k m with Some v => Ok v | None => Err KeyError end) keys) as [args|e] eqn:M.
  - exists num, args. split; [|split].
    + unfold execute_query. rewrite (K3 num Hn). cbn [bind params_len apply_transformer]. rewrite L, Z.eqb_refl. cbn [negb]. rewrite M. reflexivity.
    + rewrite <- L. unfold len. f_equal. eapply mapM_length, M.
    + intros k I. apply K2 in I. apply In_nth_error in I as (i & I). rewrite (Hn _ _ I).
      apply mapM_Forall2 in M. assert (J : exists v, nth_error args i = Some v /\ dget k m = Some v).
      { clear - M I. revert i I. induction M as [|x y xs ys H M IH]; intros i I; [destruct i; discriminate|]. destruct i; cbn in *.
        - injection I as ->. exists y. split; [reflexivity|]. destruct (dget k m); [|discriminate]. injection H as ->. reflexivity.
        - apply IH, I. }
      destruct J as (v & J1 & J2). assert (i < length args)%nat by (apply nth_error_Some; congruence).
      split; [unfold len; lia|]. replace (Z.to_nat (Z.of_nat i + 1 - 1)) with i by lia. congruence.
  - exfalso. assert (X : exists args, mapM (fun k => match dget k m with Some v => Ok v | None => Err KeyError end) keys = Ok args).
    { assert (Y : forall k, In k keys -> exists v, dget k m = Some v) by (intros k I; apply dget_some_in, SK, K2, I).
      clear - Y. induction keys as [|k ks IH]; [exists []; reflexivity|]. destruct (Y k (or_introl eq_refl)) as (v & E).
      destruct IH as (a & A); [intros j J; apply Y; now right|]. exists (v :: a). cbn. rewrite E. cbn [bind]. now rewrite A. }
    destruct X as (a & X). congruence.
Qed.
Lemma execute_key_exact {V} U l (m : list (text * V)) r : unicode_ok U -> stmt_ok U l -> positions l = 0 -> names l <> [] -> NoDup (dkeys m) ->
  execute_query U (stmt_text l) (PMap m) = Ok r -> forall k, In k (dkeys m) <-> In k (names l).
Proof.
  intros UO W P N ND H. destruct (convert_key U l UO W P N) as (keys & K1 & K2 & K3). destruct (numbering keys K1) as (num & Hn).
  unfold execute_query in H. rewrite (K3 num Hn) in H. cbn [bind params_len apply_transformer] in H.
  destruct (Z.eqb_spec (len m) (len keys)) as [L|]; [|discriminate]. cbn [negb] in H. apply bind_Ok in H as (args & M & _).
  assert (I1 : incl keys (dkeys m)).
  { intros k I. apply mapM_Forall2 in M. clear - M I. induction M as [|x y xs ys H M IH]; [destruct I|]. destruct I as [->|I]; [|auto].
    destruct (dget k m) eqn:E; [|discriminate]. eapply dget_in_keys, E. }
  assert (I2 : incl (dkeys m) keys).
  { apply NoDup_length_incl; auto. unfold dkeys. rewrite map_length. unfold len in L. lia. }
  intros k. rewrite <- K2. split; auto.
Qed.
(** statements without placeholders *)
Lemma loop_plain l : forall s, Forall (fun p => match p with PU t => no_placeholder t | PQ _ _ => True end) l ->
  cq_loop s l = Ok {| cq_count := cq_count s; cq_keys := cq_keys s; cq_kmap := cq_kmap s; cq_rparts := cq_rparts s ++ l |}.
Proof.
  induction l as [|p l IH]; intros s F; [cbn; rewrite app_nil_r; destruct s; reflexivity|]. inversion F as [|? ? F1 F2]; subst. cbn [cq_loop].
  destruct p as [t|q b]; cbn [cq_part].
  - rewrite percent_none by exact F1. cbn [cq_scan bind]. rewrite IH by exact F2. cbn [cq_count cq_keys cq_kmap cq_rparts]. rewrite <- app_assoc. reflexivity.
  - cbn [bind]. rewrite IH by exact F2. cbn [cq_count cq_keys cq_kmap cq_rparts]. rewrite <- app_assoc. reflexivity.
Qed.
Lemma convert_plain U s : Forall (fun p => match p with PU t => no_placeholder t | PQ _ _ => True end) (str_split U s) -> str_unsplit (str_split U s) = Ok s ->
  convert_query U s = Ok (s, XTuple, 0).
Proof.
  intros F E. unfold convert_query. rewrite loop_plain by exact F. cbn [bind cq_keys cq_rparts cq_count app]. rewrite E. cbn [bind].
  destruct (str_split U s); reflexivity.
Qed.
