(** PercentProof.v: the regular expression finds exactly the placeholders *)
From Verif Require Import PyStr PyStrProof RegexModel StrModel StrSpec PyInt PyDict PercentModel PercentSpec BaseProof.

Fixpoint strip2 (l : text) : text :=
  match l with a :: (b :: r) => if (a =? 37) && (b =? 37) then strip2 r else l | _ => l end.
Lemma strip2_len : forall l : text, (length (strip2 l) <= length l)%nat.
Proof.
  intros l. assert (H : forall n (l : text), (length l <= n)%nat -> (length (strip2 l) <= length l)%nat).
  { induction n as [|n IH]; intros [|a [|b r]] Hn; cbn [strip2]; try (cbn in Hn; lia); try (cbn; lia).
    destruct ((a =? 37) && (b =? 37)); [|lia]. cbn in *. specialize (IH r). lia. }
  eapply H; reflexivity.
Qed.
Lemma star_pairs n : forall (l : text) g, (length l <= n)%nat -> star_m (re_m (RLit [37; 37])) n (l, g) (@Some rst) = Some (strip2 l, g).
Proof.
  induction n as [|n IH]; intros l g H.
  - destruct l; [reflexivity|cbn in H; lia].
  - cbn [star_m re_m fst snd]. destruct l as [|a [|b r]]; try reflexivity.
    + unfold prefixb. destruct (37 =? a); reflexivity.
    + cbn [prefixb skipn List.length strip2]. rewrite (Z.eqb_sym 37 a), (Z.eqb_sym 37 b). destruct (a =? 37); cbn [andb]; [|reflexivity].
      destruct (b =? 37); cbn [andb]; [|reflexivity].
      replace (length r <? S (S (length r)))%nat with true by (symmetry; apply Nat.ltb_lt; lia).
      rewrite IH by (cbn in H; lia). reflexivity.
Qed.
Lemma star_not {X} q n : forall (k r : text) g (K : rst -> option X) x, ~ In q k -> (length k <= n)%nat -> K (q :: r, g) = Some x ->
  star_m (re_m (r_not q)) n (k ++ q :: r, g) K = Some x.
Proof.
  induction n as [|n IH]; intros k r g K x Hk Hn HK.
  - destruct k; [exact HK|cbn in Hn; lia].
  - assert (RN : forall c l (f : rst -> option X), re_m (r_not q) (c :: l, g) f = if negb (c =? q) then f (l, g) else None) by reflexivity.
    destruct k as [|c k]; cbn [star_m app]; rewrite RN.
    + rewrite Z.eqb_refl. cbn [negb]. exact HK.
    + cbn [fst]. destruct (Z.eqb_spec c q) as [->|N]; [exfalso; apply Hk; now left|]. cbn [negb].
      replace (length (k ++ q :: r) <? length (c :: k ++ q :: r))%nat with true by (symmetry; apply Nat.ltb_lt; cbn; lia).
      rewrite (IH k r g K x); [reflexivity| |cbn in Hn; lia|exact HK]. intros I. apply Hk. now right.
Qed.

Fixpoint drop_pct (ts : list tok) : list tok := match ts with TPct :: r => drop_pct r | _ => ts end.
Lemma strip2_toks ts : Forall tok_ok ts -> strip2 (toks_text ts) = toks_text (drop_pct ts).
Proof.
  induction ts as [|t ts IH]; intros F; [reflexivity|]. inversion F as [|? ? Ht Fts]; subst. destruct t as [c| | |k].
  - cbn [toks_text map tok_text concat app drop_pct]. change (concat (map tok_text ts)) with (toks_text ts). cbn in Ht.
    destruct (toks_text ts) as [|b r]; cbn [strip2]; [reflexivity|]. destruct (Z.eqb_spec c 37); [contradiction|reflexivity].
  - cbn [drop_pct]. rewrite <- IH by assumption. reflexivity.
  - reflexivity.
  - reflexivity.
Qed.
Definition tok_group (t : tok) : list text := match t with TPos => [[115]] | TKey k => [40 :: k ++ [41; 115]] | _ => [] end.
Lemma match_char c l : c <> 37 -> re_match parameters_re (c :: l) = None.
Proof. intros N. unfold re_match, parameters_re. cbn [re_m fst prefixb]. destruct (Z.eqb_spec 37 c); [congruence|]. reflexivity. Qed.
Lemma match_pct l : re_match parameters_re (37 :: 37 :: l) = Some (strip2 l, None).
Proof.
  unfold re_match, parameters_re. cbn [re_m fst prefixb Z.eqb Pos.eqb andb skipn List.length snd].
  rewrite star_pairs by reflexivity. reflexivity.
Qed.
Lemma match_other b l : b <> 37 -> b <> 115 -> b <> 40 -> re_match parameters_re (37 :: b :: l) = None.
Proof.
  intros A B C. assert (P : forall d t, d <> b -> prefixb (d :: t) (b :: l) = false).
  { intros d t D. unfold prefixb. destruct (Z.eqb_spec d b); [contradiction|reflexivity]. }
  unfold re_match, parameters_re. cbn [re_m fst].
  change (prefixb [37; 37] (37 :: b :: l)) with (prefixb [37] (b :: l)). rewrite P by congruence.
  change (prefixb [37] (37 :: b :: l)) with true. cbn [skipn List.length].
  rewrite !P by congruence. reflexivity.
Qed.
Lemma match_pos l : re_match parameters_re (37 :: 115 :: l) = Some (l, Some [115]).
Proof.
  unfold re_match, parameters_re. cbn [re_m fst prefixb Z.eqb Pos.eqb andb skipn List.length snd].
  replace (S (List.length l) - List.length l)%nat with 1%nat by lia. reflexivity.
Qed.
Lemma match_key k l : ~ In 41 k -> re_match parameters_re (37 :: 40 :: k ++ 41 :: 115 :: l) = Some (l, Some (40 :: k ++ [41; 115])).
Proof.
  intros N. unfold re_match, parameters_re. cbn [re_m fst prefixb Z.eqb Pos.eqb andb skipn List.length snd].
  erewrite star_not; [reflexivity|exact N| |].
  - rewrite app_length. lia.
  - cbn [fst snd prefixb Z.eqb Pos.eqb andb skipn List.length].
    replace (firstn _ _) with (40 :: k ++ [41; 115]); [reflexivity|].
    change (40 :: k ++ 41 :: 115 :: l) with ((40 :: k) ++ [41; 115] ++ l). rewrite app_assoc.
    replace (S (List.length (k ++ 41%Z :: 115%Z :: l)) - List.length l)%nat with (List.length ((40%Z :: k) ++ [41%Z; 115%Z]) + 0)%nat.
    + rewrite firstn_app_2. cbn [firstn]. now rewrite app_nil_r.
    + rewrite !app_length. cbn [List.length app]. lia.
Qed.

Lemma search_hit l rest g : re_match parameters_re l = Some (rest, g) -> re_search parameters_re l = Some ([], firstn (length l - length rest) l, g, rest).
Proof. intros H. destruct l; cbn [re_search]; rewrite H; reflexivity. Qed.
Lemma findall_char n c l : c <> 37 -> re_findall parameters_re n (c :: l) = re_findall parameters_re n l.
Proof.
  intros N. destruct n; cbn [re_findall re_search]; rewrite match_char by exact N;
    destruct (re_search parameters_re l) as [[[[b m] g] rest]|]; reflexivity.
Qed.
Lemma findall_nil n : re_findall parameters_re n [] = [].
Proof. destruct n; reflexivity. Qed.
Definition nonempty (x : text) : bool := match x with [] => false | _ => true end.
Lemma drop_pct_ok ts : Forall tok_ok ts -> Forall tok_ok (drop_pct ts).
Proof. induction ts as [|[]]; intros F; cbn; auto. inversion F; auto. Qed.
Lemma drop_pct_len ts : (length (drop_pct ts) <= length ts)%nat.
Proof. induction ts as [|[]]; cbn; lia. Qed.
Lemma drop_pct_group ts : flat_map tok_group (drop_pct ts) = flat_map tok_group ts.
Proof. induction ts as [|[]]; cbn; auto. Qed.
Lemma toks_cons t ts : toks_text (t :: ts) = tok_text t ++ toks_text ts.
Proof. reflexivity. Qed.
Lemma findall_toks m : forall ts n, (length ts <= m)%nat -> (length (toks_text ts) <= n)%nat -> Forall tok_ok ts ->
  filter nonempty (re_findall parameters_re n (toks_text ts)) = flat_map tok_group ts.
Proof.
  induction m as [|m IH]; intros ts n Hm Hn F.
  - destruct ts; [|cbn in Hm; lia]. cbn. now rewrite findall_nil.
  - destruct ts as [|t ts]; [cbn; now rewrite findall_nil|]. inversion F as [|? ? Ht Fts]; subst.
    rewrite toks_cons in *. cbn [List.length] in Hm. destruct t as [c| | |k].
    + cbn [tok_text app] in *. cbn in Ht. rewrite findall_char by exact Ht. cbn [flat_map tok_group app].
      apply IH; [lia|cbn in Hn; lia|assumption].
    + change (tok_text TPct ++ toks_text ts) with (37 :: 37 :: toks_text ts) in *. destruct n as [|n]; [cbn in Hn; lia|].
      cbn [re_findall]. rewrite (search_hit _ _ _ (match_pct _)). cbn [filter nonempty].
      rewrite strip2_toks by assumption. cbn [flat_map tok_group app].
      rewrite IH; [apply drop_pct_group|pose proof (drop_pct_len ts); lia| |apply drop_pct_ok; assumption].
      pose proof (strip2_len (toks_text ts)) as L. rewrite strip2_toks in L by assumption. cbn in Hn. lia.
    + change (tok_text TPos ++ toks_text ts) with (37 :: 115 :: toks_text ts) in *. destruct n as [|n]; [cbn in Hn; lia|].
      cbn [re_findall]. rewrite (search_hit _ _ _ (match_pos _)). cbn [filter nonempty flat_map tok_group app]. f_equal.
      apply IH; [lia|cbn in Hn; lia|assumption].
    + assert (E : tok_text (TKey k) ++ toks_text ts = 37 :: 40 :: k ++ 41 :: 115 :: toks_text ts).
      { cbn [tok_text]. change (str "%(") with [37; 40]. change (str ")s") with [41; 115]. rewrite <- !app_assoc. reflexivity. }
      rewrite E in *. destruct n as [|n]; [cbn in Hn; lia|]. cbn in Ht.
      cbn [re_findall]. rewrite (search_hit _ _ _ (match_key _ _ (proj2 Ht))). cbn [filter nonempty flat_map tok_group app]. f_equal.
      apply IH; [lia| |assumption]. cbn [List.length] in Hn. rewrite app_length in Hn. cbn in Hn. lia.
Qed.
Lemma percent_toks ts : Forall tok_ok ts -> percent_parameters (toks_text ts) = flat_map tok_group ts.
Proof. intros F. unfold percent_parameters. apply (findall_toks (length ts)); auto. Qed.

(** a text without %s or %( has no parameters *)
Lemma no_ph_tl c l : no_placeholder (c :: l) -> no_placeholder l.
Proof. intros H u d v ->. apply (H (c :: u) d v). reflexivity. Qed.
Lemma strip2_suffix l : exists u, l = u ++ strip2 l.
Proof.
  assert (H : forall n (l : text), (length l <= n)%nat -> exists u, l = u ++ strip2 l).
  { induction n as [|n IH]; intros [|a [|b r]] Hn; cbn [strip2]; try (exists []; reflexivity); try (cbn in Hn; lia).
    destruct ((a =? 37) && (b =? 37)); [|exists []; reflexivity]. destruct (IH r) as (u & E); [cbn in Hn; lia|].
    exists (a :: b :: u). cbn. now rewrite <- E. }
  eapply H; reflexivity.
Qed.
Lemma no_ph_app u l : no_placeholder (u ++ l) -> no_placeholder l.
Proof. induction u; intros H; [exact H|]. apply IHu. eapply no_ph_tl, H. Qed.
Lemma match_no_ph l rest g : no_placeholder l -> re_match parameters_re l = Some (rest, g) -> g = None /\ no_placeholder rest /\ (length rest < length l)%nat.
Proof.
  intros N H. destruct l as [|a l]; [discriminate|]. destruct (Z.eqb_spec a 37) as [->|A]; [|rewrite match_char in H by exact A; discriminate].
  destruct l as [|b l]; [discriminate|]. destruct (Z.eqb_spec b 37) as [->|B].
  - rewrite match_pct in H. injection H as <- <-. split; [reflexivity|]. split.
    + destruct (strip2_suffix l) as (u & E). rewrite E in N. apply (no_ph_app (37 :: 37 :: u)). exact N.
    + pose proof (strip2_len l). cbn. lia.
  - exfalso. destruct (N [] b l eq_refl) as (N1 & N2). rewrite match_other in H by auto. discriminate.
Qed.
Lemma search_no_ph l : forall b m g rest, no_placeholder l -> re_search parameters_re l = Some (b, m, g, rest) ->
  g = None /\ no_placeholder rest /\ (length rest < length l)%nat.
Proof.
  induction l as [|c l IH]; intros b m g rest N H; [discriminate|].
  cbn [re_search] in H. destruct (re_match parameters_re (c :: l)) as [[r g']|] eqn:M.
  - injection H as <- <- <- <-. eapply match_no_ph; eassumption.
  - destruct (re_search parameters_re l) as [[[[b' m'] g'] r']|] eqn:S; [|discriminate]. injection H as <- <- <- <-.
    destruct (IH _ _ _ _ (no_ph_tl _ _ N) eq_refl) as (-> & H2 & H3). split; [reflexivity|]; split; [exact H2|cbn; lia].
Qed.
Lemma findall_no_ph n : forall l, no_placeholder l -> filter nonempty (re_findall parameters_re n l) = [].
Proof.
  induction n as [|n IH]; intros l N; cbn [re_findall]; destruct (re_search parameters_re l) as [[[[b m] g] rest]|] eqn:S; try reflexivity;
    destruct (search_no_ph _ _ _ _ _ N S) as (-> & N' & _); cbn [filter nonempty]; [reflexivity|apply IH, N'].
Qed.
Lemma percent_none l : no_placeholder l -> percent_parameters l = [].
Proof. intros N. apply findall_no_ph, N. Qed.
