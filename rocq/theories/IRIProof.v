From Coq Require Import Permutation.
From Verif Require Import PyStr PyStrProof PyStrProof2 PyListProof BaseProof RIModel RISpec RIProof RIProof2 RIProof3 IRIModel IRISpec PyDict PyDictProof.

Definition id_text (x : text) : text := x.
Lemma query_item_id kv : query_item (fun x => x) (show_item kv) = (ri_escape escape_query_key_re (fst kv), option_map (ri_escape escape_query_value_re) (snd kv)).
Proof.
  assert (K : forall k, ~ In 61 (ri_escape escape_query_key_re k)) by (intros; apply escape_free; auto with esc; unfold hexchar; lia).
  destruct kv as [k [v|]]; unfold show_item, query_item; cbn [fst snd option_map].
  - cbn [app]. rewrite splitn1_at by auto. reflexivity.
  - rewrite splitn1_none by auto. reflexivity.
Qed.
Definition esc_item (kv : text * option text) : text * option text :=
  (ri_escape escape_query_key_re (fst kv), option_map (ri_escape escape_query_value_re) (snd kv)).
Lemma query_split l : l <> [] -> l <> [([], None)] ->
  match construct_query l with [] => Some [] | q => Some (map (query_item (fun x => x)) (py_split [38] q)) end = Some (map esc_item l).
Proof.
  intros N1 N2. change (construct_query l) with (py_join [38] (map show_item l)).
  destruct (py_join [38] (map show_item l)) as [|c r] eqn:E.
  - exfalso. apply join_nil in E; [|discriminate]. destruct E as [E|E].
    + destruct l; [contradiction|discriminate].
    + destruct l as [|x [|y p]]; try discriminate. cbn [map] in E. injection E as E. destruct x as [k [v|]]; unfold show_item in E; cbn [fst snd] in E.
      * apply app_eq_nil in E as [_ E]. discriminate.
      * apply escape_nil in E. subst. contradiction.
  - rewrite <- E. f_equal. rewrite split_join.
    + rewrite map_map. apply map_ext. intros kv. apply query_item_id.
    + destruct l; [contradiction|discriminate].
    + apply Forall_forall. intros x I. apply in_map_iff in I as (y & <- & _). apply item_no_amp.
Qed.
Lemma query_free l : free [35] (construct_query l).
Proof.
  apply free_intro. intros c C H. destruct C as [<-|[]].
  unfold construct_query in H. apply In_join in H as [H|(x & J & H)]; [cbn [In] in *; lia|]. apply in_map_iff in J as ((k & [v|]) & <- & J); cbn [fst snd] in H.
  - rewrite !in_app_iff in H. destruct H as [H|[H|H]]; [|cbn [In] in H; lia|]; revert H; apply escape_free; auto with esc; unfold hexchar; lia.
  - revert H; apply escape_free; auto with esc; unfold hexchar; lia.
Qed.

(** ** the keys *)
Lemma unescape_no_pct x : ~ In 37 x -> ri_unescape x = x.
Proof.
  induction x as [|c x IH]; cbn [In ri_unescape]; intros H; [reflexivity|]. destruct (Z.eqb_spec c 37); [exfalso; intuition|]. rewrite IH; intuition.
Qed.
Lemma escape_bracket_key k : ri_escape escape_query_key_re ([91] ++ k ++ [93]) = [91] ++ ri_escape escape_query_key_re k ++ [93].
Proof. rewrite !escape_app. reflexivity. Qed.
Lemma bracket_slice (k : text) : pyslice ([91] ++ k ++ [93]) 1 (-1) = k.
Proof. cbn [app]. apply pyslice_inner. Qed.
Lemma bracketed_self k : bracketed_key ([91] ++ k ++ [93]) = true.
Proof. unfold bracketed_key. cbn [app]. unfold py_startswith. cbn [prefixb]. change (91 =? 91) with true. cbn [andb].
  change (91 :: k ++ [93]) with ((91 :: k) ++ [93]). rewrite endswith_app. reflexivity. Qed.
Lemma starts1 c l : py_startswith [c] l = match l with x :: _ => x =? c | [] => false end.
Proof. unfold py_startswith. destruct l as [|x l]; [reflexivity|]. cbn [prefixb]. destruct (Z.eqb_spec c x), (Z.eqb_spec x c); cbn; try congruence; destruct l; reflexivity. Qed.
Lemma ends1 c l x : py_endswith [c] (l ++ [x]) = (x =? c).
Proof. unfold py_endswith. rewrite rev_app_distr. apply starts1. Qed.
Lemma bracketed_escape k : bracketed_key (ri_escape escape_query_key_re k) = bracketed_key k.
Proof.
  unfold bracketed_key. f_equal.
  - rewrite !starts1. destruct k as [|c k]; [reflexivity|]. unfold ri_escape. cbn [flat_map].
    destruct (escape_query_key_re c) eqn:E; cbn [app]; [|reflexivity].
    unfold pct_encode. cbn [app]. destruct (Z.eqb_spec c 91) as [->|]; [discriminate E|reflexivity].
  - induction k as [|c k _] using rev_ind; [reflexivity|]. rewrite escape_app. rewrite ends1.
    replace (ri_escape escape_query_key_re [c]) with (if escape_query_key_re c then pct_encode c else [c]) by (unfold ri_escape; cbn [flat_map]; now rewrite app_nil_r). destruct (escape_query_key_re c) eqn:E.
    + unfold pct_encode. change [37; hex_upper (c / 16); hex_upper (c mod 16)] with ([37; hex_upper (c / 16)] ++ [hex_upper (c mod 16)]).
      rewrite app_assoc, ends1. assert (M := Z.mod_pos_bound c 16 ltac:(lia)).
      destruct (Z.eqb_spec c 93) as [->|]; [discriminate E|]. unfold hex_upper. destruct (Z.ltb_spec (c mod 16) 10); lia.
    + apply ends1.
Qed.

(** ** reading the query *)
Definition bracket_item (kv : text * text) : text * option text := ([91] ++ fst kv ++ [93], Some (snd kv)).
Definition str_item (kv : text * text) : text * pval := (fst kv, PStr (snd kv)).
Lemma read_driver l : forall c s rest,
  (forall j, In j (dkeys c) -> ~ In 37 j) -> NoDup (map fst l) -> (forall k, In k (map fst l) -> ~ In k (dkeys c) /\ k <> k_settings /\ ~ In 37 k) ->
  structure_query (map esc_item (map bracket_item l) ++ rest) c s = structure_query rest (c ++ map str_item l) s.
Proof.
  induction l as [|[k v] l IH]; intros c s rest HC ND HK; [cbn [map app]; now rewrite app_nil_r|].
  cbn [map fst] in ND. inversion ND as [|? ? N1 N2]; subst.
  destruct (HK k (or_introl eq_refl)) as (K1 & K2 & K3).
  change (map esc_item (map bracket_item ((k, v) :: l)) ++ rest) with
    ((ri_escape escape_query_key_re ([91] ++ k ++ [93]), Some (ri_escape escape_query_value_re v)) :: (map esc_item (map bracket_item l) ++ rest)).
  rewrite escape_bracket_key. cbn [structure_query].
  rewrite bracketed_self, bracket_slice.
  assert (U : ri_unescape (ri_escape escape_query_key_re k) = k) by (apply unescape_escape; auto with esc).
  assert (S : seqb (ri_escape escape_query_key_re k) k_settings = false).
  { apply seqb_ne. intros E. rewrite E in U. apply K2. rewrite <- U. reflexivity. }
  assert (D : dget (ri_escape escape_query_key_re k) c = None).
  { apply dget_None. intros I. apply K1. rewrite <- U. rewrite unescape_no_pct; auto. }
  unfold dmem. rewrite S, D. cbn [negb andb]. rewrite U, unescape_escape by auto with esc.
  rewrite dset_absent by (now apply dget_None).
  rewrite IH.
  - rewrite <- app_assoc. reflexivity.
  - intros j. rewrite dkeys_app, in_app_iff. cbn. intros [J|[<-|[]]]; auto.
  - exact N2.
  - intros j J. destruct (HK j (or_intror J)) as (J1 & J2 & J3). split; [|auto]. rewrite dkeys_app, in_app_iff. cbn. intros [I|[E|[]]]; [auto|]. congruence.
Qed.
Definition set_item (kv : text * text) : text * option text := (fst kv, Some (snd kv)).
Lemma read_settings l : forall c s, NoDup (map fst l) ->
  (forall k, In k (map fst l) -> ~ In k (dkeys s) /\ k <> [] /\ bracketed_key k = false) ->
  structure_query (map esc_item (map set_item l)) c s = Ok (c, s ++ map str_item l).
Proof.
  induction l as [|[k v] l IH]; intros c s ND HK; [cbn [map structure_query]; now rewrite app_nil_r|].
  cbn [map fst] in ND. inversion ND as [|? ? N1 N2]; subst.
  destruct (HK k (or_introl eq_refl)) as (K1 & K2 & K3).
  change (map esc_item (map set_item ((k, v) :: l))) with
    ((ri_escape escape_query_key_re k, Some (ri_escape escape_query_value_re v)) :: map esc_item (map set_item l)).
  cbn [structure_query]. rewrite bracketed_escape, K3.
  assert (U : ri_unescape (ri_escape escape_query_key_re k) = k) by (apply unescape_escape; auto with esc).
  destruct (ri_escape escape_query_key_re k) as [|c0 r0] eqn:E; [apply escape_nil in E; contradiction|]. rewrite <- E in *.
  rewrite U, unescape_escape by auto with esc. rewrite dset_absent by (now apply dget_None).
  rewrite IH.
  - rewrite <- app_assoc. reflexivity.
  - exact N2.
  - intros j J. destruct (HK j (or_intror J)) as (J1 & J2 & J3). split; [|auto]. rewrite dkeys_app, in_app_iff. cbn. intros [I|[F|[]]]; [auto|]. congruence.
Qed.

(** ** the order of the driver parameters *)
Lemma insert_perm {V} (p : text * V) l : Permutation (p :: l) (insert_item p l).
Proof.
  induction l as [|q l IH]; cbn [insert_item]; [reflexivity|]. destruct (text_leb (fst p) (fst q)); [reflexivity|].
  rewrite perm_swap. now constructor.
Qed.
Lemma sort_perm {V} (l : list (text * V)) : Permutation l (sort_items l).
Proof. induction l as [|p l IH]; cbn [sort_items fold_right]; [constructor|]. fold (sort_items l). rewrite <- insert_perm. now constructor. Qed.

(** a list of entries that are all strings *)
Lemma all_strings (l : cpd) : (forall k v, In (k, v) l -> exists t, v = PStr t) -> exists l', l = map str_item l'.
Proof.
  induction l as [|[k v] l IH]; intros H; [exists []; reflexivity|].
  destruct (H k v (or_introl eq_refl)) as [t ->]. destruct IH as [l' ->]; [intros; eapply H; right; eauto|].
  exists ((k, t) :: l'). reflexivity.
Qed.
Lemma driver_list repr x : (forall k v, In (k, v) x -> is_reserved k = false -> exists t, v = PStr t) ->
  exists l, driver_params repr x = map bracket_item l /\ Permutation (filter (fun p => negb (is_reserved (fst p))) x) (map str_item l).
Proof.
  intros H. destruct (all_strings (filter (fun p => negb (is_reserved (fst p))) x)) as [l0 E].
  { intros k v I. apply filter_In in I as [I R]. cbn [fst] in R. apply (H k v I). now apply negb_true_iff. }
  unfold driver_params. rewrite E, map_map.
  assert (P := sort_perm (map (fun x0 => ([91] ++ fst (str_item x0) ++ [93], Some (py_str repr (snd (str_item x0))))) l0)).
  apply Permutation_sym in P. apply Permutation_map_inv in P as (l & P & Q).
  exists l. split; [exact P|]. now apply Permutation_map.
Qed.
