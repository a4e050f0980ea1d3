From Verif Require Import PyStr PyStrProof PyDict PyDictProof BaseProof LibModel LibSpec LibProof LibProof2.
Section B.
Context {V : Type} (is_none : V -> bool) (o_prepare : nat -> bool) (o_run : nat -> res V) (o_rows : nat -> res (list (list text))).
Context (l : library) (NL : named l).
Notation binding := (binding V).
Notation attr := (attr V).
Notation bind_symbol := (bind_symbol (V := V) o_prepare).
Notation run_symbol := (run_symbol o_run).
Notation bind_reference := (bind_reference (V := V) o_prepare).
Notation call_reference := (call_reference (V := V) o_prepare o_rows).
Notation make := (make o_prepare o_run o_rows).
Notation getattr := (getattr is_none o_prepare o_run o_rows).
Notation load_all := (load_all is_none o_prepare o_run o_rows).
Notation bstep := (bstep is_none o_prepare o_run o_rows).
Notation bsteps := (bsteps is_none o_prepare o_run o_rows).
Notation made := (made o_rows l).

Definition ext (h h' : list ev) : Prop := exists e, h' = h ++ e.
Lemma ext_refl h : ext h h. Proof. exists []. now rewrite app_nil_r. Qed.
Lemma ext_snoc h e : ext h (h ++ [e]). Proof. now exists [e]. Qed.
Lemma ext_trans a b c : ext a b -> ext b c -> ext a c.
Proof. intros (x & ->) (y & ->). exists (x ++ y). now rewrite app_assoc. Qed.
Lemma ext_nth h h' i e : ext h h' -> nth_error h i = Some e -> nth_error h' i = Some e.
Proof. intros (x & ->) H. rewrite nth_error_app1; [exact H|]. apply nth_error_Some. congruence. Qed.
Lemma made_ext h h' n k s : ext h h' -> made h n k s -> made h' n k s.
Proof.
  intros X (G & H). split; [exact G|]. destruct (sy_ref s).
  - destruct H as (j & i & rows & E & A & B & C). exists j, i, rows. repeat split; auto; eapply ext_nth; eauto.
  - eapply ext_nth; eauto.
Qed.
(** good attributes *)
Definition meth (s : symbol) : option text := if has_type s (str "proc") then None else sy_method s.
Definition good_sym (h : list ev) (b : bound) : Prop := exists s, made h (b_name b) (b_id b) s /\ b_method b = meth s.
Definition good_ref (h : list ev) (id : nat) (s : symbol) : Prop :=
  get_symbol l (sy_name s) = Some s /\ sy_ref s = true /\ nth_error h id = Some (EvPrepare (sy_name s) (sy_source s) true).
Definition good_attr (h : list ev) (a : attr) : Prop :=
  match a with ASym b => good_sym h b | ARef id s => good_ref h id s | AVal _ => True end.
Lemma good_sym_ext h h' b : ext h h' -> good_sym h b -> good_sym h' b.
Proof. intros X (s & M & E). exists s. split; [eapply made_ext; eauto|exact E]. Qed.
Lemma good_ref_ext h h' i s : ext h h' -> good_ref h i s -> good_ref h' i s.
Proof. intros X (A & B & C). repeat split; auto. eapply ext_nth; eauto. Qed.
Lemma good_attr_ext h h' a : ext h h' -> good_attr h a -> good_attr h' a.
Proof. intros X. destruct a; cbn [good_attr]; [eapply good_sym_ext|eapply good_ref_ext|]; eauto. Qed.
Lemma const_not_transient s : has_type s (str "const") = true -> has_type s (str "transient") = false.
Proof. unfold has_type. destruct (sy_type s) as [ty|]; [|reflexivity]. intros H. apply seqb_eq in H. subst ty. reflexivity. Qed.
(** a good log *)
Definition good_ev (h : list ev) (i : nat) (e : ev) : Prop :=
  match e with
  | EvRun n k m => (k < i)%nat /\ exists s, made h n k s /\ m = meth s
  | EvRows n k => (k < i)%nat /\ exists s, get_symbol l n = Some s /\ sy_ref s = true /\ nth_error h k = Some (EvPrepare n (sy_source s) true)
  | EvPrepare n _ _ | EvProc n _ _ => get_symbol l n <> None
  end.
Definition good_log (h : list ev) : Prop := forall i e, nth_error h i = Some e -> good_ev h i e.
Lemma good_ev_ext h h' i e : ext h h' -> good_ev h i e -> good_ev h' i e.
Proof.
  intros X. destruct e; cbn [good_ev]; auto.
  - intros (L & s & M & E). split; [exact L|]. exists s. split; [eapply made_ext; eauto|exact E].
  - intros (L & s & A & B & C). split; [exact L|]. exists s. repeat split; auto. eapply ext_nth; eauto.
Qed.
Lemma good_snoc h e : good_log h -> good_ev (h ++ [e]) (length h) e -> good_log (h ++ [e]).
Proof.
  intros G E i x H. destruct (Nat.lt_ge_cases i (length h)) as [L|L].
  - rewrite nth_error_app1 in H by exact L. apply G in H. eapply good_ev_ext; [apply ext_snoc|exact H].
  - rewrite nth_error_app2 in H by exact L. destruct (i - length h)%nat as [|k] eqn:K; [|destruct k; discriminate].
    cbn in H. injection H as <-. replace i with (length h) by lia. exact E.
Qed.
Lemma nth_snoc {A} (h : list A) e : nth_error (h ++ [e]) (length h) = Some e.
Proof. rewrite nth_error_app2, Nat.sub_diag by lia. reflexivity. Qed.
Lemma nth_lt {A} (h : list A) i e : nth_error h i = Some e -> (i < length h)%nat.
Proof. intros H. apply nth_error_Some. congruence. Qed.

(** the primitives *)
Lemma bind_symbol_ok g n s g' r : get_symbol l n = Some s -> sy_ref s = false -> good_log (g_log g) -> bind_symbol g s = (g', r) ->
  g_cache g' = g_cache g /\ good_log (g_log g') /\ ext (g_log g) (g_log g') /\
  match r with Ok b => good_sym (g_log g') b /\ b_name b = n | Err _ => True end.
Proof.
  intros G R L [= <- <-]. cbn [log g_log g_cache]. pose proof (NL _ _ G) as N.
  split; [reflexivity|]. split; [|split; [apply ext_snoc|]].
  - apply good_snoc; [exact L|]. destruct (has_type s (str "proc")); cbn [good_ev]; rewrite N, G; discriminate.
  - destruct (o_prepare (length (g_log g))); [|exact I]. cbn [b_name]. split; [|exact N]. exists s. split; [|reflexivity]. cbn [b_name b_id].
    split; [rewrite N; exact G|]. rewrite R. rewrite nth_snoc. rewrite N. unfold makes. destruct (has_type s (str "proc")); reflexivity.
Qed.
Lemma bind_symbol_ref_ok g n s (i : nat) rows g' r : get_symbol l n = Some s -> sy_ref s = true -> good_log (g_log g) ->
  (exists h, g_log g = h ++ [EvRows n i] /\ o_rows (length h) = Ok rows) ->
  bind_symbol g {| sy_name := sy_name s; sy_source := joined rows; sy_method := sy_method s; sy_type := sy_type s; sy_ref := false |} = (g', r) ->
  g_cache g' = g_cache g /\ good_log (g_log g') /\ ext (g_log g) (g_log g') /\
  match r with Ok b => good_sym (g_log g') b /\ b_name b = n | Err _ => True end.
Proof.
  intros G R L (h & EH & ER) [= <- <-]. cbn [log g_log g_cache]. pose proof (NL _ _ G) as N.
  split; [reflexivity|]. split; [|split; [apply ext_snoc|]].
  - apply good_snoc; [exact L|]. unfold has_type. cbn [sy_type sy_name]. fold (has_type s (str "proc")). destruct (has_type s (str "proc")); cbn [good_ev]; rewrite N, G; discriminate.
  - destruct (o_prepare (length (g_log g))); [|exact I]. cbn [b_name sy_name]. split; [|exact N]. exists s. cbn [b_name b_id b_method sy_name]. split; [|reflexivity].
    split; [now rewrite N|]. rewrite R. exists (length h), i, rows. rewrite N. rewrite EH. rewrite app_length. cbn [length]. rewrite Nat.add_1_r.
    split; [reflexivity|]. split; [rewrite nth_error_app1 by (rewrite app_length; cbn; lia); apply nth_snoc|]. split; [exact ER|].
    replace (S (length h)) with (length (h ++ [EvRows n i])) by (rewrite app_length; cbn; lia). rewrite nth_snoc. unfold makes, has_type. cbn [sy_type sy_name sy_source].
    unfold joined. destruct (match sy_type s with Some u => _ | None => _ end); reflexivity.
Qed.
Lemma call_reference_ok g i s g' r : good_ref (g_log g) i s -> good_log (g_log g) -> call_reference g i s = (g', r) ->
  g_cache g' = g_cache g /\ good_log (g_log g') /\ ext (g_log g) (g_log g') /\
  match r with Ok b => good_sym (g_log g') b /\ b_name b = sy_name s | Err _ => True end.
Proof.
  intros (G & R & P) L. unfold call_reference, LibModel.call_reference. set (h := g_log g) in *.
  assert (L2 : good_log (h ++ [EvRows (sy_name s) i])).
  { apply good_snoc; [exact L|]. cbn [good_ev]. split; [now apply nth_lt in P|]. exists s. repeat split; auto. eapply ext_nth; [apply ext_snoc|exact P]. }
  destruct (o_rows (length h)) as [rows|e] eqn:ER.
  - intros E. destruct (bind_symbol_ref_ok (log g (EvRows (sy_name s) i)) (sy_name s) s i rows g' r G R) as (A & B & C & D).
    + exact L2.
    + exists h. split; [reflexivity|exact ER].
    + exact E.
    + split; [exact A|]. split; [exact B|]. split; [|exact D]. eapply ext_trans; [apply ext_snoc|exact C].
  - intros [= <- <-]. cbn [log g_cache g_log]. split; [reflexivity|]. split; [exact L2|]. split; [apply ext_snoc|exact I].
Qed.
Lemma run_symbol_ok g b g' r : good_sym (g_log g) b -> good_log (g_log g) -> run_symbol g b = (g', r) ->
  g_cache g' = g_cache g /\ good_log (g_log g') /\ ext (g_log g) (g_log g').
Proof.
  intros (s & M & E) L [= <- <-]. cbn [log g_log g_cache]. split; [reflexivity|]. split; [|apply ext_snoc].
  apply good_snoc; [exact L|]. cbn [good_ev]. split.
  - destruct M as (_ & M). destruct (sy_ref s).
    + destruct M as (j & i & rows & -> & _ & _ & M). now apply nth_lt in M.
    + now apply nth_lt in M.
  - exists s. split; [eapply made_ext; [apply ext_snoc|exact M]|exact E].
Qed.
(** the state of a binding *)
Definition attr_of (n : text) (s : symbol) (a : attr) : Prop :=
  match a with ASym b => b_name b = n | ARef _ t => t = s | AVal _ => has_type s (str "const") = true end.
Definition good_cache (h : list ev) (c : list (text * attr)) : Prop :=
  forall n a, dget n c = Some a -> good_attr h a /\ exists s, get_symbol l n = Some s /\ has_type s (str "transient") = false /\
    attr_of n s a.
Definition good (g : binding) : Prop := good_log (g_log g) /\ good_cache (g_log g) (g_cache g).
Lemma good_cache_ext h h' c : ext h h' -> good_cache h c -> good_cache h' c.
Proof. intros X C n a H. apply C in H as [A B]. split; [eapply good_attr_ext; eauto|exact B]. Qed.
Lemma good_remember g n a s : good g -> good_attr (g_log g) a -> get_symbol l n = Some s -> has_type s (str "transient") = false ->
  attr_of n s a -> good (remember g n a).
Proof.
  intros [L C] A G T M. split; [exact L|]. cbn [remember g_log g_cache]. intros m b H. rewrite dget_set in H. destruct (seqb_spec m n) as [->|N].
  - injection H as <-. split; [exact A|]. exists s. auto.
  - now apply C.
Qed.
Lemma good_same_cache g g' : good g -> g_cache g' = g_cache g -> good_log (g_log g') -> ext (g_log g) (g_log g') -> good g'.
Proof. intros [L C] E L' X. split; [exact L'|]. rewrite E. eapply good_cache_ext; eauto. Qed.
Lemma make_ok g n s g' r : good g -> get_symbol l n = Some s -> make g n s = (g', r) ->
  good g' /\ ext (g_log g) (g_log g') /\ match r with Ok a => good_attr (g_log g') a /\ attr_of n s a | Err _ => True end.
Proof.
  intros GD G. pose proof (NL _ _ G) as N. unfold make, LibModel.make. destruct (sy_ref s) eqn:R.
  - unfold bind_reference, LibModel.bind_reference. set (g1 := log g _).
    assert (X1 : ext (g_log g) (g_log g1)) by apply ext_snoc.
    assert (L1 : good_log (g_log g1)).
    { apply good_snoc; [apply GD|]. cbn [good_ev]. rewrite N, G. discriminate. }
    assert (GD1 : good g1) by (eapply good_same_cache; eauto).
    destruct (o_prepare (length (g_log g))) eqn:OK.
    + assert (GR : good_ref (g_log g1) (length (g_log g)) s).
      { split; [now rewrite N|]. split; [exact R|]. apply nth_snoc. }
      destruct (has_type s (str "const")) eqn:K.
      * assert (T : has_type s (str "transient") = false) by now apply const_not_transient.
        destruct (LibModel.call_reference o_prepare o_rows g1 (length (g_log g)) s) as [g2 r2] eqn:E2.
        destruct (call_reference_ok _ _ _ _ _ GR L1 E2) as (A & B & C & D). assert (GD2 : good g2) by (eapply good_same_cache; eauto).
        destruct r2 as [b|e]; cbn [bind].
        -- rewrite T. intros [= <- <-]. destruct D as [D1 D2]. rewrite N in D2. split; [|split; [eapply ext_trans; eauto|now split]].
           eapply good_remember; eauto.
        -- intros [= <- <-]. split; [exact GD2|]. split; [eapply ext_trans; eauto|exact I].
      * destruct (has_type s (str "transient")) eqn:T; intros [= <- <-].
        -- split; [exact GD1|]. split; [exact X1|]. now split.
        -- split; [|split; [exact X1|now split]]. eapply good_remember; eauto. reflexivity.
    + intros [= <- <-]. split; [exact GD1|]. split; [exact X1|exact I].
  - destruct (LibModel.bind_symbol o_prepare g s) as [g1 r1] eqn:E1. destruct (bind_symbol_ok _ _ _ _ _ G R (proj1 GD) E1) as (A & B & C & D).
    assert (GD1 : good g1) by (eapply good_same_cache; eauto). destruct r1 as [b|e].
    + destruct D as [D1 D2]. destruct (has_type s (str "const")) eqn:K.
      * assert (T : has_type s (str "transient") = false) by now apply const_not_transient.
        destruct (LibModel.run_symbol o_run g1 b) as [g2 r2] eqn:E2. destruct (run_symbol_ok _ _ _ _ D1 B E2) as (A2 & B2 & C2).
        assert (GD2 : good g2) by (eapply good_same_cache; eauto). destruct r2 as [v|e]; intros [= <- <-].
        -- split; [eapply good_remember; eauto; exact I|]. split; [eapply ext_trans; eauto|]. now split.
        -- split; [exact GD2|]. split; [eapply ext_trans; eauto|exact I].
      * destruct (has_type s (str "transient")) eqn:T; intros [= <- <-].
        -- split; [exact GD1|]. split; [exact C|]. now split.
        -- split; [eapply good_remember; eauto|]. split; [exact C|]. now split.
    + intros [= <- <-]. split; [exact GD1|]. split; [exact C|exact I].
Qed.
Lemma getattr_ok g n g' r : good g -> getattr l g n = (g', r) ->
  good g' /\ ext (g_log g) (g_log g') /\
  match r with Ok a => good_attr (g_log g') a /\ exists s, get_symbol l n = Some s /\ attr_of n s a | Err _ => True end.
Proof.
  intros GD. unfold getattr, LibModel.getattr.
  assert (M : match get_symbol l n with None => (g, Err AttributeError) | Some s => make g n s end = (g', r) ->
     good g' /\ ext (g_log g) (g_log g') /\ match r with Ok a => good_attr (g_log g') a /\ exists s, get_symbol l n = Some s /\ attr_of n s a | Err _ => True end).
  { destruct (get_symbol l n) as [s|] eqn:G.
    - intros E. destruct (make_ok _ _ _ _ _ GD G E) as (A & B & C). split; [exact A|]. split; [exact B|]. destruct r; [|exact I]. destruct C as [C D]. eauto.
    - intros [= <- <-]. split; [exact GD|]. split; [apply ext_refl|exact I]. }
  destruct (dget n (g_cache g)) as [a|] eqn:D; [|exact M]. destruct (is_none_attr is_none a); [exact M|].
  intros [= <- <-]. split; [exact GD|]. split; [apply ext_refl|]. destruct GD as [_ C]. apply C in D as (A & s & G & T & X). split; [exact A|]. exists s. auto.
Qed.
Lemma load_all_ok ns : forall g g' r, good g -> load_all l g ns = (g', r) -> good g' /\ ext (g_log g) (g_log g').
Proof.
  induction ns as [|n ns IH]; intros g g' r GD; cbn [LibModel.load_all].
  - intros [= <- <-]. split; [exact GD|apply ext_refl].
  - destruct (getattr l g n) as [g1 [a|e]] eqn:E; destruct (getattr_ok _ _ _ _ GD E) as (A & B & _).
    + intros H. destruct (IH _ _ _ A H) as [C D]. split; [exact C|eapply ext_trans; eauto].
    + intros [= <- <-]. auto.
Qed.
Definition good_out (h : list ev) (out : list (bres V)) : Prop := forall i a, nth_error out i = Some (BAttr a) -> good_attr h a.
Lemma good_out_ext h h' out : ext h h' -> good_out h out -> good_out h' out.
Proof. intros X G i a H. eapply good_attr_ext; eauto. Qed.
Lemma bstep_ok g out o g' x : good g -> good_out (g_log g) out -> bstep l g out o = (g', x) ->
  good g' /\ ext (g_log g) (g_log g') /\ good_out (g_log g') (out ++ [x]).
Proof.
  intros GD GO H. assert (GS : forall y, ext (g_log g) (g_log g') -> (match y with BAttr a => good_attr (g_log g') a | _ => True end) -> good_out (g_log g') (out ++ [y])).
  { intros y X Y i a Hi. destruct (Nat.lt_ge_cases i (length out)) as [L|L].
    - rewrite nth_error_app1 in Hi by exact L. eapply good_out_ext; eauto.
    - rewrite nth_error_app2 in Hi by exact L. destruct (i - length out)%nat as [|k]; [|destruct k; discriminate]. cbn in Hi. injection Hi as ->. exact Y. }
  destruct o as [n|i]; cbn [LibModel.bstep] in H.
  - destruct (getattr l g n) as [g1 r] eqn:E. injection H as <- <-. destruct (getattr_ok _ _ _ _ GD E) as (A & B & C). split; [exact A|]. split; [exact B|].
    apply GS; [exact B|]. destruct r; [apply C|exact I].
  - assert (ID : (g, BErr TypeError) = (g', x) -> good g' /\ ext (g_log g) (g_log g') /\ good_out (g_log g') (out ++ [x])).
    { intros [= <- <-]. split; [exact GD|]. split; [apply ext_refl|]. apply GS; [apply ext_refl|exact I]. }
    destruct (nth_error out i) as [[[b|id s|v]|v|e]|] eqn:O; auto.
    + apply GO in O. cbn [good_attr] in O. destruct (LibModel.run_symbol o_run g b) as [g1 r] eqn:E. destruct (run_symbol_ok _ _ _ _ O (proj1 GD) E) as (A & B & C).
      injection H as <- <-. split; [eapply good_same_cache; eauto|]. split; [exact C|]. apply GS; [exact C|]. destruct r; exact I.
    + apply GO in O. cbn [good_attr] in O. destruct (LibModel.call_reference o_prepare o_rows g id s) as [g1 r] eqn:E.
      destruct (call_reference_ok _ _ _ _ _ O (proj1 GD) E) as (A & B & C & D).
      injection H as <- <-. split; [eapply good_same_cache; eauto|]. split; [exact C|]. apply GS; [exact C|]. destruct r; [apply D|exact I].
Qed.
Lemma bsteps_ok ops : forall g out g' out', good g -> good_out (g_log g) out -> bsteps l g out ops = (g', out') ->
  good g' /\ ext (g_log g) (g_log g') /\ good_out (g_log g') out'.
Proof.
  induction ops as [|o ops IH]; intros g out g' out' GD GO; cbn [LibModel.bsteps].
  - intros [= <- <-]. split; [exact GD|]. split; [apply ext_refl|exact GO].
  - destruct (bstep l g out o) as [g1 x] eqn:E. destruct (bstep_ok _ _ _ _ _ GD GO E) as (A & B & C). intros H.
    destruct (IH _ _ _ _ A C H) as (D & F & G). split; [exact D|]. split; [eapply ext_trans; eauto|exact G].
Qed.
Lemma good_init : good {| g_cache := []; g_log := [] |}.
Proof. split; [intros i e H; destruct i; discriminate|]. intros n a H. discriminate. Qed.
Lemma used_good ops g out : used is_none o_prepare o_run o_rows l ops g out -> good g /\ good_out (g_log g) out.
Proof.
  intros [ops' g0 g' out' B S]. unfold bind_library in B. destruct (load_all_ok _ _ _ _ good_init B) as [G0 _].
  assert (GN : good_out (g_log g0) []) by (intros i a H; destruct i; discriminate H).
  destruct (bsteps_ok _ _ _ _ _ G0 GN S) as (A & _ & C). auto.
Qed.

(** ** what is cached stays *)
Definition kept (g : binding) (n : text) (a : attr) : Prop := dget n (g_cache g) = Some a /\ is_none_attr is_none a = false.
Lemma bind_symbol_cache g s : g_cache (fst (bind_symbol g s)) = g_cache g. Proof. reflexivity. Qed.
Lemma call_reference_cache g i s : g_cache (fst (call_reference g i s)) = g_cache g.
Proof. unfold call_reference, LibModel.call_reference. destruct (o_rows _); reflexivity. Qed.
Lemma make_cache g n s m : m <> n -> dget m (g_cache (fst (make g n s))) = dget m (g_cache g).
Proof.
  intros N. unfold make, LibModel.make. destruct (sy_ref s).
  - unfold bind_reference, LibModel.bind_reference. destruct (o_prepare (length (g_log g))); [|reflexivity]. set (g1 := log g _).
    destruct (has_type s (str "const")).
    + pose proof (call_reference_cache g1 (length (g_log g)) s) as C. destruct (LibModel.call_reference o_prepare o_rows g1 _ s) as [g2 [b|e]]; cbn [fst bind] in *.
      * destruct (has_type s (str "transient")); cbn [fst remember g_cache]; rewrite ?dget_set_other by exact N; now rewrite C.
      * now rewrite C.
    + destruct (has_type s (str "transient")); cbn [fst remember g_cache]; rewrite ?dget_set_other by exact N; reflexivity.
  - pose proof (bind_symbol_cache g s) as C. destruct (LibModel.bind_symbol o_prepare g s) as [g1 [b|e]]; cbn [fst] in *; [|now rewrite C].
    destruct (has_type s (str "const")).
    + destruct (o_run (length (g_log g1))) eqn:R; unfold run_symbol, LibModel.run_symbol; rewrite R; cbn [fst remember log g_cache]; rewrite ?dget_set_other by exact N; now rewrite C.
    + destruct (has_type s (str "transient")); cbn [fst remember g_cache]; rewrite ?dget_set_other by exact N; now rewrite C.
Qed.
Lemma getattr_kept g n m a : kept g m a -> kept (fst (getattr l g n)) m a.
Proof.
  intros [D N]. unfold getattr, LibModel.getattr. destruct (dget n (g_cache g)) as [b|] eqn:E.
  - destruct (is_none_attr is_none b) eqn:NB; [|split; auto]. destruct (get_symbol l n); [|split; auto]. split; [|exact N]. rewrite make_cache; [exact D|congruence].
  - destruct (get_symbol l n); [|split; auto]. split; [|exact N]. rewrite make_cache; [exact D|congruence].
Qed.
Lemma bsteps_kept ops m a : forall g out, kept g m a -> kept (fst (bsteps l g out ops)) m a.
Proof.
  induction ops as [|o ops IH]; intros g out K; cbn [LibModel.bsteps]; [exact K|].
  assert (K1 : kept (fst (bstep l g out o)) m a).
  { destruct o as [n|i]; cbn [LibModel.bstep].
    - pose proof (getattr_kept g n m a K). destruct (getattr l g n) as [g1 r]. exact H.
    - destruct (nth_error out i) as [[[b|id s|v]|v|e]|]; try exact K.
      pose proof (call_reference_cache g id s) as C. destruct (LibModel.call_reference o_prepare o_rows g id s) as [g1 r]. cbn [fst] in *. unfold kept in *. now rewrite C. }
  destruct (bstep l g out o) as [g1 x]. now apply IH.
Qed.
Lemma make_kept g n s g' a : has_type s (str "transient") = false -> make g n s = (g', Ok a) -> dget n (g_cache g') = Some a.
Proof.
  intros T. unfold make, LibModel.make. destruct (sy_ref s).
  - unfold bind_reference, LibModel.bind_reference. destruct (o_prepare (length (g_log g))); [|discriminate]. rewrite T.
    destruct (has_type s (str "const")).
    + destruct (LibModel.call_reference o_prepare o_rows _ _ s) as [g2 [b|e]]; cbn [bind]; [|discriminate]. intros [= <- <-]. apply dget_set_same.
    + intros [= <- <-]. apply dget_set_same.
  - destruct (LibModel.bind_symbol o_prepare g s) as [g1 [b|e]]; [|discriminate]. rewrite T. destruct (has_type s (str "const")).
    + destruct (LibModel.run_symbol o_run g1 b) as [g2 [v|e]]; [|discriminate]. intros [= <- <-]. apply dget_set_same.
    + intros [= <- <-]. apply dget_set_same.
Qed.
Lemma getattr_keeps g n s g' a : get_symbol l n = Some s -> has_type s (str "transient") = false -> is_none_attr is_none a = false ->
  getattr l g n = (g', Ok a) -> kept g' n a.
Proof.
  intros G T N. unfold getattr, LibModel.getattr. rewrite G. destruct (dget n (g_cache g)) as [b|] eqn:D.
  - destruct (is_none_attr is_none b) eqn:NB.
    + intros H. apply make_kept in H; [now split|exact T].
    + intros [= <- <-]. now split.
  - intros H. apply make_kept in H; [now split|exact T].
Qed.
Lemma kept_getattr g n a : kept g n a -> getattr l g n = (g, Ok a).
Proof. intros [D N]. unfold getattr, LibModel.getattr. now rewrite D, N. Qed.

(** ** names of events *)
Lemma make_names g n s e : good g -> get_symbol l n = Some s -> In e (g_log (fst (make g n s))) -> In e (g_log g) \/ ev_name e = n.
Proof.
  intros GD G. pose proof (NL _ _ G) as N. unfold make, LibModel.make.
  assert (BS : forall g t, sy_name t = n -> In e (g_log (fst (bind_symbol g t))) -> In e (g_log g) \/ ev_name e = n).
  { intros g1 t NT. unfold bind_symbol, LibModel.bind_symbol. cbn [fst log g_log]. rewrite in_app_iff. intros [H|[<-|[]]]; [auto|]. right. destruct (has_type t (str "proc")); exact NT. }
  destruct (sy_ref s).
  - unfold bind_reference, LibModel.bind_reference. set (g1 := log g _).
    assert (H1 : In e (g_log g1) -> In e (g_log g) \/ ev_name e = n).
    { cbn [g1 log g_log]. rewrite in_app_iff. intros [H|[<-|[]]]; [auto|]. right. exact N. }
    destruct (o_prepare (length (g_log g))); [|exact H1]. destruct (has_type s (str "const")).
    + assert (H2 : In e (g_log (fst (call_reference g1 (length (g_log g)) s))) -> In e (g_log g) \/ ev_name e = n).
      { unfold call_reference, LibModel.call_reference. set (g2 := log g1 _).
        assert (H2 : In e (g_log g2) -> In e (g_log g) \/ ev_name e = n).
        { cbn [g2 log g_log]. rewrite in_app_iff. intros [H|[<-|[]]]; [auto|]. right. exact N. }
        destruct (o_rows _); [|exact H2]. intros H. apply BS in H as [H|H]; auto. }
      destruct (LibModel.call_reference o_prepare o_rows g1 _ s) as [g2 [b|x]]; cbn [bind fst] in *; [|exact H2].
      destruct (has_type s (str "transient")); exact H2.
    + destruct (has_type s (str "transient")); exact H1.
  - pose proof (BS g s N) as H1. pose proof (fun gg rr => bind_symbol_ok g n s gg rr G) as BO.
    destruct (LibModel.bind_symbol o_prepare g s) as [g1 [b|x]] eqn:E1; cbn [fst] in *; [|exact H1].
    assert (NB : b_name b = n).
    { unfold LibModel.bind_symbol in E1. injection E1 as _ E1. destruct (o_prepare (length (g_log g))); [|discriminate]. injection E1 as <-. exact N. }
    assert (H2 : In e (g_log (fst (run_symbol g1 b))) -> In e (g_log g) \/ ev_name e = n).
    { unfold run_symbol, LibModel.run_symbol. cbn [fst log g_log]. rewrite in_app_iff. intros [H|[<-|[]]]; [auto|]. right. exact NB. }
    destruct (has_type s (str "const")).
    + destruct (LibModel.run_symbol o_run g1 b) as [g2 [v|x]]; cbn [fst] in *; exact H2.
    + destruct (has_type s (str "transient")); exact H1.
Qed.
Lemma getattr_names g n e : good g -> In e (g_log (fst (getattr l g n))) -> In e (g_log g) \/ ev_name e = n.
Proof.
  intros GD. unfold getattr, LibModel.getattr. destruct (dget n (g_cache g)) as [a|].
  - destruct (is_none_attr is_none a); [|auto]. destruct (get_symbol l n) eqn:G; [|auto]. now apply make_names.
  - destruct (get_symbol l n) eqn:G; [|auto]. now apply make_names.
Qed.
Lemma load_names ns : forall g g' r e, good g -> load_all l g ns = (g', r) -> In e (g_log g') -> In e (g_log g) \/ In (ev_name e) ns.
Proof.
  induction ns as [|n ns IH]; intros g g' r e GD; cbn [LibModel.load_all].
  - intros [= <- <-]. auto.
  - pose proof (getattr_names g n e GD) as H1. destruct (getattr l g n) as [g1 [a|x]] eqn:E; destruct (getattr_ok _ _ _ _ GD E) as (A & B & _); cbn [fst] in H1.
    + intros H I. apply (IH _ _ _ _ A H) in I as [I|I]; [|cbn; auto]. apply H1 in I as [I|I]; cbn; auto.
    + intros [= <- <-] I. apply H1 in I as [I|I]; cbn; auto.
Qed.
(** all of them are loaded *)
Lemma load_kept ns : forall g g' m a, load_all l g ns = (g', Ok tt) -> kept g m a -> kept g' m a.
Proof.
  induction ns as [|n ns IH]; intros g g' m a; cbn [LibModel.load_all].
  - intros [= <-]. auto.
  - intros H K. pose proof (getattr_kept g n m a K) as K1. destruct (getattr l g n) as [g1 [b|x]]; [|discriminate]. eapply IH; eauto.
Qed.
Lemma load_all_cached ns : forall g g' n s, load_all l g ns = (g', Ok tt) -> good g -> In n ns -> get_symbol l n = Some s ->
  sy_ref s = false -> has_type s (str "transient") = false -> has_type s (str "const") = false -> exists b, kept g' n (ASym b).
Proof.
  induction ns as [|m ns IH]; intros g g' n s H GD I G R T K; [destruct I|]. cbn [LibModel.load_all] in H.
  destruct (getattr l g m) as [g1 [a|x]] eqn:E; [|discriminate]. destruct (getattr_ok _ _ _ _ GD E) as (A & B & C).
  destruct (list_eq_dec Z.eq_dec m n) as [->|N].
  - destruct C as (C & s' & G' & AO). assert (s' = s) by congruence. subst s'.
    assert (X : exists b, a = ASym b).
    { unfold LibModel.getattr in E. rewrite G in E.
      assert (MK : forall g2, make g n s = (g2, Ok a) -> exists b, a = ASym b).
      { intros g2. unfold make, LibModel.make. rewrite R. destruct (LibModel.bind_symbol o_prepare g s) as [g3 [b|]]; [|discriminate]. rewrite K, T.
        intros [= _ <-]. eauto. }
      destruct (dget n (g_cache g)) as [c|] eqn:D; [|eauto]. destruct (is_none_attr is_none c); [eauto|]. injection E as <- <-.
      destruct GD as [_ GC]. apply GC in D as (GA & s2 & G2 & T2 & M2). assert (s2 = s) by congruence. subst s2.
      destruct c as [b|id t|v]; [eauto| |].
      - cbn [attr_of] in M2. subst t. cbn [good_attr] in GA. destruct GA as (_ & GR & _). congruence.
      - cbn [attr_of] in M2. congruence. }
    destruct X as (b & ->). exists b. eapply load_kept; eauto. eapply getattr_keeps; eauto.
  - destruct I as [I|I]; [congruence|]. eapply IH; eauto.
Qed.
End B.
