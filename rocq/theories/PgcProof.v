From Verif Require Import Base BaseProof PyStr PyStrProof PyStrProof2 PyDict PyDictProof PyInt StrModel StrSpec StrProof VersionModel VersionSpec MarkModel PgcModel PgcSpec.

(** ** The options *)
Lemma cuts_shown q o r cur : regular q o -> q <> 32 -> cuts q 32 false (-1) (shown q o ++ r) cur = cuts q 32 false (-1) r (rev (shown q o) ++ cur).
Proof.
  intros (_ & _ & NQ & _ & _ & UQ) Q. unfold shown. destruct (o_quoted o).
  - clear UQ. cbn [app cuts]. rewrite Z.eqb_refl. cbn [negb rev]. rewrite <- !app_assoc. cbn [app].
    assert (G : forall a r cur, ~ In q a -> cuts q 32 true (-1) (a ++ r) cur = cuts q 32 true (-1) r (rev a ++ cur)).
    { clear. induction a as [|c a IH]; intros r cur N; [reflexivity|]. cbn [app cuts]. destruct (Z.eqb_spec c q) as [->|]; [destruct N; now left|].
      cbn [negb]. rewrite andb_false_r. cbn [andb]. rewrite IH by (intros I; apply N; now right). cbn [rev]. now rewrite <- app_assoc. }
    rewrite G by assumption. cbn [cuts]. rewrite Z.eqb_refl. cbn [negb]. f_equal. rewrite ?rev_app_distr. cbn [rev app]. rewrite <- ?app_assoc. reflexivity.
  - specialize (UQ eq_refl). clear - NQ UQ. revert r cur. induction (argument o) as [|c a IH]; intros r cur; [reflexivity|]. cbn [app cuts].
    destruct (Z.eqb_spec c q) as [->|]; [destruct NQ; now left|]. inversion UQ as [|? ? (N & _) UQ']; subst.
    destruct (Z.eqb_spec c 32); [contradiction|]. cbn [andb]. rewrite IH; [|intros I; apply NQ; now right|assumption]. cbn [rev]. now rewrite <- app_assoc.
Qed.
Lemma cuts_all q : q <> 32 -> forall os o, Forall (regular q) (o :: os) -> cuts q 32 false (-1) (py_join [32] (map (shown q) (o :: os))) [] = map (shown q) (o :: os).
Proof.
  intros Q. induction os as [|o2 os IH]; intros o F.
  - cbn [map py_join]. rewrite <- (app_nil_r (shown q o)) at 1. rewrite cuts_shown by (assumption || now apply Forall_inv in F). cbn [cuts]. now rewrite app_nil_r, rev_involutive.
  - change (py_join [32] (map (shown q) (o :: o2 :: os))) with (shown q o ++ [32] ++ py_join [32] (map (shown q) (o2 :: os))).
    rewrite cuts_shown by (assumption || now apply Forall_inv in F). cbn [app cuts]. destruct (Z.eqb_spec 32 q); [congruence|]. cbn [Z.eqb negb andb].
    rewrite app_nil_r, rev_involutive. change (-1 - 1) with (-2). 
    rewrite (cuts_neg _ _ _ (-2) (-1)) by lia. rewrite IH by now inversion F. reflexivity.
Qed.
Lemma index2_snoc q a : ~ In q a -> index_of [q; q] (a ++ [q]) = None.
Proof.
  induction a as [|c a IH]; intros N.
  - cbn. rewrite Z.eqb_refl. reflexivity.
  - rewrite <- app_comm_cons. cbn [index_of prefixb]. destruct (Z.eqb_spec q c) as [->|]; [destruct N; now left|]. cbn [andb]. rewrite IH; auto. intros I; apply N; now right.
Qed.
Lemma index2_none q a : ~ In q a -> index_of [q; q] a = None.
Proof.
  induction a as [|c a IH]; intros N; [reflexivity|]. cbn [index_of prefixb]. destruct (Z.eqb_spec q c) as [->|]; [destruct N; now left|]. cbn [andb]. rewrite IH; auto. intros I; apply N; now right.
Qed.
Lemma no_pair q o : regular q o -> py_in [q; q] (shown q o) = false.
Proof.
  intros (_ & _ & NQ & (c & r & N & _) & _ & _). unfold py_in, shown.
  assert (A : exists d t, argument o = d :: t) by (unfold argument; rewrite N; destruct (o_dashes o); cbn; eauto). destruct A as (d & t & A).
  destruct (o_quoted o); [|now rewrite index2_none].
  rewrite A in *. rewrite <- app_comm_cons. cbn [app index_of prefixb]. rewrite Z.eqb_refl. destruct (Z.eqb_spec q d) as [->|]; [destruct NQ; now left|].
  cbn [andb]. rewrite index2_snoc; [reflexivity|]. intros I. apply NQ. now right.
Qed.
Lemma item_shown q o : (q = 39 \/ q = 34) -> regular q o -> option_item q (shown q o) = [(option_key o, o_value o)].
Proof.
  intros Q R. unfold option_item. rewrite no_pair by assumption. destruct R as (D & NE & NQ & (c & r & N & NC) & L & _).
  set (body := o_name o ++ match o_value o with Some v => 61 :: v | None => [] end).
  assert (S : strip_by (fun c => (c =? 45) || (c =? 39) || (c =? 34)) (shown q o) = body).
  { assert (E : exists a b, shown q o = a ++ body ++ b /\ Forall (fun c => (c =? 45) || (c =? 39) || (c =? 34) = true) a /\ Forall (fun c => (c =? 45) || (c =? 39) || (c =? 34) = true) b).
    { assert (DD : Forall (fun c => (c =? 45) || (c =? 39) || (c =? 34) = true) (o_dashes o)) by (eapply Forall_impl; [|exact D]; intros ? <-; reflexivity).
      unfold shown, argument. fold body. destruct (o_quoted o).
      - exists (q :: o_dashes o), [q]. split; [cbn; now rewrite <- app_assoc|]. split; repeat constructor; auto; destruct Q as [-> | -> ]; reflexivity.
      - exists (o_dashes o), []. rewrite app_nil_r. auto. }
    destruct E as (a & b & -> & A & B). apply strip_around; auto.
    - unfold body. rewrite N. discriminate.
    - assert (X : exists w z, body = w ++ [z]). { destruct (@exists_last _ body) as (w & z & X); [unfold body; rewrite N; discriminate|eauto]. }
      destruct X as (w & z & X). assert (Hc : ~ dash_or_quote z). { apply (L (o_dashes o ++ w)). unfold argument. fold body. rewrite X. now rewrite app_assoc. }
      assert (F : forall c, ~ dash_or_quote c -> (c =? 45) || (c =? 39) || (c =? 34) = false).
      { clear. intros c H. unfold dash_or_quote in H. destruct (Z.eqb_spec c 45), (Z.eqb_spec c 39), (Z.eqb_spec c 34); tauto. }
      unfold solid. assert (Y : body = c :: r ++ match o_value o with Some v => 61 :: v | None => [] end) by (unfold body; now rewrite N).
      assert (W : forall d, last body d = z) by (intros d; rewrite X; apply last_last). destruct body as [|c' r']; [discriminate|]. rewrite W. injection Y as -> _. split; now apply F. }
  cbv zeta. rewrite S. unfold body.
  assert (I : index_of [61] body = match o_value o with Some _ => Some (length (o_name o)) | None => None end).
  { unfold body. destruct (o_value o); [now apply index1_app|]. rewrite app_nil_r. now apply index1_None. }
  fold body. rewrite I. unfold body. destruct (o_value o) as [v|].
  - rewrite firstn_app, firstn_all, Nat.sub_diag, app_nil_r. cbn [firstn]. rewrite app_nil_r || idtac. rewrite skipn_S_app.
    rewrite replace1. assert (K : flat_map (fun x => if x =? 45 then [95] else [x]) (o_name o) = option_key o).
    { unfold option_key. clear. induction (o_name o) as [|x l IH]; [reflexivity|]. cbn. rewrite IH. now destruct (x =? 45). }
    rewrite K. destruct (option_key o) eqn:KE; [unfold option_key in KE; rewrite N in KE; discriminate|reflexivity].
  - rewrite app_nil_r. rewrite replace1. assert (K : flat_map (fun x => if x =? 45 then [95] else [x]) (o_name o) = option_key o).
    { unfold option_key. clear. induction (o_name o) as [|x l IH]; [reflexivity|]. cbn. rewrite IH. now destruct (x =? 45). }
    rewrite K. destruct (option_key o) eqn:KE; [unfold option_key in KE; rewrite N in KE; discriminate|reflexivity].
Qed.
Lemma shown_head q o : regular q o -> exists c r, shown q o = c :: r /\ (if o_quoted o then c = q else is_quote c = false).
Proof.
  intros (_ & _ & _ & (c & r & N & _) & _ & UQ). unfold shown. destruct (o_quoted o); [cbn; eauto|].
  specialize (UQ eq_refl). assert (A : exists d t, argument o = d :: t) by (unfold argument; rewrite N; destruct (o_dashes o); cbn; eauto). destruct A as (d & t & A).
  exists d, t. split; auto. rewrite A in UQ. apply Forall_inv in UQ as (_ & X & Y). unfold is_quote. destruct (Z.eqb_spec d 39), (Z.eqb_spec d 34); tauto.
Qed.
Lemma shown_last q o : regular q o -> exists r c, shown q o = r ++ [c] /\ (if o_quoted o then c = q else is_quote c = false).
Proof.
  intros (_ & _ & _ & (c & r & N & _) & L & UQ). unfold shown. destruct (o_quoted o); [exists ([q] ++ argument o), q; split; [now rewrite <- app_assoc|reflexivity]|].
  destruct (@exists_last _ (argument o)) as (w & z & X); [unfold argument; rewrite N; destruct (o_dashes o); discriminate|]. exists w, z. split; auto.
  specialize (L _ _ X). unfold dash_or_quote in L. unfold is_quote. destruct (Z.eqb_spec z 39), (Z.eqb_spec z 34); tauto.
Qed.
Lemma join_last q os o : Forall (regular q) (o :: os) -> exists r c l, py_join [32] (map (shown q) (o :: os)) = r ++ [c] /\ In l (o :: os) /\ (if o_quoted l then c = q else is_quote c = false).
Proof.
  revert o. induction os as [|o2 os IH]; intros o F.
  - destruct (shown_last q o) as (r & c & E & H); [now apply Forall_inv in F|]. exists r, c, o. cbn [map py_join]. rewrite E. split; auto. split; [now left|auto].
  - destruct (IH o2) as (r & c & l & E & I & H); [now inversion F|]. exists (shown q o ++ [32] ++ r), c, l.
    change (py_join [32] (map (shown q) (o :: o2 :: os))) with (shown q o ++ [32] ++ py_join [32] (map (shown q) (o2 :: os))). rewrite E. rewrite <- !app_assoc. split; auto. split; [now right|auto].
Qed.
Lemma quote_found q o os : (q = 39 \/ q = 34) -> Forall (regular q) (o :: os) -> (q = 39 \/ o_quoted o = true) ->
  option_quote (py_join [32] (map (shown q) (o :: os))) = q.
Proof.
  intros Q F D. destruct (shown_head q o) as (c & r & E & H); [now apply Forall_inv in F|]. destruct (join_last q os o F) as (w & z & l & E2 & _ & H2).
  assert (X : exists t, py_join [32] (map (shown q) (o :: os)) = c :: t). { cbn [map]. destruct os; cbn [map py_join]; rewrite E; cbn; eauto. }
  destruct X as (t & X). unfold option_quote. rewrite X. rewrite <- X, E2, last_last.
  destruct (o_quoted o).
  - subst c. destruct Q as [-> | -> ]; reflexivity.
  - rewrite H. destruct D as [-> |]; [|discriminate]. destruct (o_quoted l); [subst z; reflexivity|now rewrite H2].
Qed.
Lemma options_parsed q os : (q = 39 \/ q = 34) -> Forall (regular q) os -> (q = 39 \/ match os with o :: _ => o_quoted o = true | [] => True end) ->
  parse_configure_options (py_join [32] (map (shown q) os)) = map (fun o => (option_key o, o_value o)) os.
Proof.
  intros Q F D. destruct os as [|o os]; [reflexivity|].
  assert (QS : q <> 32) by (destruct Q; subst; discriminate). pose proof (quote_found q o os Q F D) as QF. pose proof (cuts_all q QS os o F) as CA.
  unfold parse_configure_options. destruct (py_join [32] (map (shown q) (o :: os))) as [|c t] eqn:J.
  - destruct (join_last q os o F) as (w & z & l & E2 & _). rewrite J in E2. destruct w; discriminate.
  - rewrite QF, split_using_cuts by congruence. rewrite CA. clear - Q F. induction (o :: os) as [|x l IH]; [reflexivity|]. cbn [map flat_map]. rewrite item_shown by (assumption || now apply Forall_inv in F).
    rewrite IH by now inversion F. reflexivity.
Qed.
