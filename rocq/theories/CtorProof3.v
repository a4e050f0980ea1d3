(** CtorProof3.v: open() *)
From Verif Require Import Base BaseProof PyStr PyStrProof PyDict PyDictProof IRIModel ParamModel ParamSpec ParamProof ParamProof2 ParamProof3.
From Verif Require TmpProof MesgProof.
From Verif Require Import RIModel CtorModel CtorSpec CtorProof CtorProof2.

Lemma resolve_spec passfile prompt dn d : resolve_password passfile prompt dn = Ok d -> password_resolved passfile prompt (fun k => dget k dn) d.
Proof.
  intros R. unfold password_resolved. cbv beta.
  unfold resolve_password in R. cbv zeta in R.
  set (e := ddel (str "prompt_title") (ddel (str "pgpassfile") (ddel (str "prompt_password") dn))) in R.
  assert (E1 : dget (str "prompt_password") e = None) by (unfold e; rewrite !dget_del; reflexivity).
  assert (E2 : dget (str "pgpassfile") e = None) by (unfold e; rewrite !dget_del; reflexivity).
  assert (E3 : dget (str "prompt_title") e = None) by (unfold e; rewrite !dget_del; reflexivity).
  assert (E4 : dget (str "password") e = dget (str "password") dn) by (unfold e; rewrite !dget_del; reflexivity). clearbody e.
  assert (Q : forall v, dget (str "prompt_password") (dset (str "password") v e) = None /\ dget (str "pgpassfile") (dset (str "password") v e) = None /\
     dget (str "prompt_title") (dset (str "password") v e) = None) by (intros v; rewrite !dget_set; auto).
  destruct (match dget (str "prompt_password") dn with Some (PBool true) => true | _ => false end) eqn:PR.
  - assert (PP : dget (str "prompt_password") dn = Some (PBool true)) by (destruct (dget (str "prompt_password") dn) as [[| |[]| | | |]|]; try discriminate; reflexivity).
    apply Ok_inj in R. subst d. destruct (Q (PStr prompt)) as (Q1 & Q2 & Q3). split; [exact Q1|]. split; [exact Q2|]. split; [exact Q3|]. split; [intros _; apply dget_set_same|]. intros C. contradiction.
  - assert (PP : dget (str "prompt_password") dn <> Some (PBool true)) by (intros C; rewrite C in PR; discriminate).
    rewrite E4 in R.
    assert (GIVEN : forall v, dget (str "password") dn = Some v -> v <> PNone -> d = e).
    { intros v GV NV. rewrite GV in R. destruct v; try contradiction; apply Ok_inj in R; auto. }
    assert (LOOK : dget (str "password") dn = None \/ dget (str "password") dn = Some PNone ->
       (exists f w, dget (str "pgpassfile") dn = Some f /\ f <> PNone /\ passfile e f = Ok w /\ d = dset (str "password") w e) \/
       ((dget (str "pgpassfile") dn = None \/ dget (str "pgpassfile") dn = Some PNone) /\ d = e)).
    { intros [N|N]; rewrite N in R; (destruct (dget (str "pgpassfile") dn) as [f|]; [|right; apply Ok_inj in R; auto]);
        destruct f; try (right; apply Ok_inj in R; auto; fail); left; apply bind_Ok in R as (w & PW & R); apply Ok_inj in R; subst d; eexists; exists w; (split; [reflexivity|]; split; [discriminate|]; split; [exact PW|reflexivity]). }
    assert (SH : d = e \/ exists w, d = dset (str "password") w e).
    { destruct (dget (str "password") dn) as [v|] eqn:GP.
      - destruct v; try (left; eapply GIVEN; [reflexivity|discriminate]). destruct LOOK as [(f & w & _ & _ & _ & ->)|(_ & ->)]; [right; reflexivity|right; eauto|left; reflexivity].
      - destruct LOOK as [(f & w & _ & _ & _ & ->)|(_ & ->)]; [left; reflexivity|right; eauto|left; reflexivity]. }
    split; [destruct SH as [->|(w & ->)]; [exact E1|apply Q]|]. split; [destruct SH as [->|(w & ->)]; [exact E2|apply Q]|]. split; [destruct SH as [->|(w & ->)]; [exact E3|apply Q]|].
    split; [intros C; contradiction|]. intros _. split.
    + intros v GV NV. rewrite (GIVEN v GV NV). rewrite E4. exact GV.
    + intros N. destruct (LOOK N) as [(f & w & F1 & F2 & F3 & ->)|(F1 & ->)]; split.
      * intros f' F' _. rewrite F1 in F'. injection F' as <-. exists e, w. split; [exact F3|]. split; [apply dget_set_same|]. intros k K. now rewrite dget_set_other.
      * intros [C|C]; rewrite F1 in C; [discriminate|]. injection C as ->. contradiction.
      * intros f F' NF. destruct F1 as [F1|F1]; rewrite F1 in F'; [discriminate|]. injection F' as <-. contradiction.
      * intros _. exact E4.
Qed.
Lemma settings_last_items (l : list (text * pval)) p : 
  last_of p (pairs (map (fun q => At [k_settings; fst q] (snd q)) (dupdate [] l))) = match p with [a; k] => if seqb a k_settings then dget k (rev l) else None | _ => None end.
Proof.
  rewrite settings_last by (apply nodup_update; constructor). destruct p as [|a [|k [|]]]; try reflexivity. destruct (seqb a k_settings); [|reflexivity].
  rewrite TmpProof.dupdate_get. destruct (dget k (rev l)); reflexivity.
Qed.
Lemma denorm_source d l p : real d -> denormalize d = Ok l -> standard p -> last_of p (pairs l) = source_value p d.
Proof.
  intros [ND S] H SP. revert l H. induction d as [|[k v] d IH]; intros l H.
  - apply Ok_inj in H. subst l. destruct p as [|? [|? [|]]]; reflexivity.
  - cbn [denormalize] in H. apply bind_Ok in H as (h & E & H). apply bind_Ok in H as (t & ET & H). apply Ok_inj in H. subst l. inversion ND as [|? ? N1 N2]; subst.
    rewrite last_pairs_app. rewrite (IH N2 ltac:(intros w I; apply S; right; exact I) t ET). clear IH.
    assert (DN : dget k d = None).
    { destruct (dget k d) eqn:D; [|reflexivity]. exfalso. apply dget_In in D. apply (in_map fst) in D. now apply N1 in D. }
    destruct (seqb_spec k k_settings) as [->|N].
    + assert (L : last_of p (pairs h) = match p with [a; k] => if seqb a k_settings then setting v k else None | _ => None end).
      { destruct v as [[|]|z|b| |[|]|s|s]; try discriminate E; apply Ok_inj in E; subst h.
        - destruct p as [|a [|k [|]]]; try reflexivity. cbn [setting]. destruct (seqb a k_settings); reflexivity.
        - destruct p as [|a [|k [|]]]; try reflexivity. cbn [setting]. destruct (seqb a k_settings); reflexivity.
        - apply settings_last. apply S. left. reflexivity.
        - apply settings_last_items. }
      rewrite L. destruct SP as [(j & -> & J)|(j & ->)].
      * cbn [source_value dget]. rewrite (seqb_ne j k_settings J). apply ParamProof2.or_none.
      * cbn [source_value dget]. rewrite !seqb_refl. rewrite DN. reflexivity.
    + apply Ok_inj in E. subst h. unfold pairs at 1. cbn [flat_map app]. rewrite last1. destruct SP as [(j & -> & J)|(j & ->)].
      * rewrite patheqb1. cbn [source_value dget]. destruct (seqb_spec j k) as [->|]; [|apply ParamProof2.or_none]. rewrite DN. reflexivity.
      * rewrite patheqb_settings. cbn [source_value dget]. rewrite (seqb_ne k_settings k) by auto. apply ParamProof2.or_none.
Qed.
Lemma in_dget {V} k (v : V) d : NoDup (dkeys d) -> In (k, v) d <-> dget k d = Some v.
Proof. intros ND. split; [apply In_dget; exact ND|apply dget_In]. Qed.
Lemma set_given p v d d' : given d -> standard p -> set_path p v d = Ok d' -> given d'.
Proof.
  intros [ND S] SP H. destruct SP as [(k & -> & K)|(k & ->)].
  - cbn [set_path] in H. apply Ok_inj in H. subst d'. assert (ND' := dset_nodup k v d ND). split; [exact ND'|].
    intros w I. apply (in_dget _ _ _ ND') in I. rewrite dget_set, (seqb_ne k_settings k) in I by auto. apply S. apply in_dget; assumption.
  - cbn [set_path] in H. destruct (dget k_settings d) as [x|] eqn:D.
    + destruct (S x) as (s & -> & NS); [apply in_dget; assumption|]. cbn [bind] in H. apply Ok_inj in H. subst d'.
      assert (ND' := dset_nodup k_settings (PDict (dset k v s)) d ND). split; [exact ND'|].
      intros w I. apply (in_dget _ _ _ ND') in I. rewrite dget_set, seqb_refl in I. injection I as <-. exists (dset k v s). split; [reflexivity|]. apply dset_nodup. exact NS.
    + cbn [bind] in H. apply Ok_inj in H. subst d'.
      assert (ND' := dset_nodup k_settings (PDict (dset k v [])) d ND). split; [exact ND'|].
      intros w I. apply (in_dget _ _ _ ND') in I. rewrite dget_set, seqb_refl in I. injection I as <-. exists (dset k v []). split; [reflexivity|]. apply dset_nodup. constructor.
Qed.
Lemma normalize_given items : forall d d', (forall p, In p (map fst items) -> standard p) -> given d -> normalize_go items d = Ok d' -> given d'.
Proof.
  induction items as [|[p v] items IH]; intros d d' ST G H; cbn [normalize_go] in H; [apply Ok_inj in H; subst; exact G|].
  apply bind_Ok in H as (e & E & H). eapply IH; [|eapply set_given; [exact G|apply ST; left; reflexivity|exact E]|exact H]. intros q Q. apply ST. right. exact Q.
Qed.
Lemma given_real d : given d -> real d.
Proof. intros [A B]. split; [exact A|]. intros s I. destruct (B _ I) as (s' & E & N). injection E as <-. exact N. Qed.
Lemma given_source d p : given d -> standard p -> source_value p d = get_path p d.
Proof.
  intros [ND S] [(k & -> & K)|(k & ->)]; cbn [source_value get_path]; [reflexivity|]. destruct (dget k_settings d) as [v|] eqn:E; [|reflexivity].
  destruct (S v) as (s & -> & _); [apply in_dget; assumption|]. reflexivity.
Qed.
Lemma del_given k d : given d -> given (ddel k d).
Proof.
  intros [ND S]. split; [apply MesgProof.ddel_nodup; exact ND|]. intros v I. apply S. unfold ddel in I. apply filter_In in I as [I _]. exact I.
Qed.
Lemma del_real k d : real d -> real (ddel k d).
Proof.
  intros [ND S]. split; [apply MesgProof.ddel_nodup; exact ND|]. intros v I. apply S. unfold ddel in I. apply filter_In in I as [I _]. exact I.
Qed.
(** the normalized items *)
Lemma normalized_get items d p : (forall q, In q (map fst items) -> standard q) -> standard p -> normalize items = Ok d -> get_path p d = last_of p items.
Proof.
  intros ST SP EN. destruct (normalize_ok items (standard_free _ ST)) as (d' & EN' & N1 & N2). rewrite EN in EN'. apply Ok_inj in EN'. subst d'.
  destruct (in_dec (list_eq_dec (list_eq_dec Z.eq_dec)) p (map fst items)) as [I|I]; [now apply N1|]. rewrite last_none by exact I.
  assert (SF : prefix_free (p :: map fst items)) by (apply standard_free; intros q [<-|Hq]; [exact SP|now apply ST]). destruct SF as [NE PF].
  apply N2; [apply NE; left; reflexivity| |].
  - intros a r Ha E. assert (r = []) by (eapply PF; [left; reflexivity|right; exact Ha|exact E]). subst r. rewrite app_nil_r in E. subst a. contradiction.
  - intros a r Ha E. assert (r = []) by (eapply PF; [right; exact Ha|left; reflexivity|exact E]). subst r. rewrite app_nil_r in E. subst a. contradiction.
Qed.

(** the parameters of an IRI *)
Definition flat (c : cpd) : Prop := NoDup (dkeys c) /\ Forall (fun kv => forall s, snd kv <> PDict s) c.
Lemma flat_set k v c : (forall s, v <> PDict s) -> flat c -> flat (dset k v c).
Proof.
  intros N [A B]. split; [apply dset_nodup; exact A|]. clear A. induction B as [|[j w] c W B IH]; cbn [dset]; [constructor; [exact N|constructor]|].
  destruct (seqb k j); constructor; auto.
Qed.
Lemma query_flat q : forall c s c' s', structure_query q c s = Ok (c', s') -> flat c -> NoDup (dkeys s) -> flat c' /\ NoDup (dkeys s').
Proof.
  induction q as [|[k v] q IH]; intros c s c' s' H F N; cbn [structure_query] in H; [apply Ok_inj in H; injection H as <- <-; auto|].
  destruct (bracketed_key k).
  - destruct (_ && _); [|eapply IH; eauto]. destruct v as [v|]; [|discriminate H]. eapply IH; [exact H| |exact N]. apply flat_set; [discriminate|exact F].
  - destruct k as [|x k]; [eapply IH; eauto|]. destruct v as [v|]; [|discriminate H]. eapply IH; [exact H|exact F|]. apply dset_nodup. exact N.
Qed.
Lemma iri_real U s d : iri_parse U s = Ok d -> real d.
Proof.
  unfold iri_parse, iri_structure. cbv zeta. generalize (ri_parse (fun x => x) s). intros r H. destruct (negb _); [discriminate H|].
  apply bind_Ok in H as ([c st] & E & H). apply Ok_inj in H.
  assert (F0 : forall k o c, flat c -> flat (dset_opt k o c)) by (intros k [v|] c0 Fc; [apply flat_set; [discriminate|exact Fc]|exact Fc]).
  apply query_flat in E as [F N]; [| |constructor].
  2:{ set (c0 := dset_opt _ _ _). assert (F : flat c0) by (unfold c0; repeat apply F0; split; constructor). clearbody c0.
      match goal with |- flat (match _ with None => ?c1 | _ => _ end) => assert (F1 : flat c1) end.
      { destruct (n_host _) as [h|]; [|exact F]. destruct (_ && _); [|apply flat_set; [discriminate|exact F]]. destruct (py_startswith _ _); apply flat_set; try discriminate; exact F. }
      revert F1. match goal with |- flat ?c1 -> _ => generalize c1 end. intros c1 F1. destruct (d_path r) as [[|db rest]|]; try exact F1.
      assert (F2 : flat match db with [] => c1 | _ => dset (str "database") (PStr db) c1 end) by (destruct db; [exact F1|apply flat_set; [discriminate|exact F1]]).
      destruct rest; [exact F2|apply flat_set; [discriminate|exact F2]]. }
  set (st' := match d_fragment r with None | Some [] => st | Some f => _ end) in H.
  assert (N' : NoDup (dkeys st')) by (unfold st'; destruct (d_fragment r) as [[|]|]; try exact N; apply dset_nodup; exact N). clearbody st'.
  destruct F as [A B]. destruct st' as [|x st'].
  - subst d. split; [exact A|]. intros s' I. rewrite Forall_forall in B. exfalso. apply (B _ I s'). reflexivity.
  - subst d. assert (ND' := dset_nodup k_settings (PDict (x :: st')) c A). split; [exact ND'|]. intros s' I. apply (in_dget _ _ _ ND') in I. rewrite dget_set, seqb_refl in I. injection I as <-. exact N'.
Qed.
