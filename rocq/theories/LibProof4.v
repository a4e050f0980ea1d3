From Verif Require Import PyStr PyStrProof PyDict PyDictProof BaseProof LibModel LibSpec LibProof LibProof2.
(** symbols are found by their names *)
Lemma collection_named syms : forall l l', named l -> collection_go l syms = Ok l' -> named l'.
Proof.
  induction syms as [|y syms IH]; intros l l' N; cbn [collection_go].
  - intros [= <-]. exact N.
  - destruct (match y_type y with Some (c :: t) => _ | _ => _ end); [discriminate|]. intros H. apply bind_Ok in H as (m & _ & H).
    apply IH in H; [exact H|]. intros n s. unfold get_symbol. cbn [l_symbols]. rewrite dget_set. destruct (seqb_spec n (y_name y)) as [->|]; [intros [= <-]; reflexivity|apply N].
Qed.
Lemma from_lines_named U lines l : from_lines U lines = Ok l -> named l.
Proof.
  unfold from_lines. destruct (blocks U None [] lines) as [|[i pre] bs]; [discriminate|]. intros H. apply bind_Ok in H as (p & _ & H). apply bind_Ok in H as (ys & _ & H).
  eapply collection_named; [|exact H]. intros n s. discriminate.
Qed.
(** categories *)
Lemma set_names_ok l ns : forall d d', set_names l ns d = (d', None) ->
  exists ms, ns = map Some ms /\ NoDup ms /\ (forall n, In n ms -> ~ In n (dkeys d)) /\ d' = d ++ map (fun n => (n, Some l)) ms.
Proof.
  induction ns as [|[n|] ns IH]; intros d d'; cbn [set_names].
  - intros [= <-]. exists []. repeat split; [constructor|intros n []|now rewrite app_nil_r].
  - unfold dmem. destruct (dget n d) eqn:E; [discriminate|]. intros H. apply IH in H as (ms & -> & ND & F & ->). rewrite dset_absent in * by exact E.
    exists (n :: ms). split; [reflexivity|]. split; [|split].
    + constructor; [|exact ND]. intros I. apply (F n I). rewrite dkeys_app, in_app_iff. right. now left.
    + intros m [<-|I]; [now apply dget_None|]. intros J. apply (F m I). rewrite dkeys_app, in_app_iff. now left.
    + now rewrite <- app_assoc.
  - discriminate.
Qed.
Lemma set_names_do l ms : forall d, NoDup ms -> (forall n, In n ms -> ~ In n (dkeys d)) ->
  set_names l (map Some ms) d = (d ++ map (fun n => (n, Some l)) ms, None).
Proof.
  induction ms as [|n ms IH]; intros d ND F; cbn [map set_names]; [now rewrite app_nil_r|].
  assert (E : dget n d = None) by (apply dget_None, F; now left). unfold dmem. rewrite E. rewrite dset_absent by exact E. inversion ND as [|? ? N1 N2]; subst.
  rewrite IH; [now rewrite <- app_assoc|exact N2|]. intros m I. rewrite dkeys_app, in_app_iff. cbn. intros [J|[J|[]]]; [apply (F m); [now right|exact J]|congruence].
Qed.
Section C.
Context (aliases : nat -> list text) (direct : nat -> bool) (name : nat -> option text) (bindable : nat -> bool).
Notation all_names := (all_names aliases direct name).
Notation category := (category aliases direct name bindable).
Notation lib_names := (lib_names aliases direct name).
Lemma all_names_cons l libs : all_names (l :: libs) = map (fun n => (n, l)) (lib_names l) ++ all_names libs.
Proof. reflexivity. Qed.
Definition bound_pairs (ps : list (text * nat)) : list (text * option nat) := map (fun p => (fst p, Some (snd p))) ps.
Definition somes (ps : list (text * nat)) : list (option text * nat) := map (fun p => (Some (fst p), snd p)) ps.
Lemma nodup_app {A} (a b : list A) : NoDup (a ++ b) <-> NoDup a /\ NoDup b /\ (forall x, In x a -> ~ In x b).
Proof.
  induction a as [|x a IH]; cbn [app].
  - split; [intros H; repeat split; [constructor|exact H|intros x []]|tauto].
  - split.
    + intros H. inversion H as [|? ? H1 H2]; subst. apply IH in H2 as (A1 & A2 & A3). rewrite in_app_iff in H1. split; [constructor; tauto|]. split; [exact A2|].
      intros y [<-|I]; [tauto|now apply A3].
    + intros (A1 & A2 & A3). inversion A1 as [|? ? H1 H2]; subst. constructor.
      * rewrite in_app_iff. intros [I|I]; [tauto|]. apply (A3 x); [now left|exact I].
      * apply IH. repeat split; auto. intros y I. apply A3. now right.
Qed.
Lemma category_ok libs : forall d d', category libs d = (d', None) <->
  Forall (fun l => bindable l = true) libs /\
  exists ps, all_names libs = somes ps /\ NoDup (map fst ps) /\ (forall n, In n (map fst ps) -> ~ In n (dkeys d)) /\ d' = d ++ bound_pairs ps.
Proof.
  induction libs as [|l libs IH]; intros d d'; cbn [LibModel.category].
  - split.
    + intros [= <-]. split; [constructor|]. exists []. repeat split; [constructor|intros n []|now rewrite app_nil_r].
    + intros (_ & ps & E & _ & _ & ->). destruct ps; [|discriminate]. cbn. now rewrite app_nil_r.
  - rewrite all_names_cons. split.
    + destruct (bindable l) eqn:B; [|discriminate]. destruct (set_names l (lib_names l) d) as [d1 [e|]] eqn:S; [discriminate|]. intros H.
      apply set_names_ok in S as (ms & EM & ND & F & ->). apply IH in H as (FB & ps & EP & NP & FP & ->). split; [now constructor|].
      exists (map (fun n => (n, l)) ms ++ ps). unfold somes, bound_pairs. rewrite !map_app, !map_map. cbn [fst snd]. rewrite map_id.
      assert (KD : dkeys (d ++ map (fun n => (n, Some l)) ms) = dkeys d ++ ms) by (rewrite dkeys_app; f_equal; unfold dkeys; rewrite map_map; apply map_id).
      split; [|split; [|split]].
      * rewrite EM, map_map. f_equal. exact EP.
      * apply nodup_app. repeat split; auto. intros x I J. apply (FP x J). rewrite KD, in_app_iff. now right.
      * intros n. rewrite in_app_iff. intros [I|I]; [now apply F|]. intros J. apply (FP n I). rewrite KD, in_app_iff. now left.
      * now rewrite <- app_assoc.
    + intros (FB & ps & E & ND & F & ->). inversion FB as [|? ? B FB']; subst. rewrite B.
      assert (X : exists ms qs, ps = map (fun n => (n, l)) ms ++ qs /\ lib_names l = map Some ms /\ all_names libs = somes qs).
      { clear - E. remember (lib_names l) as ns eqn:EN. clear EN. revert ps E. induction ns as [|n ns IHn]; intros ps E.
        - exists [], ps. auto.
        - destruct ps as [|[m k] ps]; [discriminate|]. cbn [map app somes fst snd] in E. injection E as -> -> E. apply IHn in E as (ms & qs & -> & -> & E).
          exists (m :: ms), qs. auto. }
      destruct X as (ms & qs & -> & EM & EQ). rewrite EM. rewrite map_app, map_map in ND, F. cbn [fst] in ND, F. rewrite map_id in ND, F.
      apply nodup_app in ND as (N1 & N2 & N3). rewrite set_names_do; [|exact N1|intros n I; apply F; rewrite in_app_iff; now left].
      apply IH. split; [exact FB'|]. exists qs. split; [exact EQ|]. split; [exact N2|]. split.
      * intros n I. rewrite dkeys_app, in_app_iff. intros [J|J]; [apply (F n); [rewrite in_app_iff; now right|exact J]|].
        unfold dkeys in J. rewrite map_map, map_id in J. now apply (N3 n J).
      * unfold bound_pairs. rewrite map_app, map_map, <- app_assoc. reflexivity.
Qed.
Lemma set_names_keep l ns : forall d n v, dget n d = Some v -> dget n (fst (set_names l ns d)) = Some v.
Proof.
  induction ns as [|[m|] ns IH]; intros d n v H; cbn [set_names]; auto. unfold dmem. destruct (dget m d) eqn:E; [exact H|]. apply IH.
  rewrite dget_set_other; [exact H|congruence].
Qed.
Lemma category_keep libs : forall d n v, dget n d = Some v -> dget n (fst (category libs d)) = Some v.
Proof.
  induction libs as [|l libs IH]; intros d n v H; cbn [LibModel.category]; [exact H|]. destruct (bindable l); [|exact H].
  pose proof (set_names_keep l (lib_names l) d n v H) as K. destruct (set_names l (lib_names l) d) as [d1 [e|]]; [exact K|]. now apply IH.
Qed.
End C.
