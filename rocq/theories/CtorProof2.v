(** CtorProof2.v: the startup packet *)
From Verif Require Import Base BaseProof PyStr PyStrProof PyDict PyDictProof StrModel StrSpec StrProof IRIModel ParamModel ParamSpec.
From Verif Require TmpProof Element3Model Element3Spec.
From Verif Require Import CtorModel CtorSpec CtorProof.

Lemma packet_det b l : packet b l -> forall l', packet b l' -> l = l'.
Proof.
  intros H. induction H as [|k v rest l K Nk Nv H IH]; intros l' H'.
  - inversion H' as [|k v rest l K Nk Nv H E]; subst; [reflexivity|].
    destruct k as [|x k]; [contradiction|]. apply (f_equal (hd 0)) in E. cbn [app hd] in E. subst x. exfalso. apply Nk. left. reflexivity.
  - inversion H' as [|k' v' rest' l0 K' Nk' Nv' H0 E]; subst.
    + destruct k as [|x k]; [contradiction|]. exfalso. apply Nk. left. match goal with E : [0] = _ |- _ => apply (f_equal (hd 0)) in E; cbn [app hd] in E; symmetry; exact E end.
    + assert (X : forall (a a' : list Z) r r', ~ In 0 a -> ~ In 0 a' -> a ++ 0 :: r = a' ++ 0 :: r' -> a = a' /\ r = r').
      { clear. induction a as [|x a IH]; intros [|y a'] r r' N N' E; cbn [app] in E.
        - injection E as E. auto.
        - injection E as E1 E2. exfalso. apply N'. left. auto.
        - injection E as E1 E2. exfalso. apply N. left. auto.
        - injection E as E1 E2. destruct (IH a' r r') as [-> ->]; [intros I; apply N; right; exact I|intros I; apply N'; right; exact I|exact E2|]. subst. auto. }
      apply X in E as [-> E]; [|assumption|assumption]. apply X in E as [-> ->]; [|assumption|assumption].
      rewrite (IH _ H0). reflexivity.
Qed.
(** the bytes of Startup *)
Lemma packet_bytes (d : list (list Z * list Z)) : Forall (fun kv => fst kv <> [] /\ ~ In 0 (fst kv) /\ ~ In 0 (snd kv)) d ->
  packet (concat (map (fun kv => fst kv ++ [0] ++ snd kv ++ [0]) d) ++ [0]) d.
Proof.
  intros F. induction F as [|[k v] d (A & B & C) F IH]; [constructor|]. cbn [fst snd] in *. cbn [map concat app].
  rewrite <- !app_assoc. cbn [app]. rewrite <- app_assoc. cbn [app]. apply pk_pair; assumption.
Qed.

(** the names of a search path *)
Lemma names_joined a l : names (py_join [44] (map quote_ident (a :: l))) (a :: l).
Proof.
  revert a. induction l as [|b l IH]; intros a.
  - cbn [map py_join]. apply nm_last. pose proof (quote_ident_lexed a []) as H. rewrite app_nil_r in H. apply H. intros r. discriminate.
  - change (map quote_ident (a :: b :: l)) with (quote_ident a :: map quote_ident (b :: l)).
    rewrite py_join_cons by discriminate. cbn [app]. eapply nm_more; [|apply IH].
    apply quote_ident_lexed. intros r. discriminate.
Qed.

(** the dictionary *)
Definition path_value (settings : pval) (k : text) (v : pval) : res pval :=
  match settings with PDict _ => if seqb k k_search_path then joined_path v else Ok v | _ => Ok v end.
Lemma settings_get settings s : startup_settings settings = Ok s ->
  (forall d, settings = PDict d -> NoDup (dkeys d)) ->
  NoDup (dkeys s) /\ forall k, match setting settings k with None => dget k s = None | Some v => exists w, path_value settings k v = Ok w /\ dget k s = Some w end.
Proof.
  unfold startup_settings. intros H ND. destruct (truth settings) eqn:T.
  - destruct settings as [x|z|b| |l|d|l]; cbn [dict_of_settings bind] in H; try discriminate H.
    + specialize (ND d eq_refl). destruct (dget k_search_path d) as [sp|] eqn:G.
      * apply bind_Ok in H as (w & W & H). apply Ok_inj in H. subst s. split; [apply dset_nodup; exact ND|].
        intros k. cbn [setting path_value]. rewrite dget_set. destruct (seqb_spec k k_search_path) as [->|N].
        -- rewrite G. exists w. auto.
        -- destruct (dget k d) as [v|]; [exists v|]; auto.
      * apply Ok_inj in H. subst s. split; [exact ND|]. intros k. cbn [setting path_value].
        destruct (seqb_spec k k_search_path) as [->|N]; [rewrite G; reflexivity|]. destruct (dget k d) as [v|]; [exists v|]; auto.
    + apply Ok_inj in H. subst s. split.
      * clear T ND. unfold dupdate. assert (X : NoDup (dkeys (@nil (text * pval)))) by constructor. revert X.
        generalize (@nil (text * pval)). induction l as [|[k v] l IH]; intros e X; [exact X|]. cbn [fold_left]. apply IH. apply dset_nodup. exact X.
      * intros k. cbn [setting path_value]. rewrite TmpProof.dupdate_get. destruct (dget k (rev l)) as [v|]; [exists v|]; auto.
  - apply Ok_inj in H. subst s. split; [constructor|]. intros k. destruct settings as [x|z|b| |l|d|l]; try reflexivity.
    + destruct d; [reflexivity|discriminate T].
    + destruct l; [reflexivity|discriminate T].
Qed.
Definition packet_value (user database settings : pval) (k : text) : res (option pval) :=
  if seqb k (str "user") then Ok (Some user)
  else if seqb k (str "database") && negb (is_none database) then Ok (Some database)
  else match setting settings k with
       | Some v => do w <- path_value settings k v; Ok (Some w)
       | None => Ok (if seqb k (str "client_min_messages") then Some (PStr (str "WARNING")) else None)
       end.
Lemma nodup_update {V} (e : list (text * V)) : forall c, NoDup (dkeys c) -> NoDup (dkeys (dupdate c e)).
Proof. induction e as [|[k v] e IH]; intros c H; [exact H|]. apply IH. apply dset_nodup. exact H. Qed.
Lemma dget_rev_nodup {V} k (s : list (text * V)) : NoDup (dkeys s) -> dget k (rev s) = dget k s.
Proof.
  intros ND. destruct (dget k s) as [v|] eqn:E.
  - assert (I : In (k, v) (rev s)).
    { apply in_rev. rewrite rev_involutive. clear ND. induction s as [|[j w] s IH]; [discriminate|]. cbn [dget] in E. destruct (seqb_spec k j) as [->|N]; [injection E as ->; left; reflexivity|right; apply IH; exact E]. }
    apply In_dget; [|exact I]. unfold dkeys. rewrite map_rev. apply NoDup_rev. exact ND.
  - destruct (dget k (rev s)) as [v|] eqn:E'; [|reflexivity]. exfalso.
    assert (I : In (k, v) (rev s)).
    { clear E ND. induction (rev s) as [|[j w] r IH]; [discriminate|]. cbn [dget] in E'. destruct (seqb_spec k j) as [->|N]; [injection E' as ->; left; reflexivity|right; apply IH; exact E']. }
    apply in_rev in I. rewrite (In_dget k v s ND I) in E. discriminate E.
Qed.
Lemma dict_get user database settings l : startup_dict user database settings = Ok l ->
  (forall d, settings = PDict d -> NoDup (dkeys d)) ->
  NoDup (dkeys l) /\ forall k, packet_value user database settings k = Ok (dget k l).
Proof.
  unfold startup_dict. intros H ND. apply bind_Ok in H as (s & ES & H). cbv zeta in H. apply Ok_inj in H.
  destruct (settings_get settings s ES ND) as [NS G].
  assert (B : NoDup (dkeys (dupdate [(str "client_min_messages", PStr (str "WARNING"))] s))) by (apply nodup_update; repeat constructor; intros []).
  assert (D : forall k, match setting settings k with
       | Some v => exists w, path_value settings k v = Ok w /\ dget k (dupdate [(str "client_min_messages", PStr (str "WARNING"))] s) = Some w
       | None => dget k (dupdate [(str "client_min_messages", PStr (str "WARNING"))] s) = if seqb k (str "client_min_messages") then Some (PStr (str "WARNING")) else None end).
  { intros k. rewrite TmpProof.dupdate_get. rewrite dget_rev_nodup by exact NS. specialize (G k). destruct (setting settings k) as [v|].
    - destruct G as (w & W & E). exists w. rewrite E. auto.
    - rewrite G. reflexivity. }
  split.
  - subst l. destruct (is_none database); repeat apply dset_nodup; exact B.
  - intros k. unfold packet_value. subst l. specialize (D k).
    assert (R : match setting settings k with
       | Some v => do w <- path_value settings k v; Ok (Some w)
       | None => Ok (if seqb k (str "client_min_messages") then Some (PStr (str "WARNING")) else None)
       end = Ok (dget k (dupdate [(str "client_min_messages", PStr (str "WARNING"))] s))).
    { destruct (setting settings k) as [v|]; [destruct D as (w & W & E); rewrite W, E; reflexivity|rewrite D; reflexivity]. }
    destruct (seqb_spec k (str "user")) as [->|Nu].
    + destruct (is_none database); rewrite ?dget_set; reflexivity.
    + destruct (seqb_spec k (str "database")) as [->|Nd].
      * destruct (is_none database); cbn [negb andb].
        -- rewrite R. rewrite dget_set. reflexivity.
        -- rewrite dget_set. reflexivity.
      * cbn [andb]. rewrite R. destruct (is_none database); rewrite ?dget_set; 
          destruct (seqb_spec k (str "user")); try contradiction; destruct (seqb_spec k (str "database")); try contradiction; reflexivity.
Qed.
