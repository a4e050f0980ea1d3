From Coq Require Import Permutation.
From Verif Require Import PyStr PyStrProof PyStrProof2 PyListProof BaseProof RIModel RISpec RIProof RIProof2 RIProof3 IRIModel IRISpec PyDict PyDictProof IRIProof IRIProof2.

Definition path_item (o : option (list text)) : cpd := match o with Some l => [(str "path", PList l)] | None => [] end.
Definition sp_item (o : option (list text)) : cpd := match o with Some l => [(k_search_path, PList l)] | None => [] end.
Lemma filter_nodup {V} (f : text * V -> bool) (l : list (text * V)) : NoDup (map fst l) -> NoDup (map fst (filter f l)).
Proof.
  induction l as [|p l IH]; cbn [map filter]; intros H; [constructor|]. inversion H as [|? ? N1 N2]; subst. destruct (f p); [|auto].
  cbn [map]. constructor; [|auto]. intros I. apply N1. apply in_map_iff in I as (q & <- & I). apply filter_In in I as [I _]. now apply in_map.
Qed.
Lemma dget_filter {V} (f : text -> bool) k (l : list (text * V)) : dget k (filter (fun p => f (fst p)) l) = if f k then dget k l else None.
Proof.
  induction l as [|[j v] l IH]; cbn [filter dget fst]; [destruct (f k); reflexivity|].
  destruct (f j) eqn:F; cbn [dget].
  - destruct (seqb_spec k j) as [->|]; [now rewrite F|exact IH].
  - destruct (seqb_spec k j) as [->|]; [|exact IH]. rewrite IH, F. reflexivity.
Qed.
Lemma fst_str_item l : map fst (map str_item l) = map fst l. Proof. rewrite map_map. reflexivity. Qed.

Section one.
Context (x : cpd) (E : expressible x).
Lemma settings_ok : exists ss sp,
  split_settings (dget k_settings x) = Ok (match ss with [] => None | _ => Some (map str_item ss) end, option_map PList sp) /\
  NoDup (map fst ss) /\ (forall k, In k (map fst ss) -> k <> [] /\ bracketed_key k = false /\ k <> k_search_path) /\
  on_opt (fun l => l <> [] /\ l <> [[]]) sp /\
  match dget k_settings x with
  | None => ss = [] /\ sp = None
  | Some v => exists s, v = PDict s /\ map str_item ss ++ sp_item sp <> [] /\ forall k, dget k (map str_item ss ++ sp_item sp) = dget k s
  end.
Proof.
  assert (G := E). do 13 destruct G as [_ G]. destruct (dget k_settings x) as [v|] eqn:D.
  2:{ exists [], None. split; [reflexivity|]. split; [constructor|]. split; [intros k []|]. split; [exact I|]. auto. }
  destruct G as (s & -> & NE & ND & GS & GP).
  destruct (all_strings (filter (fun p => negb (seqb (fst p) k_search_path)) s)) as [ss ES].
  { intros k v I. apply filter_In in I as [I R]. cbn [fst] in R. apply negb_true_iff, seqb_neq in R. destruct (GS k v I R) as (_ & _ & H). exact H. }
  assert (SP : exists sp, dget k_search_path s = option_map PList sp /\ on_opt (fun l => l <> [] /\ l <> [[]]) sp).
  { destruct (dget k_search_path s) as [v|] eqn:Dv; [|exists None; cbn; auto]. apply dget_In in Dv. destruct (GP v Dv) as (l & -> & L1 & L2). exists (Some l). cbn. auto. }
  destruct SP as (sp & ESP & LSP). exists ss, sp.
  assert (LK : forall k, dget k (map str_item ss ++ sp_item sp) = dget k s).
  { intros k. rewrite dget_app. rewrite <- ES. rewrite (dget_filter (fun j => negb (seqb j k_search_path))).
    destruct (seqb_spec k k_search_path) as [->|N]; cbn [negb].
    - rewrite ESP. destruct sp; reflexivity.
    - destruct (dget k s) eqn:Dk; [reflexivity|]. destruct sp; cbn [sp_item dget]; [|reflexivity]. now rewrite seqb_ne. }
  split; [|split; [|split; [|split]]].
  - unfold split_settings. destruct s as [|p s]; [congruence|]. rewrite ES, ESP. destruct ss; reflexivity.
  - rewrite <- fst_str_item, <- ES. now apply filter_nodup.
  - intros k I. rewrite <- fst_str_item, <- ES in I. apply in_map_iff in I as ([j v] & <- & I). apply filter_In in I as [I R]. cbn [fst] in *.
    apply negb_true_iff, seqb_neq in R. destruct (GS j v I R) as (A & B & _). auto.
  - exact LSP.
  - exists s. split; [reflexivity|]. split; [|exact LK]. intros N. destruct s as [|[k v] s]; [congruence|]. specialize (LK k). rewrite N in LK. cbn [dget] in LK. rewrite seqb_refl in LK. discriminate.
Qed.
Lemma path_ok : exists db p, text_of (str "database") x = db /\ dget (str "path") x = option_map PList p /\
  iri_path x = Ok (match db with Some d => [d] | None => [] end ++ match p with Some l => l | None => [] end) /\
  on_opt (fun d => d <> [] /\ good_component d) db /\ on_opt (fun l => l <> [] /\ Forall good_component l) p /\ (p <> None -> db <> None).
Proof.
  destruct (texts x E) as (_ & _ & _ & _ & _ & TD). assert (G := E). do 10 destruct G as [_ G]. destruct G as (GD & GP & _).
  assert (P : exists p, dget (str "path") x = option_map PList p /\ on_opt (fun l => l <> [] /\ Forall good_component l) p /\ (p <> None -> ~ absent (str "database") x)).
  { destruct (dget (str "path") x) as [v|]; [|exists None; cbn; auto]. destruct GP as (A & l & -> & L1 & L2). exists (Some l). cbn. auto. }
  destruct P as (p & EP & LP & DP). exists (text_of (str "database") x), p. split; [reflexivity|]. split; [exact EP|]. unfold iri_path. rewrite EP.
  split; [|split; [exact GD|split; [exact LP|]]].
  - destruct (is_text_cases _ _ TD) as [[A ->]|(d & A & ->)]; rewrite A; destruct p; reflexivity.
  - intros N K. apply (DP N). now apply absent_text.
Qed.
Lemma path_sub_ok l : Forall good_component l -> mapM path_sub l = Ok l.
Proof.
  induction 1 as [|c l H _ IH]; [reflexivity|]. cbn [mapM]. unfold path_sub at 1. rewrite memZ_false; [cbn [bind]; rewrite IH; reflexivity|].
  eapply free_In; [exact H|]. cbn; auto 10.
Qed.
End one.
Lemma opt_settings ss : mapM (fun p => do v <- opt_text (Some (snd p)); Ok (fst p, v)) (map str_item ss) = Ok (map set_item ss).
Proof. induction ss as [|[k v] ss IH]; [reflexivity|]. cbn [map mapM]. rewrite IH. reflexivity. Qed.
Lemma opt_text_ok k x : is_text k x -> opt_text (dget k x) = Ok (text_of k x).
Proof. unfold is_text, text_of. destruct (dget k x) as [[]|]; intros H; try contradiction; reflexivity. Qed.

Definition path_of (db : option text) (p : option (list text)) : list text := match db with Some d => [d] | None => [] end ++ match p with Some l => l | None => [] end.
Lemma construct_ok U repr x (E : expressible x) : exists l ss sp p,
  iri_construct U repr x false = Ok
   {| r_scheme := Some (str "pq"); r_netloc := unsplit_netloc (net_of x);
      r_path := match path_of (text_of (str "database") x) p with [] => None | _ => Some (py_join [47] (path_of (text_of (str "database") x) p)) end;
      r_query := match map bracket_item l ++ map set_item ss with [] => None | q => Some (construct_query q) end;
      r_fragment := option_map construct_path sp |} /\
  Permutation (filter (fun p => negb (is_reserved (fst p))) x) (map str_item l) /\
  NoDup (map fst ss) /\ (forall k, In k (map fst ss) -> k <> [] /\ bracketed_key k = false /\ k <> k_search_path) /\
  on_opt (fun l => l <> [] /\ l <> [[]]) sp /\
  match dget k_settings x with
  | None => ss = [] /\ sp = None
  | Some v => exists s, v = PDict s /\ map str_item ss ++ sp_item sp <> [] /\ forall k, dget k (map str_item ss ++ sp_item sp) = dget k s
  end /\
  dget (str "path") x = option_map PList p /\
  on_opt (fun d => d <> [] /\ good_component d) (text_of (str "database") x) /\ on_opt (fun l => l <> [] /\ Forall good_component l) p /\
  (p <> None -> text_of (str "database") x <> None).
Proof.
  destruct (settings_ok x E) as (ss & sp & S1 & S2 & S3 & S4 & S5). destruct (path_ok x E) as (db & p & <- & P2 & P3 & P4 & P5 & P6).
  assert (G := E). do 12 destruct G as [_ G]. destruct G as (GR & _).
  destruct (driver_list repr x) as (l & L1 & L2). { intros k v I R. destruct (GR k v I R) as [_ H]. exact H. }
  exists l, ss, sp, p. split; [|do 8 (split; [assumption|]); assumption].
  destruct (texts x E) as (TU & TP & TH & TX & TQ & TD).
  unfold iri_construct. rewrite S1. cbn [bind].
  replace (path_list U (option_map PList sp)) with (@Ok (option (list text)) sp) by (destruct sp; reflexivity). cbn [bind].
  rewrite (host_ok x E). cbn [bind]. rewrite P3. fold (path_of (text_of (str "database") x) p). cbn [bind].
  rewrite (opt_text_ok _ _ TU). cbn [bind].
  assert (PW : match text_of (str "user") x with
     | Some _ => opt_text match dget (str "password") x with Some PNone => Some PNone | Some v => Some v | None => None end
     | None => Ok None end = Ok (text_of (str "password") x)).
  { assert (OT := opt_text_ok _ _ TP). destruct (text_of (str "user") x) eqn:EU.
    - rewrite <- OT. destruct (dget (str "password") x) as [[]|]; reflexivity.
    - assert (G := E). destruct G as (_ & _ & _ & _ & PU & _). unfold text_of at 1. rewrite PU; [reflexivity|]. now apply absent_text. }
  rewrite PW. cbn [bind].
  assert (QS : match (match ss with [] => None | _ :: _ => Some (map str_item ss) end) with
     | None => Ok []
     | Some l0 => mapM (fun p0 => do v <- opt_text (Some (snd p0)); Ok (fst p0, v)) l0 end = Ok (map set_item ss)).
  { destruct ss; [reflexivity|]. apply opt_settings. }
  rewrite QS. cbn [bind]. rewrite path_sub_ok.
  2:{ unfold path_of. apply Forall_app. split.
      - destruct (text_of (str "database") x); [|constructor]. cbn in P4. constructor; [tauto|constructor].
      - destruct p; [|constructor]. cbn in P5. tauto. }
  cbn [bind]. rewrite L1. f_equal. unfold net_of. f_equal.
  - destruct E as (_ & _ & SSL & _). rewrite SSL. reflexivity.
  - f_equal. f_equal. unfold text_of, is_text in *. destruct (dget (str "port") x) as [[]|]; try contradiction; reflexivity.
Qed.
Lemma t_proper x db p q sp : expressible x ->
  on_opt (fun d => d <> [] /\ good_component d) db -> on_opt (fun l => l <> [] /\ Forall good_component l) p ->
  proper {| r_scheme := Some (str "pq"); r_netloc := unsplit_netloc (net_of x);
      r_path := match path_of db p with [] => None | _ => Some (py_join [47] (path_of db p)) end;
      r_query := match q with [] => None | q => Some (construct_query q) end; r_fragment := sp |}.
Proof.
  intros E D P. split; [exists (str "pq"); split; reflexivity|]. cbn [r_netloc r_path r_query]. split; [|split].
  - destruct (unsplit_netloc (net_of x)) as [s|] eqn:U; [|exact I]. cbn [on_opt]. split; [|eapply netloc_free; eauto].
    destruct (net_ok x E) as [H|H]; [rewrite H in U; discriminate|]. eapply netloc_nonempty; eauto.
  - assert (F : Forall good_component (path_of db p)).
    { unfold path_of. apply Forall_app. split; [destruct db; [cbn in D; constructor; [tauto|constructor]|constructor]|destruct p; [cbn in P; tauto|constructor]]. }
    destruct (path_of db p) eqn:EP; [exact I|]. rewrite <- EP in *. cbn [on_opt]. apply free_intro. intros c C H.
    apply In_join in H as [H|(y & J & H)]; [cbn [In] in *; lia|]. eapply Forall_forall in F; [|exact J]. revert H. eapply free_In; [exact F|]. cbn [In] in *. tauto.
  - destruct q; [exact I|]. cbn [on_opt]. apply query_free.
Qed.
