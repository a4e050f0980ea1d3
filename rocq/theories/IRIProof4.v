From Coq Require Import Permutation.
From Verif Require Import PyStr PyStrProof PyStrProof2 PyListProof BaseProof RIModel RISpec RIProof RIProof2 RIProof3 IRIModel IRISpec PyDict PyDictProof IRIProof IRIProof2 IRIProof3.

Lemma net_read x (E : expressible x) :
  match unsplit_netloc (net_of x) with Some n => split_netloc (fun x => x) n | None => no_netloc end = escaped_net (net_of x).
Proof.
  destruct (net_ok x E) as [->|P]; [reflexivity|]. destruct (split_unsplit_net (fun x => x) _ P) as (s & -> & ->).
  unfold proc_net, escaped_net. cbn [n_user n_password n_host n_port].
  assert (O : forall (o : option text), option_map (fun x => x) o = o) by (intros []; reflexivity).
  rewrite !O. f_equal. destruct (n_host (net_of x)); cbn [option_map]; [|reflexivity]. destruct (is_bracket _); reflexivity.
Qed.
Definition path_step (o : option (list text)) (c : cpd) : cpd :=
  match o with
  | None | Some [] => c
  | Some (db :: rest) =>
      let c := match db with [] => c | _ => dset (str "database") (PStr db) c end in
      match rest with [] => c | _ => dset (str "path") (PList rest) c end
  end.
Lemma path_read db p c : on_opt (fun d => d <> [] /\ good_component d) db -> on_opt (fun l => l <> [] /\ Forall good_component l) p ->
  (p <> None -> db <> None) -> dget (str "database") c = None -> dget (str "path") c = None ->
  path_step match (match path_of db p with [] => None | _ => Some (py_join [47] (path_of db p)) end) with
            | None => None | Some [] => Some [] | Some q => Some (map (fun x => x) (py_split [47] q)) end c
  = c ++ opt_item (str "database") db ++ path_item p.
Proof.
  intros HD HP DP CD CP. destruct db as [d|].
  2:{ destruct p; [exfalso; now apply DP|]. cbn. now rewrite app_nil_r. }
  cbn in HD. destruct HD as [ND GD].
  assert (NE : path_of (Some d) p <> []) by (unfold path_of; discriminate).
  destruct (path_of (Some d) p) as [|c0 r0] eqn:EP; [congruence|]. rewrite <- EP in *.
  destruct (py_join [47] (path_of (Some d) p)) as [|c1 r1] eqn:EJ.
  { exfalso. apply join_nil in EJ; [|discriminate]. destruct EJ as [EJ|EJ]; [congruence|]. unfold path_of in EJ. cbn [app] in EJ. injection EJ as -> _. congruence. }
  rewrite <- EJ. rewrite map_id. rewrite split_join.
  - unfold path_of. cbn [app path_step]. destruct d as [|c2 d]; [congruence|].
    rewrite dset_absent by exact CD. destruct p as [[|q p]|]; cbn [on_opt] in HP; [tauto| |].
    + rewrite dset_absent; [rewrite <- app_assoc; reflexivity|]. rewrite dget_app, CP. reflexivity.
    + cbn [path_item opt_item]. now rewrite app_nil_r.
  - exact NE.
  - unfold path_of. apply Forall_forall. intros y I. apply in_app_iff in I as [I|I].
    + destruct I as [<-|[]]. eapply free_In; [exact GD|]. cbn; auto.
    + destruct p as [l|]; [|contradiction]. cbn in HP. destruct HP as [_ HP]. eapply Forall_forall in HP; [|exact I]. eapply free_In; [exact HP|]. cbn; auto.
Qed.
Lemma fragment_read sp s : on_opt (fun l => l <> [] /\ l <> [[]]) sp -> dget k_search_path s = None ->
  match option_map construct_path sp with
  | None | Some [] => s
  | Some f => dset k_search_path (PList (map ri_unescape (py_split [44] f))) s end = s ++ sp_item sp.
Proof.
  intros H D. destruct sp as [l|]; cbn [option_map sp_item]; [|now rewrite app_nil_r]. cbn in H. destruct H as [H1 H2].
  assert (CK : class_ok escape_path_comma) by (apply esc_class_ok; reflexivity).
  unfold construct_path. destruct (py_join [44] (map (ri_escape escape_path_comma) l)) as [|c r] eqn:EJ.
  - exfalso. apply join_nil in EJ; [|discriminate]. destruct EJ as [EJ|EJ].
    + destruct l; [congruence|discriminate].
    + destruct l as [|y [|z l]]; try discriminate. cbn [map] in EJ. injection EJ as EJ. apply escape_nil in EJ. subst. congruence.
  - rewrite <- EJ. rewrite dset_absent by exact D. rewrite split_join.
    + rewrite map_map. f_equal. f_equal. f_equal. f_equal. rewrite <- (map_id l) at 2. apply map_ext. intros y. now apply unescape_escape.
    + destruct l; [congruence|discriminate].
    + apply Forall_forall. intros y I. apply in_map_iff in I as (z & <- & _). apply escape_free; auto. unfold hexchar; lia.
Qed.
Definition base_of (x : cpd) (p : option (list text)) : cpd :=
  opt_item (str "user") (text_of (str "user") x) ++ opt_item (str "password") (text_of (str "password") x) ++ opt_item (str "port") (text_of (str "port") x) ++
  opt_item (str "host") (text_of (str "host") x) ++ opt_item (str "unix") (text_of (str "unix") x) ++
  opt_item (str "database") (text_of (str "database") x) ++ path_item p.
Lemma dget_item k j o : dget k (opt_item j o) = if seqb k j then option_map PStr o else None.
Proof. destruct o; cbn [opt_item dget]; destruct (seqb k j); reflexivity. Qed.
Lemma dget_path k o : dget k (path_item o) = if seqb k (str "path") then option_map PList o else None.
Proof. destruct o; cbn [path_item dget]; destruct (seqb k (str "path")); reflexivity. Qed.
Lemma dget_base k x p : dget k (base_of x p) =
  if seqb k (str "user") then option_map PStr (text_of (str "user") x) else
  if seqb k (str "password") then option_map PStr (text_of (str "password") x) else
  if seqb k (str "port") then option_map PStr (text_of (str "port") x) else
  if seqb k (str "host") then option_map PStr (text_of (str "host") x) else
  if seqb k (str "unix") then option_map PStr (text_of (str "unix") x) else
  if seqb k (str "database") then option_map PStr (text_of (str "database") x) else
  if seqb k (str "path") then option_map PList p else None.
Proof.
  unfold base_of. rewrite !dget_app, !dget_item, dget_path.
  destruct (seqb_spec k (str "user")) as [->|]; [destruct (text_of (str "user") x); reflexivity|].
  destruct (seqb_spec k (str "password")) as [->|]; [destruct (text_of (str "password") x); reflexivity|].
  destruct (seqb_spec k (str "port")) as [->|]; [destruct (text_of (str "port") x); reflexivity|].
  destruct (seqb_spec k (str "host")) as [->|]; [destruct (text_of (str "host") x); reflexivity|].
  destruct (seqb_spec k (str "unix")) as [->|]; [destruct (text_of (str "unix") x); reflexivity|].
  destruct (seqb_spec k (str "database")) as [->|]; [destruct (text_of (str "database") x); reflexivity|].
  reflexivity.
Qed.
Lemma base_keys x p j : In j (dkeys (base_of x p)) -> is_reserved j = true /\ ~ In 37 j /\ j <> k_settings.
Proof.
  intros I. destruct (dget j (base_of x p)) eqn:D; [|apply dget_None in D; contradiction]. rewrite dget_base in D.
  repeat match type of D with (if seqb j ?s then _ else _) = _ => destruct (seqb_spec j s) as [->|]; [split; [reflexivity|split; [vm_compute; intuition lia|discriminate]]|] end.
  discriminate.
Qed.
Lemma reserved_in k : is_reserved k = true <-> In k reserved.
Proof.
  unfold is_reserved. rewrite existsb_exists. split; [intros (y & I & S); apply seqb_eq in S; now subst|]. intros I. exists k. split; [exact I|apply seqb_refl].
Qed.

Lemma parse_serialize_iri U repr x : unicode_ok U -> expressible x ->
  exists s y, iri_serialize U repr x false = Ok s /\ iri_parse U s = Ok y /\ same_params y x.
Proof.
  intros UO E. destruct (construct_ok U repr x E) as (l & ss & sp & p & C & PL & S2 & S3 & S4 & S5 & P2 & P4 & P5 & P6).
  set (t := {| r_scheme := _ |}) in C. exists (ri_unsplit t).
  assert (PT : proper t).
  { assert (K := t_proper x (text_of (str "database") x) p (map bracket_item l ++ map set_item ss) (option_map construct_path sp) E P4 P5).
    unfold t. destruct (map bracket_item l ++ map set_item ss); exact K. }
  set (SET := map str_item ss ++ sp_item sp) in *.
  set (c := base_of x p ++ map str_item l).
  exists (match SET with [] => c | _ => c ++ [(k_settings, PDict SET)] end).
  split; [unfold iri_serialize; rewrite C; reflexivity|].
  assert (KL : NoDup (map fst l) /\ forall k, In k (map fst l) -> is_reserved k = false /\ ~ In 37 k).
  { assert (P := Permutation_map fst PL). rewrite fst_str_item in P. split.
    - eapply Permutation_NoDup; [exact P|]. apply filter_nodup. now destruct E.
    - intros k I. apply Permutation_sym in P. apply (Permutation_in _ P) in I. apply in_map_iff in I as ([j v] & <- & I). apply filter_In in I as [I R]. cbn [fst] in *.
      apply negb_true_iff in R. split; [exact R|]. do 12 destruct E as [_ E]. destruct E as [G _]. destruct (G j v I R) as [H _]. exact H. }
  destruct KL as [NDL KL].
  assert (CS : dget k_settings c = None).
  { unfold c. rewrite dget_app, dget_base. cbn. apply dget_None. unfold dkeys. rewrite fst_str_item. intros I. apply KL in I as [R _]. discriminate. }
  split.
  - unfold iri_parse, ri_parse. rewrite split_unsplit by exact PT. unfold ri_structure, t. cbn [r_scheme r_netloc r_path r_query r_fragment].
    rewrite (net_read x E). unfold iri_structure. cbn [d_scheme d_net d_path d_query d_fragment].
    assert (L : py_lower U (str "pq") = str "pq").
    { unfold py_lower, str. cbn [list_ascii_of_string map]. cbn [concat map]. rewrite !(uo_lower U UO) by (split; [discriminate|reflexivity]). reflexivity. }
    rewrite L. change (negb (existsb (seqb (str "pq")) [str "pq"; str "postgres"; str "postgresql"])) with false. cbv iota.
    unfold escaped_net, net_of. cbn [n_user n_password n_host n_port].
    assert (O : forall cls o, class_ok cls -> option_map ri_unescape (option_map (ri_escape cls) o) = o)
      by (intros cls [z|] K; cbn; [now rewrite unescape_escape|reflexivity]).
    rewrite !O by auto with esc.
    rewrite (dset_opt_absent (str "user") _ []) by reflexivity. cbn [app].
    rewrite (dset_opt_absent (str "password")) by (now rewrite dget_item).
    rewrite (dset_opt_absent (str "port")) by (now rewrite dget_app, !dget_item).
    cbv zeta. match goal with |- context [match option_map _ (host_text x) with Some h => _ | None => ?c0 end] =>
      change (match option_map (ri_escape escape_host_re) (host_text x) with
        | Some h => if py_startswith [91] h && py_endswith [93] h then
            if py_startswith (str "unix:") (pyslice h 1 (-1)) then dset (str "unix") (PStr (py_replace [58] [47] (skipn 5 (pyslice h 1 (-1))))) c0
            else dset (str "host") (PStr (pyslice h 1 (-1))) c0 else dset (str "host") (PStr (ri_unescape h)) c0
        | None => c0 end) with (host_step (option_map (ri_escape escape_host_re) (host_text x)) c0) end.
    rewrite (host_read x E) by (now rewrite !dget_app, !dget_item).
    match goal with |- context [structure_query _ ?c0 []] => 
      change c0 with (path_step match (match path_of (text_of (str "database") x) p with [] => None | _ => Some (py_join [47] (path_of (text_of (str "database") x) p)) end) with
            | None => None | Some [] => Some [] | Some q => Some (map (fun x => x) (py_split [47] q)) end
          (((opt_item (str "user") (text_of (str "user") x) ++ opt_item (str "password") (text_of (str "password") x)) ++ opt_item (str "port") (text_of (str "port") x)) ++
           opt_item (str "host") (text_of (str "host") x) ++ opt_item (str "unix") (text_of (str "unix") x))) end.
    rewrite path_read; auto; [|now rewrite !dget_app, !dget_item|now rewrite !dget_app, !dget_item].
    rewrite <- !app_assoc. fold (base_of x p).
    match goal with |- context [structure_query ?q _ []] => replace q with (map esc_item (map bracket_item l) ++ map esc_item (map set_item ss)) end.
    2:{ rewrite <- map_app. destruct (map bracket_item l ++ map set_item ss) as [|i0 q0] eqn:EQ; [reflexivity|]. 
        assert (K := query_split (i0 :: q0) ltac:(discriminate)).
        assert (NK : i0 :: q0 <> [([], None)]).
        { intros K0. rewrite K0 in EQ. destruct l as [|[k v] l]; [|cbn in EQ; discriminate]. destruct ss as [|[k v] ss]; cbn in EQ; discriminate. }
        specialize (K NK). destruct (construct_query (i0 :: q0)); apply (f_equal (fun o => match o with Some q => q | None => [] end)) in K; symmetry; exact K. }
    rewrite read_driver; [|intros j J; apply base_keys in J; tauto|exact NDL|].
    2:{ intros k I. destruct (KL k I) as [R N]. split; [|split; [intros ->; discriminate|exact N]]. intros J. apply base_keys in J as [J _]. congruence. }
    rewrite read_settings; [|exact S2|intros k I; destruct (S3 k I) as (A & B & _); split; [intros []|auto]].
    cbn [bind app]. fold c.
    replace (match option_map construct_path sp with Some f => Some f | None => None end) with (option_map construct_path sp) by (destruct sp; reflexivity).
    rewrite fragment_read; [|exact S4|apply dget_None; unfold dkeys; rewrite fst_str_item; intros I; now apply S3 in I].
    fold SET. destruct SET; [reflexivity|]. now rewrite dset_absent.
  - intros k. set (y := match SET with [] => c | _ => c ++ [(k_settings, PDict SET)] end).
    assert (YK : dget k y = if seqb k k_settings then match SET with [] => None | _ => Some (PDict SET) end else dget k c).
    { unfold y. destruct SET as [|i0 s0] eqn:ES.
      - destruct (seqb_spec k k_settings) as [->|]; [exact CS|reflexivity].
      - rewrite dget_app. cbn [dget]. destruct (seqb_spec k k_settings) as [->|]; [now rewrite CS|]. destruct (dget k c); reflexivity. }
    rewrite YK. destruct (seqb_spec k k_settings) as [->|NS].
    + destruct (dget k_settings x) as [v|] eqn:DS.
      * destruct S5 as (s & -> & SN & SE). destruct SET; [congruence|]. exact SE.
      * destruct S5 as [-> ->]. reflexivity.
    + assert (EQ : dget k c = dget k x); [|rewrite EQ; destruct (dget k x) as [[]|]; cbn; auto].
      unfold c. rewrite dget_app, dget_base.
      assert (DL : dget k (map str_item l) = if is_reserved k then None else dget k x).
      { rewrite <- (dget_ext (filter (fun p => negb (is_reserved (fst p))) x)).
        - rewrite (dget_filter (fun j => negb (is_reserved j))). destruct (is_reserved k); reflexivity.
        - apply filter_nodup. now destruct E.
        - unfold dkeys. rewrite fst_str_item. exact NDL.
        - intros q. split; apply Permutation_in; [|symmetry]; exact PL. }
      destruct (texts x E) as (TU & TP & TH & TX & TQ & TD). assert (G := E). destruct G as (_ & _ & SSL & IPV & _).
      assert (TT : forall j, is_text j x -> option_map PStr (text_of j x) = dget j x) by (intros j; unfold is_text, text_of; destruct (dget j x) as [[]|]; intros; try contradiction; reflexivity).
      rewrite DL.
      destruct (seqb_spec k (str "user")) as [->|N1]; [rewrite TT by auto; destruct (dget (str "user") x); reflexivity|].
      destruct (seqb_spec k (str "password")) as [->|N2]; [rewrite TT by auto; destruct (dget (str "password") x); reflexivity|].
      destruct (seqb_spec k (str "port")) as [->|N3]; [rewrite TT by auto; destruct (dget (str "port") x); reflexivity|].
      destruct (seqb_spec k (str "host")) as [->|N4]; [rewrite TT by auto; destruct (dget (str "host") x); reflexivity|].
      destruct (seqb_spec k (str "unix")) as [->|N5]; [rewrite TT by auto; destruct (dget (str "unix") x); reflexivity|].
      destruct (seqb_spec k (str "database")) as [->|N6]; [rewrite TT by auto; destruct (dget (str "database") x); reflexivity|].
      destruct (seqb_spec k (str "path")) as [->|N7]; [rewrite <- P2; destruct (dget (str "path") x); reflexivity|].
      destruct (is_reserved k) eqn:R; [|reflexivity]. apply reserved_in in R. unfold reserved in R. cbn [In] in R.
      destruct R as [R|[R|[R|[R|[R|[R|[R|[R|[R|[R|[]]]]]]]]]]]; try congruence; unfold k_settings in NS; try congruence; subst k; unfold absent in *; congruence.
Qed.
