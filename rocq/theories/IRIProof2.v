From Coq Require Import Permutation.
From Verif Require Import PyStr PyStrProof PyStrProof2 PyListProof BaseProof RIModel RISpec RIProof RIProof2 RIProof3 IRIModel IRISpec PyDict PyDictProof IRIProof.

Definition opt_item (k : text) (o : option text) : cpd := match o with Some v => [(k, PStr v)] | None => [] end.
Lemma dset_opt_absent k o c : dget k c = None -> dset_opt k o c = c ++ opt_item k o.
Proof. intros H. destruct o; cbn [dset_opt opt_item]; [now apply dset_absent|now rewrite app_nil_r]. Qed.
Lemma is_text_cases k x : is_text k x -> (dget k x = None /\ text_of k x = None) \/ exists s, dget k x = Some (PStr s) /\ text_of k x = Some s.
Proof. unfold is_text, text_of. destruct (dget k x) as [[]|]; try contradiction; eauto. Qed.

Definition host_step (h : option text) (c : cpd) : cpd :=
  match h with
  | None => c
  | Some h =>
      if py_startswith [91] h && py_endswith [93] h then
        let h := pyslice h 1 (-1) in
        if py_startswith (str "unix:") h
        then dset (str "unix") (PStr (py_replace [58] [47] (skipn 5 h))) c
        else dset (str "host") (PStr h) c
      else dset (str "host") (PStr (ri_unescape h)) c
  end.
Lemma in_flat_slash c u : In c (py_replace [47] [58] u) -> c = 58 \/ (In c u /\ c <> 47).
Proof.
  rewrite replace1. intros H. apply in_flat_map in H as (y & I & H). destruct (Z.eqb_spec y 47) as [->|]; cbn [In] in H; destruct H as [<-|[]]; auto.
Qed.
Lemma slash_back u : ~ In 58 u -> py_replace [58] [47] (py_replace [47] [58] u) = u.
Proof.
  rewrite !replace1. induction u as [|c u IH]; cbn [In flat_map]; intros H; [reflexivity|].
  rewrite flat_map_app, IH by intuition. destruct (Z.eqb_spec c 47) as [->|]; cbn [flat_map app]; [reflexivity|].
  destruct (Z.eqb_spec c 58) as [->|]; [exfalso; intuition|reflexivity].
Qed.
Definition host_text (x : cpd) : option text :=
  match text_of (str "unix") x with
  | Some u => Some ([91] ++ (str "unix:" ++ py_replace [47] [58] u) ++ [93])
  | None => match text_of (str "host") x with Some h => Some (if memZ 58 h then [91] ++ h ++ [93] else h) | None => None end
  end.
Definition net_of (x : cpd) : netloc :=
  {| n_user := text_of (str "user") x; n_password := text_of (str "password") x; n_host := host_text x; n_port := text_of (str "port") x |}.
Lemma memZ_false c l : ~ In c l -> memZ c l = false.
Proof. intros H. destruct (memZ c l) eqn:E; [|reflexivity]. apply memZ_In in E. contradiction. Qed.
Lemma absent_text k x : text_of k x = None -> is_text k x -> absent k x.
Proof. intros T I. destruct (is_text_cases k x I) as [[A _]|(s & A & B)]; [exact A|congruence]. Qed.

Section one.
Context (x : cpd) (E : expressible x).
Local Notation user := (text_of (str "user") x).
Lemma texts : is_text (str "user") x /\ is_text (str "password") x /\ is_text (str "host") x /\ is_text (str "unix") x /\ is_text (str "port") x /\ is_text (str "database") x.
Proof. destruct E as (_ & F & _). repeat (apply Forall_cons_iff in F as [? F]). auto 10. Qed.
Lemma host_ok : iri_host x = Ok (host_text x).
Proof.
  destruct texts as (_ & _ & TH & TU & _). unfold iri_host, host_text.
  destruct (is_text_cases _ _ TU) as [[A ->]|(u & A & ->)]; rewrite A.
  - destruct (is_text_cases _ _ TH) as [[B ->]|(h & B & ->)]; rewrite B; reflexivity.
  - reflexivity.
Qed.
Lemma unix_bracket u : text_of (str "unix") x = Some u -> bracketed user ([91] ++ (str "unix:" ++ py_replace [47] [58] u) ++ [93]).
Proof.
  intros T. destruct E as (_ & _ & _ & _ & _ & _ & _ & _ & _ & G & _). rewrite T in G. destruct G as (F & W & A).
  exists (str "unix:" ++ py_replace [47] [58] u). split; [reflexivity|]. split; [|split].
  - rewrite in_app_iff. intros [H|H]; [revert H; vm_compute; intuition lia|]. apply in_flat_slash in H as [H|[H _]]; [lia|].
    revert H. eapply free_In; [exact F|]. cbn; auto 10.
  - apply Forall_app. split; [repeat constructor|]. apply Forall_forall. intros c H. apply in_flat_slash in H as [->|[H N]]; [reflexivity|].
    unfold escape_host_re, esc_class, unescaped. 
    assert (H1 : c <> 37) by (intros ->; revert H; eapply free_In; [exact F|]; cbn; auto 10).
    assert (H2 : c <> 63) by (intros ->; revert H; eapply free_In; [exact F|]; cbn; auto 10).
    assert (H3 : c <> 35) by (intros ->; revert H; eapply free_In; [exact F|]; cbn; auto 10).
    assert (H4 : ~ 0 <= c <= 32) by (eapply Forall_forall in W; eauto).
    rewrite memZ_false by (cbn [In]; lia). lia.
  - intros U H. rewrite in_app_iff in H. destruct H as [H|H]; [revert H; vm_compute; intuition lia|]. apply in_flat_slash in H as [H|[H _]]; [lia|]. exact (A U H).
Qed.
Lemma net_ok : net_of x = no_netloc \/ proper_net (net_of x).
Proof.
  destruct texts as (TU & TP & TH & TX & TQ & _).
  assert (G := E). destruct G as (_ & _ & _ & _ & PU & XO & PO & PA & GH & GX & _).
  destruct (host_text x) as [h|] eqn:EH.
  - right. unfold proper_net, net_of. cbn [n_user n_password n_host n_port]. rewrite EH. split; [|split; [|split; [discriminate|]]].
    + unfold host_text in EH. destruct (text_of (str "unix") x) as [u|] eqn:EU.
      * injection EH as <-. right. now apply unix_bracket.
      * destruct (text_of (str "host") x) as [h0|] eqn:EH0; [|discriminate]. destruct GH as (N & A & B & C). destruct (memZ 58 h0) eqn:M; injection EH as <-.
        -- right. apply memZ_In in M. destruct (C M) as (C1 & C2 & C3). exists h0. auto.
        -- left. assert (~ In 58 h0) by (intros I; apply memZ_In in I; congruence). split; [exact N|]. split; [auto|]. split; [auto|]. auto.
    + intros U. destruct (is_text_cases _ _ TP) as [[_ P]|(p & D & _)]; [exact P|]. rewrite PU in D by (apply absent_text; auto). discriminate.
    + intros U. apply PA. apply absent_text; auto.
  - assert (XN : text_of (str "unix") x = None /\ text_of (str "host") x = None).
    { unfold host_text in EH. destruct (text_of (str "unix") x); [discriminate|]. split; [reflexivity|]. destruct (text_of (str "host") x); [discriminate|reflexivity]. }
    assert (QN : text_of (str "port") x = None).
    { destruct (is_text_cases _ _ TQ) as [[_ P]|(p & D & _)]; [exact P|]. rewrite PO in D by (apply absent_text; tauto). discriminate. }
    destruct (is_text_cases _ _ TU) as [[UA UN]|(u & UA & UN)].
    + left. unfold net_of. rewrite EH, UN, QN.
      assert (PN : text_of (str "password") x = None).
      { destruct (is_text_cases _ _ TP) as [[_ P]|(p & D & _)]; [exact P|]. rewrite PU in D by exact UA. discriminate. }
      rewrite PN. reflexivity.
    + right. unfold proper_net, net_of. cbn [n_user n_password n_host n_port]. rewrite EH, UN. split; [exact QN|]. split; [discriminate|]. split; [discriminate|]. discriminate.
Qed.
Lemma host_read c : dget (str "host") c = None -> dget (str "unix") c = None ->
  host_step (option_map (ri_escape escape_host_re) (host_text x)) c = c ++ opt_item (str "host") (text_of (str "host") x) ++ opt_item (str "unix") (text_of (str "unix") x).
Proof.
  intros CH CU. assert (G := E). destruct G as (_ & _ & _ & _ & _ & XO & _ & _ & GH & GX & _).
  unfold host_text. destruct (text_of (str "unix") x) as [u|] eqn:EU.
  - assert (HN : text_of (str "host") x = None).
    { destruct XO as [A|A]; unfold absent in A; [unfold text_of; now rewrite A|]. unfold text_of in EU. rewrite A in EU. discriminate. }
    rewrite HN. destruct (unix_bracket u EU) as (a & Ea & _ & F & _). cbn [option_map].
    assert (EA : str "unix:" ++ py_replace [47] [58] u = a).
    { apply (app_inv_head [91]) in Ea. apply app_inv_tail in Ea. exact Ea. }
    rewrite escape_id by (rewrite EA; apply Forall_app; split; [repeat constructor|]; apply Forall_app; split; [exact F|repeat constructor]).
    unfold host_step. change (py_startswith [91] ([91] ++ (str "unix:" ++ py_replace [47] [58] u) ++ [93]) && py_endswith [93] ([91] ++ (str "unix:" ++ py_replace [47] [58] u) ++ [93]))
      with (bracketed_key ([91] ++ (str "unix:" ++ py_replace [47] [58] u) ++ [93])).
    rewrite bracketed_self. cbv zeta iota. rewrite bracket_slice. unfold py_startswith. rewrite prefixb_app.
    replace (skipn 5 (str "unix:" ++ py_replace [47] [58] u)) with (py_replace [47] [58] u) by reflexivity.
    rewrite slash_back by (eapply free_In; [apply GX|]; cbn; auto 10). cbn [opt_item app]. now apply dset_absent.
  - destruct (text_of (str "host") x) as [h|] eqn:EH; [|cbn [option_map host_step opt_item app]; now rewrite app_nil_r].
    destruct GH as (N & _ & B & C). cbn [option_map opt_item app]. destruct (memZ 58 h) eqn:M.
    + apply memZ_In in M. destruct (C M) as (C1 & C2 & C3).
      change (91 :: h ++ [93]) with ([91] ++ h ++ [93]).
      rewrite escape_id by (apply Forall_app; split; [repeat constructor|]; apply Forall_app; split; [exact C2|repeat constructor]).
      unfold host_step. change (py_startswith [91] ([91] ++ h ++ [93]) && py_endswith [93] ([91] ++ h ++ [93])) with (bracketed_key ([91] ++ h ++ [93])).
      rewrite bracketed_self. cbv zeta iota. rewrite bracket_slice, C3. now apply dset_absent.
    + assert (N58 : ~ In 58 h) by (intros I; apply memZ_In in I; congruence).
      unfold host_step. replace (py_startswith [91] (ri_escape escape_host_re h)) with false.
      * cbn [andb]. rewrite unescape_escape by auto with esc. now apply dset_absent.
      * rewrite starts1. destruct h as [|c0 h]; [congruence|]. apply B in N58. cbn [hd] in N58. unfold ri_escape. cbn [flat_map].
        destruct (escape_host_re c0); cbn [app]; [reflexivity|]. lia.
Qed.
End one.
