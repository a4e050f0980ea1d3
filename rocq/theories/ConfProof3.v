From Verif Require Import PyStr PyStrProof PyStrProof2 PyListProof BaseProof PyDict PyDictProof RIProof2 ConfModel ConfProof ConfSpec ConfProof2.

Section conf.
Context (U : unicode) (UO : unicode_ok U).
Local Notation sp := (u_space U).
Local Notation word := (is_word U).
Local Notation cand := (nat * extent * extent)%type.

(** ** the candidates *)
Definition cand_of (ck : text) (i : nat) (l : text) : list cand :=
  match parse_line U l with
  | Some (sk, sv) => if seqb ck (py_lower U (cut sk l)) then [(i, sk, sv)] else []
  | None => []
  end.
Fixpoint cands (ck : text) (i : nat) (fo : list text) : list cand :=
  match fo with [] => [] | l :: r => cand_of ck i l ++ cands ck (S i) r end.
Lemma in_cand_of ck i l cl : In cl (cand_of ck i l) -> idx cl = i /\ parse_line U l = Some (snd (fst cl), snd cl) /\ ck = py_lower U (cut (snd (fst cl)) l).
Proof.
  unfold cand_of. destruct (parse_line U l) as [[sk sv]|]; [|intros []]. destruct (seqb_spec ck (py_lower U (cut sk l))); [|intros []].
  intros [<-|[]]. cbn. auto.
Qed.
Lemma in_cands ck fo : forall i cl, In cl (cands ck i fo) -> exists j, idx cl = (i + j)%nat /\ (j < length fo)%nat /\
  parse_line U (line_at j fo) = Some (snd (fst cl), snd cl) /\ ck = py_lower U (cut (snd (fst cl)) (line_at j fo)).
Proof.
  induction fo as [|l fo IH]; intros i cl H; [contradiction|]. cbn [cands] in H. apply in_app_iff in H as [H|H].
  - apply in_cand_of in H as (A & B & C). exists O. cbn. repeat split; auto; lia.
  - apply IH in H as (j & A & B & C & D). exists (S j). cbn. repeat split; auto; lia.
Qed.
Lemma cands_in ck fo : forall i j sk sv, (j < length fo)%nat -> parse_line U (line_at j fo) = Some (sk, sv) -> ck = py_lower U (cut sk (line_at j fo)) ->
  In ((i + j)%nat, sk, sv) (cands ck i fo).
Proof.
  induction fo as [|l fo IH]; intros i [|j] sk sv L P E; cbn [length] in L; try lia; cbn [cands line_at nth] in *; apply in_app_iff.
  - left. unfold cand_of. rewrite P. rewrite E. destruct (seqb_spec (py_lower U (cut sk l)) (py_lower U (cut sk l))); [|contradiction]. rewrite Nat.add_0_r. cbn. auto.
  - right. replace (i + S j)%nat with (S i + j)%nat by lia. apply IH; auto. lia.
Qed.
Lemma cands_nodup ck fo : forall i, NoDup (map idx (cands ck i fo)).
Proof.
  induction fo as [|l fo IH]; intros i; cbn [cands]; [constructor|]. rewrite map_app.
  assert (K : forall cl, In cl (cands ck (S i) fo) -> idx cl <> i).
  { intros cl H. apply in_cands in H as (j & A & _). lia. }
  unfold cand_of. destruct (parse_line U l) as [[sk sv]|]; [|apply IH]. destruct (seqb _ _); [|apply IH]. cbn. constructor; [|apply IH].
  intros C. apply in_map_iff in C as (cl & E & I). now apply (K cl I).
Qed.

Definition got (ck : text) (cs : list (text * list cand)) : list cand := match dget ck cs with Some c => c | None => [] end.
Definition dict_ok (pk : list (text * nat)) (cs : list (text * list cand)) : Prop :=
  NoDup (dkeys cs) /\ Forall (fun p => snd p <> [] /\ dmem (fst p) pk = true) cs.
Lemma dset_forall {V} (P : text * V -> Prop) k v d : Forall P d -> P (k, v) -> Forall P (dset k v d).
Proof.
  induction d as [|[j w] d IH]; intros F H; cbn [dset]; [constructor; auto|]. inversion_clear F.
  destruct (seqb_spec k j) as [->|]; constructor; auto.
Qed.
Lemma find_spec pk fo : forall i cs, dict_ok pk cs -> dict_ok pk (find_candidates U pk i fo cs) /\
  forall ck, dmem ck pk = true -> got ck (find_candidates U pk i fo cs) = got ck cs ++ cands ck i fo.
Proof.
  induction fo as [|l fo IH]; intros i cs OK; cbn [find_candidates cands].
  - split; [exact OK|]. intros. now rewrite app_nil_r.
  - set (cs' := match parse_line U l with None => cs | Some _ => _ end).
    assert (STEP : dict_ok pk cs' /\ forall ck, dmem ck pk = true -> got ck cs' = got ck cs ++ cand_of ck i l).
    { unfold cs', cand_of. destruct (parse_line U l) as [[sk sv]|]; [|split; [exact OK|intros; now rewrite app_nil_r]].
      set (k := py_lower U (cut sk l)). destruct (dmem k pk) eqn:M.
      - destruct OK as [O1 O2]. split; [split|].
        + now apply dset_nodup.
        + apply dset_forall; [exact O2|]. cbn. split; [|exact M]. destruct (dget k cs) as [[|]|]; discriminate.
        + intros ck Mk. unfold got at 1. rewrite dget_set. destruct (seqb_spec ck k) as [->|]; [reflexivity|]. now rewrite app_nil_r.
      - split; [exact OK|]. intros ck Mk. destruct (seqb_spec ck k) as [->|]; [congruence|]. now rewrite app_nil_r. }
    destruct STEP as [S1 S2]. destruct (IH (S i) cs' S1) as [R1 R2]. split; [exact R1|]. intros ck Mk. rewrite R2, S2 by exact Mk. now rewrite <- app_assoc.
Qed.
Lemma find_in pk fo ck cls : In (ck, cls) (find_candidates U pk O fo []) -> cls = cands ck O fo /\ cls <> [] /\ dmem ck pk = true.
Proof.
  intros I. destruct (find_spec pk fo O []) as [[N F] G]; [split; constructor|].
  pose proof (proj1 (Forall_forall _ _) F _ I) as [NE M]. cbn in NE, M. split; auto.
  specialize (G ck M). unfold got at 1 in G. rewrite (In_dget _ _ _ N I) in G. exact G.
Qed.
Lemma find_mem pk fo ck : dmem ck pk = true -> (dmem ck (find_candidates U pk O fo []) = true <-> cands ck O fo <> []).
Proof.
  intros M. destruct (find_spec pk fo O []) as [[N F] G]; [split; constructor|]. specialize (G ck M). unfold got in G. cbn [dget app] in G. unfold dmem.
  destruct (dget ck _) as [c|] eqn:E.
  - subst c. apply dget_In in E. pose proof (proj1 (Forall_forall _ _) F _ E) as [NE _]. cbn in NE. tauto.
  - rewrite <- G. split; [discriminate|congruence].
Qed.
Lemma find_nodup pk fo : NoDup (dkeys (find_candidates U pk O fo [])).
Proof. apply find_spec. split; constructor. Qed.

(** ** names *)
Lemma name_lower K : setting_name K -> Forall (fun c => sp c = false) (py_lower U K).
Proof.
  intros [_ F]. unfold py_lower. induction F as [|c K H F IH]; cbn; [constructor|].
  assert (B : 0 <= c < 128 /\ sp (ascii_lower c) = false).
  { unfold name_char, ascii_alpha, ascii_upper, ascii_lowerc, ascii_digit in H. assert (Hc : 48 <= c <= 122) by lia. split; [lia|].
    unfold ascii_lower, ascii_upper. rewrite (sp_ascii U UO) by (destruct (_ && _) eqn:E; lia). unfold ascii_space. destruct (_ && _) eqn:E; lia. }
  rewrite (uo_lower U UO) by tauto. cbn. constructor; [tauto|exact IH].
Qed.
Lemma norm_name K : setting_name K -> norm_key U K = py_lower U K.
Proof.
  intros S. unfold norm_key, py_strip. pose proof (name_lower K S) as F. apply strip_solid.
  destruct (py_lower U K) as [|c l] eqn:E; [cbn; auto|]. unfold solid. split.
  - inversion F; auto.
  - apply (forall_last (fun c => sp c = false)); [discriminate|exact F].
Qed.
Lemma name_word K : setting_name K -> Forall (fun c => word c = true) K /\ hd_not (sp35 U) K /\ ~ In 61 K.
Proof.
  intros [N F]. assert (Q : Forall (fun c => 0 <= c < 128 /\ word c = true /\ sp35 U c = false /\ c <> 61) K).
  { eapply Forall_impl; [|exact F]. intros c H. cbn beta. assert (B : 0 <= c < 128) by (unfold name_char, ascii_alpha, ascii_upper, ascii_lowerc, ascii_digit in H; lia).
    split; [exact B|]. unfold is_word, sp35. rewrite (uo_alpha U UO), (uo_digit U UO), (uo_space U UO) by exact B. split; [exact H|].
    unfold name_char, ascii_space, ascii_alpha, ascii_upper, ascii_lowerc, ascii_digit in *. split; lia. }
  split; [|split].
  - eapply Forall_impl; [|exact Q]. cbn. tauto.
  - destruct Q as [|c K' H]; [exact I|]. cbn. tauto.
  - intros I. eapply Forall_forall in Q; [|exact I]. tauto.
Qed.

Lemma index_nth k keys : In k keys -> nth (index_key k keys) keys [] = k.
Proof.
  induction keys as [|j keys IH]; intros H; [contradiction|]. cbn [index_key]. destruct (seqb_spec k j) as [->|N]; [reflexivity|]. cbn [nth]. apply IH. destruct H; [congruence|auto].
Qed.
Lemma pkeys_go ks keys : forall d, NoDup (dkeys d ++ map (norm_key U) ks) ->
  fold_left (fun d k => dset (norm_key U k) (index_key k keys) d) ks d = d ++ map (fun k => (norm_key U k, index_key k keys)) ks.
Proof.
  induction ks as [|k ks IH]; intros d N; cbn [fold_left map]; [now rewrite app_nil_r|].
  rewrite dset_absent.
  - rewrite IH; [now rewrite <- app_assoc|]. rewrite dkeys_app. cbn [dkeys map fst] in *. now rewrite <- app_assoc.
  - apply dget_None. intros C. cbn [map] in N. apply NoDup_remove_2 in N. apply N, in_app_iff. auto.
Qed.
Lemma pkeys_eq keys : NoDup (map (norm_key U) keys) -> pkeys U keys = map (fun k => (norm_key U k, index_key k keys)) keys.
Proof. intros N. unfold pkeys. now rewrite pkeys_go. Qed.

(** ** appending the settings that are not in the file *)
Definition new_line (k v : text) : text := k ++ str " = " ++ quoted v.
Definition new_parts (k v : text) (nl : bool) : parts :=
  {| pre := []; key := k; ws := [32]; ws2 := [32]; val := quoted v; post := if nl then [10] else [] |}.
Lemma new_line_parts k v (nl : bool) : new_line k v ++ (if nl then [10] else []) = line_of (new_parts k v nl).
Proof. unfold new_line, line_of, new_parts. cbn [pre key ws ws2 val post app]. now rewrite <- !app_assoc. Qed.
Lemma read_new k v (nl : bool) : setting_name k -> read_line U (new_line k v ++ (if nl then [10] else [])) = Some (k, v).
Proof.
  intros S. destruct (name_word k S) as (W & H & _). rewrite new_line_parts.
  assert (S32 : sp 32 = true) by (rewrite (sp_ascii U UO) by lia; reflexivity).
  assert (SH : shape U (new_parts k v nl)).
  { constructor; cbn [pre key ws ws2 val post new_parts].
    - constructor.
    - exact W.
    - repeat constructor. exact S32.
    - destruct S as [NE _]. destruct k; [congruence|]. exact H.
    - cbn. apply (word_32 U UO).
    - repeat constructor. unfold sp2. now rewrite S32.
    - cbn. unfold sp2. rewrite (sp_ascii U UO) by lia. reflexivity.
    - destruct nl; cbn; auto. unfold sp35. rewrite (sp_ascii U UO) by lia. reflexivity. }
  rewrite (read_shape U UO).
  - cbn [pre key val new_parts]. rewrite unquote_quoted by exact UO. reflexivity.
  - exact SH.
  - cbn [val post new_parts]. apply scan_quoted; [exact UO|]. destruct nl; cbn; auto. unfold sp35. rewrite (sp_ascii U UO) by lia. reflexivity.
Qed.

(** line feeds *)
Definition kept_all : list text -> list text -> Prop := Forall2 (fun l l' => line_kept l l').
Lemma kept_refl l : kept_all l l. Proof. induction l; constructor; auto. left; reflexivity. Qed.
Lemma kept_trans a b c : kept_all a b -> kept_all b c -> kept_all a c.
Proof.
  intros H. revert c. induction H as [|x y a b X H IH]; intros c K; inversion_clear K; constructor; [|now apply IH].
  match goal with Y : line_kept y _ |- _ => rename Y into YY end.
  destruct X as [->|[X1 ->]]; [exact YY|]. destruct YY as [->|[Y1 ->]]; [right; auto|]. rewrite endswith_app in Y1. discriminate.
Qed.
Lemma append_line_spec lines k v lines' : append_line lines k v = Ok lines' ->
  exists l0, kept_all lines l0 /\ lines' = l0 ++ [new_line k v] /\ Forall (fun l => line_kept l l) lines.
Proof.
  unfold append_line. destruct (rev lines) as [|la be] eqn:R; [discriminate|]. intros H. apply Ok_inj in H. subst lines'.
  assert (E : lines = rev be ++ [la]) by (rewrite <- (rev_involutive lines), R; reflexivity).
  exists (rev be ++ [if py_endswith linesep la then la else la ++ linesep]). split; [|split].
  - rewrite E. apply Forall2_app; [apply kept_refl|]. constructor; [|constructor]. destruct (py_endswith linesep la) eqn:EE; [left; reflexivity|right; auto].
  - rewrite <- app_assoc. reflexivity.
  - apply Forall_forall. intros. left; reflexivity.
Qed.
(** all lines but the last are as they were *)
Definition kept_last (a b : list text) : Prop := kept_all a b /\ forall i, (S i < length a)%nat -> line_at i b = line_at i a.
Lemma append_line_last lines k v lines' : append_line lines k v = Ok lines' ->
  exists l0, kept_last lines l0 /\ lines' = l0 ++ [new_line k v].
Proof.
  intros H. destruct (append_line_spec _ _ _ _ H) as (l0 & K & E & _). exists l0. split; [|exact E]. split; [exact K|].
  unfold append_line in H. destruct (rev lines) as [|la be] eqn:R; [discriminate|]. apply Ok_inj in H.
  assert (EL : lines = rev be ++ [la]) by (rewrite <- (rev_involutive lines), R; reflexivity).
  intros i Hi. rewrite E in H. rewrite app_assoc in H. apply app_inj_tail in H as [H _]. rewrite <- H, EL. unfold line_at.
  rewrite EL, app_length in Hi. cbn [length] in Hi. rewrite !app_nth1 by lia. reflexivity.
Qed.
Lemma kept_last_refl a : kept_last a a. Proof. split; [apply kept_refl|auto]. Qed.
Lemma kept_length a b : kept_all a b -> length b = length a. Proof. intros H. induction H; cbn; auto. Qed.

Definition unfound (map : list (text * option text)) (keys : list text) (cs : list (text * list cand)) (pk : list (text * nat)) : list (text * text) :=
  flat_map (fun p => if dmem (fst p) cs then [] else match dget (nth (snd p) keys []) map with Some (Some v) => [(nth (snd p) keys [], v)] | _ => [] end) pk.
Lemma append_unfound_spec m keys cs pk : forall lines lines', append_unfound m keys pk cs lines = Ok lines' ->
  exists l0 ex, lines' = l0 ++ ex /\ kept_last lines l0 /\ kept_all (map (fun e => new_line (fst e) (snd e)) (unfound m keys cs pk)) ex.
Proof.
  induction pk as [|[k i] pk IH]; intros lines lines' H; cbn [append_unfound unfound flat_map fst snd] in *.
  - apply Ok_inj in H. subst. exists lines', []. rewrite app_nil_r. split; auto. split; [apply kept_last_refl|constructor].
  - fold (unfound m keys cs pk). destruct (dmem k cs); [apply IH, H|]. cbv zeta in H.
    destruct (dget (nth i keys []) m) as [[v|]|] eqn:D; [| |discriminate].
    + apply bind_Ok in H as (l1 & E & H). apply append_line_last in E as (l0 & K & ->).
      apply IH in H as (m0 & ex & -> & [K1 K2] & KE). destruct K as [KA KB].
      apply Forall2_app_inv_l in K1 as (p & q & P & Q & ->). inversion_clear Q as [|? q0 ? q1 Q1 Q2]. inversion Q2; subst. clear Q2.
      exists p, (q0 :: ex). split; [rewrite <- app_assoc; reflexivity|]. split; [|cbn [map app]; constructor; [exact Q1|exact KE]].
      split; [eapply kept_trans; eauto|]. intros j Hj. rewrite <- KB by exact Hj.
      assert (L0 : length l0 = length lines) by now apply kept_length. assert (Lp : length p = length l0) by now apply kept_length.
      specialize (K2 j). unfold line_at in *. rewrite !app_nth1 in K2 by lia. apply K2. rewrite app_length. cbn. lia.
    + apply IH, H.
Qed.
Lemma append_unfound_total m keys cs pk : (forall k i, In (k, i) pk -> dget (nth i keys []) m <> None) ->
  forall lines, lines <> [] -> exists lines', append_unfound m keys pk cs lines = Ok lines'.
Proof.
  induction pk as [|[k i] pk IH]; intros H lines NE; cbn [append_unfound]; [eauto|].
  assert (H' : forall k i, In (k, i) pk -> dget (nth i keys []) m <> None) by (intros; eapply H; right; eauto).
  destruct (dmem k cs); [now apply IH|]. cbv zeta. destruct (dget (nth i keys []) m) as [[v|]|] eqn:D.
  - unfold append_line. destruct (rev lines) as [|la be] eqn:R.
    + apply (f_equal (@rev _)) in R. rewrite rev_involutive in R. contradiction.
    + cbn [bind]. apply IH; auto. destruct (rev be); discriminate.
  - now apply IH.
  - exfalso. eapply H; [left; reflexivity|exact D].
Qed.
End conf.
