From Verif Require Import PyStr PyStrProof PyStrProof2 PyListProof BaseProof PyDict PyDictProof RIProof2 ConfModel ConfProof ConfSpec ConfProof2 ConfProof3.

Lemma flat_map_ext_in_loc {A B} (f g : A -> list B) l : (forall x, In x l -> f x = g x) -> flat_map f l = flat_map g l.
Proof. induction l as [|x l IH]; intros H; [reflexivity|]. cbn. rewrite (H x), IH; cbn; auto. intros; apply H; cbn; auto. Qed.
Section conf.
Context (U : unicode) (UO : unicode_ok U).
Local Notation sp := (u_space U).
Local Notation word := (is_word U).
Local Notation cand := (nat * extent * extent)%type.

(** ** a line feed at the end changes nothing *)
Definition with_nl (x : parts) : parts := {| pre := pre x; key := key x; ws := ws x; ws2 := ws2 x; val := val x; post := post x ++ [10] |}.
Lemma line_with_nl x : line_of (with_nl x) = line_of x ++ [10].
Proof. unfold line_of, with_nl. cbn [pre key ws ws2 val post]. now rewrite <- !app_assoc. Qed.
Lemma sp10 : sp 10 = true. Proof. rewrite (sp_ascii U UO) by lia. reflexivity. Qed.
Lemma shape_with_nl x : shape U x -> shape U (with_nl x).
Proof.
  intros []. constructor; cbn [with_nl pre key ws ws2 val post]; auto.
  - destruct (val x) as [|c v]; [|exact s_hd2]. cbn [app] in *. destruct (post x); [|exact s_hd2]. cbn. unfold sp2. apply andb_false_r.
  - destruct (post x); cbn; [|exact s_stop]. unfold sp35. now rewrite sp10.
Qed.
Lemma parse_kept l l' sk sv : parse_line U l = Some (sk, sv) -> line_kept l l' ->
  exists x, shape U x /\ l' = line_of x /\ sk = key_ext x /\ sv = val_ext x /\ key x = cut sk l.
Proof.
  intros P K. apply (parse_inv U) in P as (x & S & -> & -> & -> & E). destruct K as [->|[_ ->]].
  - exists x. rewrite cut_key. auto.
  - exists (with_nl x). split; [now apply shape_with_nl|]. rewrite line_with_nl, cut_key. auto.
Qed.
Lemma unquote_nl v : unquote U (v ++ [10]) = unquote U v.
Proof.
  unfold unquote. assert (E : py_strip U (v ++ [10]) = py_strip U v); [|now rewrite E].
  unfold py_strip, strip_by. assert (F : Forall (fun c => sp c = true) [10]) by (constructor; [apply sp10|constructor]).
  assert (L : forall v, lstrip_by sp (v ++ [10]) = match lstrip_by sp v with [] => [] | w => w ++ [10] end).
  { clear -UO. induction v as [|c v IH]; cbn [app lstrip_by].
    - now rewrite sp10.
    - destruct (sp c); [apply IH|reflexivity]. }
  rewrite L. destruct (lstrip_by sp v) as [|c w]; [reflexivity|]. now rewrite rstrip_app.
Qed.
Lemma parse_none_nl l : parse_line U l = None -> parse_line U (l ++ [10]) = None.
Proof.
  unfold parse_line. intros H. destruct (in_dec Z.eq_dec 61 l) as [I|N].
  2:{ rewrite splitn1_none; [reflexivity|]. rewrite in_app_iff. cbn. intros [C|[C|[]]]; [auto|discriminate]. }
  destruct (index_of [61] l) as [k|] eqn:IX; [|apply index1_None in IX; contradiction].
  apply index1_Some in IX as (EL & NI & LK). rewrite EL in H. rewrite splitn1_at in H by exact NI. rewrite EL, <- app_assoc. cbn [app]. rewrite splitn1_at by exact NI.
  cbv zeta in *. destruct (py_strip U _); [discriminate|reflexivity].
Qed.
Lemma read_kept l l' : line_kept l l' -> read_line U l' = read_line U l.
Proof.
  intros [->|[_ ->]]; [reflexivity|]. destruct (parse_line U l) as [[sk sv]|] eqn:P.
  - apply (parse_inv U) in P as (x & S & -> & _ & _ & E). rewrite (read_shape U UO) by auto. rewrite <- line_with_nl.
    pose proof (shape_with_nl x S) as S'. destruct (scan_nl U UO (val x ++ post x) false false) as [N|[N1 N2]].
    + rewrite (read_shape U UO); [reflexivity|exact S'|]. cbn [with_nl val post]. rewrite app_assoc, N. exact E.
    + assert (PE : post x = []) by (apply length_zero_iff_nil; rewrite app_length in N1; lia).
      set (y := {| pre := pre x; key := key x; ws := ws x; ws2 := ws2 x; val := val x ++ [10]; post := [] |}).
      assert (EY : line_of (with_nl x) = line_of y) by (unfold line_of, with_nl, y; cbn [pre key ws ws2 val post]; rewrite PE, app_nil_r; reflexivity).
      assert (SY : shape U y).
      { destruct S'. constructor; cbn [with_nl y pre key ws ws2 val post] in *; auto; [|exact I]. rewrite app_nil_r. rewrite PE in s_hd2. exact s_hd2. }
      rewrite EY, (read_shape U UO).
      * cbn [y pre key val]. now rewrite unquote_nl.
      * exact SY.
      * cbn [y val post]. rewrite app_nil_r. rewrite PE, app_nil_r in N2. rewrite N2, app_length. cbn. lia.
  - unfold read_line. rewrite P, (parse_none_nl l P). reflexivity.
Qed.

(** ** all groups *)
Definition target (m : list (text * option text)) (keys : list text) (pk : list (text * nat)) (ck : text) : option (option text) :=
  dget (nth (match dget ck pk with Some i => i | None => O end) keys []) m.
Definition group_done (xs : nat -> parts) (lines : list text) (cls : list cand) (ov : option text) : Prop :=
  match ov with
  | None => forall cl, In cl cls -> line_at (idx cl) lines = hide (xs (idx cl))
  | Some v => exists w, In w cls /\ line_at (idx w) lines = line_of (uncommented U (xs (idx w)) v) /\
      forall cl, In cl cls -> idx cl <> idx w -> line_at (idx cl) lines = hide (xs (idx cl))
  end.
Lemma group_ext xs a b cls ov : (forall cl, In cl cls -> line_at (idx cl) b = line_at (idx cl) a) -> group_done xs a cls ov -> group_done xs b cls ov.
Proof.
  intros E. destruct ov as [v|]; cbn.
  - intros (w & I & A & B). exists w. split; [exact I|]. split; [rewrite E; auto|]. intros cl Hi Hn. rewrite E; auto.
  - intros H cl Hi. rewrite E; auto.
Qed.
Lemma alter_spec m keys pk (xs : nat -> parts) : forall cs lines lines', alter_candidates U m keys pk cs lines = Ok lines' ->
  NoDup (dkeys cs) ->
  (forall ck cls, In (ck, cls) cs -> cls <> [] /\ NoDup (map idx cls) /\ forall cl, In cl cls -> good U lines cl (xs (idx cl))) ->
  (forall ck cls ck' cls' cl cl', In (ck, cls) cs -> In (ck', cls') cs -> In cl cls -> In cl' cls' -> idx cl = idx cl' -> ck = ck') ->
  length lines' = length lines /\
  (forall i, (forall ck cls, In (ck, cls) cs -> ~ In i (map idx cls)) -> line_at i lines' = line_at i lines) /\
  (forall ck cls, In (ck, cls) cs -> exists ov, target m keys pk ck = Some ov /\ group_done xs lines' cls ov).
Proof.
  induction cs as [|[ck cls] cs IH]; intros lines lines' H ND G D.
  - cbn in H. apply Ok_inj in H. subst. split; [reflexivity|]. split; [reflexivity|]. intros ? ? [].
  - cbn [alter_candidates] in H. fold (target m keys pk ck) in H. cbn [dkeys map fst] in ND. inversion_clear ND as [|? ? NI ND'].
    destruct (G ck cls (or_introl eq_refl)) as (NE & NDc & GC).
    assert (STEP : exists ov lines1, target m keys pk ck = Some ov /\ alter_candidates U m keys pk cs lines1 = Ok lines' /\
      length lines1 = length lines /\ (forall i, ~ In i (map idx cls) -> line_at i lines1 = line_at i lines) /\ group_done xs lines1 cls ov).
    { destruct (target m keys pk ck) as [[v|]|]; [| |discriminate].
      - destruct (set_value_spec U v cls lines xs NE NDc GC) as (A & B & C). exists (Some v), (set_value U v cls lines). repeat (split; [auto; fail|]). exact C.
      - destruct (comment_all_spec U cls lines xs NDc GC) as (A & B & C). exists None, (comment_all cls lines). repeat (split; [auto; fail|]). exact C. }
    clear H. destruct STEP as (ov & lines1 & T & H & L1 & S1 & GD).
    assert (DISJ : forall ck' cls', In (ck', cls') cs -> forall cl, In cl cls' -> ~ In (idx cl) (map idx cls)).
    { intros ck' cls' I' cl Hc C. apply in_map_iff in C as (cl0 & E & I0).
      assert (ck = ck') by (eapply (D ck cls ck' cls' cl0 cl); [left; reflexivity|right; exact I'|exact I0|exact Hc|exact E]). subst ck'.
      apply NI. apply in_map_iff. exists (ck, cls'). auto. }
    destruct (IH lines1 lines' H ND') as (A & B & C).
    + intros ck' cls' I'. destruct (G ck' cls' (or_intror I')) as (NE' & ND'' & G'). split; [exact NE'|]. split; [exact ND''|].
      intros cl Hc. destruct (G' cl Hc) as (Q1 & Q2 & Q3 & Q4). split; [exact Q1|]. split; [rewrite L1; exact Q2|]. split; [|exact Q4].
      rewrite S1; [exact Q3|]. eapply DISJ; eauto.
    + intros a b c d e f I1 I2. apply D; right; auto.
    + split; [congruence|]. split.
      * intros i Hi. rewrite B, S1; [reflexivity| |].
        -- apply (Hi ck cls). left. reflexivity.
        -- intros ck' cls' I'. apply (Hi ck' cls'). right. exact I'.
      * intros ck' cls' [E|I']; [|apply C, I']. injection E as <- <-. exists ov. split; [exact T|]. eapply group_ext; [|exact GD].
        intros cl Hc. rewrite B; [reflexivity|]. intros ck' cls' I' C'. apply in_map_iff in C' as (cl' & E & Hc').
        apply (DISJ ck' cls' I' cl' Hc'). rewrite E. now apply in_map.
Qed.
Lemma alter_total m keys pk : forall cs lines, (forall ck cls, In (ck, cls) cs -> target m keys pk ck <> None) -> exists lines', alter_candidates U m keys pk cs lines = Ok lines'.
Proof.
  induction cs as [|[ck cls] cs IH]; intros lines T; cbn [alter_candidates]; [eauto|]. fold (target m keys pk ck).
  assert (T' : forall ck cls, In (ck, cls) cs -> target m keys pk ck <> None) by (intros; eapply T; right; eauto).
  destruct (target m keys pk ck) as [[v|]|] eqn:E; [now apply IH|now apply IH|]. exfalso. eapply T; [left; reflexivity|exact E].
Qed.
Lemma finite_choice {A} (P : nat -> A -> Prop) (a0 : A) n : (forall j, (j < n)%nat -> exists x, P j x) -> exists f, forall j, (j < n)%nat -> P j (f j).
Proof.
  induction n as [|n IH]; intros H; [exists (fun _ => a0); lia|]. destruct IH as [f F]; [intros; apply H; lia|]. destruct (H n) as [x X]; [lia|].
  exists (fun j => if Nat.eqb j n then x else f j). intros j Hj. destruct (Nat.eqb_spec j n) as [->|]; [exact X|apply F; lia].
Qed.
Definition some_parts : parts := {| pre := []; key := []; ws := []; ws2 := []; val := []; post := [] |}.

(** ** the keys of a proper map *)
Lemma proper_norm m : proper_map U m -> map (norm_key U) (dkeys m) = map (fun p => py_lower U (fst p)) m.
Proof.
  intros [F _]. unfold dkeys. rewrite map_map. apply map_ext_in. intros p I. apply norm_name; [exact UO|].
  rewrite Forall_forall in F. apply F. now apply in_map.
Qed.
Lemma proper_nodup m : proper_map U m -> NoDup (map (norm_key U) (dkeys m)).
Proof. intros P. rewrite (proper_norm m P). apply P. Qed.
Lemma proper_keys m : proper_map U m -> NoDup (dkeys m).
Proof. intros P. apply proper_nodup in P. now apply NoDup_map_inv in P. Qed.
Lemma pk_get m K ov : proper_map U m -> In (K, ov) m ->
  dmem (py_lower U K) (pkeys U (dkeys m)) = true /\ target m (dkeys m) (pkeys U (dkeys m)) (py_lower U K) = Some ov.
Proof.
  intros P I. pose proof (proper_nodup m P) as N. rewrite pkeys_eq by exact N.
  assert (IK : In K (dkeys m)) by (apply in_map_iff; exists (K, ov); auto).
  assert (EN : norm_key U K = py_lower U K).
  { apply norm_name; [exact UO|]. destruct P as [F _]. rewrite Forall_forall in F. now apply F. }
  assert (G : dget (py_lower U K) (map (fun k => (norm_key U k, index_key k (dkeys m))) (dkeys m)) = Some (index_key K (dkeys m))).
  { apply In_dget.
    - unfold dkeys at 1. rewrite map_map. cbn [fst]. exact N.
    - apply in_map_iff. exists K. rewrite EN. auto. }
  unfold dmem, target. rewrite G. split; [reflexivity|]. rewrite index_nth by exact IK. apply In_dget; [now apply proper_keys|exact I].
Qed.
Lemma pk_inv m ck : proper_map U m -> dmem ck (pkeys U (dkeys m)) = true -> exists K ov, In (K, ov) m /\ ck = py_lower U K.
Proof.
  intros P. pose proof (proper_nodup m P) as N. rewrite pkeys_eq by exact N. unfold dmem. destruct (dget ck _) as [i|] eqn:E; [|discriminate]. intros _.
  apply dget_In, in_map_iff in E as (K & E & I). injection E as <- _. unfold dkeys in I. apply in_map_iff in I as ([K' ov] & <- & I). exists K', ov. split; [exact I|].
  cbn [fst]. apply norm_name; [exact UO|]. destruct P as [F _]. rewrite Forall_forall in F. apply F. apply in_map_iff. exists (K', ov). auto.
Qed.
Lemma unfound_eq m cs : proper_map U m -> unfound m (dkeys m) cs (pkeys U (dkeys m)) =
  flat_map (fun p => if dmem (py_lower U (fst p)) cs then [] else match snd p with Some v => [(fst p, v)] | None => [] end) m.
Proof.
  intros P. pose proof (proper_nodup m P) as N. unfold unfound. rewrite pkeys_eq by exact N.
  assert (H : forall ks, incl ks m -> flat_map (fun p : text * nat => if dmem (fst p) cs then [] else match dget (nth (snd p) (dkeys m) []) m with Some (Some v) => [(nth (snd p) (dkeys m) [], v)] | _ => [] end)
     (map (fun k => (norm_key U k, index_key k (dkeys m))) (dkeys ks)) =
     flat_map (fun p => if dmem (py_lower U (fst p)) cs then [] else match snd p with Some v => [(fst p, v)] | None => [] end) ks).
  { induction ks as [|[K ov] ks IH]; intros S; [reflexivity|]. cbn [dkeys map fst snd flat_map]. fold (dkeys ks).
    assert (I : In (K, ov) m) by (apply S; left; reflexivity). assert (IK : In K (dkeys m)) by (apply in_map_iff; exists (K, ov); auto).
    rewrite index_nth by exact IK. rewrite (In_dget K ov m) by (auto using proper_keys).
    rewrite norm_name; [|exact UO|destruct P as [F _]; rewrite Forall_forall in F; now apply F].
    rewrite IH by (intros z Hz; apply S; right; exact Hz). destruct (dmem (py_lower U K) cs); [reflexivity|]. destruct ov; reflexivity. }
  apply H. apply incl_refl.
Qed.

(** ** the whole of alter_config *)
Definition found (K : text) (fo : list text) : list cand := cands U (py_lower U K) O fo.
Definition news (m : list (text * option text)) (fo : list text) : list (text * text) :=
  flat_map (fun p => match found (fst p) fo, snd p with [], Some v => [(fst p, v)] | _, _ => [] end) m.
Lemma alter_config_spec' m fo lines' : proper_map U m -> alter_config U m fo = Ok lines' ->
  exists l1 l0 ex xs, lines' = l0 ++ ex /\ length l0 = length fo /\ kept_last fo l1 /\
    kept_all (map (fun e => new_line (fst e) (snd e)) (news m fo)) ex /\
    (forall j, (j < length fo)%nat -> (forall K ov cl, In (K, ov) m -> In cl (found K fo) -> idx cl <> j) -> line_at j l0 = line_at j l1) /\
    (forall K ov cl, In (K, ov) m -> In cl (found K fo) -> good U l1 cl (xs (idx cl)) /\ key (xs (idx cl)) = cut (snd (fst cl)) (line_at (idx cl) fo)) /\
    (forall K ov, In (K, ov) m -> found K fo <> [] -> group_done xs l0 (found K fo) ov) /\
    append_unfound m (dkeys m) (pkeys U (dkeys m)) (find_candidates U (pkeys U (dkeys m)) O fo []) fo = Ok (l1 ++ ex).
Proof.
  intros P H. unfold alter_config in H. set (pk := pkeys U (dkeys m)) in *. set (cs := find_candidates U pk O fo []) in *.
  apply bind_Ok in H as (lines1 & A & H). pose proof A as APP. apply append_unfound_spec in A as (l1 & ex & -> & K1 & KE).
  pose proof (kept_length _ _ (proj1 K1)) as L1.
  destruct (finite_choice (fun j x => forall sk sv, parse_line U (line_at j fo) = Some (sk, sv) ->
     shape U x /\ line_at j l1 = line_of x /\ sk = key_ext x /\ sv = val_ext x /\ key x = cut sk (line_at j fo)) some_parts (length fo)) as [xs XS].
  { intros j Hj. destruct (parse_line U (line_at j fo)) as [[sk sv]|] eqn:PL; [|exists some_parts; discriminate].
    assert (KJ : line_kept (line_at j fo) (line_at j l1)).
    { destruct K1 as [K1 _]. clear -K1 Hj. revert j Hj. induction K1; intros [|j] Hj; cbn [length] in Hj; try lia; [exact H|]. apply IHK1. lia. }
    destruct (parse_kept _ _ _ _ PL KJ) as (x & X). exists x. intros sk' sv' E. injection E as <- <-. exact X. }
  assert (GOOD : forall ck cl, In cl (cands U ck O fo) -> good U l1 cl (xs (idx cl)) /\ key (xs (idx cl)) = cut (snd (fst cl)) (line_at (idx cl) fo)).
  { intros ck cl I. apply in_cands in I as (j & EJ & LJ & PL & _). cbn in EJ. subst j. destruct (XS _ LJ _ _ PL) as (Q1 & Q2 & Q3 & Q4 & Q5).
    split; [|exact Q5]. split; [exact Q1|]. split; [lia|]. auto. }
  assert (GOOD' : forall ck cl, In cl (cands U ck O fo) -> good U (l1 ++ ex) cl (xs (idx cl))).
  { intros ck cl I. destruct (GOOD ck cl I) as [(Q1 & Q2 & Q3 & Q4) _]. split; [exact Q1|]. split; [rewrite app_length; lia|]. split; [|exact Q4].
    unfold line_at in *. rewrite app_nth1 by exact Q2. exact Q3. }
  destruct (alter_spec m (dkeys m) pk xs cs (l1 ++ ex) lines' H) as (A & B & C).
  - apply find_nodup.
  - intros ck cls I. apply find_in in I as (-> & NE & _). split; [exact NE|]. split; [apply cands_nodup|]. intros cl Hc. eapply GOOD'; eauto.
  - intros ck cls ck' cls' cl cl' I I' Hc Hc' E. apply find_in in I as (-> & _). apply find_in in I' as (-> & _).
    apply in_cands in Hc as (j & EJ & _ & PL & EC). apply in_cands in Hc' as (j' & EJ' & _ & PL' & EC'). cbn in EJ, EJ'. subst j j'. rewrite <- E in PL', EC'.
    rewrite PL in PL'. injection PL' as E1 E2. rewrite EC, EC', E1. reflexivity.
  - assert (IDX : forall ck cls i, In (ck, cls) cs -> In i (map idx cls) -> (i < length fo)%nat).
    { intros ck cls i I Hi. apply find_in in I as (-> & _). apply in_map_iff in Hi as (cl & <- & Hc). apply in_cands in Hc as (j & EJ & LJ & _). cbn in EJ. lia. }
    assert (LL : length lines' = (length fo + length ex)%nat) by (rewrite A, app_length; lia).
    assert (EX : skipn (length fo) lines' = ex).
    { apply list_nth_ext; [rewrite skipn_length; lia|]. intros i Hi. rewrite skipn_length in Hi. unfold line_at.
      assert (EN : nth i (skipn (length fo) lines') [] = line_at (length fo + i) lines').
      { unfold line_at. rewrite <- (firstn_skipn (length fo) lines') at 2. rewrite app_nth2; rewrite firstn_length; [f_equal; lia|lia]. }
      rewrite EN, B.
      - unfold line_at. rewrite app_nth2 by lia. f_equal. lia.
      - intros ck cls I C'. pose proof (IDX ck cls _ I C'). lia. }
    assert (FJ : forall j, (j < length fo)%nat -> line_at j (firstn (length fo) lines') = line_at j lines').
    { intros j Hj. unfold line_at. rewrite <- (firstn_skipn (length fo) lines') at 2. rewrite app_nth1; [reflexivity|]. rewrite firstn_length. lia. }
    exists l1, (firstn (length fo) lines'), ex, xs. split; [rewrite <- EX; symmetry; apply firstn_skipn|]. split; [rewrite firstn_length; lia|]. split; [exact K1|]. split; [|split; [|split; [|split; [|exact APP]]]].
    + replace (news m fo) with (unfound m (dkeys m) cs pk); [exact KE|]. unfold pk. rewrite unfound_eq by exact P. unfold news. apply flat_map_ext_in_loc. intros [K ov] I. cbn [fst snd].
      pose proof (find_mem U pk fo (py_lower U K) (proj1 (pk_get m K ov P I))) as FM. fold cs in FM. fold (found K fo) in FM.
      destruct (dmem (py_lower U K) cs), (found K fo); try reflexivity; exfalso.
      * apply (proj1 FM eq_refl eq_refl).
      * assert (false = true) by (apply FM; discriminate). discriminate.
    + intros j Hj Hn. rewrite FJ by exact Hj. rewrite B.
      * unfold line_at. apply app_nth1. lia.
      * intros ck cls I C'. apply find_in in I as (-> & _ & M). destruct (pk_inv m ck P M) as (K & ov & I & ->). apply in_map_iff in C' as (cl & E & Hc).
        exact (Hn K ov cl I Hc E).
    + intros K ov cl I Hc. eapply GOOD; eauto.
    + intros K ov I NE. destruct (pk_get m K ov P I) as [M T]. pose proof (proj2 (find_mem U pk fo (py_lower U K) M) NE) as DM. fold cs in DM.
      unfold dmem in DM. destruct (dget (py_lower U K) cs) as [cls|] eqn:E; [|discriminate]. apply dget_In in E. pose proof E as E'. apply find_in in E' as (-> & _).
      destruct (C _ _ E) as (ov' & T' & G'). fold pk in T. rewrite T in T'. injection T' as <-. eapply group_ext; [|exact G'].
      intros cl Hc. apply FJ. eapply (IDX _ _ _ E). now apply in_map.
Qed.
Lemma alter_config_spec m fo lines' : proper_map U m -> alter_config U m fo = Ok lines' ->
  exists l1 l0 ex xs, lines' = l0 ++ ex /\ length l0 = length fo /\ kept_last fo l1 /\
    kept_all (map (fun e => new_line (fst e) (snd e)) (news m fo)) ex /\
    (forall j, (j < length fo)%nat -> (forall K ov cl, In (K, ov) m -> In cl (found K fo) -> idx cl <> j) -> line_at j l0 = line_at j l1) /\
    (forall K ov cl, In (K, ov) m -> In cl (found K fo) -> good U l1 cl (xs (idx cl)) /\ key (xs (idx cl)) = cut (snd (fst cl)) (line_at (idx cl) fo)) /\
    (forall K ov, In (K, ov) m -> found K fo <> [] -> group_done xs l0 (found K fo) ov).
Proof. intros P H. destruct (alter_config_spec' m fo lines' P H) as (l1 & l0 & ex & xs & A & B & C & D & E & F & G & _). exists l1, l0, ex, xs. auto 10. Qed.
Lemma alter_config_total m fo : proper_map U m -> fo <> [] -> exists lines', alter_config U m fo = Ok lines'.
Proof.
  intros P NE. unfold alter_config. set (pk := pkeys U (dkeys m)). set (cs := find_candidates U pk O fo []).
  destruct (append_unfound_total m (dkeys m) cs pk) with (lines := fo) as [l1 E]; [|exact NE|].
  - intros k i I. unfold pk in I. rewrite pkeys_eq in I by now apply proper_nodup. apply in_map_iff in I as (K & EQ & IK). injection EQ as _ <-.
    rewrite index_nth by exact IK. intros C. now apply dget_None in C.
  - rewrite E. cbn [bind]. apply alter_total. intros ck cls I. apply find_in in I as (_ & _ & M). destruct (pk_inv m ck P M) as (K & ov & I & ->).
    destruct (pk_get m K ov P I) as [_ T]. fold pk in T. rewrite T. discriminate.
Qed.
End conf.
