(** C92: the description and the row count of a DB-API cursor (/repo/postgresql/driver/dbapi20.py). *)
From Verif Require Import Base BaseProof PyStr DbapiModel DescModel DescSpec.

Theorem C92_type : forall n k, dbapi_type n = k <-> code_of n k.
Proof.
  assert (F : forall n, code_of n (dbapi_type n)).
  { intros n. unfold dbapi_type. cbn [existsb].
    repeat match goal with |- context [n =? ?x] => destruct (Z.eqb_spec n x) as [->|]; [cbn; constructor|] end. cbn. apply k_other. cbn [In]. intuition congruence. }
  intros n k. split; [intros <-; apply F|]. intros C. specialize (F n). inversion C; subst; inversion F; subst; try reflexivity; try congruence; cbn [In] in *; tauto.
Qed.
Print Assumptions C92_type.

Section props.
Context {A : Type} (decode : list Z -> res text).
Notation dstep := (@dstep A decode).
Notation druns := (@druns A decode).
Lemma druns_app a b c : druns c (a ++ b) = druns (druns c a) b.
Proof. revert c. induction a as [|o a IH]; intros c; [reflexivity|]. cbn [app DescModel.druns]. apply IH. Qed.
Lemma columns_ok (output : list (list Z * Z)) names : mapM (fun x => decode (fst x)) output = Ok names -> columns decode output (combine names (map (fun x => dbapi_type (snd x)) output)).
Proof.
  revert names. induction output as [|o r IH]; intros names E; cbn [mapM] in E; [injection E as <-; constructor|]. destruct (decode (fst o)) as [t|] eqn:D; [|discriminate]. cbn [bind] in E. destruct (mapM _ r) as [l|]; [|discriminate]. injection E as <-.
  cbn [map combine]. constructor; [split; [exact D|apply C92_type; reflexivity]|apply IH; reflexivity].
Qed.
Lemma columns_err (output : list (list Z * Z)) e : mapM (fun x => decode (fst x)) output = Err e -> exists o, In o output /\ forall t, decode (fst o) <> Ok t.
Proof.
  induction output as [|o r IH]; intros E; cbn [mapM] in E; [discriminate|]. destruct (decode (fst o)) as [t|] eqn:D; [|exists o; split; [left; reflexivity|intros t; congruence]]. cbn [bind] in E. destruct (mapM _ r) as [l|]; [discriminate|].
  destruct (IH E) as (x & X & Y). exists x. split; [right; exact X|exact Y].
Qed.
Lemma open_step (c : dcursor A) o : o <> DOp Close -> is_closed c = false -> is_closed (fst (dstep c o)) = false.
Proof.
  intros N C. assert (G : forall p : cop A, p <> Close -> is_closed {| d_cur := fst (cstep (d_cur c) p); d_rowcount := 0; d_descr := DNone |} = false).
  { intros p P. unfold is_closed in *. cbn [d_cur]. destruct (d_cur c) as [[ps|] z]; [|discriminate C]. cbn in *. destruct p; try congruence; cbn; try reflexivity; unfold with_portal; cbn;
      destruct ps as [|q ps]; try reflexivity; cbn; try (destruct (portal_next q); reflexivity); try (destruct (portal_read _ q); reflexivity); destruct (portal_readall q); reflexivity. }
  destruct o as [output rows n|e|[e|]|rows|e| |p]; cbn [DescModel.dstep]; rewrite ?C; try exact C.
  - destruct output as [|x r]; [specialize (G ExecuteNone); destruct (cstep (d_cur c) ExecuteNone); apply G; discriminate|]. destruct (mapM _ (x :: r)); [|exact C].
    specialize (G (Execute rows)). destruct (cstep (d_cur c) (Execute rows)). apply G. discriminate.
  - specialize (G (Execute rows)). destruct (cstep (d_cur c) (Execute rows)). apply G. discriminate.
  - specialize (G p). destruct (cstep (d_cur c) p). apply G. congruence.
Qed.

(** After any operations, up to the first close(), the cursor's description and row count are those of the last statement that was executed;
    executemany() resets the row count only, callproc(), fetching and nextset() change neither *)
Theorem C92_describes : forall h before, h = before \/ h = before ++ [DOp Close] -> open_history before ->
  let c := druns dcursor_init h in described decode (rev h) (d_descr c) (d_rowcount c).
Proof.
  intros h before H O. assert (G : forall l, open_history l -> described decode (rev l) (d_descr (druns dcursor_init l)) (d_rowcount (druns dcursor_init l)) /\ is_closed (druns dcursor_init l) = false).
  { clear. intros l. induction l as [|o l IH] using rev_ind; intros O; [split; [constructor|reflexivity]|].
    assert (N : o <> DOp Close) by (intros ->; apply O, in_or_app; right; left; reflexivity). assert (O' : open_history l) by (intros I; apply O, in_or_app; left; exact I).
    destruct (IH O') as (D & C). rewrite rev_app_distr, druns_app. cbn [rev app DescModel.druns]. set (c := druns dcursor_init l) in *. clearbody c. split; [|apply open_step; assumption].
    destruct o as [output rows n|e|[e|]|rows|e| |p]; cbn [DescModel.dstep]; rewrite ?C; try (apply d_same; [exact D|exact Logic.I]).
    - destruct output as [|x r].
      + destruct (cstep (d_cur c) ExecuteNone). cbn [fst d_descr d_rowcount]. eapply d_count. exact D.
      + destruct (mapM (fun x => decode (fst x)) (x :: r)) as [names|e] eqn:E.
        * destruct (cstep (d_cur c) (Execute rows)). cbn [fst d_descr d_rowcount]. eapply d_rows; [exact D|discriminate|apply columns_ok; exact E].
        * cbn [fst d_descr d_rowcount]. destruct (columns_err _ _ E) as (y & Y1 & Y2). eapply d_undecodable; eassumption.
    - cbn [fst d_descr d_rowcount]. eapply d_many. exact D.
    - destruct (cstep (d_cur c) (Execute rows)). apply d_same; [exact D|exact Logic.I].
    - destruct (cstep (d_cur c) p). cbn [fst d_descr d_rowcount]. replace (match p with Close => DNone | _ => d_descr c end) with (d_descr c) by (destruct p; congruence || reflexivity). apply d_same; [exact D|destruct p; try exact Logic.I; congruence]. }
  destruct (G before O) as (D & C). destruct H as [-> | ->]; [exact D|]. rewrite rev_app_distr, druns_app. cbn [rev app DescModel.druns]. set (c := druns dcursor_init before) in *. clearbody c.
  cbn [DescModel.dstep]. rewrite C. destruct (cstep (d_cur c) Close) as [cur r]. cbn [fst d_descr d_rowcount]. eapply d_close. exact D.
Qed.

(** after an execution that gave columns, the description is of these columns, and the rows that are fetched next are its rows *)
Theorem C92_rows : forall c output rows n c', dstep c (DExec output rows n) = (c', RDone) -> output <> [] ->
  exists l, d_descr c' = DCols l /\ columns decode output l /\ match c_portals (d_cur c') with Some (p :: _) => p = portal_init rows | _ => False end.
Proof.
  intros c output rows n c' E N. cbn [DescModel.dstep] in E. destruct (is_closed c) eqn:C; [unfold closed_error in E; congruence|]. destruct output as [|x o]; [congruence|].
  destruct (mapM (fun x => decode (fst x)) (x :: o)) as [names|e] eqn:M; [|congruence]. unfold is_closed in C. destruct (d_cur c) as [[ps|] z] eqn:D; [|discriminate C]. cbn [cstep c_portals] in E.
  match type of E with (?a, _) = _ => assert (c' = a) by congruence end. subst c'. cbn [d_descr d_cur c_portals]. eexists. split; [reflexivity|]. split; [apply columns_ok; exact M|reflexivity].
Qed.
(** A closed cursor refuses everything but a change of arraysize, and nothing of it changes *)
Theorem C92_closed : forall h (before : list (dop A)) o, h = before ++ [DOp Close] -> open_history before -> (forall n, o <> DOp (SetArraysize n)) ->
  dstep (druns dcursor_init h) o = (druns dcursor_init h, RExn (OtherError 1)).
Proof.
  intros h before o -> O N. rewrite druns_app. cbn [DescModel.druns]. set (c := druns dcursor_init before).
  assert (K : c_portals (d_cur (fst (dstep c (DOp Close)))) = None).
  { cbn [DescModel.dstep cstep]. destruct (c_portals (d_cur c)) eqn:P; cbn [fst d_cur c_portals]; [reflexivity|exact P]. }
  set (x := fst (dstep c (DOp Close))) in *. clearbody x. clear c. assert (C : is_closed x = true) by (unfold is_closed; rewrite K; reflexivity).
  destruct x as [[ps z] k d]. cbn [d_cur c_portals] in K. subst ps.
  destruct o as [output rows n|e|r|rows|e| |p]; cbn [DescModel.dstep]; try (rewrite C; reflexivity); [reflexivity|]. destruct p; try reflexivity. exfalso. eapply N. reflexivity.
Qed.
End props.
Print Assumptions C92_describes.
Print Assumptions C92_rows.
Print Assumptions C92_closed.

(** refuted: after callproc() the description is still that of the statement before, whatever the function's result is *)
Theorem C92_callproc_refuted : forall (A : Type) decode (c : dcursor A) rows, d_descr (fst (dstep decode c (DCall rows))) = d_descr c.
Proof. intros A decode c rows. cbn [dstep]. destruct (cstep (d_cur c) (Execute rows)). reflexivity. Qed.
Print Assumptions C92_callproc_refuted.
(** refuted: nextset() goes back to the rows of the statement before, described as the newer one *)
Theorem C92_nextset_refuted : exists h : list (dop Z), let c := druns (fun b => Ok b) dcursor_init h in
  d_descr c = DCols [(str "b", TStr)] /\ snd (dstep (fun b => Ok b) c (DOp FetchAll)) = RRows [1; 2] /\
  In (DExec [(str "a", 23)] [Ok [1; 2]] (Some 2)) h /\ In (DExec [(str "b", 25)] [Ok [7]] (Some 1)) h.
Proof.
  exists [DExec [(str "a", 23)] [Ok [1; 2]] (Some 2); DExec [(str "b", 25)] [Ok [7]] (Some 1); DOp NextSet]. cbn zeta. repeat split; try reflexivity; cbn; tauto.
Qed.
Print Assumptions C92_nextset_refuted.
(** refuted: character(n), floating point, numeric, date and time columns have no type code *)
Theorem C92_type_refuted : forall n, In n [1042; 700; 701; 1700; 1082; 1083] -> code_of n TNone.
Proof. intros n I. apply k_other. cbn [In] in *. lia. Qed.
Print Assumptions C92_type_refuted.

(** examples *)
Example C92_ex : let c := druns (fun b => Ok b) (@dcursor_init Z) [DExec [(str "a", 23); (str "t", 1114)] [Ok [1]] (Some 1); DCall []; DMany None; DOp FetchOne] in
  d_descr c = DCols [(str "a", TInt); (str "t", TDatetime)] /\ d_rowcount c = -1 /\
  let c := fst (dstep (fun b => Ok b) c (DExec [] [] (Some 5))) in d_descr c = DNone /\ d_rowcount c = 5 /\
  snd (dstep (fun b => Ok b) (fst (dstep (fun b => Ok b) c (DOp Close))) DSizes) = RExn (OtherError 1).
Proof. vm_compute. repeat split. Qed.
