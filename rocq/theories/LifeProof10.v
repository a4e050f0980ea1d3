(** LifeProof10.v: an executable check of [allowed], for the examples of C57 *)
From Coq Require Import Lia.
From Verif Require Import PyStr PyDict PyDictProof BaseProof LifeModel LifeSpec LifeProof.

Definition all_living (P : nat -> obj -> bool) (s : st) : bool := forallb (fun p => P (fst p) (snd p)) (heap s).
Lemma all_living_ok P s k o : all_living P s = true -> living s k o -> P k o = true.
Proof. intros H G. apply hget_in in G. unfold all_living in H. rewrite forallb_forall in H. exact (H _ G). Qed.
Definition userb (n : text) : bool := negb (seqb n []) && negb (seqb (firstn 3 n) (str "py:")).
Lemma userb_ok n : userb n = true -> user_name n.
Proof.
  unfold userb. intros H. apply andb_true_iff in H as [H1 H2]. apply negb_true_iff in H1, H2. split.
  - intros ->. discriminate.
  - intros r ->. rewrite firstn_app in H2. change (firstn 3 (str "py:")) with (str "py:") in H2. change (firstn (3 - length (str "py:")) r) with (@nil Z) in H2. rewrite app_nil_r, seqb_refl in H2. discriminate.
Qed.
Definition clnone (o : obj) : bool := match ob_closed o with None => true | _ => false end.
Definition asksb (o : obj) (act : action) : bool :=
  match ob_class o, act with
  | CStatement, APrepare => clnone o
  | CStatement, (ACall _ | AFirst) => negb (clnone o)
  | CFetchAll, AFetchAll => true
  | CInside, AOpen | CDeclared, ADeclare _ => match ob_closed o with Some false => true | _ => false end
  | CInside, AExecute | CDeclared, AFetch => true
  | CFromId, AFetch => true
  | _, _ => false
  end.
Lemma asksb_ok o act : asksb o act = true -> asks o act.
Proof. unfold asksb, asks, clnone. destruct (ob_class o), act; try discriminate; auto; destruct (ob_closed o) as [[|]|]; try discriminate; auto. Qed.
Definition allowedb (s : st) (e : ev) : bool :=
  match e with
  | ECreate c a name q of =>
      (0 <=? a) && all_living (fun _ o => negb (ob_addr o =? a)) s &&
      match c with
      | CStatement => match of with None => true | _ => false end &&
          ((seqb name [] && match q with Some _ => true | None => false end) || (userb name && all_living (fun _ o => negb (is_stmt (ob_class o) && seqb (ob_name o) name)) s))
      | CFromId => match of, q with None, None => userb name | _, _ => false end
      | _ => seqb name [] && match q, of with
             | None, Some j => match hget j (heap s) with Some o => is_stmt (ob_class o) && negb (clnone o) && match ob_query o with Some _ => true | None => false end | None => false end
             | _, _ => false end
      end
  | EPush act k => match hget k (heap s) with Some o => asksb o act | None => false end
  | EClose k => match hget k (heap s) with Some o => negb (clnone o) | None => false end
  | EDrop k => match hget k (heap s) with Some _ => true | None => false end &&
      match running (at_ s) with Some x => match in_owner x with Some j => negb (Nat.eqb j k) | None => true end | None => true end &&
      all_living (fun _ o => match ob_of o with Some j => negb (Nat.eqb j k) | None => true end) s
  | _ => true
  end.
Lemma is_stmt_ok c : is_stmt c = true -> c = CStatement. Proof. destruct c; try discriminate; reflexivity. Qed.
Lemma allowedb_ok s e : allowedb s e = true -> allowed s e.
Proof.
  destruct e as [c a name q of|act k|k|k| | |ok|p|]; cbn [allowedb allowed]; auto; intros H.
  - apply andb_true_iff in H as [H H3]. apply andb_true_iff in H as [H1 H2]. split; [lia|]. split.
    { intros k o G E. pose proof (all_living_ok _ _ _ _ H2 G) as B. cbv beta in B. rewrite E, Z.eqb_refl in B. discriminate. }
    assert (CUR : seqb name [] && match q, of with None, Some j => match hget j (heap s) with Some o => is_stmt (ob_class o) && negb (clnone o) && match ob_query o with Some _ => true | None => false end | None => false end | _, _ => false end = true ->
      name = [] /\ q = None /\ exists j o, of = Some j /\ living s j o /\ ob_class o = CStatement /\ ob_closed o <> None /\ (c = CDeclared -> ob_query o <> None)).
    { intros B. apply andb_true_iff in B as [B1 B2]. apply seqb_eq in B1. split; [exact B1|]. destruct q; [discriminate|]. split; [reflexivity|]. destruct of as [j|]; [|discriminate]. destruct (hget j (heap s)) as [o|] eqn:G; [|discriminate].
      apply andb_true_iff in B2 as [B2 B5]. apply andb_true_iff in B2 as [B3 B4]. exists j, o. split; [reflexivity|]. split; [exact G|]. split; [now apply is_stmt_ok|]. split; [unfold clnone in B4; intros C; rewrite C in B4; discriminate|]. intros _ C. rewrite C in B5. discriminate. }
    destruct c; try (exact (CUR H3)).
    + apply andb_true_iff in H3 as [H3 H4]. split; [destruct of; [discriminate|reflexivity]|]. apply orb_true_iff in H4 as [H4|H4]; apply andb_true_iff in H4 as [H4 H5]; [left|right].
      * apply seqb_eq in H4. split; [exact H4|]. destruct q; [discriminate|discriminate].
      * split; [now apply userb_ok|]. intros k o G C N. pose proof (all_living_ok _ _ _ _ H5 G) as B. cbv beta in B. rewrite C, N, seqb_refl in B. discriminate.
    + destruct of; [discriminate|]. destruct q; [discriminate|]. split; [reflexivity|]. split; [reflexivity|now apply userb_ok].
  - destruct (hget k (heap s)) as [o|] eqn:G; [|discriminate]. exists o. split; [exact G|now apply asksb_ok].
  - destruct (hget k (heap s)) as [o|] eqn:G; [|discriminate]. exists o. split; [exact G|]. unfold clnone in H. intros C. rewrite C in H. discriminate.
  - apply andb_true_iff in H as [H H3]. apply andb_true_iff in H as [H1 H2]. split; [|split].
    + destruct (hget k (heap s)) as [o|] eqn:G; [|discriminate]. exists o. exact G.
    + intros x R C. rewrite R, C, Nat.eqb_refl in H2. discriminate.
    + intros j o G C. pose proof (all_living_ok _ _ _ _ H3 G) as B. cbv beta in B. rewrite C, Nat.eqb_refl in B. discriminate.
Qed.
Fixpoint runs (es : list ev) (s : st) : option st :=
  match es with [] => Some s | e :: r => if allowedb s e then match step e s with Some s1 => runs r s1 | None => None end else None end.
Lemma runs_history es : forall h s s', history h s -> runs es s = Some s' -> history (h ++ es) s'.
Proof.
  induction es as [|e es IH]; intros h s s' H E; cbn [runs] in E; [injection E as <-; now rewrite app_nil_r|].
  destruct (allowedb s e) eqn:A; [|discriminate]. destruct (step e s) as [s1|] eqn:ST; [|discriminate]. change (e :: es) with ([e] ++ es). rewrite app_assoc. apply (IH _ s1); [|exact E]. apply (H_step h s e s1 H); [now apply allowedb_ok|exact ST].
Qed.
(** without the conditions of [allowed] *)
Fixpoint free_runs (es : list ev) (s : st) : option st := match es with [] => Some s | e :: r => match step e s with Some s1 => free_runs r s1 | None => None end end.
