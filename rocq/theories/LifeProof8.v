(** LifeProof8.v: the invariant through the creation of an object, and in every history *)
From Coq Require Import Lia.
From Verif Require Import PyStr PyDict PyDictProof BaseProof LifeModel LifeSpec LifeProof LifeProof2 LifeProof3 LifeProof4 LifeProof5 LifeProof6 LifeProof7.

Lemma qof_app L e : (forall k c q j, nth_error L k = Some (c, q, Some j) -> (j < length L)%nat) -> forall k, (k < length L)%nat -> qof (L ++ [e]) k = qof L k.
Proof.
  intros HL k H. unfold qof. rewrite nth_error_app1 by exact H. destruct (nth_error L k) as [[[c q] [j|]]|] eqn:E; [|reflexivity|reflexivity].
  rewrite nth_error_app1; [reflexivity|]. exact (HL k c q j E).
Qed.
Section created.
Context (L : table) (h : list (nat * obj)) (rs rc rs' rc' : list (text * nat)) (o : obj).
Notation k := (length L).
Notation L' := (L ++ [(ob_class o, ob_query o, ob_of o)]).
Notation h' := (h ++ [(k, o)]).
Hypothesis HI : HInv L h rs rc.
Hypothesis POS : 0 <= ob_addr o.
Hypothesis ADDR : forall j p, hget j h = Some p -> ob_addr p <> ob_addr o.
Hypothesis FORM : match ob_class o with
    | CStatement => ob_name o = ID (ob_addr o) \/ user_name (ob_name o) | CFetchAll => ob_name o = []
    | CInside | CDeclared => ob_name o = ID (ob_addr o) | CFromId => user_name (ob_name o) end.
Hypothesis NAME : ob_class o = CStatement -> forall j p, hget j h = Some p -> ob_class p = CStatement -> ob_name p <> ob_name o.
Hypothesis OF : match ob_class o with
    | CStatement | CFromId => ob_of o = None
    | _ => exists j t, ob_of o = Some j /\ hget j h = Some t /\ ob_class t = CStatement /\ ob_closed t <> None /\ (ob_class o = CDeclared -> ob_query t <> None) end.
Hypothesis CLO : ob_closed o = if is_stmt (ob_class o) then None else Some false.
Hypothesis BEG : ob_begun o = false.
Hypothesis RS : forall n, dget n rs' = if is_stmt (ob_class o) && seqb (ob_name o) (ID (ob_addr o)) && seqb n (ob_name o) then Some k else dget n rs.
Hypothesis RC : forall n, dget n rc' = if negb (is_stmt (ob_class o)) && seqb (ob_name o) (ID (ob_addr o)) && seqb n (ob_name o) then Some k else dget n rc.
Lemma old_lt j p : hget j h = Some p -> (j < k)%nat.
Proof. intros G. pose proof (h_made _ _ _ _ HI j p G) as E. apply nth_error_Some. congruence. Qed.
Lemma fresh_none : hget k h = None.
Proof. destruct (hget k h) as [p|] eqn:G; [|reflexivity]. apply old_lt in G. lia. Qed.
Lemma new_back j p : hget j h' = Some p -> (j = k /\ p = o) \/ (hget j h = Some p /\ (j < k)%nat).
Proof.
  intros G. rewrite hget_app in G. destruct (hget j h) as [p'|] eqn:E.
  - injection G as <-. right. split; [reflexivity|now apply (old_lt j p')].
  - cbn [hget] in G. destruct (Nat.eqb_spec j k) as [->|]; [|discriminate]. injection G as <-. now left.
Qed.
Lemma new_old j p : hget j h = Some p -> hget j h' = Some p.
Proof. intros G. now rewrite hget_app, G. Qed.
Lemma new_new : hget k h' = Some o.
Proof. rewrite hget_app, fresh_none. cbn [hget]. now rewrite Nat.eqb_refl. Qed.
Lemma rs_old n j : dget n rs = Some j -> dget n rs' = Some j.
Proof.
  intros E. rewrite RS. destruct (is_stmt (ob_class o)); [|exact E]. destruct (seqb_spec (ob_name o) (ID (ob_addr o))) as [NM|]; [|exact E]. destruct (seqb_spec n (ob_name o)) as [->|]; [|exact E].
  exfalso. destruct (h_regs _ _ _ _ HI _ _ E) as (p & G & _ & _ & NP). apply (ADDR j p G). symmetry. apply ID_inj; [exact POS|exact (h_pos _ _ _ _ HI j p G)|congruence].
Qed.
Lemma rc_old n j : dget n rc = Some j -> dget n rc' = Some j.
Proof.
  intros E. rewrite RC. destruct (is_stmt (ob_class o)); [exact E|]. destruct (seqb_spec (ob_name o) (ID (ob_addr o))) as [NM|]; [|exact E]. destruct (seqb_spec n (ob_name o)) as [->|]; [|exact E].
  exfalso. destruct (h_regc _ _ _ _ HI _ _ E) as (p & G & C & NP). apply (ADDR j p G). symmetry. apply ID_inj; [exact POS|exact (h_pos _ _ _ _ HI j p G)|]. rewrite <- NM, <- NP. exact (cur_name_ne _ _ _ _ HI j p G C).
Qed.
Lemma len_new : length L' = S k.
Proof. rewrite app_length. cbn [length]. lia. Qed.
Lemma HInv_created : HInv L' h' rs' rc'.
Proof.
  pose proof new_back as B. destruct HI as [H1 H2 H3 H4 H5 H6 H7 H8 H9 H10 H11 H12 H13]. constructor.
  - intros i c q j E. rewrite len_new. destruct (Nat.lt_ge_cases i k) as [T|T].
    + rewrite nth_error_app1 in E by exact T. specialize (H1 i c q j E). lia.
    + rewrite nth_error_app2 in E by exact T. destruct (i - k)%nat as [|m]; [|destruct m; discriminate]. cbn [nth_error] in E. injection E as EC EQ EO.
      rewrite EO in OF. destruct (ob_class o); try discriminate; destruct OF as (j' & t & E1 & G & _); injection E1 as <-; apply old_lt in G; lia.
  - intros j p G. apply B in G as [[-> ->]|[G T]]; [rewrite nth_error_app2 by lia; now rewrite Nat.sub_diag|]. rewrite nth_error_app1 by exact T. now apply H2.
  - intros j p G. apply B in G as [[-> ->]|[G T]]; [exact POS|now apply (H3 j)].
  - intros k1 o1 k2 o2 G1 G2 E. apply B in G1 as [[-> ->]|[G1 T1]]; apply B in G2 as [[-> ->]|[G2 T2]]; [reflexivity| | |now apply (H4 k1 o1 k2 o2)]; exfalso; [exact (ADDR _ _ G2 (eq_sym E))|exact (ADDR _ _ G1 E)].
  - intros j p G. apply B in G as [[-> ->]|[G T]]; [exact FORM|now apply (H5 j)].
  - intros k1 o1 k2 o2 G1 G2 C1 C2 E. apply B in G1 as [[-> ->]|[G1 T1]]; apply B in G2 as [[-> ->]|[G2 T2]]; [reflexivity| | |now apply (H6 k1 o1 k2 o2)]; exfalso; [exact (NAME C1 _ _ G2 C2 (eq_sym E))|exact (NAME C2 _ _ G1 C1 E)].
  - assert (TT : forall (c : class), (exists j t, ob_of o = Some j /\ hget j h = Some t /\ ob_class t = CStatement /\ ob_closed t <> None /\ (c = CDeclared -> ob_query t <> None)) ->
       exists j t, ob_of o = Some j /\ hget j h' = Some t /\ ob_class t = CStatement /\ ob_begun t = true /\ ob_closed t <> None /\ (c = CDeclared -> ob_query t <> None)).
    { intros c (i & t & E & GT & CT & CL & Q). exists i, t. split; [exact E|]. split; [now apply new_old|]. split; [exact CT|]. split; [now apply (H8 i t)|]. auto. }
    intros j p G. apply B in G as [[-> ->]|[G T]].
    + destruct (ob_class o); auto.
    + specialize (H7 j p G). destruct (ob_class p); auto; destruct H7 as (i & t & E & GT & R); exists i, t; (split; [exact E|]); (split; [now apply new_old|exact R]).
  - intros j p G C N. apply B in G as [[-> ->]|[G T]]; [|now apply (H8 j)]. rewrite CLO, C in N. contradiction.
  - intros j p G C. apply B in G as [[-> ->]|[G T]]; [|now apply (H9 j)]. rewrite CLO. destruct (ob_class o); [contradiction|discriminate..].
  - intros n j E. rewrite RS in E. destruct (is_stmt (ob_class o) && seqb (ob_name o) (ID (ob_addr o)) && seqb n (ob_name o)) eqn:Q.
    + injection E as <-. apply andb_true_iff in Q as [Q Q3]. apply andb_true_iff in Q as [Q1 Q2]. apply seqb_eq in Q2, Q3. exists o. split; [exact new_new|]. split; [destruct (ob_class o); try discriminate; reflexivity|]. split; congruence.
    + destruct (H10 n j E) as (p & G & R). exists p. split; [now apply new_old|exact R].
  - intros j p G C N. apply B in G as [[-> ->]|[G T]].
    + left. rewrite RS, C, N, !seqb_refl. reflexivity.
    + destruct (H11 j p G C N) as [E|E]; [left; now apply rs_old|now right].
  - intros n j E. rewrite RC in E. destruct (negb (is_stmt (ob_class o)) && seqb (ob_name o) (ID (ob_addr o)) && seqb n (ob_name o)) eqn:Q.
    + injection E as <-. apply andb_true_iff in Q as [Q Q3]. apply andb_true_iff in Q as [Q1 Q2]. apply seqb_eq in Q2, Q3. exists o. split; [exact new_new|]. split; [|congruence].
      destruct (ob_class o); [discriminate| |now left|now right|]; exfalso; [rewrite Q2 in FORM; exact (ID_ne _ FORM)|exact (ID_not_user _ _ FORM Q2)].
    + destruct (H12 n j E) as (p & G & R). exists p. split; [now apply new_old|exact R].
  - intros j p G C. apply B in G as [[-> ->]|[G T]].
    + left. assert (N : ob_name o = ID (ob_addr o)) by (destruct C as [C|C]; rewrite C in FORM; exact FORM). rewrite RC, N, !seqb_refl. destruct C as [C|C]; now rewrite C.
    + destruct (H13 j p G C) as [E|E]; [left; now apply rc_old|now right].
Qed.
Context (PS PC : text -> Prop) (x : option instr) (v : server).
Lemma VInv_created : VInv L h rs rc PS PC x v -> VInv L' h' rs' rc' PS PC x v.
Proof.
  intros [V1 V2 V3 V4 V5 V6 V7 V8 V9 V10 V11 V12 V13 V14 V15]. pose proof new_back as B.
  assert (OWN : forall j, (j < k)%nat -> ownq L' j = ownq L j) by (intros j T; unfold ownq; now rewrite (qof_app L _ (h_L _ _ _ _ HI) j T)).
  assert (LINK : forall oo f, (exists j t, ob_of oo = Some j /\ hget j h = Some t /\ ob_name t = f) -> exists j t, ob_of oo = Some j /\ hget j h' = Some t /\ ob_name t = f).
  { intros oo f (j & t & E1 & E2 & E3). exists j, t. split; [exact E1|]. split; [now apply new_old|exact E3]. }
  constructor; auto.
  - intros i k0 E O P. destruct (V3 i k0 E O P) as (n & q & [X1 X2 X3 X4 X5 X6]). exists n, q. constructor; auto.
    + rewrite len_new. lia.
    + intros p G. apply B in G as [[-> ->]|[G T]]; [lia|now apply X2].
    + intros k' p G C N. apply B in G as [[-> ->]|[G T]]; [right; exact BEG|now apply (X4 k' p G)].
    + intros M. destruct (X5 M) as [E0|E0]; [left; now apply rs_old|now right].
  - intros i k0 E O P. destruct (V4 i k0 E O P) as (n & cn & cr & [X1 X2 X3 X4 X5]). exists n, cn, cr. constructor; auto.
    + rewrite len_new. lia.
    + intros p G. apply B in G as [[-> ->]|[G T]]; [lia|]. destruct (X2 p G) as [B1 B2]. split; [exact B1|]. intros C. destruct (B2 C) as [B3 B4]. split; [exact B3|]. now apply LINK.
    + rewrite (OWN k0 X1). exact X3.
    + intros N k' p G C E'. apply B in G as [[-> ->]|[G T]]; [right; exact BEG|]. now apply (X4 N k' p G).
    + intros R N M. destruct (X5 R N M) as [(p & E0 & G0)|E0]; [|right; auto]. left. exists p. split; [now apply rc_old|now apply new_old].
  - intros n j p P G C N. apply B in G as [[-> ->]|[G T]]; [right; exact BEG|now apply (V7 n j p)].
  - intros n j p P G C N. apply B in G as [[-> ->]|[G T]]; [right; exact BEG|now apply (V8 n j p)].
  - intros j p q G C BG Q. apply B in G as [[-> ->]|[G T]]; [congruence|now apply (V9 j p q G)].
  - intros j p q G C CL Q. apply B in G as [[-> ->]|[G T]]; [|now apply (V10 j p q)]. rewrite CLO, C in CL. discriminate.
  - intros j p po G C BG E. apply B in G as [[-> ->]|[G T]]; [congruence|]. rewrite (OWN j T). destruct (V11 j p po G C BG E) as [OW FR]. split; [exact OW|]. destruct FR as [FR|FR]; [now left|right]. now apply LINK.
  - intros n q E M. destruct (V12 n q E M) as [(j & E0)|P]; [|right; auto]. left. exists j. now apply rs_old.
  - intros n po E M. destruct (V13 n po E M) as [(j & p & E0 & G0 & B0)|P]; [|right; auto]. left. exists j, p. split; [now apply rc_old|]. split; [now apply new_old|exact B0].
  - intros ok t I. destruct (V14 ok t I) as (j & E & T & OW). exists j. split; [exact E|]. split; [rewrite len_new; lia|]. now rewrite (OWN j T).
Qed.
End created.
Lemma Inv_create L s c a name q of : Inv L s -> at_ s = Idle -> allowed s (ECreate c a name q of) -> Inv (L ++ [(c, q, of)]) (create c a name q of s).
Proof.
  intros [IF IH IV IR IA] A (POS & ADDR & AL). unfold at_ok in IA. rewrite A in IA.
  set (n := match c with CFetchAll => [] | _ => if seqb name [] then ID a else name end).
  set (o := {| ob_class := c; ob_addr := a; ob_name := n; ob_query := q; ob_of := of; ob_closed := if is_stmt c then None else Some false; ob_begun := false |}).
  assert (REG : (if is_stmt c then seqb name [] else seqb n (ID a)) = seqb n (ID a)).
  { destruct c; cbn [is_stmt]; try reflexivity. cbn [n]. destruct AL as [_ [[-> _]|[U _]]]; [cbn [seqb]; now rewrite seqb_refl|].
    destruct (seqb_spec name []) as [->|N]; [now destruct U|]. symmetry. apply seqb_ne. intros E. exact (ID_not_user _ _ U E). }
  set (rs' := if is_stmt c && seqb n (ID a) then dset n (fresh s) (reg_s s) else reg_s s).
  set (rc' := if negb (is_stmt c) && seqb n (ID a) then dset n (fresh s) (reg_c s) else reg_c s).
  assert (RS : forall m, dget m rs' = if is_stmt (ob_class o) && seqb (ob_name o) (ID (ob_addr o)) && seqb m (ob_name o) then Some (length L) else dget m (reg_s s)).
  { intros m. cbn [o ob_class ob_name ob_addr]. unfold rs'. destruct (is_stmt c && seqb n (ID a)); cbn [andb]; [|reflexivity]. rewrite dget_set, IF. reflexivity. }
  assert (RC : forall m, dget m rc' = if negb (is_stmt (ob_class o)) && seqb (ob_name o) (ID (ob_addr o)) && seqb m (ob_name o) then Some (length L) else dget m (reg_c s)).
  { intros m. cbn [o ob_class ob_name ob_addr]. unfold rc'. destruct (negb (is_stmt c) && seqb n (ID a)); cbn [andb]; [|reflexivity]. rewrite dget_set, IF. reflexivity. }
  assert (EQ : create c a name q of s = {| heap := heap s ++ [(length L, o)]; fresh := S (length L); reg_s := rs'; reg_c := rc'; gar_s := gar_s s; gar_c := gar_c s; xact := xact s; at_ := at_ s; sv := sv s |}).
  { unfold create. fold n. fold o. rewrite REG. unfold rs', rc'. rewrite IF. destruct (seqb n (ID a)); [|rewrite !andb_false_r; reflexivity]. rewrite !andb_true_r. unfold register. destruct (is_stmt c); reflexivity. }
  assert (FORM : match ob_class o with
    | CStatement => ob_name o = ID (ob_addr o) \/ user_name (ob_name o) | CFetchAll => ob_name o = []
    | CInside | CDeclared => ob_name o = ID (ob_addr o) | CFromId => user_name (ob_name o) end).
  { cbn [o ob_class ob_name ob_addr]. unfold n. destruct c.
    - destruct AL as [_ [[-> _]|[U _]]]; [now left|]. destruct (seqb_spec name []) as [->|N]; [now left|now right].
    - reflexivity.
    - destruct AL as (-> & _). reflexivity.
    - destruct AL as (-> & _). reflexivity.
    - destruct AL as (_ & _ & U). destruct (seqb_spec name []) as [->|N]; [now destruct U|exact U]. }
  assert (NAME : ob_class o = CStatement -> forall j p, hget j (heap s) = Some p -> ob_class p = CStatement -> ob_name p <> ob_name o).
  { cbn [o ob_class ob_name]. intros C j p G CP E. unfold n in E. rewrite C in E, AL. pose proof (h_form _ _ _ _ IH j p G) as F. rewrite CP in F. destruct AL as [_ [[-> _]|[U UN]]].
    - cbn [seqb] in E. destruct F as [F|F]; [|exact (ID_not_user _ _ F E)]. apply (ADDR j p G). apply ID_inj; [exact (h_pos _ _ _ _ IH j p G)|exact POS|congruence].
    - destruct (seqb_spec name []) as [->|N]; [now destruct U|]. exact (UN j p G CP E). }
  assert (OF : match ob_class o with
    | CStatement | CFromId => ob_of o = None
    | _ => exists j t, ob_of o = Some j /\ hget j (heap s) = Some t /\ ob_class t = CStatement /\ ob_closed t <> None /\ (ob_class o = CDeclared -> ob_query t <> None) end).
  { cbn [o ob_class ob_of]. destruct c; try (destruct AL as (_ & _ & j & t & AL); exists j, t; exact AL); destruct AL as [-> _]; reflexivity. }
  rewrite EQ. change (c, q, of) with (ob_class o, ob_query o, ob_of o). constructor; cbn [heap fresh reg_s reg_c xact at_ sv].
  - rewrite app_length. cbn [length]. lia.
  - apply (HInv_created L (heap s) (reg_s s) (reg_c s)); auto.
  - apply (VInv_created L (heap s) (reg_s s) (reg_c s)); auto.
  - rewrite A. discriminate.
  - unfold at_ok. cbn [at_ xact]. rewrite A. exact IA.
Qed.
Lemma Inv_init : Inv [] init.
Proof.
  constructor; cbn [init heap fresh reg_s reg_c xact at_ sv]; try reflexivity.
  - constructor; cbn [hget dget]; try discriminate. intros k c q j E. destruct k; discriminate.
  - constructor; cbn [sv_skip sv_stmts sv_portals ran dget hget dkeys map]; try discriminate; try constructor; try (intros n [[]|[]]); contradiction.
  - discriminate.
  - unfold at_ok. cbn. discriminate.
Qed.
Lemma Inv_step L s e s' : Inv L s -> allowed s e -> step e s = Some s' -> Inv (L ++ creation e) s'.
Proof.
  intros I AL E. destruct e as [c a name q of|act k|k|k| | |ok|p|]; cbn [step creation] in *; rewrite ?app_nil_r.
  - unfold idle in E. destruct (at_ s) eqn:A; try discriminate. injection E as <-. now apply Inv_create.
  - unfold idle in E. destruct (at_ s) eqn:A; try discriminate. destruct (request act k s) as [x|] eqn:R; [|discriminate]. injection E as <-. destruct AL as (o & G & AS). now apply (Inv_push L s act k x o).
  - unfold idle in E. destruct (at_ s) eqn:A; try discriminate. injection E as <-. destruct AL as (o & G & C). now apply (Inv_close L s k o).
  - injection E as <-. destruct AL as ((o & G) & N1 & N2). now apply (Inv_drop L s k o).
  - now apply (Inv_driver L s).
  - now apply (Inv_complete L s).
  - now apply (Inv_serve L s ok).
  - assert (E' : s' = set_sv s {| sv_stmts := sv_stmts (sv s); sv_portals := ddel p (sv_portals (sv s)); sv_skip := sv_skip (sv s); ran := ran (sv s) |}) by (destruct (at_ s); try discriminate; now injection E as <-).
    rewrite E'. now apply Inv_gone.
  - injection E as <-. now apply Inv_dead.
Qed.
Lemma history_inv h s : history h s -> Inv (flat_map creation h) s.
Proof.
  induction 1 as [|h s e s' H IH AL E]; [exact Inv_init|]. rewrite flat_map_app. cbn [flat_map]. rewrite app_nil_r. now apply (Inv_step _ s).
Qed.
