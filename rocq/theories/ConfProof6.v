From Verif Require Import PyStr PyStrProof PyStrProof2 PyListProof BaseProof PyDict PyDictProof RIProof2 ConfModel ConfProof ConfSpec ConfProof2 ConfProof3 ConfProof4 ConfProof5.

(** ** the lines of a file *)
Definition closed_line (l : text) : Prop := exists b, l = b ++ [10] /\ ~ In 10 b.
Definition line_ok (last : bool) (l : text) : Prop := closed_line l \/ (last = true /\ l <> [] /\ ~ In 10 l).
Fixpoint lines_ok (ls : list text) : Prop :=
  match ls with [] => True | l :: r => line_ok (match r with [] => true | _ => false end) l /\ lines_ok r end.
Lemma file_lines_ok s : lines_ok (file_lines s).
Proof.
  unfold file_lines. assert (G : forall cur, ~ In 10 cur -> lines_ok (file_lines_go cur s)); [|now apply G].
  induction s as [|c s IH]; intros cur N; cbn [file_lines_go].
  - destruct cur as [|c cur]; [exact I|]. cbn. split; [|exact I]. right. split; [reflexivity|]. split.
    + destruct (rev cur); discriminate.
    + intros H. apply N. rewrite in_app_iff in H. cbn in H. rewrite <- in_rev in H. cbn. tauto.
  - destruct (Z.eqb_spec c 10) as [->|Hc].
    + cbn [lines_ok]. split; [|apply IH; auto]. left. exists (rev cur). cbn. split; [reflexivity|]. now rewrite <- in_rev.
    + apply IH. intros [H|H]; auto.
Qed.
Lemma file_lines_closed b s : ~ In 10 b -> forall cur, file_lines_go cur (b ++ [10] ++ s) = (rev cur ++ b ++ [10]) :: file_lines_go [] s.
Proof.
  induction b as [|c b IH]; intros N cur; cbn [app file_lines_go].
  - change (10 =? 10) with true. cbv iota. cbn [rev]. reflexivity.
  - destruct (Z.eqb_spec c 10) as [->|_]; [exfalso; apply N; left; reflexivity|]. specialize (IH ltac:(intros H; apply N; right; exact H) (c :: cur)). cbn [app] in IH.
    rewrite IH. cbn [rev]. rewrite <- !app_assoc. reflexivity.
Qed.
Lemma file_lines_open b : ~ In 10 b -> forall cur, file_lines_go cur b = match rev cur ++ b with [] => [] | l => [l] end.
Proof.
  induction b as [|c b IH]; intros N cur; cbn [file_lines_go].
  - rewrite app_nil_r. destruct cur as [|c cur]; [reflexivity|]. cbn [rev]. destruct (rev cur); reflexivity.
  - destruct (Z.eqb_spec c 10) as [->|_]; [exfalso; apply N; left; reflexivity|]. rewrite IH by (intros H; apply N; right; exact H). cbn [rev]. rewrite <- app_assoc. reflexivity.
Qed.
Lemma file_concat ls : lines_ok ls -> file_lines (concat ls) = ls.
Proof.
  induction ls as [|l r IH]; intros H; [reflexivity|]. destruct H as [[(b & -> & N)|(L & NE & N)] H]; cbn [concat].
  - rewrite <- app_assoc. unfold file_lines. rewrite file_lines_closed by exact N. cbn [rev app]. f_equal. now apply IH.
  - destruct r; [|discriminate]. cbn [concat]. rewrite app_nil_r. unfold file_lines. rewrite file_lines_open by exact N. cbn [rev app]. destruct l; [contradiction|reflexivity].
Qed.
Lemma concat_file s : concat (file_lines s) = s.
Proof.
  unfold file_lines. assert (G : forall cur, concat (file_lines_go cur s) = rev cur ++ s); [|apply (G [])].
  induction s as [|c s IH]; intros cur; cbn [file_lines_go].
  - rewrite app_nil_r. destruct cur; [reflexivity|]. cbn [concat]. apply app_nil_r.
  - destruct (Z.eqb_spec c 10) as [->|]; [cbn [concat]; rewrite IH; cbn [rev app]|rewrite IH; cbn [rev]]; rewrite <- !app_assoc; reflexivity.
Qed.
Lemma lines_ok_nth ls : lines_ok ls <-> forall j, (j < length ls)%nat -> line_ok (Nat.eqb (S j) (length ls)) (line_at j ls).
Proof.
  induction ls as [|l r IH]; [split; [intros _ j Hj; cbn in Hj; lia|reflexivity]|]. cbn [lines_ok]. rewrite IH. split.
  - intros [A B] [|j] Hj; cbn [length] in *.
    + cbn [line_at nth]. destruct r; exact A.
    + apply (B j). lia.
  - intros H. split.
    + specialize (H O ltac:(cbn; lia)). cbn [length line_at nth] in H. destruct r; exact H.
    + intros j Hj. apply (H (S j)). cbn. lia.
Qed.
Lemma closed_ends l : closed_line l -> py_endswith [10] l = true.
Proof. intros (b & -> & _). apply endswith_app. Qed.
Lemma ends_closed_iff l : py_endswith [10] l = true <-> exists b, l = b ++ [10].
Proof.
  split; [|intros (b & ->); apply endswith_app]. unfold py_endswith. cbn [rev app]. intros H.
  destruct (rev l) as [|c r] eqn:R; cbn [prefixb] in H; [discriminate|]. apply andb_true_iff in H as [H _]. assert (c = 10) by lia. subst c.
  exists (rev r). rewrite <- (rev_involutive l), R. reflexivity.
Qed.
Lemma line_ok_last b l : line_ok b l -> py_endswith [10] l = false -> b = true /\ l <> [] /\ ~ In 10 l.
Proof. intros [C|H] E; [rewrite (closed_ends l C) in E; discriminate|exact H]. Qed.
Lemma line_ok_add l b : line_ok b l -> py_endswith [10] l = false -> closed_line (l ++ [10]).
Proof. intros H E. destruct (line_ok_last _ _ H E) as (_ & _ & N). exists l. auto. Qed.
Lemma lines_ok_app a b : b <> [] -> Forall closed_line a -> lines_ok b -> lines_ok (a ++ b).
Proof.
  intros NE F H. induction F as [|l a C F IH]; [exact H|]. cbn [app lines_ok]. split; [left; exact C|exact IH].
Qed.
Lemma lines_ok_snoc a l : lines_ok (a ++ [l]) -> Forall closed_line a.
Proof.
  induction a as [|x a IH]; intros H; [constructor|]. cbn [app lines_ok] in H. destruct H as [L H]. constructor; auto.
  destruct L as [L|(C & _)]; [exact L|]. destruct a; discriminate.
Qed.
Lemma append_line_ok lines k v lines' : lines_ok lines -> ~ In 10 k -> ~ In 10 v -> append_line lines k v = Ok lines' -> lines_ok lines'.
Proof.
  intros H NK NV E. unfold append_line in E. destruct (rev lines) as [|la be] eqn:R; [discriminate|]. apply Ok_inj in E. subst lines'.
  assert (EL : lines = rev be ++ [la]) by (rewrite <- (rev_involutive lines), R; reflexivity). rewrite EL in H.
  rewrite app_assoc. apply lines_ok_app; [discriminate| |].
  - apply Forall_app. split; [eapply lines_ok_snoc; eauto|]. constructor; [|constructor].
    assert (LO : line_ok true la).
    { apply lines_ok_nth with (j := length (rev be)) in H; [|rewrite app_length; cbn; lia]. unfold line_at in H. rewrite app_nth2, Nat.sub_diag in H by lia.
      cbn [nth] in H. rewrite app_length in H. cbn [length] in H. replace (Nat.eqb _ _) with true in H; [exact H|]. symmetry. apply Nat.eqb_eq. lia. }
    unfold linesep. destruct (py_endswith [10] la) eqn:EE; [|eapply line_ok_add; eauto].
    destruct LO as [C|(_ & _ & N)]; [exact C|]. apply ends_closed_iff in EE as (b & ->). exfalso. apply N, in_app_iff. cbn. auto.
  - cbn. split; [|exact I]. right. split; [reflexivity|]. split; [destruct k; discriminate|].
    rewrite in_app_iff. intros [C|C]; [auto|]. cbn in C. destruct C as [C|[C|[C|[C|C]]]]; try discriminate.
    rewrite replace1, in_app_iff in C. destruct C as [C|[C|[]]]; [|discriminate]. apply in_flat_map in C as (c & I1 & I2). destruct (Z.eqb_spec c 39) as [->|].
    + cbn in I2. destruct I2 as [I2|[I2|[]]]; discriminate.
    + cbn in I2. destruct I2 as [->|[]]. contradiction.
Qed.

Section conf.
Context (U : unicode) (UO : unicode_ok U).
Local Notation sp := (u_space U).
Local Notation cand := (nat * extent * extent)%type.
Lemma name_no10 K : setting_name K -> ~ In 10 K.
Proof.
  intros [_ F] I. rewrite Forall_forall in F. specialize (F 10 I). discriminate F.
Qed.
Lemma append_unfound_ok m keys cs pk : (forall k i, In (k, i) pk -> ~ In 10 (nth i keys []) /\ (forall v, dget (nth i keys []) m = Some (Some v) -> ~ In 10 v)) ->
  forall lines lines', lines_ok lines -> append_unfound m keys pk cs lines = Ok lines' -> lines_ok lines'.
Proof.
  induction pk as [|[k i] pk IH]; intros HK lines lines' H E; cbn [append_unfound] in E; [apply Ok_inj in E; now subst|].
  assert (HK' : forall k i, In (k, i) pk -> ~ In 10 (nth i keys []) /\ (forall v, dget (nth i keys []) m = Some (Some v) -> ~ In 10 v)) by (intros; eapply HK; right; eauto).
  destruct (dmem k cs); [eapply IH; eauto|]. cbv zeta in E. destruct (HK k i (or_introl eq_refl)) as [N1 N2]. destruct (dget (nth i keys []) m) as [[v|]|]; [| |discriminate].
  - apply bind_Ok in E as (l1 & E1 & E). eapply (IH HK'); [|exact E]. eapply append_line_ok; [exact H|exact N1|apply N2; reflexivity|exact E1].
  - eapply IH; eauto.
Qed.

(** quotes *)
Lemma scan_closed (t : text) : match t with [] => False | c :: _ => c = 35 \/ c = 10 end -> forall r (q e : bool),
  Nat.even (count39 r + (if q then 1 else 0) + (if e then 1 else 0)) = true ->
  (q = false -> e = false) -> (e = true -> match r with d :: _ => d = 39 | [] => False end) -> (scan U q e (r ++ t) <= length r)%nat.
Proof.
  intros T. assert (S10 : sp 10 = true) by (rewrite (sp_ascii U UO) by lia; reflexivity).
  induction r as [|c r IH]; intros q e P QE EQ.
  - destruct t as [|c t]; [contradiction|]. destruct e; [exfalso; now apply EQ|]. destruct q; [discriminate|]. cbn [app scan]. destruct (Z.eqb_spec c 39) as [->|]; [lia|].
    cbn [negb andb]. replace (sp c || (c =? 35)) with true; [cbn; lia|]. destruct T as [->| ->]; [symmetry; apply orb_true_r|]. now rewrite S10.
  - assert (CC : count39 (c :: r) = ((if (c =? 39)%Z then 1 else 0) + count39 r)%nat).
    { unfold count39. cbn [count_occ]. destruct (Z.eq_dec c 39) as [->|]; [rewrite Z.eqb_refl; reflexivity|]. destruct (Z.eqb_spec c 39); [contradiction|reflexivity]. }
    cbn [app scan length]. rewrite CC in P. destruct (Z.eqb_spec c 39) as [->|N].
    + destruct q; cbn [negb].
      * destruct e; cbn [negb].
        -- apply le_n_S, IH; [|auto|discriminate]. rewrite <- P. replace (1 + count39 r + 1 + 1)%nat with (S (S (count39 r + 1 + 0)))%nat by lia. reflexivity.
        -- cbv zeta. assert (HD : match r ++ t with d :: _ => d =? 39 | [] => false end = match r with d :: _ => d =? 39 | [] => false end).
           { destruct r; [|reflexivity]. cbn [app]. destruct t as [|d t]; [reflexivity|]. destruct T as [->| ->]; reflexivity. }
           rewrite HD. apply le_n_S. destruct r as [|d r']; [apply IH; auto; discriminate|]. destruct (Z.eqb_spec d 39) as [->|ND]; apply IH; auto; try discriminate.
           ++ rewrite <- P. f_equal. lia.
           ++ rewrite <- P. replace (1 + count39 (d :: r') + 1 + 0)%nat with (S (S (count39 (d :: r') + 0 + 0)))%nat by lia. reflexivity.
      * rewrite (QE eq_refl) in *. apply le_n_S, IH; [|discriminate|discriminate]. rewrite <- P. f_equal. lia.
    + assert (e = false) as -> by (destruct e; [exfalso; now apply N, EQ|reflexivity]).
      destruct (negb q && (sp c || (c =? 35))); [lia|]. apply le_n_S, IH; [|auto|discriminate]. rewrite <- P. f_equal.
Qed.
Lemma count39_app a b : count39 (a ++ b) = (count39 a + count39 b)%nat.
Proof. unfold count39. apply count_occ_app. Qed.
Lemma count39_none a : ~ In 39 a -> count39 a = O.
Proof. unfold count39. apply count_occ_not_In. Qed.
Lemma app_split_le {A} (a b c d : list A) : a ++ b = c ++ d -> (length a <= length c)%nat -> exists m, c = a ++ m /\ b = m ++ d.
Proof.
  revert c. induction a as [|x a IH]; intros c E L; [exists c; auto|]. destruct c as [|y c]; [cbn in L; lia|]. cbn in E. injection E as <- E.
  destruct (IH c E ltac:(cbn in L; lia)) as (m & -> & ->). exists m. auto.
Qed.
Lemma closed_post x : shape U x -> scan U false false (val x ++ post x) = length (val x) -> closed_line (line_of x) -> quotes_closed (line_of x) -> post x <> [].
Proof.
  intros S E (b0 & EB & NB) (body & tail & EL & I61 & EV & T).
  (* a line feed or a comment sign after the body *)
  assert (BT : exists body tail, line_of x = body ++ tail /\ In 61 body /\ Nat.even (count39 body) = true /\ match tail with [] => False | c :: _ => c = 35 \/ c = 10 end).
  { destruct tail as [|c tail]; [|exists body, (c :: tail); auto]. rewrite app_nil_r in EL. exists b0, [10]. split; [exact EB|]. rewrite EB in EL. subst body.
    apply in_app_iff in I61 as [I|[I|[]]]; [|discriminate]. split; [exact I|]. split; [|auto]. rewrite count39_app in EV. cbn in EV. now rewrite Nat.add_0_r in EV. }
  clear body tail EL I61 EV T b0 EB NB. destruct BT as (body & tail & EL & I61 & EV & T).
  pose proof (no_eq U UO x S) as NE. set (kp := pre x ++ key x ++ ws x) in *.
  assert (ELx : line_of x = (kp ++ [61]) ++ ws2 x ++ val x ++ post x) by (unfold line_of, kp; rewrite <- !app_assoc; reflexivity).
  assert (LB : (length (kp ++ [61%Z]) <= length body)%nat).
  { destruct (le_lt_dec (length (kp ++ [61])) (length body)) as [L|L]; [exact L|exfalso]. rewrite ELx in EL. symmetry in EL.
    destruct (app_split_le body tail kp ([61] ++ ws2 x ++ val x ++ post x)) as (m & EM & _); [rewrite EL, <- !app_assoc; reflexivity|rewrite app_length in L; cbn in L; lia|].
    apply NE. rewrite EM, in_app_iff. auto. }
  rewrite EL in ELx. symmetry in ELx. destruct (app_split_le _ _ _ _ ELx LB) as (rest & EBo & ER).
  assert (LW : (length (ws2 x) <= length rest)%nat).
  { destruct (le_lt_dec (length (ws2 x)) (length rest)) as [L|L]; [exact L|exfalso]. destruct (app_split_le rest tail (ws2 x) (val x ++ post x)) as (m & EM & ET); [now symmetry|lia|].
    destruct m as [|c m]; [rewrite app_nil_r in EM; rewrite EM in L; lia|]. rewrite ET in T. cbn in T.
    pose proof (s_ws2 U x S) as FW. rewrite EM in FW. apply Forall_app in FW as [_ FW]. inversion_clear FW as [|? ? HC _]. unfold sp2 in HC.
    destruct T as [->| ->]; [rewrite (sp_ascii U UO) in HC by lia|rewrite andb_false_r in HC]; discriminate. }
  destruct (app_split_le _ _ _ _ ER LW) as (r & ERe & EVP).
  assert (Q39 : forall p l, p 39 = false -> Forall (fun c => p c = true) l -> count39 l = O).
  { intros p l Hp F. apply count39_none. intros I. rewrite Forall_forall in F. specialize (F 39 I). cbn in F. congruence. }
  assert (CK : count39 (kp ++ [61%Z]) = O).
  { unfold kp. rewrite !count39_app. rewrite (Q39 (sp35 U) (pre x)), (Q39 (is_word U) (key x)), (Q39 sp (ws x)); try apply S; try reflexivity.
    - rewrite (sp_ascii U UO) by lia. reflexivity.
    - unfold is_word. rewrite (uo_alpha U UO), (uo_digit U UO) by lia. reflexivity.
    - unfold sp35. rewrite (sp_ascii U UO) by lia. reflexivity. }
  assert (CW : count39 (ws2 x) = O).
  { rewrite (Q39 (sp2 U) (ws2 x)); [reflexivity| |apply S]. unfold sp2. rewrite (sp_ascii U UO) by lia. reflexivity. }
  rewrite EBo, count39_app, CK, ERe, count39_app, CW in EV. cbn [Nat.add] in EV.
  pose proof (scan_closed tail T r false false) as SC. rewrite <- EVP, E in SC. specialize (SC ltac:(rewrite !Nat.add_0_r; exact EV) ltac:(reflexivity) ltac:(discriminate)).
  intros C. rewrite C, app_nil_r in EVP. rewrite EVP, app_length in SC. destruct tail; [contradiction|]. cbn in SC. lia.
Qed.
Lemma quoted_no10 v : ~ In 10 v -> ~ In 10 (quoted v).
Proof.
  intros N C. unfold quoted in C. rewrite !in_app_iff, replace1 in C. destruct C as [[C|[]]|[C|[C|[]]]]; try discriminate.
  apply in_flat_map in C as (c & I1 & I2). destruct (Z.eqb_spec c 39) as [->|].
  - cbn in I2. destruct I2 as [I2|[I2|[]]]; discriminate.
  - cbn in I2. destruct I2 as [->|[]]. contradiction.
Qed.
Lemma lstrip_snoc p l c : p c = true -> lstrip_by p (l ++ [c]) = match lstrip_by p l with [] => [] | w => w ++ [c] end.
Proof. intros H. induction l as [|d l IH]; cbn [app lstrip_by]; [now rewrite H|]. destruct (p d); [exact IH|reflexivity]. Qed.
Lemma lstrip_suffix p l : exists a, l = a ++ lstrip_by p l.
Proof. induction l as [|c l (a & E)]; [exists []; reflexivity|]. cbn [lstrip_by]. destruct (p c); [exists (c :: a); cbn; congruence|exists []; reflexivity]. Qed.
Lemma post_value_cases p : post_value U p = p \/ exists a b, p = a ++ b /\ b = lstrip_by sp p /\ b <> [] /\ post_value U p = a ++ [35] ++ b.
Proof.
  unfold post_value. match goal with |- context [if ?b then _ else _] => destruct b eqn:E0 end; [|auto].
  match goal with |- context [if ?b then _ else _] => destruct b eqn:E1 end; [|auto]. right.
  destruct (lstrip_suffix sp p) as (a & EA). exists a, (lstrip_by sp p). split; [exact EA|]. split; [reflexivity|]. split.
  - intros C. destruct p as [|c p]; [discriminate|]. assert (F : forall l, lstrip_by sp l = [] -> forallb sp l = true).
    { clear. induction l as [|c l IH]; [reflexivity|]. cbn [lstrip_by forallb]. destruct (sp c); [exact IH|discriminate]. }
    rewrite (F _ C) in E0. discriminate.
  - f_equal. rewrite EA at 3. rewrite EA at 1. rewrite app_length. rewrite firstn_app.
    match goal with |- firstn ?n a ++ _ = _ => replace n with (length a) by lia end. rewrite firstn_all, Nat.sub_diag. cbn [firstn]. apply app_nil_r.
Qed.
Lemma post_value_closed p : closed_line p -> closed_line (post_value U p).
Proof.
  intros (b & -> & N). destruct (post_value_cases (b ++ [10])) as [->|(a & c & E & EC & NE & ->)]; [exists b; auto|].
  assert (S10 : sp 10 = true) by (rewrite (sp_ascii U UO) by lia; reflexivity). rewrite lstrip_snoc in EC by exact S10.
  destruct (lstrip_by sp b) as [|d w]; [contradiction|]. subst c. change (d :: w ++ [10]) with ((d :: w) ++ [10]) in E. rewrite app_assoc in E. apply app_inj_tail in E as [E _].
  exists (a ++ [35] ++ d :: w). split; [rewrite <- !app_assoc; reflexivity|]. intros C. apply N. rewrite E. rewrite !in_app_iff in *. cbn in *. destruct C as [C|[[C|[]]|C]]; auto. discriminate.
Qed.
Lemma post_value_no10 p : ~ In 10 p -> ~ In 10 (post_value U p).
Proof.
  intros N. destruct (post_value_cases p) as [->|(a & c & E & _ & _ & ->)]; [exact N|]. rewrite E in N. rewrite !in_app_iff in *. cbn. intros [C|[[C|[]]|C]]; auto; discriminate.
Qed.
Lemma closed_app a l : ~ In 10 a -> closed_line l -> closed_line (a ++ l).
Proof. intros N (b & -> & NB). exists (a ++ b). rewrite app_assoc. split; [reflexivity|]. rewrite in_app_iff. tauto. Qed.
Lemma closed_app_inv a l : l <> [] -> closed_line (a ++ l) -> closed_line l /\ ~ In 10 a.
Proof.
  intros NE (b & E & N). destruct (exists_last NE) as (l' & c & ->). rewrite app_assoc in E. apply app_inj_tail in E as [<- ->]. rewrite in_app_iff in N. split; [|tauto].
  exists l'. split; [reflexivity|tauto].
Qed.

(** the lines written are again the lines of the file *)
Theorem altered_ok m fo lines' : proper_map U m -> (forall K v, In (K, Some v) m -> ~ In 10 v) -> lines_ok fo ->
  (forall K l, In K (dkeys m) -> In l fo -> mentions U K l -> quotes_closed l) -> alter_config U m fo = Ok lines' -> lines_ok lines'.
Proof.
  intros P NV OK QC H.
  assert (OK1 : exists l1, append_unfound m (dkeys m) (pkeys U (dkeys m)) (find_candidates U (pkeys U (dkeys m)) O fo []) fo = Ok l1 /\ lines_ok l1).
  { unfold alter_config in H. apply bind_Ok in H as (l1 & E & _). exists l1. split; [exact E|]. eapply append_unfound_ok; [|exact OK|exact E].
    intros k i I. rewrite pkeys_eq in I by now apply (proper_nodup U UO). apply in_map_iff in I as (K & EQ & IK). injection EQ as _ <-. rewrite index_nth by exact IK. split.
    - apply name_no10. destruct P as [F _]. rewrite Forall_forall in F. now apply F.
    - intros v G. apply dget_In in G. eapply NV; eauto. }
  destruct OK1 as (L1 & E1 & OK1).
  destruct (alter_config_spec' U UO m fo lines' P H) as (l1 & l0 & ex & xs & EL & L0 & K1 & KE & UN & GD & GR & APP). rewrite E1 in APP. apply Ok_inj in APP. subst L1.
  pose proof (kept_length _ _ (proj1 K1)) as L1. subst lines'. rewrite lines_ok_nth in OK1 |- *. rewrite app_length in OK1 |- *. rewrite L1 in OK1. rewrite L0.
  intros j Hj. specialize (OK1 j Hj). unfold line_at in OK1 |- *.
  destruct (le_lt_dec (length fo) j) as [HJ|HJ].
  { rewrite app_nth2 in OK1 |- * by lia. rewrite L1 in OK1. now rewrite L0. }
  rewrite app_nth1 in OK1 |- * by lia. fold (line_at j l1) in OK1. fold (line_at j l0). set (la := Nat.eqb _ _) in *.
  destruct (found_dec U m fo j) as [(K & ov & cl & I & F & EJ)|N]; [|rewrite (UN j HJ N); exact OK1].
  subst j. destruct (GD K ov cl I F) as [(S & _ & EQ & _ & EV) EK]. rewrite EQ in OK1.
  assert (HID : line_ok la (hide (xs (idx cl)))).
  { unfold hide. destruct (memZ 35 (pre (xs (idx cl)))); [exact OK1|]. destruct OK1 as [C|(A & B & C)].
    - left. apply closed_app; [|exact C]. intros [X|[]]. discriminate.
    - right. split; [exact A|]. split; [discriminate|]. intros [X|X]; [discriminate|auto]. }
  assert (NE : found U K fo <> []) by (intros C; rewrite C in F; contradiction). specialize (GR K ov I NE). destruct ov as [v|]; cbn [group_done] in GR; [|rewrite GR by exact F; exact HID].
  destruct GR as (w & Iw & Ew & Hw). destruct (Nat.eq_dec (idx cl) (idx w)) as [E|E]; [|rewrite Hw by auto; exact HID]. rewrite E, Ew, <- E. clear Hw Ew HID.
  set (x := xs (idx cl)) in *.
  assert (NVv : ~ In 10 (quoted v)) by (apply quoted_no10; eapply NV; eauto).
  assert (PRE : ~ In 10 (pre x) -> ~ In 10 (pre (uncommented U x v))) by (cbn [uncommented pre]; destruct (memZ 35 (pre x)); auto).
  assert (SPL : forall y, line_of y = (pre y ++ key y ++ ws y ++ [61] ++ ws2 y ++ val y) ++ post y) by (intros y; unfold line_of; rewrite <- !app_assoc; reflexivity).
  assert (HEAD : ~ In 10 (pre x ++ key x ++ ws x ++ [61] ++ ws2 x) -> ~ In 10 (pre (uncommented U x v) ++ key (uncommented U x v) ++ ws (uncommented U x v) ++ [61] ++ ws2 (uncommented U x v) ++ val (uncommented U x v))).
  { cbn [uncommented key ws ws2 val]. intros NH. rewrite !in_app_iff in *. assert (NP : ~ In 10 (pre x)) by tauto. specialize (PRE NP). tauto. }
  destruct OK1 as [C|(A & B & C)].
  - left. rewrite SPL. assert (PN : post x <> []).
    { apply in_cands in F as (j & EJ & LJ & PL & CK). cbn in EJ. subst j. pose proof PL as PL'. apply (parse_inv U) in PL' as (x0 & S0 & LX0 & KX0 & VX0 & SC0).
      assert (PX : post x = skipn (x_stop (val_ext x0)) (line_of x)) by (rewrite <- VX0, EV; symmetry; apply skip_post).
      pose proof (kept_nth _ _ (proj1 K1) (idx cl) LJ) as KL. rewrite EQ in KL. destruct KL as [KL|[KE1 KL]].
      - assert (PE : post x = post x0) by (rewrite PX, KL, LX0; apply skip_post). rewrite PE. apply (closed_post x0 S0 SC0).
        + rewrite <- LX0, <- KL. exact C.
        + rewrite <- LX0. apply (QC K).
          * apply in_map_iff. exists (K, Some v). auto.
          * apply nth_In. exact LJ.
          * rewrite LX0. destruct S0. exists (pre x0), (key x0), (ws x0), (ws2 x0 ++ val x0 ++ post x0). split; [unfold line_of; rewrite <- ?app_assoc; reflexivity|].
            split; [eapply Forall_impl; [|exact s_pre]; intros c Hc; cbn beta in Hc; unfold sp35 in Hc; apply orb_true_iff in Hc as [Hc|Hc]; [auto|right; lia]|].
            split; [eapply Forall_impl; [|exact s_key]; intros c Hc; cbn beta in Hc; unfold is_word in Hc; apply orb_true_iff in Hc as [Hc|Hc]; [apply orb_true_iff in Hc; tauto|right; right; lia]|].
            split; [exact s_ws|]. unfold same_name. rewrite CK. f_equal. rewrite KX0, LX0. symmetry. apply cut_key.
      - rewrite PX, KL. intros Z0. apply (f_equal (@length Z)) in Z0. rewrite skipn_length, app_length in Z0. cbn [length] in Z0.
        assert ((x_stop (val_ext x0) <= length (line_at (idx cl) fo))%nat); [|lia]. rewrite LX0. unfold val_ext, val_start, line_of. cbn [x_stop]. rewrite !app_length. cbn [length]. rewrite ?app_length. lia. }
    rewrite SPL in C. apply closed_app_inv in C as [C1 C2]; [|exact PN]. apply closed_app.
    + apply HEAD. rewrite !in_app_iff in *. tauto.
    + cbn [uncommented post]. now apply post_value_closed.
  - right. split; [exact A|]. split; [rewrite SPL; intros Z0; apply app_eq_nil in Z0 as [Z0 _]; apply (f_equal (@length Z)) in Z0; rewrite !app_length in Z0; cbn in Z0; lia|].
    rewrite SPL in C |- *. rewrite in_app_iff in C |- *. intros [Q|Q]; revert Q.
    + apply HEAD. intros Q. apply C. left. rewrite !in_app_iff in *. tauto.
    + cbn [uncommented post]. apply post_value_no10. tauto.
Qed.
End conf.
