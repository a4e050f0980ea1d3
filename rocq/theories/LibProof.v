From Verif Require Import PyStr PyStrProof PyDict PyDictProof BaseProof LibModel LibSpec.

(** ** stripping *)
Lemma lstrip_blank p a l : Forall (fun c => p c = true) a -> lstrip_by p (a ++ l) = lstrip_by p l.
Proof. induction 1 as [|c a H _ IH]; cbn [app lstrip_by]; [reflexivity|]. now rewrite H. Qed.
Lemma Forall_rev' {A} (P : A -> Prop) l : Forall P l -> Forall P (rev l).
Proof. intros F. apply Forall_forall. intros x I. apply in_rev in I. rewrite Forall_forall in F. auto. Qed.
Lemma rstrip_blank p a l : Forall (fun c => p c = true) a -> rstrip_by p (l ++ a) = rstrip_by p l.
Proof. intros F. unfold rstrip_by. rewrite rev_app_distr. rewrite lstrip_blank; [reflexivity|]. now apply Forall_rev'. Qed.
Lemma lstrip_split p l : exists a, l = a ++ lstrip_by p l /\ Forall (fun c => p c = true) a.
Proof.
  induction l as [|c l (a & E & F)]; cbn [lstrip_by]; [now exists []|]. destruct (p c) eqn:P.
  - exists (c :: a). split; [cbn; now rewrite <- E|auto].
  - exists []. auto.
Qed.
Lemma strip_split p l : exists a b, l = a ++ strip_by p l ++ b /\ Forall (fun c => p c = true) a /\ Forall (fun c => p c = true) b.
Proof.
  destruct (lstrip_split p l) as (a & E & F). destruct (lstrip_split p (rev (lstrip_by p l))) as (b & E2 & F2).
  exists a, (rev b). split; [|split; [exact F|now apply Forall_rev']]. unfold strip_by, rstrip_by.
  rewrite <- rev_app_distr, <- E2, rev_involutive. exact E.
Qed.
Lemma strip_around p a l b : Forall (fun c => p c = true) a -> Forall (fun c => p c = true) b ->
  (forall c, (hd_error l = Some c \/ hd_error (rev l) = Some c) -> p c = false) -> strip_by p (a ++ l ++ b) = l.
Proof.
  intros FA FB H. unfold strip_by. rewrite lstrip_blank by exact FA. destruct l as [|c l].
  - cbn [app]. rewrite <- (app_nil_r b), lstrip_blank by exact FB. reflexivity.
  - cbn [app]. rewrite lstrip_head by (apply H; now left). change (c :: l ++ b) with ((c :: l) ++ b). rewrite rstrip_blank by exact FB.
    unfold rstrip_by. destruct (rev (c :: l)) as [|d r] eqn:R; [apply (f_equal (@length Z)) in R; rewrite rev_length in R; discriminate|].
    rewrite lstrip_head by (apply H; right; reflexivity). rewrite <- R. apply rev_involutive.
Qed.
Lemma rev_snoc_hd {A} (l : list A) d : hd_error (rev (l ++ [d])) = Some d.
Proof. now rewrite rev_app_distr. Qed.

Section U.
Context (U : unicode) (UO : unicode_ok U).
Lemma space91 : u_space U 91 = false. Proof. rewrite (uo_space U UO) by lia. reflexivity. Qed.
Lemma space93 : u_space U 93 = false. Proof. rewrite (uo_space U UO) by lia. reflexivity. Qed.
Lemma strip_marker a x b : blank U a -> blank U b -> py_strip U (a ++ [91] ++ x ++ [93] ++ b) = [91] ++ x ++ [93].
Proof.
  intros A B. unfold py_strip. replace (a ++ [91] ++ x ++ [93] ++ b) with (a ++ ([91] ++ x ++ [93]) ++ b) by now rewrite <- !app_assoc.
  apply strip_around; auto. intros c [H|H].
  - cbn in H. injection H as <-. apply space91.
  - rewrite app_assoc, rev_snoc_hd in H. injection H as <-. apply space93.
Qed.
Lemma endswith1 l : py_endswith [93] l = true <-> exists x, l = x ++ [93].
Proof.
  split.
  - unfold py_endswith. cbn [rev app prefixb]. destruct (rev l) as [|d r] eqn:R; [discriminate|]. intros H.
    apply andb_true_iff in H as [H _]. apply Z.eqb_eq in H. subst d. exists (rev r). rewrite <- (rev_involutive l), R. reflexivity.
  - intros (x & ->). apply endswith_app.
Qed.
Lemma is_header_marker l : is_header U l = true <-> marker U l.
Proof.
  split.
  - intros H. unfold is_header in H. apply andb_true_iff in H as [H1 H2]. apply endswith1 in H2 as (x & E).
    destruct (strip_split (u_space U) l) as (a & b & E2 & FA & FB). fold (py_strip U l) in E2.
    rewrite E in H1, E2. destruct x as [|c x].
    + cbn [app py_startswith prefixb] in H1. discriminate.
    + change (((91 =? c) && true) = true) in H1. rewrite andb_true_r in H1. apply Z.eqb_eq in H1. subst c. exists a, x, b. split; [|split; assumption].
      rewrite E2. cbn [app]. now rewrite <- !app_assoc.
  - intros (a & x & b & -> & A & B). unfold is_header. rewrite strip_marker by assumption.
    apply andb_true_iff. split; [reflexivity|]. apply endswith1. exists ([91] ++ x). now rewrite <- app_assoc.
Qed.
Lemma marker_header l : marker U l -> is_header U l = true.
Proof. intros M. now apply is_header_marker. Qed.
Lemma not_marker l : ~ marker U l -> is_header U l = false.
Proof. intros N. destruct (is_header U l) eqn:E; [|reflexivity]. apply is_header_marker in E. contradiction. Qed.

(** ** lines *)
Definition to_bline (l : dline) : bline := match l with DText l => BText l | DRef n r => BRef n r end.
Lemma starts2 l : py_startswith [42; 91] l = true <-> exists r, l = [42; 91] ++ r.
Proof.
  split; [|intros (r & ->); reflexivity]. unfold py_startswith. destruct l as [|c [|d r]]; cbn [prefixb]; try discriminate.
  - now rewrite andb_false_r.
  - rewrite andb_true_r. intros H. apply andb_true_iff in H as [H1 H2]. apply Z.eqb_eq in H1. apply Z.eqb_eq in H2. subst. now exists r.
Qed.
Lemma read_show l : ok_line U l -> read_line (show_line l) = to_bline l.
Proof.
  destruct l as [l|n r]; cbn [ok_line show_line to_bline]; unfold read_line.
  - intros [_ H]. destruct (py_startswith [42; 91] l) eqn:E; [|reflexivity]. apply starts2 in E as (r & ->).
    specialize (H r eq_refl). rewrite (proj2 (index1_None 93 _)); [reflexivity|]. cbn. intros [?|[?|?]]; try discriminate. contradiction.
  - intros H. rewrite (proj2 (starts2 _)) by (eexists; reflexivity).
    replace ([42; 91] ++ n ++ [93] ++ r) with (([42; 91] ++ n) ++ 93 :: r) by now rewrite <- app_assoc.
    rewrite index1_app by (cbn; intros [?|[?|?]]; try discriminate; contradiction). rewrite firstn_app_exact by reflexivity.
    f_equal. rewrite skipn_S_app. reflexivity.
Qed.
Lemma line_not_header l : ok_line U l -> is_header U (show_line l) = false.
Proof.
  destruct l as [l|n r]; cbn [ok_line show_line]; [intros [H _]; now apply not_marker|]. intros _.
  destruct (is_header U _) eqn:E; [|reflexivity]. apply is_header_marker in E as (a & x & b & E & A & B).
  destruct a as [|c a]; [discriminate E|]. cbn [app] in E. injection E as <- E. apply Forall_inv in A. rewrite (uo_space U UO) in A by lia. discriminate A.
Qed.
Lemma header_marker s : ok_section U s -> marker U (show_header s).
Proof. intros (B & A & _). exists (d_before s), (inner s), (d_after s). auto. Qed.
Definition sblock (s : dsection) : option text * list bline := (Some (show_header s), map to_bline (d_lines s)).
Lemma blocks_lines ls : Forall (ok_line U) ls -> forall id cur rest,
  blocks U id cur (map show_line ls ++ rest) = blocks U id (cur ++ map to_bline ls) rest.
Proof.
  induction 1 as [|l ls H _ IH]; intros id cur rest; cbn [map app blocks]; [now rewrite app_nil_r|].
  rewrite line_not_header, read_show by exact H. rewrite IH. now rewrite <- app_assoc.
Qed.
Lemma blocks_sections ss : Forall (ok_section U) ss -> forall id cur,
  blocks U id cur (concat (map show_section ss)) = (id, cur) :: map sblock ss.
Proof.
  induction 1 as [|s ss H _ IH]; intros id cur; cbn [map concat app blocks show_section]; [reflexivity|].
  rewrite marker_header by now apply header_marker. f_equal. rewrite blocks_lines by apply H. cbn [app]. apply IH.
Qed.
Lemma blocks_show pre ss : Forall (ok_text U) pre -> Forall (ok_section U) ss ->
  blocks U None [] (show pre ss) = (None, map BText pre) :: map sblock ss.
Proof.
  intros P S. unfold show. assert (F : Forall (ok_line U) (map DText pre)) by (apply Forall_map; exact P).
  pose proof (blocks_lines _ F None [] (concat (map show_section ss))) as E. rewrite !map_map in E. cbn [show_line to_bline] in E.
  rewrite map_id in E. rewrite E. now rewrite blocks_sections.
Qed.

(** ** the header *)
Definition full_name (s : dsection) : text := (if d_amp s then [38] else []) ++ d_name s.
Lemma join_fields n fs : n ++ concat (map (fun f => 58 :: f) fs) = py_join [58] (n :: fs).
Proof.
  revert n. induction fs as [|f fs IH]; intros n; [cbn; now rewrite app_nil_r|]. rewrite py_join_cons by discriminate. cbn [map concat].
  rewrite <- IH. reflexivity.
Qed.
Lemma describe_header s : ok_section U s -> describe U (show_header s) = (full_name s, nth_error (d_fields s) 0, nth_error (d_fields s) 1).
Proof.
  intros (B & A & N & F & I & _). unfold describe, show_header. rewrite strip_marker by assumption.
  assert (E : strip_by brackets ([91] ++ inner s ++ [93]) = inner s).
  { apply strip_around; [constructor; [reflexivity|constructor]|constructor; [reflexivity|constructor]|].
    intros c H. destruct (I c H) as [H1 H2]. unfold brackets. rewrite (proj2 (Z.eqb_neq _ _) H1), (proj2 (Z.eqb_neq _ _) H2). reflexivity. }
  rewrite E. unfold inner. rewrite app_assoc. fold (full_name s). rewrite join_fields. rewrite split_join; [|discriminate|].
  - destruct (d_fields s) as [|t [|e fs]]; reflexivity.
  - constructor; [|exact F]. unfold full_name. intros H. apply in_app_iff in H as [H|H]; [|contradiction].
    destruct (d_amp s); cbn in H; [|contradiction]. destruct H as [H|[]]. discriminate.
Qed.

(** ** references *)
Definition defs_of (ys : list isym) : list (text * text) := map (fun y => (y_name y, y_query y)) ys.
Lemma latest_snoc {A} (d : list (text * A)) m x n q : latest (d ++ [(m, x)]) n q <-> (n = m /\ q = x) \/ (n <> m /\ latest d n q).
Proof.
  split.
  - intros (a & b & E & N). destruct b as [|p b] using rev_ind.
    + apply app_inj_tail in E as [_ E]. injection E as -> ->. now left.
    + clear IHb. change (a ++ (n, q) :: b ++ [p]) with (a ++ ((n, q) :: b) ++ [p]) in E. rewrite app_assoc in E. apply app_inj_tail in E as [E <-].
      right. rewrite map_app, in_app_iff in N. cbn in N. split; [intuition congruence|]. exists a, b. split; [exact E|intuition].
  - intros [[-> ->]|[N (a & b & -> & M)]].
    + exists d, []. split; [reflexivity|intros []].
    + exists a, (b ++ [(m, x)]). split; [now rewrite <- app_assoc|]. rewrite map_app, in_app_iff. cbn. intuition congruence.
Qed.
Lemma latest_nil {A} n (q : A) : ~ latest [] n q.
Proof. intros (a & b & E & _). destruct a; discriminate. Qed.
Lemma latest_det {A} (d : list (text * A)) n q q' : latest d n q -> latest d n q' -> q = q'.
Proof.
  induction d as [|[m x] d IH] using rev_ind; [intros H; now apply latest_nil in H|]. rewrite !latest_snoc. intuition congruence.
Qed.
Lemma latest_in {A} (d : list (text * A)) n : (exists q, latest d n q) <-> In n (map fst d).
Proof.
  induction d as [|[m x] d IH] using rev_ind; [split; [intros (q & H); now apply latest_nil in H|intros []]|].
  rewrite map_app, in_app_iff, <- IH. cbn. split.
  - intros (q & H). apply latest_snoc in H as [[-> _]|[_ H]]; eauto.
  - intros H. destruct (list_eq_dec Z.eq_dec n m) as [->|N]; [exists x; apply latest_snoc; auto|]. destruct H as [(q & H)|[H|[]]]; [|congruence].
    exists q. apply latest_snoc. auto.
Qed.
Lemma find_latest ys n : match find (fun y => seqb (y_name y) n) (rev ys) with
                         | Some y => latest (defs_of ys) n (y_query y)
                         | None => forall q, ~ latest (defs_of ys) n q
                         end.
Proof.
  induction ys as [|y ys IH] using rev_ind; [intros q; apply latest_nil|]. rewrite rev_app_distr. cbn [rev app find].
  unfold defs_of. rewrite map_app. cbn [map]. fold (defs_of ys). destruct (seqb_spec (y_name y) n) as [<-|N].
  - apply latest_snoc. now left.
  - destruct (find _ (rev ys)) as [z|].
    + apply latest_snoc. right. split; [congruence|exact IH].
    + intros q H. apply latest_snoc in H as [[H _]|[_ H]]; [congruence|]. now apply IH in H.
Qed.
Lemma deref_ok ys l t : dereference ys (to_bline l) = Ok t <-> line_text (defs_of ys) l t.
Proof.
  destruct l as [l|n r]; cbn [to_bline dereference].
  - split; [intros [= ->]; constructor|inversion 1; subst; reflexivity].
  - pose proof (find_latest ys n) as H. destruct (find _ (rev ys)) as [y|].
    + split; [intros [= <-]; now constructor|]. inversion 1; subst. f_equal. f_equal. eapply latest_det; eauto.
    + split; [discriminate|]. inversion 1 as [|n' r' q L]; subst. now apply H in L.
Qed.
Lemma deref_err ys l e : dereference ys (to_bline l) = Err e -> e = TypeError.
Proof. destruct l as [l|n r]; cbn [to_bline dereference]; [discriminate|]. destruct (find _ (rev ys)); congruence. Qed.
Lemma derefs_ok ys ls ts : mapM (dereference ys) (map to_bline ls) = Ok ts <-> Forall2 (line_text (defs_of ys)) ls ts.
Proof.
  revert ts. induction ls as [|l ls IH]; intros ts; cbn [map mapM].
  - split; [intros [= <-]; constructor|inversion 1; reflexivity].
  - split.
    + intros H. apply bind_Ok in H as (t & E & H). apply bind_Ok in H as (ts' & E2 & H). injection H as <-. constructor; [now apply deref_ok|now apply IH].
    + inversion 1; subst. rewrite (proj2 (deref_ok _ _ _) H2). cbn [bind]. rewrite (proj2 (IH _) H4). reflexivity.
Qed.
Lemma derefs_err ys ls e : mapM (dereference ys) (map to_bline ls) = Err e -> e = TypeError.
Proof.
  induction ls as [|l ls IH]; cbn [map mapM]; [discriminate|]. destruct (dereference ys (to_bline l)) as [t|e'] eqn:E; cbn [bind].
  - destruct (mapM _ _) as [ts|e']; cbn [bind]; [discriminate|]. intros [= <-]. now apply IH.
  - intros [= <-]. now apply deref_err in E.
Qed.
Lemma is_comment_spec l : is_comment l = true <-> comment l.
Proof.
  unfold is_comment, py_startswith, comment. split; [|intros (r & ->); reflexivity].
  destruct l as [|a [|b [|c r]]]; cbn [prefixb]; rewrite ?andb_false_r; try discriminate. rewrite andb_true_r. intros H.
  apply andb_true_iff in H as [H1 H]. apply andb_true_iff in H as [H2 H3]. apply Z.eqb_eq in H1, H2, H3. subst. now exists r.
Qed.
Lemma skip_comments_spec ts : exists doc, ts = doc ++ skip_comments ts /\ Forall comment doc /\ (forall l r, skip_comments ts = l :: r -> ~ comment l).
Proof.
  induction ts as [|t ts (doc & E & F & N)]; cbn [skip_comments].
  - exists []. repeat split; auto. discriminate.
  - destruct (is_comment t) eqn:C.
    + exists (t :: doc). split; [cbn; now rewrite <- E|]. split; [constructor; auto; now apply is_comment_spec|exact N].
    + exists []. repeat split; auto. intros l r [= <- <-] H. apply is_comment_spec in H. congruence.
Qed.
Lemma skip_comments_det doc code : Forall comment doc -> (forall l r, code = l :: r -> ~ comment l) -> skip_comments (doc ++ code) = code.
Proof.
  induction 1 as [|d doc H _ IH]; cbn [app skip_comments].
  - intros N. destruct code as [|l r]; [reflexivity|]. cbn [skip_comments]. destruct (is_comment l) eqn:C; [|reflexivity].
    apply is_comment_spec in C. exfalso. exact (N l r eq_refl C).
  - intros N. rewrite (proj2 (is_comment_spec _) H). now apply IH.
Qed.

(** ** symbols *)
Definition isym_of (s : dsection) (q : text) : isym :=
  {| y_name := d_name s; y_isref := d_amp s; y_type := nth_error (d_fields s) 0; y_exe := nth_error (d_fields s) 1; y_query := q |}.
Lemma proc_field s : match nth_error (d_fields s) 0 with Some t => seqb t (str "proc") | None => false end =
  match field 0 s with Some t => seqb t (str "proc") | None => false end.
Proof. unfold field. destruct (nth_error (d_fields s) 0) as [[|c t]|]; reflexivity. Qed.
Lemma name_of s : ok_section U s ->
  match full_name s with c :: n => if c =? 38 then (true, n) else (false, full_name s) | [] => (false, full_name s) end = (d_amp s, d_name s).
Proof.
  intros (_ & _ & _ & _ & _ & H & _). unfold full_name. destruct (d_amp s); [reflexivity|]. specialize (H eq_refl). cbn [app].
  destruct (d_name s) as [|c n]; [reflexivity|]. destruct (Z.eqb_spec c 38) as [E|]; [|reflexivity]. subst c. now cbn in H.
Qed.
Lemma read_symbol_ok ys s q : ok_section U s -> query_of U (defs_of ys) s q -> read_symbol U ys (sblock s) = Ok (isym_of s q).
Proof.
  intros O (doc & code & F & C & N & ->). unfold read_symbol, sblock. cbn [fst snd]. rewrite describe_header by exact O.
  rewrite (proj2 (derefs_ok _ _ _) F). cbn [bind]. rewrite skip_comments_det by assumption.
  pose proof (name_of s O) as E. destruct (match full_name s with _ => _ end) as [r n] eqn:E2.
  replace (match full_name s with [] => (false, full_name s) | c :: n => if c =? 38 then (true, n) else (false, full_name s) end) with (d_amp s, d_name s) by congruence.
  unfold isym_of. f_equal. f_equal. rewrite <- proc_field. destruct (nth_error (d_fields s) 0) as [t|]; [|reflexivity]. destruct (seqb t (str "proc")); reflexivity.
Qed.
Lemma read_symbol_inv ys s : ok_section U s ->
  (exists q, query_of U (defs_of ys) s q) \/ read_symbol U ys (sblock s) = Err TypeError.
Proof.
  intros O. destruct (mapM (dereference ys) (map to_bline (d_lines s))) as [ts|e] eqn:E.
  - left. apply derefs_ok in E. destruct (skip_comments_spec ts) as (doc & ED & F & N). eexists. exists doc, (skip_comments ts).
    rewrite <- ED. repeat split; auto.
  - right. unfold read_symbol, sblock. cbn [fst snd]. rewrite describe_header by exact O. rewrite E. apply derefs_err in E. now subst e.
Qed.
Definition isyms (ss : list dsection) (qs : list text) : list isym := map (fun p => isym_of (fst p) (snd p)) (combine ss qs).
Lemma read_symbols_ok ss : forall ys out, Forall (ok_section U) ss -> queries U (defs_of ys) ss out ->
  exists qs, length qs = length ss /\ out = defs_of ys ++ combine (map d_name ss) qs /\ read_symbols U ys (map sblock ss) = Ok (ys ++ isyms ss qs).
Proof.
  induction ss as [|s ss IH]; intros ys out O Q; inversion Q as [|? ? q ? ? HQ HR]; subst; cbn [map read_symbols].
  - exists []. cbn. rewrite !app_nil_r. auto.
  - inversion O as [|? ? H1 H2]; subst. rewrite (read_symbol_ok _ _ _ H1 HQ). cbn [bind].
    assert (E : defs_of ys ++ [(d_name s, q)] = defs_of (ys ++ [isym_of s q])) by (unfold defs_of; now rewrite map_app).
    rewrite E in HR. destruct (IH _ _ H2 HR) as (qs & L & -> & R). exists (q :: qs). split; [cbn; lia|]. split.
    + rewrite <- E, <- app_assoc. reflexivity.
    + rewrite R, <- app_assoc. reflexivity.
Qed.
Lemma read_symbols_err ss : forall ys, Forall (ok_section U) ss -> (forall out, ~ queries U (defs_of ys) ss out) ->
  read_symbols U ys (map sblock ss) = Err TypeError.
Proof.
  induction ss as [|s ss IH]; intros ys O N; cbn [map read_symbols].
  - exfalso. eapply N. constructor.
  - inversion O; subst. destruct (read_symbol_inv ys s H1) as [(q & Q)|E]; [|now rewrite E].
    rewrite (read_symbol_ok _ _ _ H1 Q). cbn [bind]. apply IH; [exact H2|]. intros out Q2. apply (N out). econstructor; [exact Q|].
    unfold defs_of in Q2 |- *. rewrite map_app in Q2. exact Q2.
Qed.
End U.
