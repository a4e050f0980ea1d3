(** StrProps.v: properties C16, C17, C18 (postgresql.string). *)
From Verif Require Import PyStr RegexModel StrModel StrSpec BaseProof PBufferModel PBufferProof PyListProof PyStrProof StrProof StrProof2 StrProof3.

(** ** C16 *)
Theorem C16_quote_literal : forall s rest, (forall r, rest <> 39 :: r) ->
  quoted 39 (quote_literal s ++ rest) s rest.
Proof. exact quote_literal_lexed. Qed.
Print Assumptions C16_quote_literal.
Theorem C16_quote_ident : forall s rest, (forall r, rest <> 34 :: r) ->
  quoted 34 (quote_ident s ++ rest) s rest.
Proof. exact quote_ident_lexed. Qed.
Print Assumptions C16_quote_ident.
(** and the lexer reads it in no other way *)
Theorem C16_lexer_deterministic : forall q t v r v' r', quoted q t v r -> quoted q t v' r' -> v = v' /\ r = r'.
Proof. exact quoted_det. Qed.
Print Assumptions C16_lexer_deterministic.
(** hence quoting is injective *)
Theorem C16_injective : forall a b, (quote_literal a = quote_literal b -> a = b) /\ (quote_ident a = quote_ident b -> a = b).
Proof.
  assert (N : forall q r, (@nil Z) <> q :: r) by discriminate.
  intros a b. split; intros E.
  - pose proof (quote_literal_lexed a [] (N 39)) as A. pose proof (quote_literal_lexed b [] (N 39)) as B. rewrite app_nil_r in A, B.
    rewrite E in A. destruct (quoted_det _ _ _ _ _ _ A B); auto.
  - pose proof (quote_ident_lexed a [] (N 34)) as A. pose proof (quote_ident_lexed b [] (N 34)) as B. rewrite app_nil_r in A, B.
    rewrite E in A. destruct (quoted_det _ _ _ _ _ _ A B); auto.
Qed.
Print Assumptions C16_injective.
(** with standard_conforming_strings off (the default before 9.1) it can be broken
    out of: the closing quote is taken by a trailing backslash *)
Theorem C16_nonstandard_strings_refuted :
  quote_literal [92] ++ str "; drop table t --'" = 39 :: ([92; 39] ++ str "; drop table t --'") /\
  qbody_bs 39 ([92; 39] ++ str "; drop table t --'") (str "'; drop table t --") [].
Proof.
  split; [reflexivity|]. vm_compute. apply qbb_bs.
  repeat (apply qbb_char; [discriminate|discriminate|]). apply qbb_end. discriminate.
Qed.
Print Assumptions C16_nonstandard_strings_refuted.

(** ** C17 *)
Theorem C17_split_qname_qname : forall U parts, unicode_ok U -> parts <> [] -> split_qname U (qname parts) (-1) = Ok parts.
Proof. exact split_qname_qname. Qed.
Print Assumptions C17_split_qname_qname.
Theorem C17_split_qname_if_needed : forall U parts, unicode_ok U -> parts <> [] -> Forall ascii_lc parts ->
  split_qname U (qname_if_needed U parts) (-1) = Ok parts.
Proof. exact split_qname_if_needed. Qed.
Print Assumptions C17_split_qname_if_needed.
Theorem C17_if_needed_denotes_partial : forall U x, unicode_ok U -> ascii_lc x -> denotes_ident (quote_ident_if_needed U x) x.
Proof. exact if_needed_denotes. Qed.
Print Assumptions C17_if_needed_denotes_partial.
(** upper-case letters are not considered to need quoting, but the server folds them *)
Theorem C17_uppercase_refuted : forall U, unicode_ok U ->
  quote_ident_if_needed U (str "Foo") = str "Foo" /\ denotes_ident (str "Foo") (str "foo") /\
  split_qname U (qname_if_needed U [str "Foo"]) (-1) = Ok [str "foo"].
Proof.
  intros U HU. assert (E : quote_ident_if_needed U (str "Foo") = str "Foo").
  { unfold quote_ident_if_needed, needs_quoting. change (str "Foo") with [70; 111; 111]. rewrite replace1. cbn [flat_map app Z.eqb Pos.eqb].
    rewrite (uo_decimal U HU) by lia. unfold py_isalnum. cbn [forallb]. rewrite !(uo_alnum U HU) by lia. reflexivity. }
  split; [exact E|]. split; [apply (di_plain (str "Foo")); reflexivity|].
  unfold qname_if_needed. cbn [map py_join]. rewrite E. unfold split_qname, split_ident.
  change (split_using (str "Foo") 34 46 (-1)) with [str "Foo"]. cbn [mapM bind].
  replace (split_ident1 U (str "Foo")) with (@Ok text (str "foo")); [reflexivity|].
  unfold split_ident1, py_strip. rewrite strip_id.
  - unfold quote_ident_if_needed in E. destruct (needs_quoting U (str "Foo")) eqn:N; [discriminate|].
    change (py_startswith [34] (str "Foo")) with false. unfold py_lower. change (str "Foo") with [70; 111; 111]. cbn [map concat].
    rewrite !(uo_lower U HU) by lia. reflexivity.
  - change (str "Foo") with [70; 111; 111]. cbn [forallb]. rewrite !(uo_space U HU) by lia. reflexivity.
Qed.
Print Assumptions C17_uppercase_refuted.
(** nor are the server's reserved words *)
Theorem C17_reserved_word_refuted : forall U, unicode_ok U -> quote_ident_if_needed U (str "user") = str "user".
Proof.
  intros U HU. unfold quote_ident_if_needed, needs_quoting. change (str "user") with [117; 115; 101; 114]. rewrite replace1. cbn [flat_map app Z.eqb Pos.eqb].
  rewrite (uo_decimal U HU) by lia. unfold py_isalnum. cbn [forallb]. rewrite !(uo_alnum U HU) by lia. reflexivity.
Qed.
Print Assumptions C17_reserved_word_refuted.
(** split_using cuts exactly at the separators outside of quotations *)
Theorem C17_split_using : forall t q sep maxsplit, sep <> q -> split_using t q sep maxsplit = cuts q sep false maxsplit t [].
Proof. intros. apply split_using_cuts; auto. Qed.
Print Assumptions C17_split_using.
Theorem C17_split_using_lossless : forall t q sep maxsplit, sep <> q -> py_join [sep] (split_using t q sep maxsplit) = t.
Proof. intros. rewrite split_using_cuts by auto. apply join_cuts. Qed.
Print Assumptions C17_split_using_lossless.

(** ** C18 *)
(** a text made of unquoted parts and closed quotations is split into these parts *)
Theorem C18_split_render : forall U l, unicode_ok U -> wf_parts U l -> str_split U (render l) = l.
Proof. exact str_split_render. Qed.
Print Assumptions C18_split_render.
(** for any text, unsplit(split(s)) = s except when s ends with an unterminated E'
    or dollar quotation with fewer characters after its opening than its closing needs *)
Theorem C18_unsplit_split : forall U s, unicode_ok U ->
  str_unsplit (str_split U s) = Ok s \/
  exists x q d post, s = x ++ q ++ d ++ post /\ (q = [69; 39] \/ exists t, q = 36 :: t) /\
    (length d < length (closing q))%nat /\ (post = [] \/ post = [10]) /\
    str_unsplit (str_split U s) = Ok (x ++ q ++ closing q ++ post).
Proof.
  intros U s HU. destruct (unsplit_split U s HU) as [H|(x & q & d & post & H1 & H2 & H3 & H4 & H5)]; [left; exact H|right].
  exists x, q, d, post. do 3 (split; [assumption|]). split; [|exact H5].
  destruct post as [|c post]; [auto|]. right. cbn in H4. destruct c as [|p|p]; try discriminate. repeat (destruct p; try discriminate). destruct post; [reflexivity|discriminate].
Qed.
Print Assumptions C18_unsplit_split.
Theorem C18_unsplit_split_refuted : forall U, unicode_ok U ->
  str_unsplit (str_split U (str "E'")) = Ok (str "E''") /\ str_unsplit (str_split U (str "$$$")) = Ok (str "$$$$").
Proof.
  intros U HU. unfold str_split. rewrite !split_loop_eq.
  assert (V : forall l, forall v v' : text, [] = v ++ v' -> v' <> [] -> qmatch U (v' ++ l) = None) by (intros l v v' E N; destruct v, v'; discriminate || congruence).
  rewrite (search_Some U [] (str "E'") [] None HU (V _) eq_refl : re_search (quote_re U) (str "E'") = _).
  rewrite (search_Some U [] (str "$$$") [] (Some [36; 36]) HU (V _) eq_refl : re_search (quote_re U) (str "$$$") = _).
  assert (S : re_search (quote_re U) [] = None) by (apply at_eol_search; auto).
  cbn - [re_search quote_re]. rewrite S. split; reflexivity.
Qed.
Print Assumptions C18_unsplit_split_refuted.
(** split_sql: always a partition; separators are only taken outside of what split()
    considers a quotation, and the quotations are kept *)
Theorem C18_split_sql : forall U s c, unicode_ok U -> exists pieces strs total,
  split_sql U s [c] = Ok pieces /\ split_sql_str U s [c] = Ok strs /\ str_unsplit (str_split U s) = Ok total /\ py_join [c] strs = total /\
  Forall (Forall (sep_free c)) pieces /\ quotes_of (concat pieces) = quotes_of (str_split U s).
Proof. intros. apply split_sql_spec; auto. Qed.
Print Assumptions C18_split_sql.
(** for a text with closed quotations: the statements joined by the separator give
    the text back, every separator in an unquoted part has been cut, and no quotation has *)
Theorem C18_split_sql_closed : forall U l c, unicode_ok U -> wf_parts U l -> exists pieces strs,
  split_sql U (render l) [c] = Ok pieces /\ split_sql_str U (render l) [c] = Ok strs /\ py_join [c] strs = render l /\
  Forall (Forall (sep_free c)) pieces /\ quotes_of (concat pieces) = quotes_of l.
Proof.
  intros U l c HU W. destruct (split_sql_spec U (render l) c HU) as (pieces & strs & total & H1 & H2 & H3 & H4 & H5 & H6).
  rewrite str_split_render in H3, H6 by auto. exists pieces, strs. do 2 (split; [assumption|]). split; [|auto]. rewrite H4.
  clear - W H3. assert (G : forall n l s e r, length l = n -> wf_parts U l -> unsplit_go s e l = Ok r -> r = s ++ e ++ render l).
  { clear. induction n as [n IH] using lt_wf_ind. intros l s e r Hn W H. destruct l as [|[u|] l]; cbn in W; try contradiction. destruct W as (_ & W).
    destruct l as [|[|q b] l]; [| contradiction |]; cbn [unsplit_go] in H.
    - injection H as <-. unfold render. cbn. rewrite app_nil_r. reflexivity.
    - destruct W as (_ & _ & _ & W). apply (IH (length l)) in H; auto; [|rewrite <- Hn; cbn [List.length]; lia]. rewrite H. unfold render. cbn [map concat render1]. unfold closing, end_quote.
      rewrite <- !app_assoc. reflexivity. }
  apply (G (length l) l [] [] total eq_refl W) in H3. exact H3.
Qed.
Print Assumptions C18_split_sql_closed.
(** a dollar quotation that spans lines is not recognised, and is cut *)
Theorem C18_multiline_dollar_refuted : forall U, unicode_ok U ->
  split_sql_str U (str "$$a" ++ [10] ++ str ";b$$") [59] = Ok [str "$$a" ++ [10]; str "b$$"].
Proof.
  intros U HU. unfold split_sql_str, split_sql, str_split.
  assert (W : forall c, 0 <= c < 128 -> u_word U c = ascii_alpha c || ascii_digit c || (c =? 95)) by apply (uo_word U HU).
  change (str "$$a" ++ [10] ++ str ";b$$") with ([36; 36; 97; 10; 59; 98] ++ [36; 36]). rewrite split_loop_eq.
  rewrite (search_Some U [36; 36; 97; 10; 59; 98] [36; 36] [] (Some [36; 36])); [reflexivity|auto| |reflexivity].
  intros v v' E N. do 6 (destruct v as [|? v]; [cbn in E; subst v'; cbn [qmatch app dollar_tag scan_word Z.eqb Pos.eqb]; rewrite ?W by lia; reflexivity || congruence|injection E as <- E]).
  destruct v, v'; discriminate || congruence.
Qed.
Print Assumptions C18_multiline_dollar_refuted.
(** a lower-case e'' literal is taken for a regular one, and cut after an escaped quote *)
Theorem C18_lowercase_e_refuted : forall U, unicode_ok U ->
  split_sql_str U (str "e'\';'") [59] = Ok [str "e'\'"; str "'"].
Proof.
  intros U HU. unfold split_sql_str, split_sql, str_split. rewrite split_loop_eq.
  change (str "e'\';'") with (str "e" ++ str "'\';'").
  rewrite (search_Some U (str "e") (str "'\';'") (str ";'") None); [|auto| |reflexivity].
  2:{ intros v v' E N. destruct v as [|? v]; [cbn in E; subst v'; reflexivity|]. injection E as <- E. destruct v, v'; discriminate || congruence. }
  cbn - [re_search quote_re split_loop split_sql_go]. rewrite split_loop_eq.
  change [59; 39] with ([59] ++ [39]).
  rewrite (search_Some U [59] [39] [] None); [|auto| |reflexivity].
  2:{ intros v v' E N. destruct v as [|? v]; [cbn in E; subst v'; reflexivity|]. injection E as <- E. destruct v, v'; discriminate || congruence. }
  reflexivity.
Qed.
Print Assumptions C18_lowercase_e_refuted.

(** non-vacuity *)
Example wf_parts_ex : wf_parts ascii_unicode
  [PU (str "select $1, "); PQ (str "$x$") (str "a;'b"); PU (str ", "); PQ (str "'") (str "it''s;"); PU (str " as "); PQ [34] (str "c;d"); PU (str "; select "); PQ (str "E'") (str "\';"); PU []].
Proof.
  cbn [wf_parts]. 
  assert (PL : forall t, forallb (fun c => negb ((c =? 39) || (c =? 34) || (c =? 36))) t = true -> plain t).
  { induction t as [|c t IH]; cbn [forallb plain]; auto. rewrite andb_true_iff. intros (H & Ht). split; [lia|]. split; [lia|]. split; [lia|auto]. }
  assert (PP : plain (str "select $1, ")).
  { cbn. do 7 (split; [lia|split; [lia|split; [lia|]]]). split; [lia|split; [lia|split; [intros _; eexists _, _; split; reflexivity|]]]. do 3 (split; [lia|split; [lia|split; [lia|]]]). exact I. }
  split; [exact PP|]. split; [discriminate|]. split.
  { right; right; right. split; [right; exists 120, []; repeat split; discriminate|]. split; [|reflexivity]. cbn. lia. }
  split; [discriminate|]. split; [apply PL; reflexivity|]. split.
  { intros _ [|? [|? v]] E; try discriminate. injection E. intros. destruct v; discriminate. }
  split.
  { left. split; [reflexivity|]. split; [cbn; repeat (first [apply d_pair|apply d_char; [discriminate|]|apply d_nil])|]. intros r. cbn. discriminate. }
  split; [discriminate|]. split; [apply PL; reflexivity|]. split; [discriminate|]. split.
  { right; left. split; [reflexivity|]. split; [cbn; repeat (first [apply d_pair|apply d_char; [discriminate|]|apply d_nil])|]. intros r. cbn. discriminate. }
  split; [discriminate|]. split; [apply PL; reflexivity|]. split; [discriminate|]. split.
  { right; right; left. split; [reflexivity|]. split; [cbn; repeat (first [apply e_bs|apply e_char; [discriminate|discriminate|]|apply e_nil])|]. intros r. cbn. discriminate. }
  split; [discriminate|]. cbn. auto.
Qed.
Example unicode_ok_ex : unicode_ok ascii_unicode.
Proof. exact ascii_unicode_ok. Qed.
Example ascii_lc_ex : Forall ascii_lc [str "my table"; str "col_1"].
Proof. repeat constructor; lia. Qed.
