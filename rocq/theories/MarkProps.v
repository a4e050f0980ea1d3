(** MarkProps.v: C60 (the position marker), C61 (NOTIFY), C62 (the text of an exception) *)
From Verif Require Import Base BaseProof PyStr PyStrProof PyList PyDict PyDictProof PyInt PyIntProof Element3Model ExcModel MesgModel MarkModel MarkSpec MarkProof MarkProof2.
From Coq Require Import Sorting.Sorted Sorting.Permutation.
Open Scope Z_scope.

(** ** C60: if the server says that the error is at a character of a line of the query, the LINE entry of the statement shows
    that line, tabs as spaces, and below it a mark under that character, with the numbers of its line and column *)
Theorem C60_marker : forall linesep ps line post j error,
  lines_before (line ++ post) ps -> no_break line -> after_line post -> 0 <= j < len line ->
  dget (str "P") error = Some (str_int (len (written ps) + j + 1)) ->
  line_meta linesep error (written ps ++ line ++ post) =
    Some (blanks line ++ linesep ++ spaces j ++ str "^ [line " ++ str_int (len ps + 1) ++ str ", character " ++ str_int (j + 1) ++ str "] ").
Proof.
  intros linesep ps line post j error LB NB AL J E. unfold line_meta. rewrite E. pose proof (len_nonneg (written ps)).
  assert (SI : str_int (len (written ps) + j + 1) = str_nat (len (written ps) + j + 1)) by (unfold str_int; destruct (len (written ps) + j + 1 <? 0) eqn:X; [lia|reflexivity]).
  pose proof (str_nat_digits (len (written ps) + j + 1) ltac:(lia)) as AD. rewrite SI.
  assert (ID : isdigits (str_nat (len (written ps) + j + 1)) = true).
  { destruct AD as [NE F]. unfold isdigits. destruct (str_nat (len (written ps) + j + 1)); [congruence|]. apply forallb_forall. rewrite Forall_forall in F. intros x I. specialize (F x I). lia. }
  rewrite ID, (ascii_int_digits _ AD), str_nat_value by lia. f_equal. now apply line_entry_ok.
Qed.
Print Assumptions C60_marker.
(** every character of every text that is no line break is on such a line *)
Theorem C60_everywhere : forall q k c, nth_error q k = Some c -> ~ In c break_chars ->
  exists ps line post j, q = written ps ++ line ++ post /\ lines_before (line ++ post) ps /\ no_break line /\ after_line post /\
    0 <= j < len line /\ Z.of_nat k = len (written ps) + j.
Proof.
  assert (G : forall n q k c, (length q <= n)%nat -> nth_error q k = Some c -> ~ In c break_chars ->
    exists ps line post j, q = written ps ++ line ++ post /\ lines_before (line ++ post) ps /\ no_break line /\ after_line post /\
    0 <= j < len line /\ Z.of_nat k = len (written ps) + j).
  { assert (SPL : forall q, exists l t, q = l ++ t /\ no_break l /\ after_line t).
    { intros q. induction q as [|c q (l & t & -> & N & A)]; [exists [], []; repeat split; [constructor|now left]|].
      destruct (in_dec Z.eq_dec c break_chars) as [I|I].
      - exists [], (c :: l ++ t). repeat split; [constructor|]. right. now exists c, (l ++ t).
      - exists (c :: l), t. repeat split; [now constructor|exact A]. }
    induction n as [|n IH]; intros q k c LE H NC; [destruct q; [destruct k; discriminate|cbn [length] in LE; lia]|].
    destruct (SPL q) as (l & t & -> & N & A). destruct (Nat.lt_ge_cases k (length l)) as [K|K].
    - exists [], l, t, (Z.of_nat k). cbn [written map concat app]. repeat split; try assumption; try constructor; unfold len; cbn [length]; lia.
    - rewrite nth_error_app2 in H by exact K. destruct A as [-> | (b & r & -> & IB)]; [destruct (k - length l)%nat; discriminate|].
      assert (B : exists br r', b :: r = br ++ r' /\ line_break br /\ (br = [13] -> forall x, r' <> 10 :: x) /\ (forall i d, nth_error (b :: r) i = Some d -> ~ In d break_chars -> (length br <= i)%nat)).
      { destruct (Z.eq_dec b 13) as [E13|N13].
        - destruct r as [|d r]; [exists [b], []; repeat split; [right; eauto|discriminate|intros i d Hi Nd; destruct i; [injection Hi as <-; contradiction|cbn [length]; lia]]|].
          destruct (Z.eq_dec d 10) as [E10|N10].
          + exists [b; d], r. subst. repeat split; [now left|discriminate|]. intros i x Hi Nd. destruct i as [|[|i]]; [injection Hi as <-; contradiction|injection Hi as <-; exfalso; apply Nd; cbn; auto|cbn [length]; lia].
          + exists [b], (d :: r). repeat split; [right; eauto|intros _ x E; injection E as -> _; contradiction|intros i x Hi Nd; destruct i; [injection Hi as <-; contradiction|cbn [length]; lia]].
        - exists [b], r. repeat split; [right; eauto|intros E; injection E as ->; contradiction|intros i d Hi Nd; destruct i; [injection Hi as <-; contradiction|cbn [length]; lia]]. }
      destruct B as (br & r' & E & LBr & CR & IX). rewrite E in *.
      pose proof (IX _ _ H NC) as K2. rewrite nth_error_app2 in H by exact K2.
      assert (BL : (0 < length br)%nat) by (destruct LBr as [-> | (x & -> & _)]; cbn [length]; lia).
      destruct (IH r' (k - length l - length br)%nat c) as (ps & line & post & j & Eq & LB & NBk & AL & J & Kj); [rewrite !app_length in LE; lia|exact H|exact NC|].
      exists ((l, br) :: ps), line, post, j. split; [unfold written in *; cbn [map concat fst snd]; rewrite Eq, <- !app_assoc; reflexivity|].
      split; [constructor; [exact N|exact LBr| |exact LB]|].
      + intros Eb x. rewrite <- Eq. now apply CR.
      + repeat split; try assumption; try lia. unfold written in *. cbn [map concat fst snd]. rewrite !len_app. unfold len in *. lia. }
  intros q k c. now apply (G (length q)).
Qed.
Print Assumptions C60_everywhere.

(** ** C61: notify() asks for exactly the given notifications, in the given order, whatever the names and payloads contain *)
Theorem C61_notify : forall channels channel_and_payload,
  read_notifies (length channels + length channel_and_payload) (notify_sql channels channel_and_payload) =
    Some (channels ++ map (fun x => (fst x, Some (snd x))) channel_and_payload).
Proof. intros chans kw. rewrite notify_concat. apply read_all. rewrite app_length, map_length. lia. Qed.
Print Assumptions C61_notify.
(** listen() and unlisten() do not quote: a channel that notify() names is not what they name *)
Theorem C61_listen_refuted : exists channel, read_notifies 1 (notify_sql [(channel, None)] []) = Some [(channel, None)] /\
  listen_sql (str "LISTEN") [channel] = Ok (str "; LISTEN a; DROP TABLE t").
Proof. exists (str "a; DROP TABLE t"). split; reflexivity. Qed.
Print Assumptions C61_listen_refuted.
(** what they do send, for names without quotes and not too long *)
Theorem C61_listen_partial : forall word channels, Forall (fun c => ~ In 34 c /\ len c <= 63) channels ->
  listen_sql word channels = Ok (concat (map (fun c => str "; " ++ word ++ str " " ++ c) channels)).
Proof.
  intros word channels F. unfold listen_sql. assert (G : forall acc, fold_left (fun r x => do q <- r; if 63 <? len x then Err ValueError else Ok (q ++ str "; " ++ word ++ str " " ++ py_replace (str """") (str """""") x)) channels (Ok acc) =
    Ok (acc ++ concat (map (fun c => str "; " ++ word ++ str " " ++ c) channels))).
  { induction F as [|c l (N & L) _ IH]; intros acc; cbn [fold_left map concat]; [now rewrite app_nil_r|]. cbn [bind]. destruct (63 <? len c) eqn:E; [lia|].
    assert (R : py_replace (str """") (str """""") c = c).
    { pose proof (replace1 34 (str """""") c) as R. change [34] with (str """") in R. rewrite R. clear - N. induction c as [|x c IH]; [reflexivity|]. cbn [flat_map].
      rewrite IH by (intros I; apply N; now right). destruct (Z.eqb_spec x 34) as [->|]; [exfalso; apply N; now left|reflexivity]. }
    rewrite R, IH, <- !app_assoc. reflexivity. }
  apply (G []).
Qed.
Print Assumptions C61_listen_partial.
(** a name over 63 characters is refused and nothing is sent *)
Theorem C61_listen_long : forall word a c b, 63 < len c -> Forall (fun x => len x <= 63) a -> listen_sql word (a ++ c :: b) = Err ValueError.
Proof.
  intros word a c b L F. unfold listen_sql. rewrite fold_left_app. cbn [fold_left].
  assert (E : forall l, fold_left (fun r x => do q <- r; if 63 <? len x then Err ValueError else Ok (q ++ str "; " ++ word ++ str " " ++ py_replace (str """") (str """""") x)) l (Err ValueError) = Err ValueError) by (induction l as [|x l IH]; [reflexivity|exact IH]).
  match goal with |- fold_left _ b ?X = _ => assert (EX : X = Err ValueError) end; [|rewrite EX; apply E].
  match goal with |- bind ?X _ = _ => destruct X eqn:EE end.
  - cbn [bind]. destruct (63 <? len c) eqn:Q; [reflexivity|lia].
  - exfalso. revert EE. generalize (@nil Z) as acc. induction F as [|x l H _ IH]; intros acc EE; [discriminate|]. cbn [fold_left] in EE. cbn [bind] in EE. destruct (63 <? len x) eqn:Q; [lia|]. eapply IH. exact EE.
Qed.
Print Assumptions C61_listen_long.

(** ** C62: the text of an exception is the message, then an entry each for the code, the place and every detail that is not
    part of the place or the severity, sorted by name, then the description of its creator *)
Theorem C62_text : forall linesep py_repr upper after e,
  exists code place details, default_errformat linesep py_repr upper after e = m_message e ++ concat (map (entry linesep) (code ++ [place] ++ details)) ++ after /\
    (code = [(str "CODE", m_code e)] \/ code = [] /\ (m_code e = [] \/ m_code e = str "00000")) /\
    fst place = str "LOCATION" /\ (exists p, snd place = p ++ m_source e) /\
    (exists own, details = map (fun kv => (concat (map upper (fst kv)), snd kv)) own /\ Sorted (fun a b => text_le (fst a) (fst b)) own /\
       (forall kv, In kv own <-> In kv (m_details e) /\ own_line (fst kv)) /\ (NoDup (m_details e) -> NoDup own)).
Proof.
  intros linesep py_repr upper after e.
  exists (if negb (seqb (m_code e) []) && negb (seqb (m_code e) (str "00000")) then [(str "CODE", m_code e)] else []).
  exists (str "LOCATION", if seqb (location_string py_repr (m_details e)) [] then m_source e else location_string py_repr (m_details e) ++ str " from " ++ m_source e).
  exists (map (fun kv => (concat (map upper (fst kv)), snd kv)) (filter (fun kv => negb (existsb (seqb (fst kv)) standard_detail_coverage)) (sort_keys (m_details e)))).
  split; [|split; [|split; [reflexivity|split; [|]]]].
  - unfold default_errformat, e_metas. rewrite (filter_flat (fun k => concat (map upper k))). rewrite <- join_entries by (destruct (negb (seqb (m_code e) []) && negb (seqb (m_code e) (str "00000"))); discriminate).
    now rewrite <- !app_assoc.
  - destruct (seqb_spec (m_code e) []); [right; auto|]. destruct (seqb_spec (m_code e) (str "00000")); [right; auto|left; reflexivity].
  - cbn [snd]. destruct (seqb (location_string py_repr (m_details e)) []); [now exists []|]. exists (location_string py_repr (m_details e) ++ str " from "). now rewrite <- app_assoc.
  - exists (filter (fun kv => negb (existsb (seqb (fst kv)) standard_detail_coverage)) (sort_keys (m_details e))). split; [reflexivity|]. split; [|split].
    + apply (filter_sorted (V := text)); [exact text_le_trans|apply sort_sorted].
    + intros kv. rewrite filter_In, negb_true_iff, covered_spec. split; intros [I O]; (split; [|exact O]); [apply (Permutation_in _ (Permutation_sym (sort_perm _)) I)|apply (Permutation_in _ (sort_perm _) I)].
    + intros ND. apply NoDup_filter. eapply Permutation_NoDup; [apply sort_perm|exact ND].
Qed.
Print Assumptions C62_text.
(** where the error was raised: file, line and function if any is known *)
Theorem C62_place : forall py_repr details f n fn, dget (str "file") details = Some f -> dget (str "line") details = Some n -> dget (str "function") details = Some fn ->
  f <> str "?" -> location_string py_repr details = str "File " ++ py_repr f ++ str ", line " ++ n ++ str ", in " ++ fn.
Proof.
  intros py_repr details f n fn F N FN NE. unfold location_string. cbn [map]. rewrite F, N, FN. cbn [forallb]. destruct (seqb_spec (str "?") f); [congruence|]. reflexivity.
Qed.
Print Assumptions C62_place.

(** ** the hypotheses are met *)
Definition ex_ps : list (text * text) := [(str "SELECT", [13; 10]); ([], [13])].
Definition ex_line : text := 9 :: str "foo".
Example ex_before : lines_before (ex_line ++ [10] ++ str "FROM t") ex_ps /\ no_break ex_line /\ after_line ([10] ++ str "FROM t") /\ 0 <= 1 < len ex_line.
Proof.
  split; [|split; [|split]].
  - constructor; [unfold no_break, break_chars; repeat constructor; cbn; intuition discriminate|now left|discriminate|].
    constructor; [constructor|right; exists 13; split; [reflexivity|cbn; tauto]|intros _ r; discriminate|constructor].
  - unfold no_break, break_chars. repeat constructor; cbn; intuition discriminate.
  - right. exists 10, (str "FROM t"). split; [reflexivity|cbn; tauto].
  - cbn. lia.
Qed.
Example ex_marker : line_meta [10] [(str "P", str "11")] (written ex_ps ++ ex_line ++ [10] ++ str "FROM t") = Some (str " foo" ++ [10] ++ str " ^ [line 3, character 2] ").
Proof. vm_compute. reflexivity. Qed.
Example ex_position : str "11" = str_int (len (written ex_ps) + 1 + 1). Proof. reflexivity. Qed.
Example ex_notify : notify_sql [(str "a", None); (str "b""c", Some (str "it's"))] [(str "d", str "x;y")] = str "NOTIFY ""a"";NOTIFY ""b""""c"",'it''s';NOTIFY ""d"",'x;y';".
Proof. reflexivity. Qed.
Example ex_listen : listen_sql (str "LISTEN") [str "a"; str "b"] = Ok (str "; LISTEN a; LISTEN b"). Proof. reflexivity. Qed.
Example ex_text : default_errformat [10] (fun x => str "'" ++ x ++ str "'") (fun c => [if ascii_lowerc c then c - 32 else c]) []
   {| m_class := None; m_message := str "bad"; m_code := str "22012"; m_details := [(str "severity", str "ERROR"); (str "position", str "8"); (str "hint", str "look"); (str "file", str "x.c"); (str "line", str "7"); (str "function", str "f")];
      m_source := str "SERVER"; m_creator := O; m_database := O |} =
   str "bad" ++ [10] ++ str "  CODE: 22012" ++ [10] ++ str "  LOCATION: File 'x.c', line 7, in f from SERVER" ++ [10] ++ str "  HINT: look" ++ [10] ++ str "  POSITION: 8".
Proof. vm_compute. reflexivity. Qed.
