(** StrProof2.v: what quote_re matches, and split/unsplit/split_sql. *)
From Verif Require Import PyStr RegexModel StrModel StrSpec BaseProof PBufferModel PBufferProof PyListProof PyStrProof StrProof.

(** ** what the expression matches, as direct scanners (rest after the match) *)
Fixpoint scan_q (q : Z) (s : text) : text :=
  match s with
  | [] => []
  | c :: r => if c =? q then match r with d :: r' => if d =? q then scan_q q r' else r | [] => [] end else scan_q q r
  end.
Fixpoint scan_e (s : text) : text :=
  match s with
  | [] => []
  | c :: r => if c =? 39 then match r with d :: r' => if d =? 39 then scan_e r' else r | [] => [] end
              else if c =? 92 then match r with d :: r' => if d =? 10 then scan_e r else scan_e r' | [] => [] end
              else scan_e r
  end.
Fixpoint scan_word (U : unicode) (s : text) : text * text :=
  match s with
  | c :: r => if u_word U c then let '(a, b) := scan_word U r in (c :: a, b) else ([], s)
  | [] => ([], [])
  end.
Definition dollar_tag (U : unicode) (s : text) : option text :=   (* s: after the first dollar *)
  match s with
  | c :: r => if c =? 36 then Some [36; 36]
              else if ascii_digit c then None
              else let '(w, r') := scan_word U r in
                   match r' with d :: _ => if d =? 36 then Some (36 :: c :: w ++ [36]) else None | [] => None end
  | [] => None
  end.
Fixpoint dollar_body (tag s : text) : option text :=
  if prefixb tag s then Some (skipn (length tag) s)
  else if at_eol s then Some s
  else match s with c :: r => if c =? 10 then None else dollar_body tag r | [] => None end.
Definition qmatch (U : unicode) (l : text) : option rst :=
  match l with
  | [] => None
  | c :: r =>
      if c =? 69 then match r with d :: r' => if d =? 39 then Some (scan_e r', None) else None | [] => None end
      else if c =? 39 then Some (scan_q 39 r, None)
      else if c =? 34 then Some (scan_q 34 r, None)
      else if c =? 36 then
        match dollar_tag U r with
        | Some tag => match dollar_body tag (skipn (length tag) l) with Some rest => Some (rest, Some tag) | None => None end
        | None => None
        end
      else None
  end.

(** ** star loops *)
Lemma star_quote q g : forall n s, (length s <= n)%nat ->
  star_m (re_m (X := rst) (RAlt (RLit [q; q]) (r_not q))) n (s, g) (fun s' => re_m (RAlt (RLit [q]) REol) s' Some) = Some (scan_q q s, g).
Proof.
  induction n as [n IH] using lt_wf_ind. intros s Hn. destruct s as [|c s].
  - destruct n; cbn; reflexivity.
  - destruct n as [|n]; [cbn in Hn; lia|]. cbn [length] in Hn. cbn [star_m]. cbn [re_m fst snd prefixb].
    cbn [scan_q]. rewrite (Z.eqb_sym q c). destruct (Z.eqb_spec c q) as [->|N]; cbn [andb].
    + destruct s as [|d s].
      * cbn; rewrite ?Z.eqb_refl; cbn; rewrite ?Z.eqb_refl; reflexivity.
      * rewrite (Z.eqb_sym q d). destruct (Z.eqb_spec d q) as [->|N].
        -- cbn [andb skipn length fst snd]. replace (Nat.ltb (length s) (S (S (length s)))) with true by (symmetry; apply Nat.ltb_lt; lia).
           rewrite IH; [reflexivity|lia|cbn in Hn; lia].
        -- cbn; rewrite ?Z.eqb_refl; cbn; rewrite ?Z.eqb_refl; reflexivity.
    + cbn [r_not re_m fst snd]. destruct (Z.eqb_spec c q); [congruence|]. cbn [negb fst snd length].
      replace (Nat.ltb (length s) (S (length s))) with true by (symmetry; apply Nat.ltb_lt; lia). rewrite IH; [reflexivity|lia|lia].
Qed.
Definition ebody : re := RAlt (RLit [39; 39]) (RAlt (RSeq (RLit [92]) r_dot) (r_not 39)).
Lemma ebody_step {X} c s g (k : rst -> option X) : re_m ebody (c :: s, g) k =
  if c =? 39 then match s with d :: s' => if d =? 39 then k (s', g) else None | [] => None end
  else if c =? 92 then match s with d :: s' => if d =? 10 then k (s, g) else match k (s', g) with Some x => Some x | None => k (s, g) end | [] => k ([], g) end
  else k (s, g).
Proof.
  unfold ebody, r_dot, r_not. cbn [re_m fst snd prefixb skipn length]. rewrite (Z.eqb_sym 39 c), (Z.eqb_sym 92 c).
  destruct (Z.eqb_spec c 39) as [->|N]; cbn [andb].
  - destruct s as [|d s]; [reflexivity|]. rewrite (Z.eqb_sym 39 d). destruct (Z.eqb_spec d 39); cbn; auto. destruct (k (s, g)); reflexivity.
  - destruct (Z.eqb_spec c 92) as [->|N2]; cbn [andb negb]; [|reflexivity].
    destruct s as [|d s]; [reflexivity|]. destruct (Z.eqb_spec d 10); cbn [negb]; reflexivity.
Qed.
Lemma star_escape g : forall n s, (length s <= n)%nat ->
  star_m (re_m (X := rst) ebody) n (s, g) (fun s' => re_m (RAlt (RLit [39]) REol) s' Some) = Some (scan_e s, g).
Proof.
  induction n as [n IH] using lt_wf_ind. intros s Hn. destruct s as [|c s].
  - destruct n; cbn; reflexivity.
  - destruct n as [|n]; [cbn in Hn; lia|]. cbn [length] in Hn. cbn [star_m]. rewrite ebody_step. cbn [fst].
    assert (G : (if (length s <? length (c :: s))%nat then
           star_m (re_m (X := rst) ebody) n (s, g) (fun s' => re_m (RAlt (RLit [39]) REol) s' Some) else None) = Some (scan_e s, g)).
    { cbn [length]. replace (Nat.ltb (length s) (S (length s))) with true by (symmetry; apply Nat.ltb_lt; lia). apply IH; lia. }
    cbn [scan_e]. destruct (Z.eqb_spec c 39) as [->|N].
    + destruct s as [|d s]; [reflexivity|]. destruct (Z.eqb_spec d 39) as [->|N2].
      * cbn [length]. replace (Nat.ltb (length s) (S (S (length s)))) with true by (symmetry; apply Nat.ltb_lt; lia).
        rewrite IH; [reflexivity|lia|cbn in Hn; lia].
      * reflexivity.
    + destruct (Z.eqb_spec c 92) as [->|N2]; [|rewrite G; reflexivity].
      destruct s as [|d s]; [rewrite G; reflexivity|]. destruct (Z.eqb_spec d 10) as [->|N3]; [rewrite G; reflexivity|].
      cbn [length]. replace (Nat.ltb (length s) (S (S (length s)))) with true by (symmetry; apply Nat.ltb_lt; lia).
      rewrite IH; [reflexivity|lia|cbn in Hn; lia].
Qed.
Lemma star_word U (k : rst -> option rst) g : (forall c r, u_word U c = true -> k (c :: r, g) = None) ->
  forall n s, (length s <= n)%nat ->
  star_m (re_m (RSet (u_word U))) n (s, g) k = k (snd (scan_word U s), g).
Proof.
  intros Hk. induction n as [|n IH]; intros s Hn.
  - destruct s; [reflexivity|cbn in Hn; lia].
  - destruct s as [|c s]; [reflexivity|]. cbn [length] in Hn. cbn [star_m re_m fst snd scan_word].
    destruct (u_word U c) eqn:E; [|reflexivity]. cbn [fst snd length].
    replace (Nat.ltb (length s) (S (length s))) with true by (symmetry; apply Nat.ltb_lt; lia).
    rewrite IH by lia. destruct (scan_word U s) as [a b]. cbn [snd]. destruct (k (b, g)); [reflexivity|]. apply Hk; auto.
Qed.
Lemma lazy_dollar tag : forall n s, (length s <= n)%nat ->
  lazy_m (re_m (X := rst) r_dot) n (s, Some tag) (fun s' => re_m (RAlt RBack REol) s' Some) =
  match dollar_body tag s with Some rest => Some (rest, Some tag) | None => None end.
Proof.
  induction n as [|n IH]; intros s Hn.
  - destruct s; [|cbn in Hn; lia]. cbn. destruct tag; reflexivity.
  - cbn [lazy_m re_m fst snd]. destruct s as [|c s]; cbn [dollar_body].
    + destruct (prefixb tag []); cbn; reflexivity.
    + destruct (prefixb tag (c :: s)); [reflexivity|]. destruct (at_eol (c :: s)); [reflexivity|].
      cbn [r_dot re_m fst snd]. destruct (Z.eqb_spec c 10); cbn [negb]; [reflexivity|]. cbn [fst snd length].
      replace (Nat.ltb (length s) (S (length s))) with true by (symmetry; apply Nat.ltb_lt; lia).
      cbn [length] in Hn. rewrite <- IH by lia. reflexivity.
Qed.
Lemma scan_word_split U s : s = fst (scan_word U s) ++ snd (scan_word U s) /\ forallb (u_word U) (fst (scan_word U s)) = true.
Proof.
  induction s as [|c s (IH1 & IH2)]; [split; reflexivity|]. cbn [scan_word]. destruct (u_word U c) eqn:E; [|split; reflexivity].
  destruct (scan_word U s) as [a b]. cbn [fst snd app forallb] in *. rewrite E, IH2. split; [f_equal; exact IH1|reflexivity].
Qed.
Lemma alt_E l : re_m (X := rst) (RSeq (RLit [69; 39]) (RSeq (RStar ebody) (RAlt (RLit [39]) REol))) (l, None) Some =
  if prefixb [69; 39] l then Some (scan_e (skipn 2 l), None) else None.
Proof.
  change (re_m (X := rst) (RSeq (RLit [69; 39]) (RSeq (RStar ebody) (RAlt (RLit [39]) REol))) (l, None) Some) with
    (if prefixb [69; 39] l then star_m (re_m (X := rst) ebody) (length (skipn 2 l)) (skipn 2 l, None) (fun s' => re_m (RAlt (RLit [39]) REol) s' Some) else None).
  rewrite star_escape by lia. reflexivity.
Qed.
Lemma alt_q q l : re_m (X := rst) (RSeq (RLit [q]) (RSeq (RStar (RAlt (RLit [q; q]) (r_not q))) (RAlt (RLit [q]) REol))) (l, None) Some =
  if prefixb [q] l then Some (scan_q q (skipn 1 l), None) else None.
Proof.
  change (re_m (X := rst) (RSeq (RLit [q]) (RSeq (RStar (RAlt (RLit [q; q]) (r_not q))) (RAlt (RLit [q]) REol))) (l, None) Some) with
    (if prefixb [q] l then star_m (re_m (X := rst) (RAlt (RLit [q; q]) (r_not q))) (length (skipn 1 l)) (skipn 1 l, None) (fun s' => re_m (RAlt (RLit [q]) REol) s' Some) else None).
  rewrite star_quote by lia. reflexivity.
Qed.
Definition nd (c : Z) : bool := negb (ascii_digit c || (c =? 36)).
Definition tag_re (U : unicode) : re := RSeq (RLit [36]) (RSeq (ROpt (RSeq (RSet nd) (RStar (RSet (u_word U))))) (RLit [36])).
Lemma tag_match U l (k : rst -> option rst) : unicode_ok U -> 
  re_m (tag_re U) (l, None) k =
  match l with
  | c :: r => if c =? 36 then match dollar_tag U r with Some tag => k (skipn (length tag) l, None) | None => None end else None
  | [] => None
  end.
Proof.
  intros HU. assert (W36 : u_word U 36 = false) by (rewrite (uo_word U HU) by lia; reflexivity).
  destruct l as [|c l]; [reflexivity|].
  change (re_m (tag_re U) (c :: l, None) k) with
    (if prefixb [36] (c :: l) then
      match re_m (RSet nd) (l, None) (fun s => re_m (RStar (RSet (u_word U))) s (fun s' => re_m (RLit [36]) s' k)) with
      | Some x => Some x | None => re_m (RLit [36]) (l, None) k end else None).
  cbn [prefixb]. rewrite (Z.eqb_sym 36 c), andb_true_r. destruct (Z.eqb_spec c 36) as [->|N]; [|reflexivity].
  destruct l as [|d l]; [reflexivity|].
  change (re_m (RSet nd) (d :: l, None) (fun s => re_m (RStar (RSet (u_word U))) s (fun s' => re_m (RLit [36]) s' k))) with
    (if nd d then star_m (re_m (RSet (u_word U))) (length l) (l, None) (fun s' => re_m (RLit [36]) s' k) else None).
  change (re_m (RLit [36]) (d :: l, None) k) with (if prefixb [36] (d :: l) then k (l, None) else None).
  cbn [prefixb dollar_tag]. rewrite (Z.eqb_sym 36 d), andb_true_r. unfold nd. destruct (Z.eqb_spec d 36) as [->|Nd].
  - rewrite orb_true_r. reflexivity.
  - rewrite orb_false_r. destruct (ascii_digit d); cbn [negb]; [reflexivity|].
    rewrite (star_word U (fun s' => re_m (RLit [36]) s' k)); [| |lia].
    2:{ intros x r Hx. cbn [re_m fst snd prefixb]. destruct (Z.eqb_spec 36 x) as [<-|]; [congruence|reflexivity]. }
    destruct (scan_word_split U l) as (E & _). destruct (scan_word U l) as [w r']. cbn [fst snd] in *. subst l.
    cbn [re_m fst snd]. destruct r' as [|e r']; [cbn; reflexivity|]. cbn [prefixb]. rewrite (Z.eqb_sym 36 e), andb_true_r.
    destruct (Z.eqb_spec e 36) as [->|]; [|reflexivity]. 
    cbn [skipn length]. rewrite app_length. cbn [length]. replace (length w + 1)%nat with (S (length w)) by lia. rewrite skipn_S_app.
    destruct (k (r', None)); reflexivity.
Qed.
Lemma alt_dollar U l : unicode_ok U -> re_m (X := rst) (RSeq (RGroup (tag_re U)) (RSeq (RLazy r_dot) (RAlt RBack REol))) (l, None) Some =
  match l with
  | c :: r => if c =? 36 then
      match dollar_tag U r with
      | Some tag => match dollar_body tag (skipn (length tag) l) with Some rest => Some (rest, Some tag) | None => None end
      | None => None
      end else None
  | [] => None
  end.
Proof.
  intros HU.
  change (re_m (X := rst) (RSeq (RGroup (tag_re U)) (RSeq (RLazy r_dot) (RAlt RBack REol))) (l, None) Some) with
    (re_m (tag_re U) (l, None) (fun s' => let s1 := (fst s', Some (firstn (length l - length (fst s')) l)) in
       lazy_m (re_m (X := rst) r_dot) (length (fst s')) s1 (fun s' => re_m (RAlt RBack REol) s' Some))).
  rewrite tag_match by auto. destruct l as [|c r]; [reflexivity|]. destruct (Z.eqb_spec c 36) as [->|]; [|reflexivity].
  destruct (dollar_tag U r) as [tag|] eqn:E; [|reflexivity]. cbn zeta. cbn [fst].
  assert (T : exists x, 36 :: r = tag ++ x).
  { unfold dollar_tag in E. destruct r as [|d r]; [discriminate|]. destruct (Z.eqb_spec d 36) as [->|]; [injection E as <-; exists r; reflexivity|].
    destruct (ascii_digit d); [discriminate|]. destruct (scan_word_split U r) as (Es & _). destruct (scan_word U r) as [w r']. cbn [fst snd] in Es.
    destruct r' as [|e r']; [discriminate|]. destruct (Z.eqb_spec e 36) as [->|]; [|discriminate]. injection E as <-. exists r'. subst r. cbn [app]. rewrite <- app_assoc. reflexivity. }
  destruct T as (x & T). rewrite T. rewrite skipn_app_exact by reflexivity.
  replace (firstn (length (tag ++ x) - length x) (tag ++ x)) with tag by (symmetry; apply firstn_app_exact; rewrite app_length; lia).
  apply lazy_dollar. lia.
Qed.
Lemma quote_re_match U l : unicode_ok U -> re_match (quote_re U) l = qmatch U l.
Proof.
  intros HU. unfold re_match.
  change (re_m (quote_re U) (l, None) Some) with
    (match re_m (X := rst) (RSeq (RLit [69; 39]) (RSeq (RStar ebody) (RAlt (RLit [39]) REol))) (l, None) Some with Some x => Some x | None =>
     match re_m (X := rst) (RSeq (RLit [39]) (RSeq (RStar (RAlt (RLit [39; 39]) (r_not 39))) (RAlt (RLit [39]) REol))) (l, None) Some with Some x => Some x | None =>
     match re_m (X := rst) (RSeq (RLit [34]) (RSeq (RStar (RAlt (RLit [34; 34]) (r_not 34))) (RAlt (RLit [34]) REol))) (l, None) Some with Some x => Some x | None =>
       re_m (X := rst) (RSeq (RGroup (tag_re U)) (RSeq (RLazy r_dot) (RAlt RBack REol))) (l, None) Some end end end).
  rewrite alt_E, !alt_q, alt_dollar by auto. destruct l as [|c l]; [reflexivity|].
  cbn [prefixb qmatch skipn]. rewrite (Z.eqb_sym 69 c), (Z.eqb_sym 39 c), (Z.eqb_sym 34 c), !andb_true_r.
  destruct (Z.eqb_spec c 69) as [->|N1]; cbn [andb Z.eqb Pos.eqb].
  - destruct l as [|d l]; [reflexivity|]. rewrite (Z.eqb_sym d 39), andb_true_r. change (match d with Z.pos q => (39 =? q)%positive | _ => false end) with (39 =? d). destruct (39 =? d); reflexivity.
  - destruct (c =? 39); [reflexivity|]. destruct (c =? 34); reflexivity.
Qed.

(** ** search *)
Lemma search_None U l : unicode_ok U -> (forall a b, l = a ++ b -> qmatch U b = None) -> re_search (quote_re U) l = None.
Proof.
  intros HU. induction l as [|c l IH]; intros H; cbn [re_search]; rewrite quote_re_match by auto.
  - rewrite (H [] []) by auto. reflexivity.
  - rewrite (H [] (c :: l)) by auto. rewrite IH; auto. intros a b E. apply (H (c :: a) b). rewrite E. reflexivity.
Qed.
Lemma search_Some U a l rest g : unicode_ok U -> (forall v v', a = v ++ v' -> v' <> [] -> qmatch U (v' ++ l) = None) -> qmatch U l = Some (rest, g) ->
  re_search (quote_re U) (a ++ l) = Some (a, firstn (length l - length rest) l, g, rest).
Proof.
  intros HU H Hm. induction a as [|c a IH].
  - cbn [app]. destruct l; cbn [re_search]; rewrite quote_re_match by auto; rewrite Hm; reflexivity.
  - cbn [app re_search]. rewrite quote_re_match by auto. change (c :: a ++ l) with ((c :: a) ++ l). rewrite (H [] (c :: a)) by (auto; discriminate).
    rewrite IH; [reflexivity|]. intros v v' E N. apply (H (c :: v) v'); auto. rewrite E. reflexivity.
Qed.
Lemma search_inv U l b m g after : unicode_ok U -> re_search (quote_re U) l = Some (b, m, g, after) ->
  exists l', l = b ++ l' /\ qmatch U l' = Some (after, g) /\ m = firstn (length l' - length after) l'.
Proof.
  intros HU. revert b m g after. induction l as [|c l IH]; intros b m g after; cbn [re_search]; rewrite quote_re_match by auto.
  - cbn. discriminate.
  - destruct (qmatch U (c :: l)) as [[r g']|] eqn:E.
    + intros [= <- <- <- <-]. exists (c :: l). repeat split; auto.
    + destruct (re_search (quote_re U) l) as [[[[b' m'] g'] r']|] eqn:E2; [|discriminate]. intros [= <- <- <- <-].
      destruct (IH _ _ _ _ eq_refl) as (l' & -> & H1 & H2). exists l'. repeat split; auto.
Qed.

(** ** the shape of a match *)
Lemma scan_q_shape q s : (exists b, s = b ++ q :: scan_q q s) \/ scan_q q s = [].
Proof.
  remember (length s) as n eqn:Hn. revert s Hn. induction n as [n IH] using lt_wf_ind. intros s ->. destruct s as [|c s]; [right; reflexivity|].
  cbn [scan_q]. destruct (Z.eqb_spec c q) as [->|N].
  - destruct s as [|d s]; [right; reflexivity|]. destruct (Z.eqb_spec d q) as [->|N2].
    + destruct (IH (length s) ltac:(cbn; lia) s eq_refl) as [(b & E)|E]; [left|right; exact E]. exists (q :: q :: b). cbn [app]. rewrite <- E. reflexivity.
    + left. exists []. reflexivity.
  - destruct (IH (length s) ltac:(cbn; lia) s eq_refl) as [(b & E)|E]; [left|right; exact E]. exists (c :: b). cbn [app]. rewrite <- E. reflexivity.
Qed.
Lemma scan_e_shape s : (exists b, s = b ++ 39 :: scan_e s) \/ scan_e s = [].
Proof.
  remember (length s) as n eqn:Hn. revert s Hn. induction n as [n IH] using lt_wf_ind. intros s ->. destruct s as [|c s]; [right; reflexivity|].
  cbn [scan_e]. assert (G : (exists b, c :: s = b ++ 39 :: scan_e s) \/ scan_e s = []).
  { destruct (IH (length s) ltac:(cbn; lia) s eq_refl) as [(b & E)|E]; [left|right; exact E]. exists (c :: b). cbn [app]. rewrite <- E. reflexivity. }
  destruct (Z.eqb_spec c 39) as [->|N].
  - destruct s as [|d s]; [right; reflexivity|]. destruct (Z.eqb_spec d 39) as [->|N2].
    + destruct (IH (length s) ltac:(cbn; lia) s eq_refl) as [(b & E)|E]; [left|right; exact E]. exists (39 :: 39 :: b). cbn [app]. rewrite <- E. reflexivity.
    + left. exists []. reflexivity.
  - destruct (Z.eqb_spec c 92) as [->|]; [|exact G]. destruct s as [|d s]; [right; reflexivity|]. destruct (d =? 10); [exact G|].
    destruct (IH (length s) ltac:(cbn; lia) s eq_refl) as [(b & E)|E]; [left|right; exact E]. exists (92 :: d :: b). cbn [app]. rewrite <- E. reflexivity.
Qed.
Lemma dollar_body_shape tag s rest : dollar_body tag s = Some rest ->
  (exists b, s = b ++ tag ++ rest) \/ (exists b, s = b ++ rest /\ at_eol rest = true).
Proof.
  induction s as [|c s IH]; cbn [dollar_body].
  - destruct (prefixb tag []) eqn:E.
    + intros [= <-]. left. exists []. apply prefixb_spec in E as (r & E). destruct tag; [|discriminate]. reflexivity.
    + intros [= <-]. right. exists []. split; reflexivity.
  - destruct (prefixb tag (c :: s)) eqn:E.
    + intros [= <-]. left. exists []. apply prefixb_spec in E as (r & E). rewrite E, skipn_app_exact by auto. reflexivity.
    + destruct (at_eol (c :: s)) eqn:E2; [intros [= <-]; right; exists []; auto|]. destruct (c =? 10); [discriminate|].
      intros H. destruct (IH H) as [(b & ->)|(b & -> & H1)]; [left|right]; exists (c :: b); auto.
Qed.
Lemma dollar_tag_shape U r tag : dollar_tag U r = Some tag -> (exists x, 36 :: r = tag ++ x) /\ exists t, tag = 36 :: t /\ t <> [].
Proof.
  unfold dollar_tag. destruct r as [|d r]; [discriminate|]. destruct (Z.eqb_spec d 36) as [->|]; [intros [= <-]; split; [exists r; reflexivity|exists [36]; split; [reflexivity|discriminate]]|].
  destruct (ascii_digit d); [discriminate|]. destruct (scan_word_split U r) as (Es & _). destruct (scan_word U r) as [w r']. cbn [fst snd] in Es.
  destruct r' as [|e r']; [discriminate|]. destruct (Z.eqb_spec e 36) as [->|]; [|discriminate]. intros [= <-]. split.
  - exists r'. subst r. cbn [app]. rewrite <- app_assoc. reflexivity.
  - exists (d :: w ++ [36]). split; [reflexivity|discriminate].
Qed.

(** opening and closing marks of a match, as computed by split() *)
Definition marks (dq : option text) (m : text) : text * text :=
  match dq with
  | Some d => (d, d)
  | None => match m with
            | q :: _ => if q =? 69 then ([69; 39], [39]) else ([q], [q])
            | [] => ([], [])
            end
  end.
Lemma match_shape U l rest g : qmatch U l = Some (rest, g) ->
  exists m quote ende, l = m ++ rest /\ marks g m = (quote, ende) /\ ende = end_quote quote /\ ende <> [] /\ (length ende <= length quote)%nat /\
    (quote = [39] \/ quote = [34] \/ quote = [69; 39] \/ exists t, quote = 36 :: t) /\
    ((exists b, m = quote ++ b ++ ende) \/ (exists b, m = quote ++ b /\ at_eol rest = true)).
Proof.
  destruct l as [|c r]; cbn [qmatch]; [discriminate|].
  destruct (Z.eqb_spec c 69) as [->|N].
  { destruct r as [|d r]; [discriminate|]. destruct (Z.eqb_spec d 39) as [->|]; [|discriminate]. intros [= <- <-].
    destruct (scan_e_shape r) as [(b & E)|E].
    - exists (69 :: 39 :: b ++ [39]), [69; 39], [39]. split; [cbn [app]; rewrite <- app_assoc; cbn [app]; rewrite <- E; reflexivity|].
      do 5 (split; [first [reflexivity|discriminate|cbn; lia|auto]|]). left. exists b. reflexivity.
    - exists (69 :: 39 :: r), [69; 39], [39]. rewrite E, app_nil_r. do 6 (split; [first [reflexivity|discriminate|cbn; lia|auto]|]).
      right. exists r. split; reflexivity. }
  assert (GQ : forall q, q = 39 \/ q = 34 -> Some (scan_q q r, @None text) = Some (rest, g) -> c = q ->
    exists m quote ende, c :: r = m ++ rest /\ marks g m = (quote, ende) /\ ende = end_quote quote /\ ende <> [] /\ (length ende <= length quote)%nat /\
    (quote = [39] \/ quote = [34] \/ quote = [69; 39] \/ exists t, quote = 36 :: t) /\
    ((exists b, m = quote ++ b ++ ende) \/ (exists b, m = quote ++ b /\ at_eol rest = true))).
  { intros q Hq [= <- <-] ->. assert (Hm : forall x, marks None (q :: x) = ([q], [q])) by (intros; cbn; destruct Hq; subst; reflexivity).
    assert (He : [q] = end_quote [q]) by (destruct Hq; subst; reflexivity).
    destruct (scan_q_shape q r) as [(b & E)|E].
    - exists (q :: b ++ [q]), [q], [q]. split; [cbn [app]; rewrite <- app_assoc; cbn [app]; rewrite <- E; reflexivity|].
      do 5 (split; [first [apply Hm|exact He|discriminate|cbn; lia|destruct Hq; subst; auto]|]). left. exists b. reflexivity.
    - exists (q :: r), [q], [q]. rewrite E, app_nil_r. do 6 (split; [first [reflexivity|apply Hm|exact He|discriminate|cbn; lia|destruct Hq; subst; auto]|]).
      right. exists r. split; reflexivity. }
  destruct (Z.eqb_spec c 39) as [->|N2]; [intros H; apply (GQ 39); auto|].
  destruct (Z.eqb_spec c 34) as [->|N3]; [intros H; apply (GQ 34); auto|].
  destruct (Z.eqb_spec c 36) as [->|N4]; [|discriminate].
  destruct (dollar_tag U r) as [tag|] eqn:Et; [|discriminate]. destruct (dollar_tag_shape _ _ _ Et) as ((x & Ex) & (t & Ht & Hn)).
  rewrite Ex, skipn_app_exact by auto. destruct (dollar_body tag x) as [rest'|] eqn:Eb; [|discriminate]. intros [= <- <-].
  assert (Hm : forall x, marks (Some tag) x = (tag, tag)) by reflexivity.
  assert (He : tag = end_quote tag) by (rewrite Ht; reflexivity).
  destruct (dollar_body_shape _ _ _ Eb) as [(b & ->)|(b & -> & He2)].
  - exists (tag ++ b ++ tag), tag, tag. split; [rewrite <- !app_assoc; reflexivity|]. 
    do 5 (split; [first [apply Hm|exact He|rewrite Ht; discriminate|lia|right; right; right; eauto]|]). left. exists b. reflexivity.
  - exists (tag ++ b), tag, tag. split; [rewrite <- !app_assoc; reflexivity|].
    do 5 (split; [first [apply Hm|exact He|rewrite Ht; discriminate|lia|right; right; right; eauto]|]). right. exists b. split; auto.
Qed.

Lemma split_loop_eq U fuel rest : split_loop U fuel rest =
  match re_search (quote_re U) rest with
  | None => [PU rest]
  | Some (before, m, dq, after) =>
      PU before ::
      if negb (seqb (pyslice m (len m - len (snd (marks dq m))) (len m)) (snd (marks dq m))) || (len m - len (snd (marks dq m)) =? 0)
      then [PQ (fst (marks dq m)) (skipn (length before + length (fst (marks dq m))) rest)]
      else PQ (fst (marks dq m)) (pyslice m (len (fst (marks dq m))) (len m - len (snd (marks dq m)))) ::
           match fuel with O => [] | S n => split_loop U n after end
  end.
Proof.
  destruct fuel; cbn [split_loop]; destruct (re_search (quote_re U) rest) as [[[[b m] g] a]|]; auto;
  destruct g as [d|]; [reflexivity| |reflexivity|];
  (destruct m as [|q m]; [reflexivity|]); unfold marks; destruct (q =? 69); reflexivity.
Qed.
Lemma pyslice_tail {A} (a b : list A) : pyslice (a ++ b) (len (a ++ b) - len b) (len (a ++ b)) = b.
Proof.
  rewrite <- (app_nil_r b) at 1. apply pyslice_app; rewrite ?len_app; lia.
Qed.
Lemma tail_shape {A} (m e : list A) : (length e <= length m)%nat -> pyslice m (len m - len e) (len m) = e -> exists a, m = a ++ e.
Proof.
  intros H E. exists (firstn (length m - length e) m). rewrite <- (firstn_skipn (length m - length e) m) at 1. f_equal.
  unfold len in E. rewrite pyslice_firstn_skipn in E by lia. rewrite firstn_all2 in E by (rewrite skipn_length; lia).
  rewrite <- E at 2. f_equal. lia.
Qed.
Lemma at_eol_search U a : unicode_ok U -> at_eol a = true -> re_search (quote_re U) a = None.
Proof.
  intros HU H. apply search_None; auto. intros x y E. destruct a as [|c a]; [destruct x, y; try discriminate; reflexivity|].
  assert (c = 10 /\ a = []) as (-> & ->) by (cbn in H; destruct c as [|p|p]; try discriminate; repeat (destruct p; try discriminate); destruct a; try discriminate; auto).
  destruct x as [|d x]; cbn in E.
  - subst y. reflexivity.
  - injection E as <- E. destruct x, y; try discriminate. reflexivity.
Qed.

Lemma seqb_false_or (a b : text) : negb (seqb a b) = false -> a = b.
Proof. rewrite negb_false_iff. apply seqb_eq. Qed.
Lemma unsplit_split_go U : unicode_ok U -> forall n rest s e, (length rest <= n)%nat ->
  unsplit_go s e (split_loop U n rest) = Ok (s ++ e ++ rest) \/
  exists x q d post, rest = x ++ q ++ d ++ post /\ (q = [69; 39] \/ exists t, q = 36 :: t) /\ (length d < length (closing q))%nat /\ at_eol post = true /\
    unsplit_go s e (split_loop U n rest) = Ok (s ++ e ++ x ++ q ++ closing q ++ post).
Proof.
  intros HU. induction n as [|n IH]; intros rest s e Hn.
  - destruct rest; [|cbn in Hn; lia]. left. reflexivity.
  - rewrite split_loop_eq. destruct (re_search (quote_re U) rest) as [[[[before m] g] after]|] eqn:E; [|left; reflexivity].
    destruct (search_inv _ _ _ _ _ _ HU E) as (l' & -> & Hm & Em).
    destruct (match_shape _ _ _ _ Hm) as (m' & quote & ende & -> & Hmarks & He & Hen & Hle & Hq & Hshape).
    assert (m = m') as -> by (rewrite Em; apply firstn_app_exact; rewrite app_length; lia). clear Em.
    rewrite Hmarks. cbn [fst snd].
    destruct (negb (seqb (pyslice m' (len m' - len ende) (len m')) ende) || (len m' - len ende =? 0)) eqn:Ec.
    + left. cbn [unsplit_go]. do 2 f_equal. 
      assert (exists y, m' = quote ++ y) as (y & ->) by (destruct Hshape as [(b & ->)|(b & -> & _)]; eauto).
      replace (skipn (length before + length quote) (before ++ (quote ++ y) ++ after)) with (y ++ after).
      { rewrite <- !app_assoc. reflexivity. }
      replace (before ++ (quote ++ y) ++ after) with ((before ++ quote) ++ y ++ after) by (rewrite <- !app_assoc; reflexivity).
      symmetry. apply skipn_app_exact. rewrite app_length. reflexivity.
    + apply orb_false_iff in Ec as (Ec & Ez). apply seqb_false_or in Ec. apply Z.eqb_neq in Ez.
      assert (Lm : (length quote <= length m')%nat) by (destruct Hshape as [(b & ->)|(b & -> & _)]; rewrite !app_length; lia).
      destruct (Nat.le_gt_cases (length quote + length ende) (length m')) as [Lfull|Lshort].
      * assert (exists b, m' = quote ++ b ++ ende) as (b & Eb).
        { destruct Hshape as [H|(b & -> & _)]; [exact H|]. destruct (tail_shape (quote ++ b) ende) as (a & Ea); [lia|exact Ec|].
          rewrite app_length in Lfull. exists (skipn (length quote) a). assert (La : (length quote <= length a)%nat) by (apply (f_equal (@List.length Z)) in Ea; rewrite !app_length in Ea; lia).
          assert (Eq : firstn (length quote) a = quote).
          { apply (f_equal (firstn (length quote))) in Ea. rewrite firstn_app_exact in Ea by auto. rewrite firstn_app in Ea.
            replace (length quote - length a)%nat with O in Ea by lia. cbn [firstn] in Ea. rewrite app_nil_r in Ea. auto. }
          rewrite Ea. rewrite app_assoc. f_equal. rewrite <- Eq at 1. symmetry. apply firstn_skipn. }
        subst m'. rewrite (pyslice_app quote b ende) by (rewrite ?len_app; lia).
        cbn [unsplit_go]. rewrite <- He. destruct (IH after (s ++ e ++ before ++ quote ++ b) ende) as [H|(x & q & d & post & H1 & H2 & H3 & H4 & H5)].
        { rewrite !app_length in Hn. assert (0 < length quote)%nat by (destruct ende; [congruence|cbn in Hle; lia]). lia. }
        -- left. rewrite H. f_equal. rewrite <- !app_assoc. reflexivity.
        -- right. exists (before ++ quote ++ b ++ ende ++ x), q, d, post. subst after. rewrite <- !app_assoc. do 4 (split; [auto|]). rewrite H5. f_equal. rewrite <- !app_assoc. reflexivity.
      * (* an unterminated stub *)
        destruct Hshape as [(b & ->)|(b & -> & Heol)]; [rewrite !app_length in Lshort; lia|].
        rewrite app_length in Lshort. right. exists before, quote, b, after. rewrite <- !app_assoc. split; [reflexivity|].
        assert (Q : quote = [69; 39] \/ exists t, quote = 36 :: t).
        { destruct Hq as [->|[->|[->|Hq]]]; auto; exfalso; cbn in He; subst ende; cbn [length] in Lshort; destruct b; cbn [length] in *; try lia; apply Ez; cbn; reflexivity. }
        split; [exact Q|]. assert (Ecl : closing quote = ende) by (rewrite He; reflexivity). rewrite Ecl. split; [lia|]. split; [exact Heol|].
        rewrite pyslice_neg_stop_empty; [|apply len_nonneg|unfold len in *; rewrite app_length in *; lia].
        rewrite split_loop_eq, at_eol_search by auto. cbn [unsplit_go]. rewrite <- He. f_equal. rewrite <- !app_assoc. cbn [app]. reflexivity.
Qed.
Lemma unsplit_split U s : unicode_ok U ->
  str_unsplit (str_split U s) = Ok s \/
  exists x q d post, s = x ++ q ++ d ++ post /\ (q = [69; 39] \/ exists t, q = 36 :: t) /\ (length d < length (closing q))%nat /\ at_eol post = true /\
    str_unsplit (str_split U s) = Ok (x ++ q ++ closing q ++ post).
Proof. intros HU. exact (unsplit_split_go U HU (length s) s [] [] (le_n _)). Qed.
