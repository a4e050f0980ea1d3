(** ElemProps.v: C85, element tracebacks *)
From Verif Require Import Base BaseProof PyStr PyStrProof MarkModel MarkSpec MarkProof ElemModel ElemSpec ElemProof.

Section heap.
Context (U : unicode) (heap : list obj) (same : nat -> nat -> bool).
Local Notation format := (format U heap same). Local Notation format_element := (format_element U heap same).
(** ** enough fuel *)
Definition enough (fuel : nat) (cov : list nat) : Prop := NoDup cov /\ Forall (fun x => labelled heap x = true) cov /\ (length heap < fuel + length cov)%nat.
Lemma labelled_in x : labelled heap x = true -> (x < length heap)%nat.
Proof. unfold labelled, look. intros H. destruct (Nat.lt_ge_cases x (length heap)) as [L|L]; [exact L|]. rewrite nth_overflow in H by exact L. discriminate. Qed.
Lemma cov_bound cov : NoDup cov -> Forall (fun x => labelled heap x = true) cov -> (length cov <= length heap)%nat.
Proof.
  intros N F. rewrite <- (seq_length (length heap) 0). apply NoDup_incl_length; [exact N|]. intros x I. rewrite Forall_forall in F. apply in_seq. split; [lia|]. apply labelled_in, F, I.
Qed.
Context (refl : forall o, same o o = true).
Lemma enough_step fuel cov o label fs metas : enough (S fuel) cov -> existsb (same o) cov = false -> look heap o = OElem label fs metas -> enough fuel (cov ++ [o]).
Proof.
  intros (N & F & L) E K. split; [|split].
  - rewrite <- (app_nil_r (cov ++ [o])), <- app_assoc. apply NoDup_Add with (a := o) (l := cov); [|split; [exact N|]].
    + rewrite app_nil_r. rewrite <- (app_nil_r cov) at 1. apply Add_app.
    + intros I. enough (existsb (same o) cov = true) by congruence. apply existsb_exists. exists o. auto.
  - apply Forall_app. split; [exact F|]. repeat constructor. unfold labelled. rewrite K. reflexivity.
  - rewrite app_length. cbn [length]. lia.
Qed.
Lemma enough_pos cov : ~ enough 0 cov.
Proof. intros (N & F & L). pose proof (cov_bound cov N F). lia. Qed.
(** ** mapM *)
Lemma mapM_err {A B} (f : A -> res B) l e : mapM f l = Err e -> exists x, In x l /\ f x = Err e.
Proof.
  induction l as [|x l IH]; cbn [mapM]; [discriminate|]. destruct (f x) as [y|e0] eqn:E; cbn [bind].
  - destruct (mapM f l) as [ys|e1] eqn:M; cbn [bind]; [discriminate|]. intros H. injection H as ->. destruct (IH eq_refl) as (z & I & Z). exists z. split; [now right|exact Z].
  - intros H. injection H as ->. exists x. split; [now left|exact E].
Qed.
Lemma mapM_only {A B} (f : A -> res B) l e : (forall x, In x l -> (exists y, f x = Ok y) \/ f x = Err e) -> (exists x, In x l /\ f x = Err e) -> mapM f l = Err e.
Proof.
  induction l as [|x l IH]; intros H (z & I & E); [destruct I|]. cbn [mapM]. destruct (H x (or_introl eq_refl)) as [(y & Y)|Y]; rewrite Y; cbn [bind]; [|reflexivity].
  destruct I as [->|I]; [congruence|]. rewrite IH; [reflexivity|intros w W; apply H; now right|eauto].
Qed.
Lemma mapM_same {A B} (f g : A -> res B) l : (forall x, In x l -> f x = g x) -> mapM f l = mapM g l.
Proof. induction l as [|x l IH]; intros H; [reflexivity|]. cbn [mapM]. rewrite (H x (or_introl eq_refl)), IH; [reflexivity|]. intros y I. apply H. now right. Qed.
Lemma bind_err {A B} (r : res A) (f : A -> res B) e : bind r f = Err e -> r = Err e \/ exists a, r = Ok a /\ f a = Err e.
Proof. destruct r as [a|e0]; cbn [bind]; intros H; [right; eauto|left; congruence]. Qed.

Lemma outcomes fuel : forall cov o, enough fuel cov -> (exists t, format fuel cov o = Ok t) \/ format fuel cov o = Err RecursiveFactor \/ format fuel cov o = Err AttributeError.
Proof.
  induction fuel as [|fuel IH]; intros cov o EN; [destruct (enough_pos _ EN)|]. cbn [ElemModel.format]. destruct (existsb (same o) cov) eqn:EX; [auto|].
  destruct (look heap o) as [|s|label fs metas] eqn:L; [eauto|eauto|]. pose proof (enough_step _ _ _ _ _ _ EN EX L) as EN'.
  destruct (mapM _ (tl fs)) as [svals|e] eqn:M; cbn [bind].
  - destruct fs as [|[name [p|]] fs]; [eauto| |eauto]. destruct (IH _ p EN') as [(t & ->)|[-> | ->]]; cbn [bind]; eauto.
  - apply mapM_err in M as (f & _ & M). destruct (snd f) as [p|]; [|right; right; congruence]. destruct (IH _ p EN') as [(t & E)|[E|E]]; rewrite E in M; cbn [bind] in M; [discriminate| |]; right; [left|right]; congruence.
Qed.
Lemma more_fuel fuel : forall n cov o, enough fuel cov -> format (fuel + n) cov o = format fuel cov o.
Proof.
  induction fuel as [|fuel IH]; intros n cov o EN; [destruct (enough_pos _ EN)|]. change (S fuel + n)%nat with (S (fuel + n)). cbn [ElemModel.format]. destruct (existsb (same o) cov) eqn:EX; [auto|].
  destruct (look heap o) as [|s|label fs metas] eqn:L; [reflexivity|reflexivity|]. pose proof (enough_step _ _ _ _ _ _ EN EX L) as EN'.
  rewrite (mapM_same _ (fun f => match snd f with None => Err AttributeError | Some p => do sval <- format fuel (cov ++ [o]) p; Ok (factor_text U (fst f) sval) end)).
  - destruct (mapM _ (tl fs)); cbn [bind]; [|reflexivity]. destruct fs as [|[name [p|]] fs]; [reflexivity| |reflexivity]. rewrite IH by exact EN'. reflexivity.
  - intros f _. destruct (snd f); [|reflexivity]. rewrite IH by exact EN'. reflexivity.
Qed.
Lemma enough_start : enough (S (length heap)) [].
Proof. split; [constructor|]. split; [constructor|]. cbn [length]. lia. Qed.

(** ** recursion *)
Inductive loops : list nat -> nat -> Prop :=
| lp_here cov o x : In x cov -> same o x = true -> loops cov o
| lp_step cov o p : edge heap o p -> loops (cov ++ [o]) p -> loops cov o.
Lemma recursive_format fuel : complete heap -> forall cov o, enough fuel cov -> ((exists t, format fuel cov o = Ok t) /\ ~ loops cov o) \/ (format fuel cov o = Err RecursiveFactor /\ loops cov o).
Proof.
  intros CO. induction fuel as [|fuel IH]; intros cov o EN; [destruct (enough_pos _ EN)|]. cbn [ElemModel.format]. destruct (existsb (same o) cov) eqn:EX.
  { right. split; [reflexivity|]. apply existsb_exists in EX as (x & I & E). exact (lp_here _ _ x I E). }
  assert (NH : forall x, In x cov -> same o x = true -> False).
  { intros x I E. enough (existsb (same o) cov = true) by congruence. apply existsb_exists. eauto. }
  destruct (look heap o) as [|s|label fs metas] eqn:L.
  1,2: left; split; [eauto|]; intros LP; inversion LP as [? ? x I E|? ? p (l & f & m & n & K & _) _]; subst; [exact (NH x I E)|congruence].
  pose proof (enough_step _ _ _ _ _ _ EN EX L) as EN'.
  set (F := fun f : text * option nat => match snd f with None => Err AttributeError | Some p => do sval <- format fuel (cov ++ [o]) p; Ok (factor_text U (fst f) sval) end).
  assert (EF : forall f, In f fs -> exists p, snd f = Some p /\ edge heap o p /\ ((exists y, F f = Ok y) /\ ~ loops (cov ++ [o]) p \/ F f = Err RecursiveFactor /\ loops (cov ++ [o]) p)).
  { intros [name p] I. destruct p as [p|]; [|destruct (CO _ _ _ _ _ _ L I eq_refl)]. exists p. split; [reflexivity|]. split; [exists label, fs, metas, name; auto|]. unfold F. cbn [snd].
    destruct (IH (cov ++ [o]) p EN') as [((t & ->) & N)|(-> & Y)]; cbn [bind]; [left|right]; eauto. }
  assert (TI : forall f, In f (tl fs) -> In f fs) by (intros f I; destruct fs; [exact I|now right]).
  destruct (mapM F (tl fs)) as [svals|e] eqn:M; cbn [bind].
  - assert (NT : forall f p, In f (tl fs) -> snd f = Some p -> ~ loops (cov ++ [o]) p).
    { intros f p I E LP. destruct (EF f (TI f I)) as (p' & E' & _ & [(_ & N)|(R & _)]); [congruence|].
      assert (mapM F (tl fs) = Err RecursiveFactor); [|congruence]. apply mapM_only; [|eauto]. intros g G. destruct (EF g (TI g G)) as (q & _ & _ & [((y & Y) & _)|(Y & _)]); [eauto|].
      right. exact Y. }
    destruct fs as [|[name p] fs]; [left; split; [eauto|]; intros LP; inversion LP as [? ? x I E|? ? p (l & f & m & n & K & I) _]; subst; [exact (NH x I E)|]; rewrite K in L; injection L as -> -> ->; exact I|].
    destruct p as [p|]; [|destruct (CO _ _ _ _ _ _ L (or_introl eq_refl) eq_refl)].
    destruct (IH (cov ++ [o]) p EN') as [((t & ->) & N)|(-> & Y)]; cbn [bind].
    + left. split; [eauto|]. intros LP. inversion LP as [? ? x I E|? ? q (l & f & m & n & K & I) LQ]; subst; [exact (NH x I E)|]. rewrite K in L. injection L as -> -> ->.
      destruct I as [I|I]; [injection I as _ ->; exact (N LQ)|exact (NT _ q I eq_refl LQ)].
    + right. split; [reflexivity|]. apply lp_step with (p := p); [|exact Y]. exists label, ((name, Some p) :: fs), metas, name. split; [exact L|now left].
  - right. destruct (mapM_err _ _ _ M) as (f & I & E). destruct (EF f (TI f I)) as (p & _ & ED & [((y & Y) & _)|(Y & LP)]); [congruence|].
    split; [congruence|]. exact (lp_step _ _ _ ED LP).
Qed.
Lemma loops_path cov o : loops cov o -> exists q y x, path heap (q ++ [y]) /\ hd_error (q ++ [y]) = Some o /\ In x (cov ++ q) /\ same y x = true.
Proof.
  induction 1 as [cov o x I E|cov o p ED _ (q & y & x & P & H & I & E)].
  - exists [], o, x. rewrite app_nil_r. split; [constructor|]. auto.
  - exists (o :: q), y, x. cbn [app]. rewrite <- app_assoc in I. split; [|auto]. destruct (q ++ [y]) as [|z r]; [discriminate|]. injection H as ->. constructor; assumption.
Qed.
Lemma path_loops q : forall cov o y x, path heap (q ++ [y]) -> hd_error (q ++ [y]) = Some o -> In x (cov ++ q) -> same y x = true -> loops cov o.
Proof.
  induction q as [|a q IH]; intros cov o y x P H I E; cbn [app hd_error] in H; injection H as ->.
  - rewrite app_nil_r in I. exact (lp_here _ _ x I E).
  - cbn [app] in P. remember (q ++ [y]) as q' eqn:EQ. assert (Q : exists b l, q' = b :: l /\ edge heap o b /\ path heap (b :: l)) by (inversion P; subst; [destruct q; discriminate|eauto]). destruct Q as (b & l & -> & ED & PL).
    apply lp_step with (p := b); [exact ED|]. apply (IH _ b y x); [| | |exact E].
    + rewrite <- EQ. exact PL.
    + rewrite <- EQ. reflexivity.
    + rewrite <- app_assoc. exact I.
Qed.
Lemma loops_recursive o : loops [] o <-> recursive heap same o.
Proof.
  split.
  - intros LP. destruct (loops_path _ _ LP) as (q & y & x & P & H & I & E). cbn [app] in I. destruct q as [|a q]; [destruct I|]. cbn [app hd_error] in *. injection H as ->. exists q, x, y. auto.
  - intros (l & x & y & P & I & E). exact (path_loops (o :: l) [] o y x P eq_refl I E).
Qed.

(** ** the text *)
Context (HU : unicode_ok U).
Lemma own_value_ok label metas fs tail : no_break label -> metas_ok U metas -> Forall (fun f => no_break (fst f) /\ value_ok (snd f)) fs ->
  tail = [] \/ (exists t, tail = [10] ++ t) -> value_ok (text_of (own_lines U label metas fs) ++ tail).
Proof.
  intros NL M F [-> | (t & ->)]; [|left; right; apply in_or_app; right; now left]. rewrite app_nil_r. unfold text_of.
  assert (H : exists l ls, own_lines U label metas fs = l :: ls /\ no_break l).
  { destruct M as [K|(v & c & r & rest & -> & EV & SC & NB & K)].
    - unfold own_lines. destruct metas as [|[[k|] v] l]; [eexists _, _; split; [reflexivity|]|eexists _, _; split; [reflexivity|]|inversion K as [|? ? (k & E & _) _]; discriminate];
        (apply no_break_app; split; [exact NL|exact no_break_colon]).
    - eexists _, _; split; [reflexivity|]. apply no_break_app; split; [exact NL|]. apply no_break_app; split; [exact no_break_colon2|]. apply no_break_rstrip; assumption. }
  destruct H as (l & ls & -> & N). destruct ls as [|m ls]; [right; exact N|]. left. right. rewrite py_join_cons by discriminate. apply in_or_app. right. now left.
Qed.
Lemma none_ok : value_ok (str "None"). Proof. right. repeat constructor; cbn; intuition discriminate. Qed.
Lemma format_shows fuel : Forall (obj_ok U) heap -> forall cov o t, format fuel cov o = Ok t -> shows U heap o t /\ value_ok t.
Proof.
  intros OK. assert (LO : forall o, obj_ok U (look heap o)).
  { intros o. unfold look. destruct (nth_in_or_default o heap ONone) as [I| ->]; [|exact Logic.I]. rewrite Forall_forall in OK. exact (OK _ I). }
  induction fuel as [|fuel IH]; intros cov o t; cbn [ElemModel.format]; [discriminate|]. destruct (existsb (same o) cov); [discriminate|]. pose proof (LO o) as OO.
  destruct (look heap o) as [|s|label fs metas] eqn:L.
  - intros E. injection E as <-. split; [now constructor|exact none_ok].
  - intros E. injection E as <-. split; [now constructor|exact OO].
  - intros E. destruct OO as (NL & NF & MO). apply bind_Ok in E as (texts & M & E). apply mapM_Forall2 in M.
    assert (G : exists svals, texts = map (fun f => factor_text U (fst f) (snd f)) (combine (map fst (tl fs)) svals) /\
      Forall2 (fun f s => exists p, snd f = Some p /\ shows U heap p s) (tl fs) svals /\ Forall (fun f => no_break (fst f) /\ value_ok (snd f)) (combine (map fst (tl fs)) svals)).
    { assert (NT : Forall (fun f => no_break (fst f)) (tl fs)) by (destruct fs; [constructor|inversion NF; assumption]). clear - IH M NT. induction M as [|f tx l texts E _ IHM].
      - exists []. repeat split; constructor.
      - inversion NT as [|? ? N1 N2]; subst. destruct (IHM N2) as (svals & -> & F & G). destruct (snd f) as [p|] eqn:EP; [|discriminate]. apply bind_Ok in E as (sval & ES & E). injection E as <-. destruct (IH _ _ _ ES) as [S V].
        exists (sval :: svals). cbn [map combine fst snd]. split; [reflexivity|]. split; constructor; eauto. }
    destruct G as (svals & -> & F2 & FO). cbv zeta in E. rewrite own_ok in E by assumption.
    assert (H : exists tail, t = text_of (own_lines U label metas (combine (map fst (tl fs)) svals)) ++ tail /\ prime_shown U (shows U heap) (labelled heap) fs tail /\ (tail = [] \/ exists t, tail = [10] ++ t)).
    { destruct fs as [|[name [p|]] fs].
      - injection E as <-. exists []. rewrite app_nil_r. split; [reflexivity|]. split; [constructor|auto].
      - apply bind_Ok in E as (s & ES & E). injection E as <-. eexists. split; [reflexivity|]. destruct (IH _ _ _ ES) as [S V]. unfold prime_text. destruct (labelled heap p) eqn:LB.
        + split; [cbn [app]; constructor; assumption|right; eexists; reflexivity].
        + destruct (is_long s) eqn:IL.
          * split; [|right; eexists; reflexivity]. rewrite indent_lines. replace ([10] ++ (name ++ [58]) ++ [10] ++ lines_text (map (shifted U) (splitlines s)))
              with ([10] ++ text_of ((name ++ str ":") :: map (shifted U) (splitlines s) ++ [[]])); [eapply ps_long; eassumption|].
            unfold text_of. rewrite py_join_cons by (destruct (map (shifted U) (splitlines s)); discriminate). rewrite join_lines_text, app_nil_r. reflexivity.
          * split; [|right; eexists; reflexivity]. replace ([10] ++ ((name ++ [58]) ++ [32]) ++ s) with ([10] ++ name ++ str ": " ++ s) by (rewrite <- !app_assoc; reflexivity). eapply ps_short; eassumption.
      - apply Ok_inj in E. subst t. assert (PT : prime_text U false name (str "None") = [10] ++ name ++ str ": None") by (unfold prime_text; change (is_long (str "None")) with false; cbn iota zeta; rewrite <- !app_assoc; reflexivity).
        rewrite PT. eexists. split; [reflexivity|]. split; [constructor|right; eexists; reflexivity]. }
    destruct H as (tail & -> & PS & TT). split; [econstructor; eassumption|]. apply own_value_ok; assumption.
Qed.
End heap.

(** An element traceback is always made, or refused because an object is a factor of itself or lacks an attribute: with this many steps, and with more
    it is the same. *)
Theorem C85_ends : forall U heap same o, (forall o, same o o = true) ->
  ((exists t, format_element U heap same o = Ok t) \/ format_element U heap same o = Err RecursiveFactor \/ format_element U heap same o = Err AttributeError) /\
  forall n, format U heap same (S (length heap) + n) [] o = format_element U heap same o.
Proof. intros U heap same o R. split; [apply outcomes; [exact R|apply enough_start]|]. intros n. apply more_fuel; [exact R|apply enough_start]. Qed.
Print Assumptions C85_ends.
(** If the attributes exist, it is refused exactly if going from factor to factor leads to an object that compares equal to an earlier one. *)
Theorem C85_recursive : forall U heap same o, (forall o, same o o = true) -> complete heap ->
  (format_element U heap same o = Err RecursiveFactor <-> recursive heap same o) /\ ((exists t, format_element U heap same o = Ok t) <-> ~ recursive heap same o).
Proof.
  intros U heap same o R C. rewrite <- (loops_recursive heap same o). destruct (recursive_format U heap same R _ C [] o (enough_start heap)) as [((t & E) & N)|(E & Y)]; unfold format_element; rewrite E.
  - split; (split; [|]); try tauto; [discriminate|]. intros _. eauto.
  - split; (split; [|]); try tauto. intros (t & X). discriminate.
Qed.
Print Assumptions C85_recursive.
(** What it shows: every object by its own lines, with all metas and the other factors in order and indented, and then its prime factor. *)
Theorem C85_layout : forall U heap same o t, unicode_ok U -> Forall (obj_ok U) heap -> format_element U heap same o = Ok t -> shows U heap o t.
Proof. intros U heap same o t HU OK E. exact (proj1 (format_shows U heap same HU _ OK _ _ _ E)). Qed.
Print Assumptions C85_layout.
Lemma own_label U label metas fs : exists r, text_of (own_lines U label metas fs) = label ++ str ":" ++ r.
Proof.
  assert (H : exists r ls, own_lines U label metas fs = (label ++ str ":" ++ r) :: ls).
  { unfold own_lines. cbv zeta. destruct metas as [|[[k|] v] ms]; [exists []|exists []|exists ([32] ++ rstrip U (shown_value v))]; eexists; reflexivity. }
  destruct H as (r & ls & ->). unfold text_of. destruct ls as [|m ls]; [exists r; reflexivity|]. rewrite py_join_cons by discriminate. eexists. rewrite <- !app_assoc. reflexivity.
Qed.
Lemma primes_inv heap a b l : primes heap (a :: b :: l) -> prime heap a b /\ primes heap (b :: l).
Proof. intros P. inversion P; auto. Qed.
Lemma prime_shows U heap a b t : prime heap a b -> shows U heap a t ->
  exists label fs metas r s, look heap a = OElem label fs metas /\ t = (label ++ str ":" ++ r) ++ [10] ++ s /\ shows U heap b s.
Proof.
  intros (label & name & fs & metas & L & LB) S. inversion S as [? K|? ? K|? l' f' m' svals tail K F2 PS]; subst; rewrite L in K; [discriminate|discriminate|]. injection K as <- <- <-.
  destruct (own_label U label metas (combine (map fst (tl ((name, Some b) :: fs))) svals)) as (r & H). rewrite H. clear H.
  inversion PS as [| |n p f s LB' S'|n p f s LB'|n p f s LB']; subst; [|congruence|congruence]. exists label, ((name, Some b) :: fs), metas, r, s. auto.
Qed.
(** So the prime factors, from the object to the driver, follow one another, each with its label at the beginning of a line. *)
Theorem C85_chain : forall U heap same o l p t, unicode_ok U -> Forall (obj_ok U) heap -> format_element U heap same o = Ok t -> primes heap (o :: l ++ [p]) ->
  exists blocks s, t = concat (map (fun b => b ++ [10]) blocks) ++ s /\ shows U heap p s /\
    Forall2 (fun o b => exists label fs metas r, look heap o = OElem label fs metas /\ b = label ++ str ":" ++ r) (o :: l) blocks.
Proof.
  intros U heap same o l p t HU OK E P. apply C85_layout in E; try assumption. clear OK same. revert o t E P. induction l as [|b l IH]; intros o t E P; cbn [app] in P; apply primes_inv in P as [PR P].
  - destruct (prime_shows U heap o p t PR E) as (label & fs & metas & r & s & K & -> & S). exists [label ++ str ":" ++ r], s. split; [cbn [map concat]; rewrite app_nil_r, <- !app_assoc; reflexivity|]. split; [exact S|].
    constructor; [|constructor]. exists label, fs, metas, r. auto.
  - destruct (prime_shows U heap o b t PR E) as (label & fs & metas & r & s & K & -> & S). destruct (IH b s S P) as (blocks & s' & -> & S' & B). exists ((label ++ str ":" ++ r) :: blocks), s'.
    split; [cbn [map concat]; rewrite <- !app_assoc; reflexivity|]. split; [exact S'|]. constructor; [|exact B]. exists label, fs, metas, r. auto.
Qed.
Print Assumptions C85_chain.

(** prime_factors() does not give them: it looks for the name of the first object's prime factor in all of them *)
Definition ex_heap : list obj := [
  OElem (str "STATEMENT") [(str "database", Some 1%nat); (str "statement_id", Some 4%nat)] [];
  OElem (str "CONNECTION") [(str "connector", Some 2%nat)] [(None, Some (str "[idle]")); (Some (str "version"), Some (str "13.1"))];
  OElem (str "CONNECTOR") [(str "driver", Some 3%nat); (str "category", Some 5%nat)] [];
  OElem (str "DRIVER") [] [(Some (str "text"), Some (str "a" ++ [10] ++ str "b"))];
  OPlain (str "py:0x1"); ONone ].
Definition ex_attr (o : nat) (n : text) : option nat :=
  match look ex_heap o with OElem _ fs _ => match find (fun f => seqb n (fst f)) fs with Some (_, p) => p | None => None end | _ => None end.
Theorem C85_prime_factors_refuted : primes ex_heap [0; 1; 2; 3]%nat /\
  prime_factors ex_heap ex_attr 10 0 = ([(str "database", Some 1%nat); (str "database", None)], None).
Proof. split; [|reflexivity]. repeat (constructor; [eexists _, _, _, _; split; reflexivity|]). constructor. Qed.
Print Assumptions C85_prime_factors_refuted.

Example C85_ex : format_element ascii_unicode ex_heap Nat.eqb 0 = Ok (py_join [10] [
  str "STATEMENT:"; str "  statement_id: py:0x1"; str "CONNECTION: [idle]"; str "  version: 13.1"; str "CONNECTOR:"; str "  category: None"; str "DRIVER:"; str "  text:"; str "    a"; str "    b"]).
Proof. vm_compute. reflexivity. Qed.
Example C85_ex_ok : complete ex_heap /\ Forall (obj_ok ascii_unicode) ex_heap.
Proof.
  split.
  - intros o label fs metas name p E I. assert (H : Forall (fun x => match x with OElem _ fs _ => Forall (fun f => snd f <> None) fs | _ => True end) ex_heap) by (repeat constructor; cbn [snd]; discriminate).
    unfold look in E. destruct (nth_in_or_default o ex_heap ONone) as [J|J]; [|rewrite J in E; discriminate]. rewrite E in J. rewrite Forall_forall in H. specialize (H _ J). cbn beta iota in H. rewrite Forall_forall in H. exact (H _ I).
  - assert (NB : forall t, forallb (fun c => negb (is_break c)) t = true -> no_break t).
    { intros t H. apply Forall_forall. intros c I B. apply is_break_spec in B. rewrite forallb_forall in H. specialize (H c I). rewrite B in H. discriminate. }
    assert (VB : forall t, forallb (fun c => negb (is_break c)) t = true -> value_ok t) by (intros t H; right; apply NB; exact H).
    assert (FB : forall fs : list (text * option nat), forallb (fun f => forallb (fun c => negb (is_break c)) (fst f)) fs = true -> Forall (fun f => no_break (fst f)) fs).
    { intros fs H. apply Forall_forall. intros f I. rewrite forallb_forall in H. apply NB, H, I. }
    unfold ex_heap. apply Forall_cons; [|apply Forall_cons; [|apply Forall_cons; [|apply Forall_cons; [|apply Forall_cons; [|apply Forall_cons; [|apply Forall_nil]]]]]]; cbn [obj_ok]; [| | | |apply VB; reflexivity|exact Logic.I].
    + split; [apply NB; reflexivity|]. split; [apply FB; reflexivity|]. left. constructor.
    + split; [apply NB; reflexivity|]. split; [apply FB; reflexivity|]. right. eexists _, _, _, _. split; [reflexivity|]. split; [reflexivity|]. split; [reflexivity|]. split; [apply NB; reflexivity|].
      constructor; [|constructor]. eexists. split; [reflexivity|]. split; [apply NB; reflexivity|]. split; [apply VB; reflexivity|]. intros L. apply long_spec in L. discriminate.
    + split; [apply NB; reflexivity|]. split; [apply FB; reflexivity|]. left. constructor.
    + split; [apply NB; reflexivity|]. split; [constructor|]. left. constructor; [|constructor]. eexists. split; [reflexivity|]. split; [apply NB; reflexivity|]. split; [left; apply long_spec; reflexivity|].
      intros _. exists (str "a"). split; [now left|discriminate].
Qed.
(** a loop: 1 and 2 are each other's factors *)
Example C85_ex_loop : let h := [OElem (str "A") [(str "x", Some 1%nat)] []; OElem (str "B") [(str "x", Some 0%nat)] []] in
  recursive h Nat.eqb 0 /\ format_element ascii_unicode h Nat.eqb 0 = Err RecursiveFactor.
Proof.
  split; [|reflexivity]. exists [1%nat], 0%nat, 0%nat. split; [|split; [now left|reflexivity]]. cbn [app].
  constructor; [eexists _, _, _, _; split; [reflexivity|now left]|]. constructor; [eexists _, _, _, _; split; [reflexivity|now left]|]. constructor.
Qed.
