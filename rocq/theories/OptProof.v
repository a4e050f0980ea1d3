(** OptProof.v: lemmas for C93 *)
From Verif Require Import PyStr PyStrProof Base BaseProof PyDict PyDictProof IRIModel ParamModel PyxModel OptModel OptSpec.

Lemma seqb_true (a b : text) : seqb a b = true -> a = b.
Proof. destruct (seqb_spec a b); [auto|discriminate]. Qed.

(** the options by letter and by word *)
Definition act_of (g : given) : action :=
  match g with
  | Host _ => AParam (str "host") | Port _ => AParam (str "port") | User _ => AParam (str "user") | Password => AFlag (str "prompt_password")
  | Database _ => AParam (str "database") | Unix _ => AParam (str "unix") | SslMode _ => AChoice (str "sslmode") modes
  | Setting _ _ => ASettings (str "settings") | Iri _ => ASpecial (str "pq_iri") | Lib _ => ALib | Libpath _ => ALibpath | Trace _ => ATrace
  | Context_ _ => AContext | Module_ _ => AMain KModule | Command _ => AMain KCommand
  end.
Definition apply (g : given) (s : vals) : vals :=
  Vals (v_params s ++ item g) (v_lib s ++ match g with Lib v => [v] | _ => [] end) (v_libpath s ++ match g with Libpath v => [v] | _ => [] end)
       (match g with Trace v => Some v | _ => v_trace s end) (v_context s ++ match g with Context_ v => [context_of v] | _ => [] end)
       (match g with Module_ v => Some (v, KModule) | Command v => Some (v, KCommand) | _ => v_main s end).
Definition run (gs : list given) (s : vals) : vals := fold_left (fun s g => apply g s) gs s.

Lemma vals_eta s : Vals (v_params s) (v_lib s) (v_libpath s) (v_trace s) (v_context s) (v_main s) = s.
Proof. destruct s; reflexivity. Qed.
Lemma split_eq_app k v : ~ In 61 k -> split_eq (k ++ 61 :: v) = Some (k, v).
Proof.
  induction k as [|c k IH]; cbn [app split_eq]; intros H.
  - reflexivity.
  - destruct (Z.eqb_spec c 61) as [->|]; [exfalso; apply H; left; reflexivity|]. rewrite IH; [reflexivity|]. intros I1. apply H. right. exact I1.
Qed.
Lemma split_eq_Some t k v : split_eq t = Some (k, v) -> t = k ++ 61 :: v /\ ~ In 61 k.
Proof.
  revert k v; induction t as [|c t IH]; cbn [split_eq]; intros k v H; [discriminate|].
  destruct (Z.eqb_spec c 61) as [->|N].
  - injection H as <- <-. split; [reflexivity|]. intros [].
  - destruct (split_eq t) as [[k' v']|] eqn:E; [|discriminate]. injection H as <- <-. destruct (IH _ _ eq_refl) as [-> H1]. split; [reflexivity|].
    intros [->|I1]; auto.
Qed.
Lemma split_eq_None t : split_eq t = None <-> ~ In 61 t.
Proof.
  split.
  - induction t as [|c t IH]; cbn [split_eq]; intros H I1; [exact I1|].
    destruct (Z.eqb_spec c 61) as [->|N]; [discriminate|]. destruct (split_eq t) as [[k v]|]; [discriminate|].
    destruct I1 as [->|I1]; [congruence|]. exact (IH eq_refl I1).
  - induction t as [|c t IH]; cbn [split_eq]; intros H; [reflexivity|].
    destruct (Z.eqb_spec c 61) as [->|N]; [exfalso; apply H; left; reflexivity|]. rewrite IH; [reflexivity|]. intros I1. apply H. right; exact I1.
Qed.

Ltac vals := unfold apply, add_param; cbn [v_params v_lib v_libpath v_trace v_context v_main item]; rewrite ?app_nil_r; reflexivity.
Lemma process_ok g v s : sayable g -> argument g = Some v -> process (act_of g) v s = Go (apply g s, is_main g).
Proof.
  destruct g; cbn [sayable argument act_of process is_main]; intros Y E; try discriminate; try (injection E as <-); try (f_equal; f_equal; vals).
  - assert (K : existsb (fun x => seqb x v0) modes = true).
    { apply existsb_exists. exists v0. split; [|apply seqb_refl]. unfold modes. cbn [In]. destruct Y as [->|[->|[->| ->]]]; auto. }
    rewrite K. f_equal; f_equal; vals.
  - change (k ++ str "=" ++ v0) with (k ++ 61 :: v0). rewrite split_eq_app by exact Y. f_equal; f_equal; vals.
Qed.
Lemma process_flag s : process (act_of Password) [] s = Go (apply Password s, false).
Proof. cbn. f_equal; f_equal; vals. Qed.

Lemma takes_act g : takes_value (act_of g) = match argument g with Some _ => true | None => false end.
Proof. destruct g; reflexivity. Qed.
Lemma find_letter g x : letter g = Some x -> exists o, find_short options x = Some o /\ o_act o = act_of g.
Proof. destruct g; intros E; try discriminate; injection E as <-; eexists; split; reflexivity. Qed.
Lemma letter_dash g x : letter g = Some x -> x <> 45.
Proof. destruct g; intros E; try discriminate; injection E as <-; discriminate. Qed.
Ltac pick := first [left; reflexivity | right; pick].
Lemma in_options w g : word g = Some w -> exists o, In o options /\ o_long o = Some w /\ o_act o = act_of g.
Proof.
  destruct g; intros E; try discriminate; injection E as <-;
    match goal with |- exists o, _ /\ o_long o = Some ?w /\ o_act o = _ =>
      destruct (find (is_long w) options) as [o|] eqn:F; [|discriminate F]; exists o; split; [apply find_some in F; apply F|];
      vm_compute in F; injection F as <-; split; reflexivity end.
Qed.
Lemma words_longs o w : In o options -> o_long o = Some w -> In w words.
Proof.
  intros H E. unfold options in H. cbn [In] in H.
  repeat (destruct H as [<-|H]; [cbn [o_long] in E; try discriminate E; injection E as <-; unfold words; cbn [In]; pick|]). destruct H.
Qed.
Definition long_codes : list (option text) := map o_long options.
Lemma longs_unique o o' w : In o options -> In o' options -> o_long o = Some w -> o_long o' = Some w -> o = o'.
Proof.
  intros H H' E E'. assert (B : forallb (fun p => forallb (fun q => match o_long p, o_long q with
     | Some a, Some b => if seqb a b then match option_map (fun x => x) (o_long p) with _ => true end else true | _, _ => true end) options) options = true) by reflexivity.
  clear B.
  unfold options in H. cbn [In] in H.
  repeat (destruct H as [<-|H]; [cbn [o_long] in E; try discriminate E; injection E as <-;
    unfold options in H'; cbn [In] in H';
    repeat (destruct H' as [<-|H']; [cbn [o_long] in E'; try discriminate E'; try reflexivity|]); destruct H'|]).
  destruct H.
Qed.
Ltac find_word := match goal with |- exists o, _ /\ o_long o = Some ?w =>
      destruct (find (is_long w) options) as [o|] eqn:F; [|discriminate F]; exists o; split; [apply find_some in F; apply F|];
      vm_compute in F; injection F as <-; reflexivity end.
Lemma longs_words w : In w words -> exists o, In o options /\ o_long o = Some w.
Proof.
  unfold words. cbn [In]. intros H.
  repeat (destruct H as [<-|H]; [find_word|]). destruct H.
Qed.
Lemma filter_one {A} (f : A -> bool) l o : NoDup l -> In o l -> f o = true -> (forall x, In x l -> f x = true -> x = o) -> filter f l = [o].
Proof.
  induction l as [|x l IH]; intros N H F U; [destruct H|]. inversion N as [|? ? N1 N2]; subst. cbn [filter].
  destruct (f x) eqn:Fx.
  - assert (x = o) by (apply U; [left; reflexivity|exact Fx]). subst x. f_equal.
    assert (Z : forall y, In y l -> f y = false). { intros y Y. destruct (f y) eqn:Fy; [|reflexivity]. exfalso. assert (y = o) by (apply U; [right; exact Y|exact Fy]). subst y. contradiction. }
    clear -Z. induction l as [|y l IH]; [reflexivity|]. cbn [filter]. rewrite (Z y) by (left; reflexivity). apply IH. intros z Hz. apply Z. right; exact Hz.
  - destruct H as [->|H]; [congruence|]. apply IH; auto. intros y Y Fy. apply U; [right; exact Y|exact Fy].
Qed.
Lemma options_nodup : NoDup options.
Proof.
  unfold options. repeat (constructor; [cbn [In]; intros H; repeat (destruct H as [H|H]; [discriminate H|]); exact H|]). constructor.
Qed.
Lemma is_long_spec w o : is_long w o = true <-> o_long o = Some w.
Proof. unfold is_long. destruct (o_long o) as [x|]; [|split; discriminate]. destruct (seqb_spec x w) as [->|N]; split; congruence. Qed.
Lemma has_prefix_spec p o : has_prefix p o = true <-> exists w, o_long o = Some w /\ begins p w.
Proof.
  unfold has_prefix. destruct (o_long o) as [x|]; [|split; [discriminate|intros (w & E & _); discriminate]].
  unfold py_startswith. rewrite prefixb_spec. unfold begins. split; [intros K; exists x; auto|intros (w & E & K); injection E as <-; exact K].
Qed.
Lemma find_long_spec p o : find_long options p = Some o <-> exists w, In o options /\ o_long o = Some w /\ abbreviates p w.
Proof.
  unfold find_long. destruct (find (is_long p) options) as [o'|] eqn:E.
  - apply find_some in E as [H1 H2]. apply is_long_spec in H2. split.
    + intros K. injection K as <-. exists p. repeat split; auto. left; reflexivity.
    + intros (w & K1 & K2 & [->|(_ & N & _)]).
      * f_equal. exact (longs_unique _ _ _ H1 K1 H2 K2).
      * exfalso. apply N. exact (words_longs _ _ H1 H2).
  - assert (NW : ~ In p words).
    { intros K. apply longs_words in K as (o' & K1 & K2). apply (find_none _ _ E) in K1. apply is_long_spec in K2. congruence. }
    split.
    + intros K. destruct (filter (has_prefix p) options) as [|o1 [|]] eqn:F; try discriminate. injection K as ->.
      assert (I1 : In o (filter (has_prefix p) options)) by (rewrite F; left; reflexivity). apply filter_In in I1 as [I1 I2].
      apply has_prefix_spec in I2 as (w & L & B). exists w. repeat split; auto. right. repeat split; auto.
      intros w' W' B'. apply longs_words in W' as (o' & I3 & L').
      assert (I4 : In o' (filter (has_prefix p) options)) by (apply filter_In; split; [exact I3|apply has_prefix_spec; eauto]).
      rewrite F in I4. destruct I4 as [<-|[]]. congruence.
    + intros (w & I1 & L & [->|(B & _ & U)]); [exfalso; apply NW; exact (words_longs _ _ I1 L)|].
      rewrite (filter_one _ _ o); [reflexivity|apply options_nodup|exact I1|apply has_prefix_spec; eauto|].
      intros o' I2 H2. apply has_prefix_spec in H2 as (w' & L' & B'). assert (w' = w) by (apply U; [eapply words_longs; eauto|exact B']). subst w'.
      exact (longs_unique _ _ _ I2 I1 L' L).
Qed.
Lemma abbr_in p w : In w words -> abbreviates p w -> ~ In 61 p /\ p <> [].
Proof.
  intros W A. split.
  - assert (N : ~ In 61 w). { unfold words in W. cbn [In] in W. intros K. repeat (destruct W as [<-|W]; [cbn in K; repeat (destruct K as [K|K]; [discriminate K|]); exact K|]). exact W. }
    destruct A as [->|((t & ->) & _)]; [exact N|]. intros K. apply N, in_app_iff. left; exact K.
  - intros ->. destruct A as [<-|(_ & _ & U)].
    + unfold words in W. cbn [In] in W. repeat (destruct W as [W|W]; [discriminate W|]). exact W.
    + assert (K1 : str "host" = w) by (apply U; [unfold words; cbn [In]; auto|exists (str "host"); reflexivity]).
      assert (K2 : str "port" = w) by (apply U; [unfold words; cbn [In]; auto|exists (str "port"); reflexivity]).
      rewrite <- K1 in K2. discriminate K2.
Qed.
Lemma word_in g w : word g = Some w -> In w words.
Proof. destruct g; intros E; try discriminate; injection E as <-; unfold words; cbn [In]; pick. Qed.

(** a way of writing, and what the parser does with it *)
Definition ends (gs : list given) : bool := existsb is_main gs.
Definition taking (t : vals -> out taken) (gs : list given) (rest : list text) : Prop :=
  (rest = [] /\ forall s, t s = Go (Done (run gs s) (ends gs))) \/
  (exists v, rest = [v] /\ forall s, exists a s', t s = Go (Needs a s') /\ process a v s' = Go (run gs s, ends gs)).
Lemma ends_one g : ends [g] = is_main g.
Proof. unfold ends. cbn [existsb]. apply orb_false_r. Qed.
Lemma written_spec gs ts : written gs ts -> exists a rest, ts = a :: rest /\
  ((exists body, body <> [] /\ a = 45 :: 45 :: body /\ taking (long options body) gs rest) \/
   (exists c t, c <> 45 /\ a = 45 :: c :: t /\ taking (cluster options (c :: t)) gs rest)).
Proof.
  induction 1 as [g x v Y L A|g x v Y L A N|g w p v Y W B A|g w p v Y W B A| |p B|gs c t r N _ IH].
  - eexists _, _. split; [reflexivity|]. right. exists x, []. split; [eapply letter_dash; eauto|]. split; [reflexivity|]. right. exists v. split; [reflexivity|].
    intros s. destruct (find_letter _ _ L) as (o & F & O1). exists (act_of g), s. cbn [cluster]. rewrite F, O1, takes_act, A. split; [reflexivity|].
    rewrite ends_one. apply process_ok; assumption.
  - eexists _, _. split; [reflexivity|]. right. exists x, v. split; [eapply letter_dash; eauto|]. split; [reflexivity|]. left. split; [reflexivity|].
    intros s. destruct (find_letter _ _ L) as (o & F & O1). cbn [cluster]. rewrite F, O1, takes_act, A. destruct v as [|c v]; [congruence|].
    rewrite (process_ok g) by assumption. rewrite ends_one. reflexivity.
  - destruct (abbr_in _ _ (word_in _ _ W) B) as [N1 N2]. eexists _, _. split; [reflexivity|]. left. exists p. split; [exact N2|]. split; [reflexivity|]. right. exists v. split; [reflexivity|].
    intros s. exists (act_of g), s. unfold long. apply split_eq_None in N1. rewrite N1. destruct (in_options _ _ W) as (o & I1 & L1 & O1).
    rewrite (proj2 (find_long_spec p o)) by eauto. rewrite O1, takes_act, A. split; [reflexivity|]. rewrite ends_one. apply process_ok; assumption.
  - destruct (abbr_in _ _ (word_in _ _ W) B) as [N1 N2]. eexists _, _. split; [reflexivity|]. left. exists (p ++ 61 :: v). split; [destruct p; discriminate|]. split; [reflexivity|]. left. split; [reflexivity|].
    intros s. unfold long. rewrite split_eq_app by exact N1. destruct (in_options _ _ W) as (o & I1 & L1 & O1).
    rewrite (proj2 (find_long_spec p o)) by eauto. rewrite O1, takes_act, A. rewrite (process_ok g) by assumption. rewrite ends_one. reflexivity.
  - eexists _, _. split; [reflexivity|]. right. exists 87, []. split; [discriminate|]. split; [reflexivity|]. left. split; [reflexivity|].
    intros s. change (find_short options 87) with (find_short options 87). cbn [cluster]. change (find_short options 87) with (Some (Opt (one "W") (Some (str "password")) (AFlag (str "prompt_password")))).
    cbn [o_act takes_value]. change (AFlag (str "prompt_password")) with (act_of Password). rewrite process_flag. reflexivity.
  - destruct (abbr_in _ _ (word_in Password _ eq_refl) B) as [N1 N2]. eexists _, _. split; [reflexivity|]. left. exists p. split; [exact N2|]. split; [reflexivity|]. left. split; [reflexivity|].
    intros s. unfold long. apply split_eq_None in N1. rewrite N1. destruct (in_options _ Password eq_refl) as (o & I1 & L1 & O1).
    rewrite (proj2 (find_long_spec p o)) by eauto. rewrite O1, takes_act. cbn [argument]. rewrite process_flag. reflexivity.
  - destruct IH as (a & rest & E & H). injection E as <- <-. eexists _, _. split; [reflexivity|]. right. exists 87, (c :: t). split; [discriminate|]. split; [reflexivity|].
    destruct H as [(body & _ & E & _)|(c' & t' & _ & E & H)]; [congruence|]. assert (c' = c) by congruence. assert (t' = t) by congruence. subst c' t'.
    assert (R : forall s, cluster options (87 :: c :: t) s = cluster options (c :: t) (apply Password s)).
    { intros s. cbn [cluster]. change (find_short options 87) with (Some (Opt (one "W") (Some (str "password")) (AFlag (str "prompt_password")))).
      cbn [o_act takes_value]. change (AFlag (str "prompt_password")) with (act_of Password). rewrite process_flag. reflexivity. }
    destruct H as [(-> & H)|(v & -> & H)].
    + left. split; [reflexivity|]. intros s. rewrite R, H. reflexivity.
    + right. exists v. split; [reflexivity|]. intros s. rewrite R. apply H.
Qed.

(** one round *)
Lemma parse_long body r s : body <> [] -> parse options ((45 :: 45 :: body) :: r) s =
  match long options body s with
  | Stop e => Stop e
  | Go (Done s h) => if h then Go (s, r) else parse options r s
  | Go (Needs act s) => match r with [] => Stop Usage | v :: r => match process act v s with Stop e => Stop e | Go (s, h) => if h then Go (s, r) else parse options r s end end
  end.
Proof.
  intros N. cbn [parse]. destruct (seqb_spec (45 :: 45 :: body) (str "--")) as [E|_]; [exfalso; cbn in E; congruence|]. reflexivity.
Qed.
Lemma parse_short c t r s : c <> 45 -> parse options ((45 :: c :: t) :: r) s =
  match cluster options (c :: t) s with
  | Stop e => Stop e
  | Go (Done s h) => if h then Go (s, r) else parse options r s
  | Go (Needs act s) => match r with [] => Stop Usage | v :: r => match process act v s with Stop e => Stop e | Go (s, h) => if h then Go (s, r) else parse options r s end end
  end.
Proof.
  intros N. cbn [parse]. destruct (seqb_spec (45 :: c :: t) (str "--")) as [E|_]; [exfalso; cbn in E; congruence|].
  assert (P : py_startswith (str "--") (45 :: c :: t) = false). { assert (K : (45 =? c) = false) by (apply Z.eqb_neq; congruence). unfold py_startswith. change (str "--") with [45; 45]. cbn [prefixb]. rewrite K. reflexivity. }
  rewrite P. reflexivity.
Qed.
Lemma parse_written gs ts r s : written gs ts -> parse options (ts ++ r) s = if ends gs then Go (run gs s, r) else parse options r (run gs s).
Proof.
  intros H. apply written_spec in H as (a & rest & -> & H). cbn [app].
  assert (G : forall t, taking t gs rest -> match t s with
    | Stop e => Stop e
    | Go (Done s h) => if h then Go (s, rest ++ r) else parse options (rest ++ r) s
    | Go (Needs act s) => match rest ++ r with [] => Stop Usage | v :: r => match process act v s with Stop e => Stop e | Go (s, h) => if h then Go (s, r) else parse options r s end end
    end = if ends gs then Go (run gs s, r) else parse options r (run gs s)).
  { intros t [(-> & T)|(v & -> & T)].
    - rewrite T. reflexivity.
    - destruct (T s) as (act & s' & -> & P). cbn [app]. rewrite P. reflexivity. }
  destruct H as [(body & N & -> & T)|(c & t & N & -> & T)].
  - rewrite parse_long by exact N. apply G, T.
  - rewrite parse_short by exact N. apply G, T.
Qed.

(** the other way *)
Definition okmain (gs : list given) (h : bool) : Prop :=
  if h then exists gs0 g, gs = gs0 ++ [g] /\ is_main g = true else forallb (fun g => negb (is_main g)) gs = true.
Lemma okmain_one g h : is_main g = h -> okmain [g] h.
Proof. intros <-. unfold okmain. destruct (is_main g) eqn:E; [exists [], g; auto|cbn; rewrite E; reflexivity]. Qed.
Lemma okmain_cons gs h : okmain gs h -> okmain (Password :: gs) h.
Proof. destruct h; cbn [okmain]; [intros (gs0 & g & -> & M); exists (Password :: gs0), g; auto|]. cbn [forallb]. intros ->. reflexivity. Qed.

Lemma process_given o v s s' h : In o options -> takes_value (o_act o) = true -> process (o_act o) v s = Go (s', h) ->
  exists g, sayable g /\ argument g = Some v /\ letter g = o_short o /\ word g = o_long o /\ s' = apply g s /\ h = is_main g.
Proof.
  intros I1 T P.
  assert (X : forall g, o_act o = act_of g -> argument g = Some v -> sayable g -> s' = apply g s /\ h = is_main g).
  { intros g E A Y. rewrite E, (process_ok g) in P by assumption. injection P as <- <-. auto. }
  unfold options in I1. cbn [In] in I1.
  destruct I1 as [<-|I1]; [exists (Unix v); specialize (X (Unix v) eq_refl eq_refl Logic.I); cbn; tauto|].
  destruct I1 as [<-|I1].
  { exists (SslMode v). assert (Y : sayable (SslMode v)).
    { cbn [o_act process] in P. destruct (existsb (fun x => seqb x v) modes) eqn:E; [|discriminate P]. apply existsb_exists in E as (x & K1 & K2). apply seqb_true in K2. subst x.
      unfold modes in K1. cbn [In] in K1. cbn [sayable]. destruct K1 as [K|[K|[K|[K|[]]]]]; auto. }
    specialize (X (SslMode v) eq_refl eq_refl Y). cbn [argument letter word o_short o_long]. tauto. }
  destruct I1 as [<-|I1].
  { cbn [o_act process] in P. destruct (split_eq v) as [[k w]|] eqn:E; [|discriminate P]. apply split_eq_Some in E as [-> N].
    exists (Setting k w). assert (Y : sayable (Setting k w)) by exact N. 
    split; [exact Y|]. split; [reflexivity|]. split; [reflexivity|]. split; [reflexivity|]. injection P as <- <-. split; [vals|reflexivity]. }
  repeat (destruct I1 as [<-|I1]; [try discriminate T;
    first [ exists (Iri v); specialize (X (Iri v) eq_refl eq_refl Logic.I); cbn; tauto
          | exists (Host v); specialize (X (Host v) eq_refl eq_refl Logic.I); cbn; tauto
          | exists (Port v); specialize (X (Port v) eq_refl eq_refl Logic.I); cbn; tauto
          | exists (User v); specialize (X (User v) eq_refl eq_refl Logic.I); cbn; tauto
          | exists (Database v); specialize (X (Database v) eq_refl eq_refl Logic.I); cbn; tauto
          | exists (Trace v); specialize (X (Trace v) eq_refl eq_refl Logic.I); cbn; tauto
          | exists (Lib v); specialize (X (Lib v) eq_refl eq_refl Logic.I); cbn; tauto
          | exists (Libpath v); specialize (X (Libpath v) eq_refl eq_refl Logic.I); cbn; tauto
          | exists (Context_ v); specialize (X (Context_ v) eq_refl eq_refl Logic.I); cbn; tauto
          | exists (Module_ v); specialize (X (Module_ v) eq_refl eq_refl Logic.I); cbn; tauto
          | exists (Command v); specialize (X (Command v) eq_refl eq_refl Logic.I); cbn; tauto ]|]).
  destruct I1.
Qed.
Lemma process_noval o s s' h : In o options -> takes_value (o_act o) = false -> process (o_act o) [] s = Go (s', h) ->
  o_short o = one "W" /\ o_long o = Some (str "password") /\ s' = apply Password s /\ h = false.
Proof.
  intros I1 T P. unfold options in I1. cbn [In] in I1.
  repeat (destruct I1 as [<-|I1]; [try discriminate T; try discriminate P;
    (split; [reflexivity|split; [reflexivity|]]; cbn [o_act] in P; change (AFlag (str "prompt_password")) with (act_of Password) in P; rewrite process_flag in P; injection P as <- <-; auto)|]).
  destruct I1.
Qed.
Lemma find_short_spec c o : find_short options c = Some o -> In o options /\ o_short o = Some c.
Proof.
  unfold find_short. intros F. apply find_some in F as [H1 H2]. split; [exact H1|]. destruct (o_short o) as [x|]; [|discriminate]. f_equal. now apply Z.eqb_eq.
Qed.
Lemma cluster_inv chs s t : chs <> [] -> cluster options chs s = Go t ->
  hd 0 chs <> 45 /\
  match t with
  | Done s' h => exists gs, written gs [45 :: chs] /\ s' = run gs s /\ okmain gs h
  | Needs a s' => forall v s'' h, process a v s' = Go (s'', h) -> exists gs, written gs [45 :: chs; v] /\ s'' = run gs s /\ okmain gs h
  end.
Proof.
  revert s t. induction chs as [|c r IH]; intros s t NE E; [congruence|]. cbn [hd]. clear NE. cbn [cluster] in E.
  destruct (find_short options c) as [o|] eqn:F; [|discriminate].
  assert (C : c <> 45). { intros ->. discriminate F. }
  split; [exact C|]. apply find_short_spec in F as [I1 S1].
  destruct (takes_value (o_act o)) eqn:T.
  - destruct r as [|d r].
    + injection E as <-. intros v s'' h P. apply process_given in P as (g & Y & A & L & _ & -> & ->); [|exact I1|exact T].
      exists [g]. split; [|split; [reflexivity|apply okmain_one; reflexivity]]. apply w_letter; [exact Y|congruence|exact A].
    + destruct (process (o_act o) (d :: r) s) as [[s' h]|] eqn:P; [|discriminate]. injection E as <-.
      apply process_given in P as (g & Y & A & L & _ & -> & ->); [|exact I1|exact T].
      exists [g]. split; [|split; [reflexivity|apply okmain_one; reflexivity]]. apply w_joined; [exact Y|congruence|exact A|discriminate].
  - destruct (process (o_act o) [] s) as [[s' h]|] eqn:P; [|discriminate].
    apply process_noval in P as (SH & _ & -> & ->); [|exact I1|exact T].
    assert (c = 87) by (rewrite SH in S1; cbn in S1; congruence). subst c.
    destruct r as [|d r].
    + cbn [cluster] in E. injection E as <-. exists [Password]. split; [exact w_password|]. split; reflexivity.
    + apply IH in E as [D H]; [|discriminate]. cbn [hd] in D. destruct t as [s' h|a s'].
      * destruct H as (gs & W & -> & K). exists (Password :: gs). split; [apply (w_cluster gs d r []); assumption|]. split; [reflexivity|apply okmain_cons, K].
      * intros v s'' h P. destruct (H v s'' h P) as (gs & W & -> & K). exists (Password :: gs). split; [apply (w_cluster gs d r [v]); assumption|]. split; [reflexivity|apply okmain_cons, K].
Qed.
Lemma long_inv body s t : long options body s = Go t ->
  match t with
  | Done s' h => exists gs, written gs [45 :: 45 :: body] /\ s' = run gs s /\ okmain gs h
  | Needs a s' => forall v s'' h, process a v s' = Go (s'', h) -> exists gs, written gs [45 :: 45 :: body; v] /\ s'' = run gs s /\ okmain gs h
  end.
Proof.
  unfold long. destruct (split_eq body) as [[p v]|] eqn:SE.
  - apply split_eq_Some in SE as [-> N]. destruct (find_long options p) as [o|] eqn:F; [|discriminate]. apply find_long_spec in F as (w & I1 & L & B).
    destruct (takes_value (o_act o)) eqn:T; [|discriminate]. destruct (process (o_act o) v s) as [[s' h]|] eqn:P; [|discriminate]. intros E. injection E as <-.
    apply process_given in P as (g & Y & A & _ & W & -> & ->); [|exact I1|exact T].
    exists [g]. split; [|split; [reflexivity|apply okmain_one; reflexivity]]. apply (w_word_eq g w p v); [exact Y|congruence|exact B|exact A].
  - destruct (find_long options body) as [o|] eqn:F; [|discriminate]. apply find_long_spec in F as (w & I1 & L & B).
    destruct (takes_value (o_act o)) eqn:T.
    + intros E. injection E as <-. intros v s'' h P. apply process_given in P as (g & Y & A & _ & W & -> & ->); [|exact I1|exact T].
      exists [g]. split; [|split; [reflexivity|apply okmain_one; reflexivity]]. apply (w_word g w body v); [exact Y|congruence|exact B|exact A].
    + destruct (process (o_act o) [] s) as [[s' h]|] eqn:P; [|discriminate]. intros E. injection E as <-.
      apply process_noval in P as (_ & L2 & -> & ->); [|exact I1|exact T]. exists [Password]. split; [|split; reflexivity].
      apply w_password_word. assert (w = str "password") by congruence. subst w. exact B.
Qed.
Lemma run_app a b s : run (a ++ b) s = run b (run a s).
Proof. apply fold_left_app. Qed.
Lemma ends_none gs : forallb (fun g => negb (is_main g)) gs = true -> ends gs = false.
Proof. unfold ends. induction gs as [|g gs IH]; cbn [forallb existsb]; [reflexivity|]. intros H. apply andb_prop in H as [H1 H2]. apply negb_true_iff in H1. rewrite H1. apply IH, H2. Qed.
Lemma ends_main gs g : is_main g = true -> ends (gs ++ [g]) = true.
Proof. intros M. unfold ends. rewrite existsb_app. cbn [existsb]. rewrite M. apply orb_true_r. Qed.

Theorem parse_line argv gs args : line argv gs args -> forall s, parse options argv s = Go (run gs s, args).
Proof.
  induction 1 as [|r|a r H|gs g ts r M W|gs ts r gs' args NM W _ IH]; intros s.
  - reflexivity.
  - reflexivity.
  - destruct a as [|c [|d t]].
    + reflexivity.
    + cbn [parse]. destruct (seqb_spec [c] (str "--")) as [E|_]; [discriminate E|]. 
      assert (P : py_startswith (str "--") [c] = false) by (unfold py_startswith; cbn; destruct c as [|p|p]; try reflexivity; cbn; now rewrite andb_false_r).
      rewrite P. cbn [length Nat.ltb Nat.leb]. rewrite andb_false_r. reflexivity.
    + assert (C : c <> 45) by (intros ->; specialize (H _ eq_refl); discriminate). cbn [parse].
      destruct (seqb_spec (c :: d :: t) (str "--")) as [E|_]; [cbn in E; congruence|].
      assert (K : (45 =? c) = false) by (apply Z.eqb_neq; congruence).
      assert (P : py_startswith (str "--") (c :: d :: t) = false) by (unfold py_startswith; change (str "--") with [45; 45]; cbn [prefixb]; rewrite K; reflexivity).
      assert (Q : py_startswith (str "-") (c :: d :: t) = false) by (unfold py_startswith; change (str "-") with [45]; cbn [prefixb]; rewrite K; reflexivity).
      rewrite P, Q. reflexivity.
  - rewrite (parse_written _ _ r s W), ends_main by exact M. reflexivity.
  - rewrite (parse_written _ _ r s W), ends_none by exact NM. rewrite IH, run_app. reflexivity.
Qed.
Lemma line_of gs ts r h : written gs ts -> okmain gs h -> (h = false -> exists gs' args, line r gs' args) -> exists gs' args, line (ts ++ r) gs' args.
Proof.
  intros W K H. destruct h.
  - destruct K as (gs0 & g & -> & M). exists (gs0 ++ [g]), r. apply l_main; assumption.
  - destruct (H eq_refl) as (gs' & args & L). exists (gs ++ gs'), args. apply l_more; assumption.
Qed.
Theorem parse_inv argv : forall s s' args, parse options argv s = Go (s', args) -> exists gs args', line argv gs args'.
Proof.
  assert (G : forall n argv, (length argv <= n)%nat -> forall s s' args, parse options argv s = Go (s', args) -> exists gs args', line argv gs args').
  2:{ intros s s' args. eapply G. apply Nat.le_refl. }
  clear argv. induction n as [|n IH]; intros argv LE s s' args E; (destruct argv as [|a r]; [exists [], []; constructor|]); cbn [length] in LE; [lia|].
  destruct a as [|c [|d t]].
  - exists [], ([] :: r). apply l_arg. discriminate.
  - exists [], ([c] :: r). apply l_arg. intros t K. congruence.
  - destruct (Z.eq_dec c 45) as [->|C]; [|exists [], ((c :: d :: t) :: r); apply l_arg; congruence].
    assert (ST : forall x, (forall tk, x = Go tk -> match tk with
        | Done s1 h => exists gs, written gs [45 :: d :: t] /\ s1 = run gs s /\ okmain gs h
        | Needs a0 s1 => forall v s2 h, process a0 v s1 = Go (s2, h) -> exists gs, written gs [45 :: d :: t; v] /\ s2 = run gs s /\ okmain gs h
        end) ->
      match x with
      | Stop e => Stop e
      | Go (Done s h) => if h then Go (s, r) else parse options r s
      | Go (Needs act s) => match r with [] => Stop Usage | v :: r => match process act v s with Stop e => Stop e | Go (s, h) => if h then Go (s, r) else parse options r s end end
      end = Go (s', args) -> exists gs args', line ((45 :: d :: t) :: r) gs args').
    { intros x X Q. destruct x as [[s1 h|a0 s1]|]; [| |discriminate].
      - destruct (X _ eq_refl) as (gs & W & _ & K). apply (line_of gs [45 :: d :: t] r h W K). intros ->. eapply IH; [lia|exact Q].
      - destruct r as [|v r]; [discriminate|]. destruct (process a0 v s1) as [[s2 h]|] eqn:P; [|discriminate].
        destruct (X _ eq_refl v s2 h P) as (gs & W & _ & K). apply (line_of gs [45 :: d :: t; v] r h W K). intros ->. eapply IH; [cbn [length] in LE; lia|exact Q]. }
    destruct (Z.eq_dec d 45) as [->|D].
    + destruct t as [|e t]; [exists [], r; apply l_dashes|]. rewrite parse_long in E by discriminate. eapply ST; [|exact E]. intros tk K. apply long_inv in K. exact K.
    + rewrite parse_short in E by exact D. eapply ST; [|exact E]. intros tk K. apply cluster_inv in K as [_ K]; [exact K|discriminate].
Qed.

Lemma lasts_snoc {A} (l : list A) x : lasts (l ++ [x]) = Some x.
Proof. unfold lasts. rewrite rev_app_distr. reflexivity. Qed.
Lemma run_meaning gs : run gs no_vals = meaning gs.
Proof.
  induction gs as [|g gs IH] using rev_ind; [reflexivity|]. rewrite run_app, IH. unfold run. cbn [fold_left]. unfold apply, meaning. rewrite !flat_map_app.
  cbn [v_params v_lib v_libpath v_trace v_context v_main flat_map]. rewrite !app_nil_r.
  destruct g; rewrite ?app_nil_r, ?lasts_snoc; reflexivity.
Qed.
