From Verif Require Import PyStr PyStrProof PyDict PyDictProof BaseProof ConsModel ConsSpec.

Lemma made_app a b : made (a ++ b) = made a ++ made b.
Proof. induction a as [|e a IH]; [reflexivity|]. destruct e; cbn [app made]; rewrite ?IH; reflexivity. Qed.
Lemma sources_app a b : sources (a ++ b) = sources a ++ sources b.
Proof. unfold sources. rewrite map_app, concat_app. reflexivity. Qed.

(** lines of words *)
Lemma word_spec U l : fst (word U l) ++ snd (word U l) = l /\ Forall (fun c => u_space U c = false) (fst (word U l)) /\
  match snd (word U l) with [] => True | c :: _ => u_space U c = true end.
Proof.
  induction l as [|c l (E & F & N)]; cbn [word]; [split; [reflexivity|split; [constructor|exact Logic.I]]|]. destruct (u_space U c) eqn:S; cbn [fst snd app]; [split; [reflexivity|split; [constructor|exact S]]|].
  destruct (word U l) as [w k]. cbn [fst snd app] in *. split; [congruence|]. split; [constructor; assumption|exact N].
Qed.
Lemma word_app U w r : Forall (fun c => u_space U c = false) w -> match r with [] => True | c :: _ => u_space U c = true end -> word U (w ++ r) = (w, r).
Proof.
  intros F N. induction F as [|c w C F IH]; cbn [app word]; [destruct r as [|c r]; [reflexivity|cbn [word]; rewrite N; reflexivity]|]. rewrite C, IH. reflexivity.
Qed.
Lemma lstrip_blanks U b r : Forall (fun c => u_space U c = true) b -> match r with [] => True | c :: _ => u_space U c = false end -> lstrip_by (u_space U) (b ++ r) = r.
Proof. intros F N. induction F as [|c b C F IH]; cbn [app lstrip_by]; [destruct r as [|c r]; [reflexivity|cbn [lstrip_by]; rewrite N; reflexivity]|]. rewrite C. exact IH. Qed.
Lemma first_word_spec U line cmd arg : command_line U line cmd arg -> first_word U line = (cmd, arg).
Proof.
  intros (b & -> & F & B & E & N). unfold first_word. rewrite word_app; [rewrite lstrip_blanks by assumption; reflexivity|exact F|].
  destruct b as [|c b]; [rewrite E by reflexivity; exact Logic.I|]. inversion B; assumption.
Qed.
Lemma lstrip_split p l : exists b, l = b ++ lstrip_by p l /\ Forall (fun c => p c = true) b /\ match lstrip_by p l with [] => True | c :: _ => p c = false end.
Proof.
  induction l as [|c l (b & E & F & N)]; cbn [lstrip_by]; [exists []; split; [reflexivity|split; [constructor|exact Logic.I]]|]. destruct (p c) eqn:C.
  - exists (c :: b). cbn [app]. rewrite <- E. split; [reflexivity|]. split; [constructor; assumption|exact N].
  - exists []. split; [reflexivity|]. split; [constructor|exact C].
Qed.
(** every line is a command line *)
Lemma command_line_ex U line : exists cmd arg, command_line U line cmd arg.
Proof.
  destruct (word_spec U line) as (E & F & N). destruct (lstrip_split (u_space U) (snd (word U line))) as (b & E2 & F2 & N2). exists (fst (word U line)), (lstrip_by (u_space U) (snd (word U line))), b.
  split; [rewrite <- E at 1; rewrite E2 at 1; reflexivity|]. split; [exact F|]. split; [exact F2|]. split; [|exact N2]. intros ->. cbn [app] in E2. rewrite <- E2 in *. destruct (snd (word U line)) as [|c r]; [reflexivity|congruence].
Qed.

Section cons.
Context (U : unicode) (shlex : text -> res (list text)) (setenv : text -> text -> option exn)
        (load : list event -> text -> loaded) (call : list event -> list text -> option exn)
        (runsource : list event -> text -> res bool) (repr_list : list text -> text) (mktemp : list event -> text -> text).
Notation push := (push U shlex setenv load call runsource repr_list mktemp).
Notation execslash := (execslash U shlex setenv load call repr_list mktemp).
Notation resolve_path := (resolve_path U mktemp).
Notation resolve_all := (resolve_all U mktemp).

(** names *)
Lemma norm_dget x y d : py_lower U (py_strip U x) = py_lower U (py_strip U y) -> @dget text (py_lower U (py_strip U x)) d = dget (py_lower U (py_strip U y)) d.
Proof. intros ->. reflexivity. Qed.
(** the dictionary of temporary files is what was made, in the order of making *)
Definition kept (s : con) : Prop := c_temp s = made (c_log s) /\ NoDup (map fst (made (c_log s))) /\ NoDup (map snd (made (c_log s))).
Lemma dset_new {V} k (v : V) d : dget k d = None -> dset k v d = d ++ [(k, v)].
Proof. induction d as [|[j w] d IH]; cbn [dget dset app]; [reflexivity|]. destruct (seqb k j); [discriminate|]. intros H. rewrite IH by exact H. reflexivity. Qed.
Lemma NoDup_snoc {A} (l : list A) x : NoDup l -> ~ In x l -> NoDup (l ++ [x]).
Proof.
  intros N I. induction l as [|a l IH]; cbn [app]; [constructor; [exact I|constructor]|]. inversion N as [|? ? NA NL]; subst. constructor.
  - rewrite in_app_iff. intros [J|[J|[]]]; [contradiction|]. subst. apply I. left. reflexivity.
  - apply IH; [exact NL|]. intros J. apply I. right. exact J.
Qed.
Lemma kept_log s e : (forall n p, e <> EMktemp n p) -> kept s -> kept (log e s).
Proof. intros N (K1 & K2 & K3). unfold kept, log. cbn. rewrite made_app. replace (made [e]) with (@nil (text * text)) by (destruct e; try reflexivity; exfalso; eapply N; reflexivity). rewrite app_nil_r. auto. Qed.
Lemma kept_resolve x d s : fresh mktemp -> kept s -> kept (fst (resolve_path x d s)).
Proof.
  intros F (K1 & K2 & K3). unfold ConsModel.resolve_path. destruct (existsb _ x); [split; auto|]. destruct (dget _ (c_temp s)) as [t|] eqn:D; [split; auto|]. destruct d; [split; auto|]. cbn [fst log c_temp c_log]. unfold kept. cbn [c_temp c_log log].
  rewrite made_app. cbn [made]. rewrite dset_new by exact D. rewrite K1. split; [reflexivity|]. rewrite !map_app. cbn [map fst snd]. split; apply NoDup_snoc; auto.
  - rewrite K1 in D. apply dget_None in D. exact D.
Qed.
(** what no backslash command does: run Python source, change the buffer, forget files *)
Definition calm (s s' : con) : Prop := c_buffer s' = c_buffer s /\ sources (c_log s') = sources (c_log s) /\ (exists l, c_log s' = c_log s ++ l) /\
  (fresh mktemp -> kept s -> kept s').
Lemma calm_refl s : calm s s.
Proof. split; [reflexivity|]. split; [reflexivity|]. split; [exists []; rewrite app_nil_r; reflexivity|auto]. Qed.
Lemma calm_trans a b c : calm a b -> calm b c -> calm a c.
Proof. intros (A1 & A2 & (l & A3) & A4) (B1 & B2 & (k & B3) & B4). split; [congruence|]. split; [congruence|]. split; [exists (l ++ k); rewrite B3, A3, app_assoc; reflexivity|auto]. Qed.
Lemma calm_env s v : calm s {| c_buffer := c_buffer s; c_temp := c_temp s; c_environ := v; c_log := c_log s |}.
Proof. split; [reflexivity|]. split; [reflexivity|]. split; [exists []; rewrite app_nil_r; reflexivity|]. intros _ K. exact K. Qed.
Lemma calm_log e s : (forall t, e <> EPython t) -> (forall n p, e <> EMktemp n p) -> calm s (log e s).
Proof.
  intros N M. split; [reflexivity|]. split; [|split; [exists [e]; reflexivity|intros _; apply kept_log; exact M]]. unfold log. cbn [c_log]. rewrite sources_app.
  replace (sources [e]) with (@nil text); [apply app_nil_r|]. destruct e; try reflexivity. exfalso. exact (N source eq_refl).
Qed.
Lemma calm_resolve x d s : calm s (fst (resolve_path x d s)).
Proof.
  split; [|split; [|split; [|intros F K; apply kept_resolve; assumption]]]; unfold ConsModel.resolve_path; (destruct (existsb _ x); [|destruct (dget _ (c_temp s)); [|destruct d]]); try reflexivity; try (exists []; rewrite app_nil_r; reflexivity).
  - unfold log. cbn [fst c_log]. rewrite sources_app. apply app_nil_r.
  - unfold log. cbn [fst c_log]. eexists. reflexivity.
Qed.
Lemma calm_resolve_all l : forall s, calm s (fst (resolve_all l s)).
Proof.
  induction l as [|x l IH]; intros s; cbn [ConsModel.resolve_all]; [apply calm_refl|].
  pose proof (calm_resolve x false s) as R. destruct (resolve_path x false s) as [s1 p]. cbn [fst] in *. specialize (IH s1). destruct (resolve_all l s1) as [s2 ps]. cbn [fst] in *. exact (calm_trans _ _ _ R IH).
Qed.
Definition quiet (f : con -> con * option exn) : Prop := forall s, calm s (fst (f s)).
Lemma quiet_seq a b : quiet a -> quiet b -> quiet (seq a b).
Proof. intros A B s. unfold seq. specialize (A s). destruct (a s) as [s1 [e|]]; cbn [fst] in *; [exact A|]. exact (calm_trans _ _ _ A (B s1)). Qed.
Lemma quiet_each {A} (f : A -> con -> con * option exn) l : (forall x, quiet (f x)) -> quiet (each f l).
Proof. intros F. induction l as [|x l IH]; [intros s; apply calm_refl|]. cbn [each]. apply quiet_seq; [apply F|exact IH]. Qed.
Lemma quiet_write t : quiet (write t). Proof. intros s. apply calm_log; discriminate. Qed.
Lemma quiet_splitting arg f : (forall l, quiet (f l)) -> quiet (splitting shlex arg f).
Proof. intros F s. unfold splitting. destruct (shlex arg); [apply F|apply calm_refl]. Qed.
Lemma quiet_set_one x : quiet (set_one setenv x).
Proof.
  intros s. unfold set_one. destruct (split_eq x) as [[k v]|].
  - destruct (setenv k v); [apply calm_refl|]. eapply calm_trans; [apply (calm_env s (dset k v (c_environ s)))|apply quiet_write].
  - destruct x; [apply calm_refl|apply quiet_write].
Qed.
Lemma quiet_execfile p : quiet (execfile load p).
Proof. intros s. unfold execfile. destruct (load (c_log s) p); [apply calm_refl|apply calm_log; discriminate|apply calm_log; discriminate]. Qed.
Lemma quiet_edit l : quiet (editfiles call l).
Proof. intros s. unfold editfiles. cbn [fst]. apply calm_log; discriminate. Qed.
Lemma quiet_after_all l (f : list text -> con -> con * option exn) : (forall ps, quiet (f ps)) -> quiet (fun s => let (s, ps) := resolve_all l s in f ps s).
Proof. intros F s. pose proof (calm_resolve_all l s) as R. destruct (resolve_all l s) as [s1 ps]. cbn [fst] in *. exact (calm_trans _ _ _ R (F ps s1)). Qed.
Lemma quiet_execslash line : quiet (execslash line).
Proof.
  unfold ConsModel.execslash. destruct (first_word U line) as [cmd arg]. destruct (seqb cmd (str "\?")); [intros s; apply calm_log; discriminate|]. destruct (seqb cmd (str "\set")).
  { unfold bs_set. destruct arg; [intros s; apply (quiet_each (fun kv => write (assignment (fst kv) (snd kv)))); intros; apply quiet_write|]. apply quiet_splitting. intros l. apply quiet_each, quiet_set_one. }
  destruct (seqb cmd (str "\E")); [unfold bs_E; apply quiet_splitting; intros l; apply quiet_after_all, quiet_edit|].
  destruct (seqb cmd (str "\i")).
  { unfold bs_i. apply quiet_splitting. intros l. apply quiet_each. intros x s. pose proof (calm_resolve x true s) as R. destruct (resolve_path x true s) as [s1 p]. cbn [fst] in *. exact (calm_trans _ _ _ R (quiet_execfile p s1)). }
  destruct (seqb cmd (str "\e")); [unfold bs_e; apply quiet_splitting; intros l; apply (quiet_after_all (or_blank l) (fun ps => seq (editfiles call ps) (each (execfile load) ps))); intros ps; apply quiet_seq; [apply quiet_edit|apply quiet_each, quiet_execfile]|].
  destruct (seqb cmd (str "\x")); [unfold bs_x; apply quiet_splitting; intros l s; apply calm_refl|].
  apply quiet_write.
Qed.
(** the console's push *)
Lemma push_slash line s : c_buffer s = [] -> py_startswith [92] line = true ->
  push line s = (match execslash line s with (s', None) => s' | (s', Some e) => log (EPrint e) s' end, PNone) /\ calm s (fst (push line s)).
Proof.
  intros B S. assert (E : push line s = (match execslash line s with (s', None) => s' | (s', Some e) => log (EPrint e) s' end, PNone)).
  { unfold ConsModel.push. rewrite B, S. destruct (execslash line s) as [s' [e|]]; reflexivity. }
  split; [exact E|]. rewrite E. cbn [fst]. pose proof (quiet_execslash line s) as Q. destruct (execslash line s) as [s' [e|]]; cbn [fst] in Q; [|exact Q]. eapply calm_trans; [exact Q|apply calm_log; discriminate].
Qed.
Lemma push_python line s : c_buffer s <> [] \/ py_startswith [92] line = false -> push line s = python_push runsource line s.
Proof. intros H. unfold ConsModel.push. destruct (c_buffer s) eqn:B; [|reflexivity]. destruct H as [H|H]; [congruence|]. rewrite H. reflexivity. Qed.
Lemma kept_push line s : fresh mktemp -> kept s -> kept (fst (push line s)) /\ exists l, c_log (fst (push line s)) = c_log s ++ l.
Proof.
  intros F K. assert (PY : push line s = python_push runsource line s -> kept (fst (push line s)) /\ exists l, c_log (fst (push line s)) = c_log s ++ l).
  { intros ->. unfold python_push. destruct K as (K1 & K2 & K3). assert (M : forall t, made (c_log s ++ [EPython t]) = made (c_log s)) by (intros t; rewrite made_app; apply app_nil_r).
    destruct (runsource _ _) as [[|]|]; cbn [fst]; (split; [unfold kept; cbn [c_temp c_log]; rewrite M; auto|eexists; reflexivity]). }
  destruct (c_buffer s) eqn:B; [|apply PY, push_python; left; congruence]. destruct (py_startswith [92] line) eqn:S; [|apply PY, push_python; right; exact S].
  destruct (push_slash line s B S) as (_ & (_ & _ & L & C)). split; [apply C; assumption|exact L].
Qed.
Lemma kept_pushes lines : forall s, fresh mktemp -> kept s -> kept (pushes U shlex setenv load call runsource repr_list mktemp lines s) /\
  exists l, c_log (pushes U shlex setenv load call runsource repr_list mktemp lines s) = c_log s ++ l.
Proof.
  induction lines as [|x r IH]; intros s F K; cbn [pushes]; [split; [exact K|exists []; rewrite app_nil_r; reflexivity]|]. destruct (kept_push x s F K) as (K1 & (l & L)). destruct (IH (fst (push x s)) F K1) as (K2 & (k & L2)). split; [exact K2|].
  exists (l ++ k). rewrite L2, L, app_assoc. reflexivity.
Qed.

(** \set *)
Lemma split_eq_none x : no_equals x -> split_eq x = None.
Proof. unfold no_equals. induction x as [|c x IH]; intros N; [reflexivity|]. cbn [split_eq]. destruct (Z.eqb_spec c 61); [exfalso; apply N; left; congruence|]. rewrite IH; [reflexivity|]. intros I. apply N. right. exact I. Qed.
Lemma split_eq_some k v : no_equals k -> split_eq (k ++ str "=" ++ v) = Some (k, v).
Proof. unfold no_equals. induction k as [|c k IH]; intros N; [reflexivity|]. cbn [app split_eq]. destruct (Z.eqb_spec c 61); [exfalso; apply N; left; congruence|]. rewrite IH; [reflexivity|]. intros I. apply N. right. exact I. Qed.
Lemma split_eq_inv x k v : split_eq x = Some (k, v) -> x = k ++ str "=" ++ v /\ no_equals k.
Proof.
  revert k. induction x as [|c x IH]; intros k E; [discriminate|]. cbn [split_eq] in E. destruct (Z.eqb_spec c 61) as [->|N]; [injection E as <- <-; split; [reflexivity|intros []]|].
  destruct (split_eq x) as [[k' v']|]; [|discriminate]. injection E as <- <-. destruct (IH k' eq_refl) as [-> NE]. split; [reflexivity|]. intros [I|I]; [congruence|exact (NE I)].
Qed.
Lemma split_eq_none_inv x : split_eq x = None -> no_equals x.
Proof. induction x as [|c x IH]; intros E; [intros []|]. cbn [split_eq] in E. destruct (Z.eqb_spec c 61); [discriminate|]. destruct (split_eq x) as [[]|]; [discriminate|]. intros [I|I]; [congruence|exact (IH eq_refl I)]. Qed.
Lemma each_sets l : forall s, exists env out e, sets setenv (c_environ s) l env out e /\
  each (set_one setenv) l s = ({| c_buffer := c_buffer s; c_temp := c_temp s; c_environ := env; c_log := c_log s ++ map EWrite out |}, e).
Proof.
  induction l as [|x l IH]; intros s.
  - exists (c_environ s), [], None. split; [constructor|]. cbn. rewrite app_nil_r. destruct s; reflexivity.
  - change (each (set_one setenv) (x :: l) s) with (match set_one setenv x s with (s, None) => each (set_one setenv) l s | y => y end). unfold set_one at 1. destruct (split_eq x) as [[k v]|] eqn:E.
    + apply split_eq_inv in E as [-> N]. destruct (setenv k v) as [e|] eqn:SE.
      * exists (c_environ s), [], (Some e). split; [apply s_refused; assumption|]. cbn. rewrite app_nil_r. destruct s; reflexivity.
      * destruct (IH (log (EWrite (assignment k v)) {| c_buffer := c_buffer s; c_temp := c_temp s; c_environ := dset k v (c_environ s); c_log := c_log s |})) as (env & out & e & R & Q).
        exists env, (assignment k v :: out), e. split; [apply s_set; assumption|]. unfold write. rewrite Q. cbn. rewrite <- app_assoc. reflexivity.
    + apply split_eq_none_inv in E. destruct x as [|c x].
      * destruct (IH s) as (env & out & e & R & Q). exists env, out, e. split; [apply s_blank; exact R|exact Q].
      * set (v := match dget (c :: x) (c_environ s) with Some v => v | None => [] end). destruct (IH (log (EWrite (assignment (c :: x) v)) s)) as (env & out & e & R & Q).
        exists env, (assignment (c :: x) v :: out), e. split; [eapply s_show; [exact E|discriminate|reflexivity|exact R]|]. unfold write. rewrite Q. cbn. rewrite <- app_assoc. reflexivity.
Qed.
(** execution of files *)
Lemma each_runs l : forall s, exists k e, runs load (c_log s) l k e /\
  each (execfile load) l s = ({| c_buffer := c_buffer s; c_temp := c_temp s; c_environ := c_environ s; c_log := k |}, e).
Proof.
  induction l as [|p l IH]; intros s; [exists (c_log s), None; split; [constructor|destruct s; reflexivity]|]. change (each (execfile load) (p :: l) s) with (match execfile load p s with (s, None) => each (execfile load) l s | y => y end). unfold execfile at 1. destruct (load (c_log s) p) as [e| |] eqn:L.
  - exists (c_log s), (Some e). split; [apply r_fail; exact L|destruct s; reflexivity].
  - destruct (IH (log (ESyntax p) s)) as (k & e & R & Q). exists k, e. split; [eapply r_syntax; eassumption|exact Q].
  - destruct (IH (log (EExec p) s)) as (k & e & R & Q). exists k, e. split; [eapply r_code; eassumption|exact Q].
Qed.

End cons.

Section props.
Context (U : unicode) (shlex : text -> res (list text)) (setenv : text -> text -> option exn)
        (load : list event -> text -> loaded) (call : list event -> list text -> option exn)
        (runsource : list event -> text -> res bool) (repr_list : list text -> text) (mktemp : list event -> text -> text).
Lemma F2_impl {A B} (P R : A -> B -> Prop) l k : (forall x y, P x y -> R x y) -> Forall2 P l k -> Forall2 R l k.
Proof. intros H F. induction F; constructor; auto. Qed.
Lemma existsb_plain x : existsb (Z.eqb 47) x = false <-> plain x.
Proof.
  unfold plain. split.
  - intros E I. assert (existsb (Z.eqb 47) x = true) by (apply existsb_exists; exists 47; split; [exact I|reflexivity]). congruence.
  - intros N. destruct (existsb _ x) eqn:E; [|reflexivity]. apply existsb_exists in E as (y & I & E). apply Z.eqb_eq in E. subst. contradiction.
Qed.
Lemma existsb_plain' x : existsb (Z.eqb 47) x = true -> ~ plain x.
Proof. intros E N. apply existsb_plain in N. congruence. Qed.
Lemma resolve_found x s : kept s -> exists p, resolve_path U mktemp x true s = (s, p) /\ found U (c_log s) x p.
Proof.
  intros (K1 & K2 & K3). unfold resolve_path. destruct (existsb _ x) eqn:P; [exists x; split; [reflexivity|constructor; apply existsb_plain'; exact P]|]. apply existsb_plain in P. rewrite K1.
  destruct (dget _ (made (c_log s))) as [t|] eqn:D; eexists; (split; [reflexivity|]); [apply f_temp; [exact P|apply dget_In; exact D]|apply f_here; [exact P|apply dget_None; exact D]].
Qed.
Lemma found_fun l x p q : NoDup (map fst (made l)) -> found U l x p -> found U l x q -> p = q.
Proof.
  intros N A B. inversion A; subst; inversion B; subst; try contradiction; try congruence.
  - match goal with I : In (_, p) _, J : In (_, q) _ |- _ => apply In_dget in I; [|exact N]; apply In_dget in J; [|exact N]; congruence end.
  - match goal with I : In (_, p) _ |- _ => apply (in_map fst) in I; contradiction end.
  - match goal with I : In (_, q) _ |- _ => apply (in_map fst) in I; contradiction end.
Qed.
Lemma found_made l k x p : made l = made k -> found U l x p -> found U k x p.
Proof. intros E F. inversion F; subst; [apply f_path; assumption|apply f_temp; [assumption|rewrite <- E; assumption]|apply f_here; [assumption|rewrite <- E; assumption]]. Qed.
Lemma each_i l : forall s, kept s -> exists ps k e, Forall2 (found U (c_log s)) l ps /\ runs load (c_log s) ps k e /\
  each (fun x s => let (s, p) := resolve_path U mktemp x true s in execfile load p s) l s =
    ({| c_buffer := c_buffer s; c_temp := c_temp s; c_environ := c_environ s; c_log := k |}, e).
Proof.
  induction l as [|x l IH]; intros s K; [exists [], (c_log s), None; repeat split; [constructor|constructor|destruct s; reflexivity]|].
  set (f := fun x s => _). change (each f (x :: l) s) with (match f x s with (s, None) => each f l s | y => y end). unfold f at 1.
  destruct (resolve_found x s K) as (p & -> & F). unfold execfile at 1.
  assert (M : forall e, (forall n q, e <> EMktemp n q) -> made (c_log (log e s)) = made (c_log s)).
  { intros e N. cbn [log c_log]. rewrite made_app. destruct e; try apply app_nil_r. exfalso. eapply N. reflexivity. }
  assert (Q : forall x0 p0 e, (forall n q, e <> EMktemp n q) -> found U (c_log (log e s)) x0 p0 -> found U (c_log s) x0 p0) by (intros x0 p0 e N; apply found_made, M, N).
  assert (W : forall l, exists ps, Forall2 (found U (c_log s)) l ps).
  { clear - K mktemp. induction l as [|y l (ps & H)]; [exists []; constructor|]. destruct (resolve_found y s K) as (p & _ & F). exists (p :: ps). constructor; assumption. }
  destruct (load (c_log s) p) as [e| |] eqn:L.
  - destruct (W l) as (ps & H). exists (p :: ps), (c_log s), (Some e). split; [constructor; assumption|]. split; [apply r_fail; exact L|destruct s; reflexivity].
  - destruct (IH (log (ESyntax p) s)) as (ps & k & e & A & R & E); [apply kept_log; [discriminate|exact K]|]. exists (p :: ps), k, e. split; [|split; [eapply r_syntax; eassumption|exact E]].
    constructor; [exact F|]. apply (F2_impl _ _ _ _ (fun x0 p0 => Q x0 p0 (ESyntax p) ltac:(discriminate)) A).
  - destruct (IH (log (EExec p) s)) as (ps & k & e & A & R & E); [apply kept_log; [discriminate|exact K]|]. exists (p :: ps), k, e. split; [|split; [eapply r_code; eassumption|exact E]].
    constructor; [exact F|]. apply (F2_impl _ _ _ _ (fun x0 p0 => Q x0 p0 (EExec p) ltac:(discriminate)) A).
Qed.
Lemma resolve_files l : fresh mktemp -> forall s, kept s -> exists k ps t, files U mktemp (c_log s) l k ps /\
  resolve_all U mktemp l s = ({| c_buffer := c_buffer s; c_temp := t; c_environ := c_environ s; c_log := k |}, ps).
Proof.
  intros F. induction l as [|x l IH]; intros s K; [exists (c_log s), [], (c_temp s); split; [constructor|destruct s; reflexivity]|]. cbn [resolve_all].
  pose proof (kept_resolve U mktemp x false s F K) as K'.
  destruct K as (K1 & K2 & K3). unfold resolve_path in *. destruct (existsb _ x) eqn:P.
  { destruct (IH s) as (k & ps & t & A & E); [split; auto|]. rewrite E. exists k, (x :: ps), t. split; [apply fs_path; [apply existsb_plain'; exact P|exact A]|reflexivity]. }
  apply existsb_plain in P. rewrite K1 in *. destruct (dget _ (made (c_log s))) as [p|] eqn:D.
  - destruct (IH s) as (k & ps & t & A & E); [split; auto|]. rewrite E. exists k, (p :: ps), t. split; [apply fs_temp; [exact P|apply dget_In; exact D|exact A]|reflexivity].
  - cbn [fst] in K'. destruct (IH _ K') as (k & ps & t & A & E). rewrite E. exists k, (mktemp (c_log s) (py_lower U (py_strip U x)) :: ps), t. split; [|reflexivity].
    apply fs_new; [exact P|apply dget_None; exact D|reflexivity|exact A].
Qed.
End props.
