(** C90: the interactive console and its backslash commands (/repo/postgresql/python/command.py 193-376). *)
From Verif Require Import PyStr PyStrProof PyDict PyDictProof BaseProof ConsModel ConsSpec ConsProof.

Section props.
Context (U : unicode) (shlex : text -> res (list text)) (setenv : text -> text -> option exn)
        (load : list event -> text -> loaded) (call : list event -> list text -> option exn)
        (runsource : list event -> text -> res bool) (repr_list : list text -> text) (mktemp : list event -> text -> text).
Notation push := (push U shlex setenv load call runsource repr_list mktemp).
Notation pushes := (pushes U shlex setenv load call runsource repr_list mktemp).
Notation command_line := (command_line U).

(** A line inside a statement, or one that does not begin with a backslash, is Python: the lines of the statement are run as one source,
    and the statement ends unless more lines are needed. Nothing else happens *)
Theorem C90_python : forall line s, c_buffer s <> [] \/ (forall r, line <> str "\" ++ r) ->
  let source := py_join [10] (c_buffer s ++ [line]) in
  let s' := fst (push line s) in
  c_log s' = c_log s ++ [EPython source] /\ c_environ s' = c_environ s /\ c_temp s' = c_temp s /\
  match runsource (c_log s) source with
  | Ok true => c_buffer s' = c_buffer s ++ [line] /\ snd (push line s) = PMore true
  | Ok false => c_buffer s' = [] /\ snd (push line s) = PMore false
  | Err e => c_buffer s' = c_buffer s ++ [line] /\ snd (push line s) = PRaised e
  end.
Proof.
  intros line s H. rewrite push_python. 2:{ destruct H as [H|H]; [left; exact H|right]. destruct (py_startswith [92] line) eqn:S; [|reflexivity]. exfalso. destruct line as [|c r]; [discriminate S|]. unfold py_startswith in S. cbn [prefixb] in S. apply andb_prop in S as [S _]. apply Z.eqb_eq in S. subst c. exact (H r eq_refl). }
  unfold python_push. destruct (runsource _ _) as [[|]|e]; cbn [fst snd c_log c_buffer c_environ c_temp]; auto.
Qed.

(** A line that begins with a backslash, outside of a statement, never raises, never runs the line as Python, and leaves no statement
    unfinished: push returns None *)
Theorem C90_slash : forall r s, c_buffer s = [] ->
  let line := str "\" ++ r in
  snd (push line s) = PNone /\ c_buffer (fst (push line s)) = [] /\
  exists new, c_log (fst (push line s)) = c_log s ++ new /\ sources new = [].
Proof.
  intros r s B line. destruct (push_slash U shlex setenv load call runsource repr_list mktemp line s B) as (E & (C1 & C2 & (new & C3) & _)); [reflexivity|]. split; [rewrite E; reflexivity|]. split; [congruence|].
  exists new. split; [exact C3|]. rewrite C3, sources_app in C2. rewrite <- (app_nil_r (sources (c_log s))) in C2 at 2. exact (app_inv_head _ _ _ C2).
Qed.

Definition on_slash line (s : con) : con :=
  match execslash U shlex setenv load call repr_list mktemp line s with (s', None) => s' | (s', Some e) => log (EPrint e) s' end.
Lemma push_is line cmd arg s : c_buffer s = [] -> command_line line cmd arg -> (exists r, cmd = str "\" ++ r) -> fst (push line s) = on_slash line s.
Proof.
  intros B C [r ->]. destruct (push_slash U shlex setenv load call runsource repr_list mktemp line s B) as (E & _); [|rewrite E; reflexivity].
  destruct C as (b & -> & _). reflexivity.
Qed.

(** \set shows or changes the environment, word by word, and writes what it set; the first that is refused ends it, and is printed *)
Theorem C90_set : forall line arg words s, c_buffer s = [] -> command_line line (str "\set") arg -> arg <> [] -> shlex arg = Ok words ->
  exists env out e, sets setenv (c_environ s) words env out e /\
    c_environ (fst (push line s)) = env /\ c_log (fst (push line s)) = c_log s ++ map EWrite out ++ printed e /\ c_temp (fst (push line s)) = c_temp s.
Proof.
  intros line arg words s B C N X. rewrite (push_is line (str "\set") arg s B C) by (eexists; reflexivity).
  destruct (each_sets setenv words s) as (env & out & e & S & E). exists env, out, e. split; [exact S|].
  unfold on_slash, execslash. rewrite (first_word_spec _ _ _ _ C).
  change (seqb (str "\set") (str "\?")) with false. change (seqb (str "\set") (str "\set")) with true. cbv iota.
  unfold bs_set. destruct arg as [|a r]; [congruence|]. unfold splitting. rewrite X, E.
  destruct e; cbn [log c_environ c_log c_temp printed]; rewrite <- ?app_assoc, ?app_nil_r; auto.
Qed.
(** without words all of it is written, and nothing changes *)
Theorem C90_set_all : forall line s, c_buffer s = [] -> command_line line (str "\set") [] ->
  c_environ (fst (push line s)) = c_environ s /\ c_log (fst (push line s)) = c_log s ++ map (fun kv => EWrite (fst kv ++ str "=" ++ snd kv ++ [10])) (c_environ s).
Proof.
  intros line s B C. rewrite (push_is line (str "\set") [] s B C) by (eexists; reflexivity).
  unfold on_slash, execslash. rewrite (first_word_spec _ _ _ _ C).
  change (seqb (str "\set") (str "\?")) with false. change (seqb (str "\set") (str "\set")) with true. cbv iota. unfold bs_set.
  assert (G : forall l s, each (fun kv => write (assignment (fst kv) (snd kv))) l s =
     ({| c_buffer := c_buffer s; c_temp := c_temp s; c_environ := c_environ s; c_log := c_log s ++ map (fun kv => EWrite (fst kv ++ str "=" ++ snd kv ++ [10])) l |}, None)).
  { clear. induction l as [|[k v] l IH]; intros s; [cbn; rewrite app_nil_r; destruct s; reflexivity|].
    change (each ?f (?x :: l) s) with (match f x s with (s, None) => each f l s | y => y end). unfold write at 1. rewrite IH. cbn. rewrite <- app_assoc. reflexivity. }
  rewrite G. cbn. auto.
Qed.

(** the console after any lines *)
Definition console (s : con) : Prop := exists s0 lines, new_console s0 /\ s = pushes lines s0.
Lemma console_kept s : fresh mktemp -> console s -> kept s.
Proof.
  intros F (s0 & lines & (A & B & C) & ->). apply kept_pushes; [exact F|]. unfold kept. rewrite B, C. repeat split; constructor.
Qed.

(** \i executes the files, in the order given, up to the first that cannot be loaded; no file is made *)
Theorem C90_execute : fresh mktemp -> forall line arg words s, console s -> c_buffer s = [] -> command_line line (str "\i") arg -> shlex arg = Ok words ->
  exists paths log e, Forall2 (found U (c_log s)) (names_of words) paths /\ runs load (c_log s) paths log e /\
    c_log (fst (push line s)) = log ++ printed e /\ c_environ (fst (push line s)) = c_environ s /\ c_temp (fst (push line s)) = c_temp s.
Proof.
  intros F line arg words s K B C X. rewrite (push_is line (str "\i") arg s B C) by (eexists; reflexivity).
  destruct (each_i U load mktemp (names_of words) s (console_kept s F K)) as (ps & k & e & A & R & E). exists ps, k, e. split; [exact A|]. split; [exact R|].
  unfold on_slash, execslash. rewrite (first_word_spec _ _ _ _ C).
  change (seqb (str "\i") (str "\?")) with false. change (seqb (str "\i") (str "\set")) with false. change (seqb (str "\i") (str "\E")) with false. change (seqb (str "\i") (str "\i")) with true. cbv iota.
  unfold bs_i, splitting. rewrite X. change (or_blank words) with (names_of words). rewrite E. destruct e; cbn [log c_environ c_log c_temp printed]; rewrite ?app_nil_r; auto.
Qed.
(** \E edits the files, and only edits them: the editor is EDITOR, or vi, and gets all the paths at once *)
Theorem C90_edit : fresh mktemp -> forall line arg words s, console s -> c_buffer s = [] -> command_line line (str "\E") arg -> shlex arg = Ok words ->
  exists paths log, files U mktemp (c_log s) (names_of words) log paths /\
    let args := editor (c_environ s) :: paths in
    c_log (fst (push line s)) = log ++ [EEdit args] ++ printed (call log args) /\ c_environ (fst (push line s)) = c_environ s.
Proof.
  intros F line arg words s K B C X. rewrite (push_is line (str "\E") arg s B C) by (eexists; reflexivity).
  destruct (resolve_files U mktemp (names_of words) F s (console_kept s F K)) as (k & ps & t & A & E). exists ps, k. split; [exact A|].
  unfold on_slash, execslash. rewrite (first_word_spec _ _ _ _ C).
  change (seqb (str "\E") (str "\?")) with false. change (seqb (str "\E") (str "\set")) with false. change (seqb (str "\E") (str "\E")) with true. cbv iota.
  unfold bs_E, splitting. rewrite X. change (or_blank words) with (names_of words). rewrite E. unfold editfiles. cbn [c_environ c_log]. fold (editor (c_environ s)).
  destruct (call k (editor (c_environ s) :: ps)); cbn [log c_environ c_log printed]; rewrite <- ?app_assoc, ?app_nil_r; auto.
Qed.
(** \e edits the files and then executes them; if the editor cannot be run nothing is executed *)
Theorem C90_edit_execute : fresh mktemp -> forall line arg words s, console s -> c_buffer s = [] -> command_line line (str "\e") arg -> shlex arg = Ok words ->
  exists paths log, files U mktemp (c_log s) (names_of words) log paths /\
    let args := editor (c_environ s) :: paths in
    match call log args with
    | Some e => c_log (fst (push line s)) = log ++ [EEdit args; EPrint e]
    | None => exists log' e, runs load (log ++ [EEdit args]) paths log' e /\ c_log (fst (push line s)) = log' ++ printed e
    end /\ c_environ (fst (push line s)) = c_environ s.
Proof.
  intros F line arg words s K B C X. rewrite (push_is line (str "\e") arg s B C) by (eexists; reflexivity).
  destruct (resolve_files U mktemp (names_of words) F s (console_kept s F K)) as (k & ps & t & A & E). exists ps, k. split; [exact A|].
  unfold on_slash, execslash. rewrite (first_word_spec _ _ _ _ C).
  change (seqb (str "\e") (str "\?")) with false. change (seqb (str "\e") (str "\set")) with false. change (seqb (str "\e") (str "\E")) with false. change (seqb (str "\e") (str "\i")) with false. change (seqb (str "\e") (str "\e")) with true. cbv iota.
  unfold bs_e, splitting. rewrite X. change (or_blank words) with (names_of words). rewrite E. unfold seq, editfiles. cbn [c_environ c_log]. fold (editor (c_environ s)).
  destruct (call k (editor (c_environ s) :: ps)) as [e|]; [cbn [log c_environ c_log]; rewrite <- ?app_assoc; auto|].
  match goal with |- context [each _ ps ?s1] => destruct (each_runs load ps s1) as (k' & e & R & Q); rewrite Q; cbn [log c_log c_environ] in * end.
  split; [exists k', e; split; [exact R|]|]; destruct e; cbn [log c_environ c_log printed]; rewrite ?app_nil_r; reflexivity.
Qed.

(** A name stands for the same temporary file for as long as the console lives; two names stand for the same one only if they differ in
    white space around them and in case; and no file is ever given to two names *)
Theorem C90_names : fresh mktemp -> forall s, console s ->
  (forall x p, plain x -> In (short U x, p) (made (c_log s)) -> forall lines q, found U (c_log (pushes lines s)) x q <-> q = p) /\
  (forall x y p, In (x, p) (made (c_log s)) -> In (y, p) (made (c_log s)) -> x = y).
Proof.
  intros F s C. pose proof (console_kept s F C) as K. split.
  - intros x p P I lines q. destruct (kept_pushes U shlex setenv load call runsource repr_list mktemp lines s F K) as ((_ & K2 & _) & (l & L)).
    assert (J : In (short U x, p) (made (c_log (pushes lines s)))) by (rewrite L, made_app; apply in_or_app; left; exact I).
    split; [intros Q; eapply found_fun; [exact K2|exact Q|apply f_temp; assumption]|intros ->; apply f_temp; assumption].
  - destruct K as (_ & _ & N). generalize dependent (made (c_log s)). clear. intros l N x y p. induction l as [|[a b] l IH]; [intros []|]. cbn [map snd] in N. inversion N as [|? ? N1 N2]; subst.
    intros [A|A] [B|B]; [congruence| | |auto]; exfalso; apply N1.
    + injection A as <- <-. apply (in_map snd) in B. exact B.
    + injection B as <- <-. apply (in_map snd) in A. exact A.
Qed.
(** an unknown command is written to the user, and does nothing else *)
Theorem C90_unknown : forall line cmd arg s, c_buffer s = [] -> command_line line cmd arg -> (exists r, cmd = str "\" ++ r) ->
  ~ In cmd [str "\?"; str "\set"; str "\E"; str "\i"; str "\e"; str "\x"] ->
  exists words, c_log (fst (push line s)) = c_log s ++ [EWrite (str "ERROR: unknown backslash command: " ++ words ++ [10])] /\
    c_environ (fst (push line s)) = c_environ s /\ c_temp (fst (push line s)) = c_temp s.
Proof.
  intros line cmd arg s B C R N. rewrite (push_is line cmd arg s B C R). unfold on_slash, execslash. rewrite (first_word_spec _ _ _ _ C).
  cbn [In] in N. repeat (match goal with |- context [seqb cmd ?y] => destruct (seqb_spec cmd y) as [->|]; [exfalso; apply N; tauto|] end). eexists. cbn [write log c_log c_environ c_temp]. auto.
Qed.
(** \? writes the list of commands *)
Theorem C90_help : forall line arg s, c_buffer s = [] -> command_line line (str "\?") arg -> c_log (fst (push line s)) = c_log s ++ [EHelp].
Proof.
  intros line arg s B C. rewrite (push_is line (str "\?") arg s B C) by (eexists; reflexivity). unfold on_slash, execslash. rewrite (first_word_spec _ _ _ _ C). reflexivity.
Qed.
(** \x never executes a command: it ends with an exception, which is printed *)
Theorem C90_x_refuted : forall line arg s, c_buffer s = [] -> command_line line (str "\x") arg ->
  c_log (fst (push line s)) = c_log s ++ [EPrint (match shlex arg with Ok _ => TypeError | Err e => e end)].
Proof.
  intros line arg s B C. rewrite (push_is line (str "\x") arg s B C) by (eexists; reflexivity). unfold on_slash, execslash. rewrite (first_word_spec _ _ _ _ C).
  change (seqb (str "\x") (str "\?")) with false. change (seqb (str "\x") (str "\set")) with false. change (seqb (str "\x") (str "\E")) with false. change (seqb (str "\x") (str "\i")) with false. change (seqb (str "\x") (str "\e")) with false. change (seqb (str "\x") (str "\x")) with true. cbv iota.
  unfold bs_x, splitting. destruct (shlex arg); reflexivity.
Qed.
End props.
Print Assumptions C90_python.
Print Assumptions C90_slash.
Print Assumptions C90_set.
Print Assumptions C90_set_all.
Print Assumptions C90_execute.
Print Assumptions C90_edit.
Print Assumptions C90_edit_execute.
Print Assumptions C90_names.
Print Assumptions C90_unknown.
Print Assumptions C90_help.
Print Assumptions C90_x_refuted.


(** in the current directory \i opens a file of the lower-cased name, whatever the case of the name given *)
Theorem C90_i_case_refuted : forall (shlex : text -> res (list text)) (setenv : text -> text -> option exn) (call : list event -> list text -> option exn)
  (runsource : list event -> text -> res bool) (repr_list : list text -> text) (mktemp : list event -> text -> text) s, shlex (str "README") = Ok [str "README"] ->
  new_console s -> exists load : list event -> text -> loaded,
  (forall l, load l (str "README") = LCode) /\
  c_log (fst (push ascii_unicode shlex setenv load call runsource repr_list mktemp (str "\i README") s)) = [EPrint (OtherError 2)].
Proof.
  intros shlex setenv call runsource repr_list mktemp s X (B & T & L). exists (fun _ p => if seqb p (str "README") then LCode else LFail (OtherError 2)). split; [reflexivity|].
  destruct s as [b t e l]. cbn in B, T, L. subst. unfold push. cbn [c_buffer]. change (py_startswith [92] (str "\i README")) with true. cbv iota.
  unfold execslash. change (first_word ascii_unicode (str "\i README")) with (str "\i", str "README"). cbv iota beta.
  change (seqb (str "\i") (str "\?")) with false. change (seqb (str "\i") (str "\set")) with false. change (seqb (str "\i") (str "\E")) with false. change (seqb (str "\i") (str "\i")) with true. cbv iota.
  unfold bs_i, splitting. rewrite X. reflexivity.
Qed.
Print Assumptions C90_i_case_refuted.

(** examples: words divided at single blanks; files of the name "/ok" have code *)
Section examples.
Let words (t : text) : res (list text) := Ok (filter (fun w => negb (seqb w [])) (py_split [32] t)).
Let setenv (k v : text) : option exn := if seqb k [] then Some ValueError else None.
Let load (l : list event) (p : text) : loaded := if seqb p (str "/ok") then LCode else if seqb p (str "/bad") then LSyntax else LFail (OtherError 2).
Let call (l : list event) (a : list text) : option exn := None.
Let source (l : list event) (t : text) : res bool := Ok (py_startswith (str "if") t).
Let mktemp (l : list event) (n : text) : text := str "/tmp/" ++ n ++ concat (repeat [46] (length (made l))).
Let run := pushes ascii_unicode words setenv load call source (fun _ => str "[]") mktemp.
Let start : con := {| c_buffer := []; c_temp := []; c_environ := [(str "EDITOR", str "ed")]; c_log := [] |}.
Example C90_ex_python : c_log (run [str "1+1"; str "if x:"; str "\? "] start) = [EPython (str "1+1"); EPython (str "if x:"); EPython (str "if x:" ++ [10] ++ str "\? ")].
Proof. vm_compute. reflexivity. Qed.
Example C90_ex_edit : c_log (run [str "\E One two"; str "\E  ONE /a/b"; str "\e /bad /ok /none /ok"] start) =
  [EMktemp (str "one") (str "/tmp/one"); EMktemp (str "two") (str "/tmp/two."); EEdit [str "ed"; str "/tmp/one"; str "/tmp/two."];
   EEdit [str "ed"; str "/tmp/one"; str "/a/b"];
   EEdit [str "ed"; str "/bad"; str "/ok"; str "/none"; str "/ok"]; ESyntax (str "/bad"); EExec (str "/ok"); EPrint (OtherError 2)].
Proof. vm_compute. reflexivity. Qed.
Example C90_ex_set : let s := run [str "\set A=1=2 EDITOR B =3 C=4"; str "\set"] start in
  c_environ s = [(str "EDITOR", str "ed"); (str "A", str "1=2")] /\ c_log s = [EWrite (str "A=1=2" ++ [10]); EWrite (str "EDITOR=ed" ++ [10]); EWrite (str "B=" ++ [10]); EPrint ValueError;
             EWrite (str "EDITOR=ed" ++ [10]); EWrite (str "A=1=2" ++ [10])].
Proof. vm_compute. split; reflexivity. Qed.
Example C90_ex_other : c_log (run [str "\?"; str "\q"; str "\x /ok"; str "\i /ok"] start) =
  [EHelp; EWrite (str "ERROR: unknown backslash command: []" ++ [10]); EPrint TypeError; EExec (str "/ok")].
Proof. vm_compute. reflexivity. Qed.
Example C90_ex_line : command_line ascii_unicode (str "\set  a=b c ") (str "\set") (str "a=b c ") /\ console ascii_unicode words setenv load call source (fun _ => str "[]") mktemp (run [str "\E one"] start).
Proof.
  split; [exists (str "  "); repeat split; try discriminate; repeat constructor|]. exists start, [str "\E one"]. split; [repeat split|reflexivity].
Qed.
End examples.
(** a mktemp that is fresh *)
Definition some_mktemp (l : list event) (n : text) : text := repeat 46 (S (fold_right Nat.max 0 (map (@length Z) (map snd (made l)))))%nat.
Example C90_ex_fresh : fresh some_mktemp.
Proof.
  intros l n I. unfold some_mktemp in I. set (k := map snd (made l)) in *. clearbody k.
  assert (G : forall x, In x k -> (length x <= fold_right Nat.max 0 (map (@length Z) k))%nat).
  { clear. induction k as [|a k IH]; intros x; [intros []|]. cbn [map fold_right]. intros [->|J]; [lia|]. specialize (IH x J). lia. }
  apply G in I. rewrite repeat_length in I. lia.
Qed.
