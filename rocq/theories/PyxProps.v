(** PyxProps.v: C88 (python commands) and C89 (pg_python). *)
From Verif Require Import PyStr PyStrProof PyDict PyDictProof PyxModel PyxSpec PyxProof.

(** ** C88 *)
(** What main is: -m or -c; else the first argument, a file; else standard input unless it is a terminal; else a console.  Nothing is run. *)
Theorem C88_selection : forall E main args tty stdin s r s', choose E main args tty stdin s = (r, s') ->
  s' = s /\ forall m rest, r = inl (m, rest) -> selects E main args tty stdin m rest.
Proof.
  intros E main args tty stdin s r s' H. destruct (choose_spec E main args tty stdin s) as (r' & C & S1). rewrite C in H.
  assert (r' = r) by congruence. assert (s = s') by congruence. subst. auto.
Qed.
Print Assumptions C88_selection.

(** What a command with a main runs: the code of the -C options, in order, up to the first which fails, then main, exactly once and only if
    all of them ended normally, with its file in front of the arguments as sys.argv; all in one namespace, that of the new __main__.  If main
    ran, the command gives 0 if it ended normally, the code of its SystemExit, or 1 after any other exception, whatever the postmortem object
    does; and that object was called, with that exception, exactly if there is one and main raised.  If main did not run it gives 1, or raises. *)
Theorem C88_script : forall E ns vs path l args post s r s', call E ns (map context_of vs) (Some (path, l)) args post s = (r, s') ->
  exists new, snd s' = snd s ++ new /\ consoles new = [] /\ (forall x t, ran new = x :: t -> r_main x = Some (Some ns)) /\
  exists cs m, ran new = cs ++ m /\ prelude E ns vs cs /\
  ((m = [] /\ posts new = [] /\ (r = inl (CInt 1) \/ (exists x, r = inr x) \/ (post <> [] /\ exists x, e_post E post = PRaise x))) \/
   (exists x, m = [x] /\ length cs = length vs /\ Forall normal cs /\
      main_code E l (r_code x) (r_file x) /\ r_argv x = r_file x :: args /\ r_ns x = ns /\
      r = inl (result_of (r_end x)) /\ (forall e, r_end x = Some e -> w_last (fst s') = Some e) /\
      posts new = match r_end x with Some e => match post with [] => [] | _ => match e_post E post with PFound => [e] | _ => [] end end | None => [] end)).
Proof.
  intros E ns vs path l args post s r s' H.
  destruct (call_spec E ns (map context_of vs) (Some (path, l)) args post s) as (r1 & w1 & h1 & B & C). rewrite C in H.
  destruct (body_script E ns vs path l args post s) as (r2 & w2 & new & B2 & Q & M1 & cs & m & R & P & D). rewrite B in B2.
  assert (r1 = r2) by congruence. assert (w1 = w2) by congruence. assert (h1 = snd s ++ new) by congruence. subst r1 w1 h1.
  assert (r2 = r) by congruence. subst r2.
  match type of H with (_, (?ww, ?hh)) = _ => assert (E1 : s' = (ww, hh)) by congruence end. subst s'. cbn [fst snd].
  exists new. split; [reflexivity|]. split; [exact Q|]. split; [exact M1|]. exists cs, m. split; [exact R|]. split; [exact P|]. exact D.
Qed.
Print Assumptions C88_script.

(** A command without a main is a console in the same namespace, after the -C code, if all of that ended normally *)
Theorem C88_console : forall E ns vs args post s r s', call E ns (map context_of vs) None args post s = (r, s') ->
  exists new, snd s' = snd s ++ new /\ posts new = [] /\ prelude E ns vs (ran new) /\
  ((consoles new = [] /\ (r = inl (CInt 1) \/ exists x, r = inr x)) \/
   (length (ran new) = length vs /\ Forall normal (ran new) /\ consoles new = [(ns, match args with [] => [str "<console>"] | _ => args end)])).
Proof.
  intros E ns vs args post s r s' H.
  destruct (call_spec E ns (map context_of vs) None args post s) as (r1 & w1 & h1 & B & C). rewrite C in H.
  destruct (body_console E ns vs args post s) as (r2 & w2 & new & B2 & P & Q & D). rewrite B in B2.
  assert (r1 = r2) by congruence. assert (w1 = w2) by congruence. assert (h1 = snd s ++ new) by congruence. subst r1 w1 h1.
  assert (r2 = r) by congruence. subst r2.
  match type of H with (_, (?ww, ?hh)) = _ => assert (E1 : s' = (ww, hh)) by congruence end. subst s'. cbn [fst snd].
  exists new. auto.
Qed.
Print Assumptions C88_console.

(** However it ends, and whatever the code did: sys.argv is what it was, os.environ has the contents that it had, and the modules __main__ and
    __context__ are those that were there *)
Theorem C88_restored : forall E ns contexts main args post s r s', call E ns contexts main args post s = (r, s') ->
  w_argv (fst s') = w_argv (fst s) /\ environ_view (fst s') = environ_view (fst s) /\
  (forall v, w_main (fst s) = Some v -> w_main (fst s') = Some v) /\ (forall v, w_context (fst s) = Some v -> w_context (fst s') = Some v).
Proof.
  intros E ns contexts main args post s r s' H.
  destruct (call_spec E ns contexts main args post s) as (r1 & w1 & h1 & B & C). rewrite C in H.
  match type of H with (_, (?ww, ?hh)) = _ => assert (E1 : s' = (ww, hh)) by congruence end. subst s'. cbn [fst].
  split; [reflexivity|]. split; [reflexivity|]. split; intros v V; cbn [set_all w_main w_context]; rewrite V; reflexivity.
Qed.
Print Assumptions C88_restored.
(** but a module that was not there is there as None afterwards (an import of it fails) *)
Theorem C88_absent_refuted : forall E ns contexts main args post s r s', call E ns contexts main args post s = (r, s') ->
  w_context (fst s) = None -> w_context (fst s') = Some None.
Proof.
  intros E ns contexts main args post s r s' H N.
  destruct (call_spec E ns contexts main args post s) as (r1 & w1 & h1 & B & C). rewrite C in H.
  match type of H with (_, (?ww, ?hh)) = _ => assert (E1 : s' = (ww, hh)) by congruence end. subst s'. cbn [fst set_all w_context]. rewrite N. reflexivity.
Qed.
Print Assumptions C88_absent_refuted.

Definition plain_env (ex : code -> Z -> world -> world * option exc) : env :=
  {| e_read := fun _ _ => inr (XOther 9 true); e_module := fun _ _ => inl None; e_compile := fun _ _ => None; e_exec := ex;
     e_interact := fun _ w => (w, None); e_post := fun _ => PMissing; e_postcall := fun w => (w, None) |}.
Definition w0 : world := {| w_main := Some (Some 1); w_context := None; w_argv := [str "pg"]; w_environ := EProcess; w_penv := [(str "A", str "1")];
  w_last := None; w_builtins := [(str "len", Some 7); (str "db", Some 8)]; w_libpath := [str "/lib"] |}.
(** and os.environ is a dict from then on: the environment of the process, which child processes get, is not restored, and can no longer be
    changed through os.environ *)
Definition setting (c : code) (ns : Z) (w : world) : world * option exc :=
  ({| w_main := w_main w; w_context := w_context w; w_argv := w_argv w; w_environ := w_environ w; w_penv := [(str "A", str "2")];
      w_last := w_last w; w_builtins := w_builtins w; w_libpath := w_libpath w |}, None).
Theorem C88_environ_refuted : exists E s r s', call E 5 [] (Some (str "x", LCommand (str "x"))) [] [] s = (r, s') /\
  w_environ (fst s) = EProcess /\ w_environ (fst s') <> EProcess /\ w_penv (fst s') <> w_penv (fst s).
Proof.
  exists (plain_env setting), (w0, []). do 2 eexists. split; [reflexivity|]. cbn. repeat split; vm_compute; discriminate.
Qed.
Print Assumptions C88_environ_refuted.

(** SystemExit in the code of a -C option does not give its code: it is reported as an error, main is not run, and the result is 1 *)
Theorem C88_context_exit_refuted : exists E s r s', call E 5 (map context_of [str "exit(0)"]) (Some (str "x", LCommand (str "x"))) [] [] s = (r, s') /\
  (exists x, ran (snd s') = [x] /\ r_end x = Some (XExit (CInt 0))) /\ r = inl (CInt 1).
Proof.
  exists (plain_env (fun _ _ w => (w, Some (XExit (CInt 0))))), (w0, []). do 2 eexists. split; [vm_compute; reflexivity|].
  split; [eexists; split; reflexivity|reflexivity].
Qed.
Print Assumptions C88_context_exit_refuted.

(** not vacuous: a file and a command in front of a script which exits with 3 *)
Definition ex_env : env :=
  {| e_read := fun _ p => if seqb p (str "/a.py") then inl (str "a = 1") else inr (XOther 9 true); e_module := fun _ _ => inl None; e_compile := fun _ _ => None;
     e_exec := fun c _ w => if seqb (snd c) (str "main") then (w, Some (XExit (CInt 3))) else (w, None);
     e_interact := fun _ w => (w, None); e_post := fun _ => PFound; e_postcall := fun w => (w, Some (XOther 5 true)) |}.
Example C88_ex : exists s', command ex_env 5 (map context_of [str "file:///a.py"; str "b = 2"]) (Some (str "main", KCommand)) [str "-v"] true (inl []) (str "pdb.pm") (w0, []) = (inl (CInt 3), s') /\
  map r_code (ran (snd s')) = [(str "/a.py", str "a = 1"); (str "<command>", str "b = 2"); (str "<command>", str "main")] /\
  map r_argv (ran (snd s')) = [[str "pg"]; [str "pg"]; [str "<command>"; str "-v"]] /\ posts (snd s') = [XExit (CInt 3)].
Proof. eexists. split; [vm_compute; reflexivity|]. repeat split; reflexivity. Qed.
(** a missing file in front of it: nothing is run *)
Example C88_ex_missing : exists s', command ex_env 5 (map context_of [str "file:///b.py"]) (Some (str "main", KCommand)) [] true (inl []) [] (w0, []) = (inl (CInt 1), s') /\ ran (snd s') = [].
Proof. eexists. split; [vm_compute; reflexivity|]. reflexivity. Qed.

(** ** C89: pg_python *)
(** While the code runs, the eight names have their new values in builtins and every other name has the value it had; afterwards each of
    the eight that was there has its value again, and every other name is left as the code left it *)
Theorem C89_builtins : forall run vals s r s' c, length vals = 8%nat -> with_connection run vals s = ((r, s'), c) ->
  exists w1 s1, run (w1, snd s) = (r, s1) /\
  (forall i n v, nth_error overload_names i = Some n -> nth_error vals i = Some v -> dget n (w_builtins w1) = Some (Some v)) /\
  (forall n, ~ In n overload_names -> dget n (w_builtins w1) = dget n (w_builtins (fst s))) /\
  (forall n v, In n overload_names -> dget n (w_builtins (fst s)) = Some v -> dget n (w_builtins (fst s')) = Some v) /\
  (forall n, ~ In n overload_names -> dget n (w_builtins (fst s')) = dget n (w_builtins (fst s1))).
Proof.
  intros run vals [w h] r s' c L H. unfold with_connection in H. cbn [fst snd] in H.
  set (w1 := set_builtins (dupdate (w_builtins w) (combine overload_names (map Some vals))) w) in H.
  destruct (run (w1, h)) as [r1 [w2 h2]] eqn:R. exists w1, (w2, h2).
  match type of H with ((?rr, ?ss), _) = _ => assert (r = rr) by congruence; assert (s' = ss) by congruence end. subst r s'. cbn [fst snd].
  split; [exact R|]. split; [intros i n v A B; subst w1; cbn [set_builtins w_builtins]; exact (given_in vals i n v _ L A B)|].
  split; [intros n I; subst w1; cbn [set_builtins w_builtins]; exact (given_out vals n _ L I)|].
  split; intros n; cbn [set_builtins w_builtins]; fold (restored w).
  - intros v I V. rewrite restored_in by exact I. rewrite V. reflexivity.
  - intros I. apply restored_out. exact I.
Qed.
Print Assumptions C89_builtins.
(** but a name that was not there is not removed: it stays, with the value None *)
Theorem C89_builtins_refuted : forall run vals s r s' c, with_connection run vals s = ((r, s'), c) ->
  forall n, In n overload_names -> dget n (w_builtins (fst s)) = None -> dget n (w_builtins (fst s')) = Some None.
Proof.
  intros run vals [w h] r s' c H n I N. unfold with_connection in H. cbn [fst snd] in *.
  destruct (run (_, h)) as [r1 [w2 h2]].
  match type of H with ((?rr, ?ss), _) = _ => assert (s' = ss) by congruence end. subst s'. cbn [fst snd set_builtins w_builtins].
  fold (restored w). rewrite restored_in by exact I. rewrite N. reflexivity.
Qed.
Print Assumptions C89_builtins_refuted.

Lemma truthy_success e : if truthy e then ~ success e else success e.
Proof.
  destruct e as [|n|t]; cbn [truthy success]; [exact Logic.I|destruct (Z.eqb_spec n 0); cbn [negb]; assumption|].
  destruct t as [|c t]; [reflexivity|]. destruct (Z.eqb_spec (len (c :: t)) 0) as [E|]; [unfold len in E; cbn [length] in E; lia|]. discriminate.
Qed.
(** The connection is closed (the server is told) after a script that ended normally, by an Exception, or by SystemExit with a code that
    means success; after any other SystemExit, and after a KeyboardInterrupt, the socket is dropped *)
Theorem C89_closed : forall E ns vs path l args post vals s r s' c,
  with_connection (call E ns (map context_of vs) (Some (path, l)) args post) vals s = ((r, s'), c) ->
  exists new cs m, snd s' = snd s ++ new /\ ran new = cs ++ m /\ prelude E ns vs cs /\
  forall x, m = [x] -> r = inl (result_of (r_end x)) /\
    match r_end x with
    | None => c = CClosed
    | Some (XExit e) => (success e -> c = CClosed) /\ (~ success e -> c = CDropped)
    | Some (XOther _ true) => c = CClosed
    | Some (XOther _ false) => c = CDropped
    end.
Proof.
  intros E ns vs path l args post vals [w h] r s' c H. unfold with_connection in H. cbn [fst snd] in *.
  destruct (call E ns (map context_of vs) (Some (path, l)) args post (_, h)) as [r1 [w2 h2]] eqn:C.
  destruct (C88_script _ _ _ _ _ _ _ _ _ _ C) as (new & E1 & _ & _ & cs & m & R & P & D). cbn [fst snd] in *.
  match type of H with ((?rr, ?ss), ?cc) = _ => assert (r = rr) by congruence; assert (s' = ss) by congruence; assert (c = cc) by congruence end.
  subst r s' c. cbn [snd]. exists new, cs, m. split; [exact E1|]. split; [exact R|]. split; [exact P|].
  intros x X. destruct D as [(D & _)|(y & D & _ & _ & _ & _ & _ & F1 & F2 & _)]; [congruence|].
  assert (y = x) by congruence. subst y r1. split; [reflexivity|].
  destruct (r_end x) as [[e|cls b]|]; cbn [result_of].
  - rewrite (F2 _ eq_refl). cbn [is_exception negb]. rewrite andb_true_r. pose proof (truthy_success e) as T. destruct (truthy e); (split; intros S; [|reflexivity]) || (split; intros S; [reflexivity|]); tauto.
  - rewrite (F2 _ eq_refl). cbn [is_exception]. destruct b; reflexivity.
  - reflexivity.
Qed.
Print Assumptions C89_closed.

(** Connecting is tried again, with a prompt for the password, as long as it is refused for authentication, and ends with the first attempt
    that connects, or that fails for any other reason *)
Theorem C89_connecting : forall l, exists fss rest, Forall (fun fs => In true fs) fss /\ l = map ACannot fss ++ rest /\
  match snd (connecting false l) with
  | Connected => exists t, rest = AOk :: t
  | Waiting => rest = []
  | Failed x => exists a t, rest = a :: t /\ match a with AEof => x = XExit (CInt 1) | AOther y => x = y | ACannot fs => ~ In true fs /\ x = CannotConnect | AOk => False end
  end /\
  fst (connecting false l) = firstn (length fss + match rest with [] => 0 | _ => 1 end) (false :: repeat true (length l)).
Proof. intros l. exact (connecting_spec l false). Qed.
Print Assumptions C89_connecting.

(** No code is run, and builtins are not touched, unless a connection was made; an exception that leaves the command finds the current
    directory taken from the library path again *)
Theorem C89_command : forall E libpath attempts vals ns contexts main args tty stdin post s r s' c,
  pg_python E libpath attempts vals ns contexts main args tty stdin post s = ((r, s'), c) ->
  (snd (connecting false attempts) <> Connected -> c = None /\ snd s' = snd s /\ w_builtins (fst s') = w_builtins (fst s) /\
     (forall x, snd (connecting false attempts) = Failed x -> r = inr x /\ w_libpath (fst s') = w_libpath (fst s) ++ libpath)) /\
  (snd (connecting false attempts) = Connected -> c <> None) /\
  (forall rv, r = inl rv -> c = Some CClosed \/ c = Some CDropped).
Proof.
  intros E libpath attempts vals ns contexts main args tty stdin post [w h] r s' c H. unfold pg_python in H. cbn [fst snd] in *.
  destruct (connecting false attempts) as [p [| |]]; cbn [snd] in H |- *.
  2:{ match type of H with ((?rr, ?ss), ?cc) = _ => assert (r = rr) by congruence; assert (s' = ss) by congruence; assert (c = cc) by congruence end.
      subst. split; [|split; [discriminate|discriminate]]. intros _. split; [reflexivity|]. split; [reflexivity|]. split; [reflexivity|].
      intros y Y. split; [congruence|]. reflexivity. }
  2:{ match type of H with ((?rr, ?ss), ?cc) = _ => assert (r = rr) by congruence; assert (s' = ss) by congruence; assert (c = cc) by congruence end.
      subst. split; [|split; [discriminate|discriminate]]. intros _. repeat split; auto; discriminate. }
  split; [intros N; congruence|].
  destruct (choose E main args tty stdin _) as [[[m a]|x] s1] eqn:CH.
  2:{ match type of H with ((?rr, ?ss), ?cc) = _ => assert (r = rr) by congruence; assert (c = cc) by congruence end. subst. split; discriminate. }
  destruct (with_connection (call E ns contexts m a post) vals s1) as [[r2 s2] c2] eqn:WC.
  unfold with_connection in WC. destruct (call E ns contexts m a post _) as [r3 s3].
  match type of WC with ((?rr, ?ss), ?cc) = _ => assert (r2 = rr) by congruence; assert (c2 = cc) by congruence end. subst r3 c2. clear WC.
  destruct r2 as [rv|x].
  - match type of H with ((?rr, ?ss), ?cc) = _ => assert (r = rr) by congruence; assert (c = cc) by congruence end. subst. split; [discriminate|].
    intros rv' _. destruct (truthy rv && _); cbn; auto.
  - match type of H with ((?rr, ?ss), ?cc) = _ => assert (r = rr) by congruence; assert (c = cc) by congruence end. subst. split; discriminate.
Qed.
Print Assumptions C89_command.
(** but after a normal end the current directory, and what --libpath added, stay in the library path *)
Theorem C89_libpath_refuted : exists E vals s r s' c,
  pg_python E [str "/x"] [AOk] vals 5 [] (Some (str "pass", KCommand)) [] true (inl []) [] s = ((inl r, s'), c) /\
  w_libpath (fst s') = [str "."] ++ w_libpath (fst s) ++ [str "/x"].
Proof. exists (plain_env (fun _ _ w => (w, None))), [1;2;3;4;5;6;7;8], (w0, []). do 3 eexists. split; [vm_compute; reflexivity|]. reflexivity. Qed.
Print Assumptions C89_libpath_refuted.

(** not vacuous *)
Example C89_ex : exists s', pg_python (plain_env (fun _ _ w => (w, Some (XExit (CInt 2))))) [] [ACannot [false; true]; AOk] [1;2;3;4;5;6;7;8] 5 []
  (Some (str "exit(2)", KCommand)) [] true (inl []) [] (w0, []) = ((inl (CInt 2), s'), Some CDropped) /\
  dget (str "len") (w_builtins (fst s')) = Some (Some 7) /\ dget (str "db") (w_builtins (fst s')) = Some (Some 8) /\ dget (str "proc") (w_builtins (fst s')) = Some None.
Proof. eexists. split; [vm_compute; reflexivity|]. repeat split; reflexivity. Qed.
Example C89_ex_prompts : connecting false [ACannot [true]; ACannot [false; true]; ACannot [false]; AOk] = ([false; true; true], Failed CannotConnect).
Proof. reflexivity. Qed.
