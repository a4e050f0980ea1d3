(** PyxProof.v *)
From Verif Require Import PyStr PyStrProof PyDict PyDictProof PyxModel PyxSpec.

Lemma ran_app a b : ran (a ++ b) = ran a ++ ran b.
Proof. induction a as [|e a IH]; auto. destruct e; cbn; rewrite ?IH; reflexivity. Qed.
Lemma posts_app a b : posts (a ++ b) = posts a ++ posts b.
Proof. induction a as [|e a IH]; auto. destruct e; cbn; rewrite ?IH; reflexivity. Qed.
Lemma reports_app a b : reports (a ++ b) = reports a ++ reports b.
Proof. induction a as [|e a IH]; auto. destruct e; cbn; rewrite ?IH; reflexivity. Qed.
Lemma consoles_app a b : consoles (a ++ b) = consoles a ++ consoles b.
Proof. induction a as [|e a IH]; auto. destruct e; cbn; rewrite ?IH; reflexivity. Qed.

Lemma prefixb_app (p l : text) : prefixb p l = true <-> exists r, l = p ++ r.
Proof.
  revert l. induction p as [|c p IH]; intros l; cbn.
  - split; eauto.
  - destruct l as [|d l]; [split; [discriminate|intros [r E]; discriminate]|].
    rewrite andb_true_iff, Z.eqb_eq, IH. split.
    + intros [-> [r ->]]. eauto.
    + intros [r E]. split; [congruence|]. exists r. congruence.
Qed.
Lemma startswith_app (p l : text) : py_startswith p l = true -> exists r, l = p ++ r.
Proof. apply prefixb_app. Qed.
Lemma startswith_not (p l : text) : py_startswith p l = false -> forall r, l <> p ++ r.
Proof. intros E r H. assert (T : prefixb p l = true) by (apply prefixb_app; eauto). unfold py_startswith in E. congruence. Qed.

Section P.
Variable E : env.

Lemma execute_spec c ns file s : exists x w, execute E c ns file s = (match x with None => inl tt | Some x => inr x end,
  (w, snd s ++ [ERun {| r_code := c; r_ns := ns; r_main := w_main (fst s); r_argv := w_argv (fst s); r_file := file; r_end := x |}])).
Proof.
  unfold execute, bnd, get, upd, log. destruct (e_exec E c ns (fst s)) as [w x] eqn:X.
  exists x, w. destruct x; reflexivity.
Qed.

(** get_code: it does not touch the world, and what it gives *)
Lemma get_code_spec l s : exists r, get_code E l s = (r, s) /\ forall c, r = inl c ->
  match l with
  | LModule (ML c' _) => c' = inl c
  | LFile p (Some src) => c = (p, src)
  | LFile p None => exists h src, e_read E h p = inl src /\ c = (p, src)
  | LCommand src => c = (str "<command>", src)
  end.
Proof.
  destruct l as [[c0 f0]|p [src|]|src]; cbn [get_code].
  - exists c0. split; [reflexivity|]. auto.
  - unfold compiled. destruct (e_compile E src p); eexists; (split; [reflexivity|]); intros c H; [discriminate|congruence].
  - unfold bnd, ask, lift. destruct (e_read E (snd s) p) as [src|x] eqn:R.
    + unfold compiled. destruct (e_compile E src p); eexists; (split; [reflexivity|]); intros c H; [discriminate|].
      exists (snd s), src. split; [exact R|]. congruence.
    + eexists. split; [reflexivity|]. discriminate.
  - unfold compiled. destruct (e_compile E src (str "<command>")); eexists; (split; [reflexivity|]); intros c H; [discriminate|congruence].
Qed.
Lemma get_filename_spec l s : exists r, get_filename l s = (r, s) /\ forall f, r = inl f ->
  match l with LModule (ML _ f') => f' = inl f | LFile p _ => f = p | LCommand _ => f = str "<command>" end.
Proof.
  destruct l as [[c0 f0]|p o|src]; cbn [get_filename]; eexists; (split; [reflexivity|]); intros f H; congruence.
Qed.
Lemma load_spec k p s : exists r, load E k p s = (r, s) /\ forall l, r = inl (Some l) ->
  match k with
  | KModule => exists h m, e_module E h p = inl (Some m) /\ l = LModule m
  | KFile => l = LFile p None
  | KCommand => l = LCommand p
  end.
Proof.
  destruct k; cbn [load].
  - unfold bnd, ask, lift. destruct (e_module E (snd s) p) as [[m|]|x] eqn:R; eexists; (split; [reflexivity|]); intros l H; try discriminate.
    exists (snd s), m. split; [exact R|]. cbn in H. congruence.
  - eexists. split; [reflexivity|]. congruence.
  - eexists. split; [reflexivity|]. congruence.
Qed.

Inductive ctx_out (ns : Z) (v : text) (s : st) : (bool + exc) -> world -> list event -> Prop :=
| co_fail o : ctx_out ns v s (inl false) (fst s) [EReport o]
| co_raise x : ctx_out ns v s (inr x) (fst s) []
| co_ok w r : source E v (r_code r) -> r_ns r = ns -> r_main r = w_main (fst s) -> r_end r = None -> ctx_out ns v s (inl true) w [ERun r]
| co_bad w r x : source E v (r_code r) -> r_ns r = ns -> r_main r = w_main (fst s) -> r_end r = Some x -> ctx_out ns v s (inl false) w [ERun r; EReport (Some x)].


Lemma run_context_spec ns v s : exists r w new, run_context E ns (context_of v) s = (r, (w, snd s ++ new)) /\ ctx_out ns v s r w new.
Proof.
  unfold run_context. set (k := snd (context_of v)). set (p := xpath (fst (context_of v)) k).
  assert (KP : match k with
    | KModule => v = str "module:" ++ p
    | KFile => v = str "file://" ++ p
    | KCommand => v = p /\ (forall n, v <> str "module:" ++ n) /\ (forall n, v <> str "file://" ++ n) end).
  { subst p k. unfold context_of. destruct (py_startswith (str "module:") v) eqn:A; [|destruct (py_startswith (str "file://") v) eqn:B]; cbn [fst snd xpath].
    - apply startswith_app in A as [r ->]. reflexivity.
    - apply startswith_app in B as [r ->]. reflexivity.
    - split; [reflexivity|]. split; apply startswith_not; assumption. }
  clearbody p k. destruct s as [w0 h0].
  destruct (load_spec k p (w0, h0)) as (rl & L & LS). unfold bnd at 1. rewrite L.
  destruct rl as [[l|]|x]; [|do 3 eexists; split; [reflexivity|apply co_fail]|exists (inr x), w0, []; rewrite app_nil_r; split; [reflexivity|apply co_raise]].
  specialize (LS l eq_refl).
  destruct (get_code_spec l (w0, h0)) as (rc & C & CS). unfold bnd at 1, caught at 1. rewrite C.
  destruct rc as [co|x]; [|do 3 eexists; split; [reflexivity|apply co_fail]].
  specialize (CS co eq_refl).
  destruct (get_filename_spec l (w0, h0)) as (rf & Fi & FS). unfold bnd at 1. rewrite Fi.
  destruct rf as [file|x]; [|exists (inr x), w0, []; rewrite app_nil_r; split; [reflexivity|apply co_raise]].
  assert (SRC : source E v co).
  { destruct k.
    - destruct LS as (h & m & M1 & ->). destruct m as [c' f']. subst c'. rewrite KP. eapply src_module. exact M1.
    - subst l. destruct CS as (h & src & R & ->). rewrite KP. eapply src_file. exact R.
    - subst l. destruct KP as (-> & N1 & N2). subst co. apply src_code; assumption. }
  destruct (execute_spec co ns file (w0, h0)) as (x & w & X). unfold bnd at 1, caught. rewrite X.
  destruct x as [x|].
  - exists (inl false), w. eexists. split; [unfold bnd, log, ret; cbn [fst snd]; rewrite <- app_assoc; reflexivity|].
    cbn [app]. apply co_bad; auto.
  - exists (inl true), w. eexists. split; [reflexivity|]. apply co_ok; auto.
Qed.

Lemma run_contexts_spec ns vs s : exists r w new, run_contexts E ns (map context_of vs) s = (r, (w, snd s ++ new)) /\
  (length (ran new) <= length vs)%nat /\ Forall2 (fun v x => source E v (r_code x)) (firstn (length (ran new)) vs) (ran new) /\
  Forall (fun x => r_ns x = ns) (ran new) /\ posts new = [] /\ consoles new = [] /\
  (forall x t, ran new = x :: t -> r_main x = w_main (fst s)) /\ (ran new = [] -> w = fst s) /\
  match r with
  | inl true => length (ran new) = length vs /\ Forall normal (ran new) /\ reports new = []
  | inl false => exists a b, ran new = a ++ b /\ Forall normal a /\ (b = [] \/ exists x e, b = [x] /\ r_end x = Some e)
  | inr _ => Forall normal (ran new)
  end.
Proof.
  revert s. induction vs as [|v vs IH]; intros s; cbn [map run_contexts].
  - exists (inl true), (fst s), []. rewrite app_nil_r. destruct s. cbn. repeat split; auto; discriminate.
  - destruct (run_context_spec ns v s) as (r & w & new & R & C). unfold bnd. rewrite R.
    inversion C as [o|x|w' r1 S1 N1 M1 E1|w' r1 x S1 N1 M1 E1]; subst r w new; clear C.
    + do 3 eexists. split; [reflexivity|]. cbn. repeat split; auto with arith; try discriminate. exists [], []. auto.
    + do 3 eexists. split; [reflexivity|]. cbn. repeat split; auto with arith; discriminate.
    + destruct (IH (w', snd s ++ [ERun r1])) as (r & w & new & R2 & A & B & D & P & Q & MM & WW & F).
      rewrite R2. cbn [snd]. rewrite <- app_assoc. do 3 eexists. split; [reflexivity|]. cbn [app ran posts consoles length firstn reports].
      split; [lia|]. split; [constructor; auto|]. split; [constructor; auto|]. split; [exact P|]. split; [exact Q|].
      split; [intros y t Y; assert (y = r1) by congruence; subst; exact M1|]. split; [discriminate|].
      destruct r as [[|]|x].
      * destruct F as (F1 & F2 & F3). split; [lia|]. split; [constructor; auto|exact F3].
      * destruct F as (a & b & F1 & F2 & F3). exists (r1 :: a), b. split; [rewrite F1; reflexivity|]. split; [constructor; auto|exact F3].
      * constructor; auto.
    + do 3 eexists. split; [reflexivity|]. cbn [app ran posts consoles length firstn].
      split; [lia|]. split; [constructor; auto|]. split; [constructor; auto|]. split; [reflexivity|]. split; [reflexivity|].
      split; [intros y t Y; assert (y = r1) by congruence; subst; exact M1|]. split; [discriminate|].
      exists [], [r1]. split; [reflexivity|]. split; [constructor|]. right. eauto.
Qed.

(** with postmortem *)
Lemma under_spec post c ns file s :
  (exists x w, under_postmortem E post (execute E c ns file) s = (inl (Some (x, false)), (w, snd s)) /\ post <> [] /\ e_post E post = PRaise x /\ w = fst s) \/
  exists x w new, under_postmortem E post (execute E c ns file) s = (inl (match x with None => None | Some x => Some (x, true) end), (w, snd s ++ new)) /\
   let r := {| r_code := c; r_ns := ns; r_main := w_main (fst s); r_argv := w_argv (fst s); r_file := file; r_end := x |} in
   ran new = [r] /\ consoles new = [] /\ (post <> [] -> forall y, e_post E post <> PRaise y) /\
   posts new = match x with Some x => match post with [] => [] | _ => match e_post E post with PFound => [x] | _ => [] end end | None => [] end.
Proof.
  unfold under_postmortem. destruct post as [|ch post].
  - right. destruct (execute_spec c ns file s) as (x & w & X). exists x, w. unfold bnd, caught. rewrite X.
    eexists. split; [destruct x; reflexivity|]. cbn. destruct x; repeat split; auto; try congruence.
  - destruct (e_post E (ch :: post)) as [| | |x] eqn:PL.
    4:{ left. exists x, (fst s). destruct s. split; [reflexivity|]. repeat split; auto. discriminate. }
    + right. destruct (execute_spec c ns file s) as (x & w & X). unfold bnd at 1 2, ret at 1. unfold caught. rewrite X.
      destruct x as [x|].
      * cbn [fst snd]. unfold bnd, upd, log, get, ret. cbn [fst snd].
        destruct (e_postcall E (set_last x w)) as [w' [y|]] eqn:PC.
        -- exists (Some x), w'. eexists. split; [cbn [fst snd]; rewrite <- ?app_assoc; reflexivity|]. cbn. repeat split; auto; discriminate.
        -- exists (Some x), w'. eexists. split; [cbn [fst snd]; rewrite <- ?app_assoc; reflexivity|]. cbn. repeat split; auto; discriminate.
      * exists None, w. eexists. split; [reflexivity|]. cbn. repeat split; auto; discriminate.
    + right. destruct (execute_spec c ns file s) as (x & w & X). unfold bnd at 1 2, ret at 1. unfold caught. rewrite X.
      destruct x as [x|].
      * exists (Some x), (set_last x w). eexists. unfold bnd, upd, log, get, ret. cbn [fst snd]. split; [cbn [fst snd]; rewrite <- ?app_assoc; reflexivity|]. cbn. repeat split; auto; discriminate.
      * exists None, w. eexists. split; [reflexivity|]. cbn. repeat split; auto; discriminate.
    + right. unfold bnd at 1 2, log at 1. cbn [fst snd].
      destruct (execute_spec c ns file (fst s, snd s ++ [EReport None])) as (x & w & X). unfold caught. rewrite X. cbn [fst snd] in *.
      destruct x as [x|].
      * exists (Some x), (set_last x w). eexists. unfold bnd, upd, log, get, ret. cbn [fst snd]. split; [cbn [fst snd]; rewrite <- ?app_assoc; reflexivity|]. cbn. repeat split; auto; discriminate.
      * exists None, w. eexists. split; [rewrite <- app_assoc; reflexivity|]. cbn. repeat split; auto; discriminate.
Qed.

End P.

Section P2.
Variable E : env.
Lemma body_script ns vs path l args post s : exists r w new,
  body E ns (map context_of vs) (Some (path, l)) args post s = (r, (w, snd s ++ new)) /\ consoles new = [] /\
  (forall x t, ran new = x :: t -> r_main x = Some (Some ns)) /\
  exists cs m, ran new = cs ++ m /\ prelude E ns vs cs /\
  ((m = [] /\ posts new = [] /\ (r = inl (CInt 1) \/ (exists x, r = inr x) \/ (post <> [] /\ exists x, e_post E post = PRaise x))) \/
   (exists x, m = [x] /\ length cs = length vs /\ Forall normal cs /\
      main_code E l (r_code x) (r_file x) /\ r_argv x = r_file x :: args /\ r_ns x = ns /\
      r = inl (result_of (r_end x)) /\ (forall e, r_end x = Some e -> w_last w = Some e) /\
      posts new = match r_end x with Some e => match post with [] => [] | _ => match e_post E post with PFound => [e] | _ => [] end end | None => [] end)).
Proof.
  unfold body. destruct s as [w0 h0]. unfold bnd at 1, upd at 1. cbn [fst snd].
  set (s1 := (set_main (Some (Some ns)) w0, h0)).
  destruct (run_contexts_spec E ns vs s1) as (ok & w & new & R & A & B & D & P & Q & MM & WW & F).
  unfold bnd at 1. rewrite R. change (snd s1) with h0 in *. change (w_main (fst s1)) with (Some (Some ns)) in MM.
  destruct ok as [[|]|x].
  2:{ destruct F as (a & b & F1 & F2 & F3). do 3 eexists. split; [reflexivity|]. split; [exact Q|]. split; [exact MM|].
      exists (ran new), []. rewrite app_nil_r. split; [reflexivity|]. split; [repeat split; auto; exists a, b; auto|]. left. auto. }
  2:{ do 3 eexists. split; [reflexivity|]. split; [exact Q|]. split; [exact MM|].
      exists (ran new), []. rewrite app_nil_r. split; [reflexivity|]. split; [repeat split; auto; exists (ran new), []; rewrite app_nil_r; auto|]. left. eauto 6. }
  destruct F as (F1 & F2 & F3).
  assert (PR : prelude E ns vs (ran new)) by (repeat split; auto; exists (ran new), []; rewrite app_nil_r; auto).
  cbn [negb]. destruct (get_filename_spec l (w, h0 ++ new)) as (rf & Fi & FS). unfold bnd at 1. rewrite Fi.
  destruct rf as [file|x].
  2:{ do 3 eexists. split; [reflexivity|]. split; [exact Q|]. split; [exact MM|].
      exists (ran new), []. rewrite app_nil_r. split; [reflexivity|]. split; [exact PR|]. left. eauto 6. }
  specialize (FS file eq_refl).
  unfold bnd at 1, upd at 1. cbn [fst snd].
  set (s2 := (set_argv (file :: args) w, h0 ++ new)).
  destruct (get_code_spec E l s2) as (rc & C & CS). unfold bnd at 1, caught at 1. rewrite C.
  destruct rc as [co|x].
  2:{ unfold bnd, log, ret. cbn [fst snd s2]. do 3 eexists. split; [subst s2; cbn [fst snd]; rewrite <- app_assoc; reflexivity|].
      rewrite consoles_app, ran_app, posts_app. cbn [consoles ran posts]. rewrite !app_nil_r. split; [exact Q|]. split; [exact MM|].
      exists (ran new), []. rewrite app_nil_r. split; [reflexivity|]. split; [exact PR|]. left. auto. }
  specialize (CS co eq_refl).
  assert (MC : main_code E l co file).
  { destruct l as [[c' f']|p [src|]|src].
    - subst c' f'. constructor.
    - subst file co. constructor.
    - destruct CS as (h & src & RR & ->). subst file. econstructor. exact RR.
    - subst. constructor. }
  assert (M2 : forall x t, ran new ++ [{| r_code := co; r_ns := ns; r_main := w_main (fst s2); r_argv := w_argv (fst s2); r_file := file; r_end := x |}] =
                 t -> forall y u, t = y :: u -> r_main y = Some (Some ns)).
  { intros x t <- y u Y. destruct (ran new) as [|z zs] eqn:Z1.
    - cbn [app] in Y. apply (f_equal (hd y)) in Y. cbn [hd] in Y. rewrite <- Y. cbn [r_main]. change (w_main (fst s2)) with (w_main w). rewrite (WW eq_refl). reflexivity.
    - cbn in Y. assert (y = z) by congruence. subst y. exact (MM z zs eq_refl). }
  destruct (under_spec E post co ns file s2) as [(x & w' & U & U1 & U2 & U3)|(x & w' & new2 & U & U1 & U2 & U3 & U4)].
  - unfold bnd at 1. rewrite U. subst w'.
    destruct x as [c|cls b].
    + unfold bnd, upd, ret. cbn [fst snd s2]. do 3 eexists. split; [reflexivity|]. split; [exact Q|]. split; [exact MM|].
      exists (ran new), []. rewrite app_nil_r. split; [reflexivity|]. split; [exact PR|]. left. split; [reflexivity|]. split; [exact P|]. right. right. eauto.
    + do 3 eexists. split; [reflexivity|]. split; [exact Q|]. split; [exact MM|].
      exists (ran new), []. rewrite app_nil_r. split; [reflexivity|]. split; [exact PR|]. left. eauto 6.
  - unfold bnd at 1. rewrite U. change (snd s2) with (h0 ++ new).
    destruct x as [[c|cls b]|].
    + unfold bnd, upd, ret. cbn [fst snd]. do 3 eexists. split; [rewrite <- app_assoc; reflexivity|].
      rewrite consoles_app, posts_app, ran_app, Q, P, U1, U2. cbn [app]. split; [reflexivity|]. split; [exact (M2 _ _ eq_refl)|].
      exists (ran new). eexists. split; [reflexivity|]. split; [exact PR|]. right. eexists. split; [reflexivity|].
      cbn [r_code r_file r_argv r_ns r_end result_of]. repeat split; auto; intros e Ee; cbn; congruence.
    + unfold bnd, upd, log, ret. cbn [fst snd]. do 3 eexists. split; [rewrite <- !app_assoc; reflexivity|].
      rewrite !consoles_app, !posts_app, !ran_app, Q, P, U1, U2. cbn [app ran consoles posts]. rewrite ?app_nil_r. split; [reflexivity|]. split; [exact (M2 _ _ eq_refl)|].
      exists (ran new). eexists. split; [reflexivity|]. split; [exact PR|]. right. eexists. split; [reflexivity|].
      cbn [r_code r_file r_argv r_ns r_end result_of]. repeat split; auto; intros e Ee; cbn; congruence.
    + unfold ret. do 3 eexists. split; [rewrite <- !app_assoc; reflexivity|].
      rewrite !consoles_app, !posts_app, !ran_app, Q, P, U1, U2. cbn [app ran consoles posts]. rewrite ?app_nil_r. split; [reflexivity|]. split; [exact (M2 _ _ eq_refl)|].
      exists (ran new). eexists. split; [reflexivity|]. split; [exact PR|]. right. eexists. split; [reflexivity|].
      cbn [r_code r_file r_argv r_ns r_end result_of]. repeat split; auto; discriminate.
Qed.

Lemma body_console ns vs args post s : exists r w new,
  body E ns (map context_of vs) None args post s = (r, (w, snd s ++ new)) /\ posts new = [] /\ prelude E ns vs (ran new) /\
  ((consoles new = [] /\ (r = inl (CInt 1) \/ exists x, r = inr x)) \/
   (length (ran new) = length vs /\ Forall normal (ran new) /\ consoles new = [(ns, match args with [] => [str "<console>"] | _ => args end)])).
Proof.
  unfold body. destruct s as [w0 h0]. unfold bnd at 1, upd at 1. cbn [fst snd].
  set (s1 := (set_main (Some (Some ns)) w0, h0)).
  destruct (run_contexts_spec E ns vs s1) as (ok & w & new & R & A & B & D & P & Q & MM & WW & F).
  unfold bnd at 1. rewrite R. change (snd s1) with h0 in *.
  destruct ok as [[|]|x].
  2:{ destruct F as (a & b & F1 & F2 & F3). do 3 eexists. split; [reflexivity|]. split; [exact P|]. split; [repeat split; auto; exists a, b; auto|]. auto. }
  2:{ do 3 eexists. split; [reflexivity|]. split; [exact P|]. split; [repeat split; auto; exists (ran new), []; rewrite app_nil_r; auto|]. left. eauto. }
  destruct F as (F1 & F2 & F3).
  assert (PR : prelude E ns vs (ran new)) by (repeat split; auto; exists (ran new), []; rewrite app_nil_r; auto).
  cbn [negb]. unfold bnd, upd, get, log. cbn [fst snd].
  set (argv := match args with [] => [str "<console>"] | _ => args end).
  destruct (e_interact E ns (set_argv argv w)) as [w' x]. cbn [fst snd].
  assert (T : forall r : exitcode + exc, exists (r' : exitcode + exc) w'' new0, (r, (w', (h0 ++ new) ++ [EConsole ns argv])) = (r', (w'', h0 ++ new0)) /\
    posts new0 = [] /\ prelude E ns vs (ran new0) /\
    ((consoles new0 = [] /\ (r' = inl (CInt 1) \/ exists x, r' = inr x)) \/
     (length (ran new0) = length vs /\ Forall normal (ran new0) /\ consoles new0 = [(ns, argv)]))).
  { intros r. exists r, w', (new ++ [EConsole ns argv]). rewrite <- app_assoc. split; [reflexivity|].
    rewrite posts_app, ran_app, consoles_app, P, Q. cbn [posts ran consoles app]. rewrite app_nil_r. split; [reflexivity|]. split; [exact PR|]. right. split; [exact F1|]. split; [exact F2|reflexivity]. }
  destruct x as [[c|cls b]|]; apply T.
Qed.

Lemma call_spec ns ctxs m args post s : exists r w new, body E ns ctxs m args post s = (r, (w, new)) /\
  call E ns ctxs m args post s = (r, (set_all (Some (value_of (w_main (fst s)))) (Some (value_of (w_context (fst s)))) (w_argv (fst s)) (EDict (environ_view (fst s))) w, new)).
Proof. unfold call. destruct (body E ns ctxs m args post s) as [r [w h]]. exists r, w, h. auto. Qed.

Lemma choose_spec main args tty stdin s : exists r, choose E main args tty stdin s = (r, s) /\ forall m rest, r = inl (m, rest) -> selects E main args tty stdin m rest.
Proof.
  unfold choose. destruct main as [[path k]|].
  - destruct (load_spec E k path s) as (rl & L & LS). unfold bnd. rewrite L.
    destruct rl as [[l|]|x]; eexists; (split; [reflexivity|]); intros m rest H; try discriminate.
    assert (m = Some (path, l)) by congruence. assert (rest = args) by congruence. subst. specialize (LS l eq_refl). destruct k.
    + destruct LS as (h & m & M1 & ->). econstructor. exact M1.
    + subst l. constructor.
    + subst l. constructor.
  - destruct args as [|fp rest0].
    + destruct tty; cbn [negb].
      * eexists. split; [reflexivity|]. intros m rest H. assert (m = None) by congruence. assert (rest = []) by congruence. subst. constructor.
      * destruct stdin as [src|x]; eexists; (split; [reflexivity|]); intros m rest H; [|discriminate].
        assert (m = Some (str "<stdin>", LFile (str "<stdin>") (Some src))) by congruence. assert (rest = []) by congruence. subst. constructor.
    + unfold bnd, ask, lift. destruct (e_read E (snd s) fp) as [src|x] eqn:R; eexists; (split; [reflexivity|]); intros m rest H; [|discriminate].
      cbn in H. assert (m = Some (fp, LFile fp (Some src))) by congruence. assert (rest = rest0) by congruence. subst. econstructor. exact R.
Qed.
End P2.

(** ** pg_python *)
Lemma dget_dupdate {V} (e : list (text * V)) : forall d k, NoDup (dkeys e) -> dget k (dupdate d e) = match dget k e with Some v => Some v | None => dget k d end.
Proof.
  induction e as [|[j v] e IH]; intros d k N; cbn; [reflexivity|].
  inversion N as [|x l N1 N2]; subst. change (dget k (dupdate (dset j v d) e) = match (if seqb k j then Some v else dget k e) with Some v => Some v | None => dget k d end).
  rewrite IH by exact N2. rewrite dget_set. destruct (seqb_spec k j) as [->|K]; [|reflexivity].
  assert (dget j e = None) as -> by (apply dget_None; exact N1). reflexivity.
Qed.
Lemma overload_nodup : NoDup overload_names.
Proof. repeat constructor; vm_compute; intuition discriminate. Qed.
Lemma dkeys_combine {V} (a : list text) (b : list V) : length a = length b -> dkeys (combine a b) = a.
Proof. revert b. induction a as [|x a IH]; intros [|y b] L; cbn in *; try discriminate; [reflexivity|]. unfold dkeys in *. cbn. rewrite IH; [reflexivity|lia]. Qed.
Lemma dget_combine {V} (a : list text) (b : list V) i n v : NoDup a -> nth_error a i = Some n -> nth_error b i = Some v -> dget n (combine a b) = Some v.
Proof.
  revert b i. induction a as [|x a IH]; intros [|y b] [|i] N A B; cbn in *; try discriminate.
  - assert (x = n) by congruence. subst. destruct (seqb_spec n n); [congruence|contradiction].
  - inversion N as [|? ? N1 N2]; subst. destruct (seqb_spec n x) as [->|K]; [|eauto].
    exfalso. apply N1. eapply nth_error_In. exact A.
Qed.
Lemma dget_map {V} (f : text -> V) l n : In n l -> dget n (map (fun n => (n, f n)) l) = Some (f n).
Proof.
  induction l as [|x l IH]; intros I; [contradiction|]. cbn. destruct (seqb_spec n x) as [->|K]; [reflexivity|]. apply IH. destruct I; [congruence|assumption].
Qed.
Lemma dkeys_map {V} (f : text -> V) l : dkeys (map (fun n => (n, f n)) l) = l.
Proof. unfold dkeys. induction l as [|x l IH]; cbn; [reflexivity|f_equal; exact IH]. Qed.

Definition restored (w : world) : list (text * option Z) := map (fun n => (n, match dget n (w_builtins w) with Some v => v | None => None end)) overload_names.
Lemma restored_in w n d : In n overload_names -> dget n (dupdate d (restored w)) = Some (match dget n (w_builtins w) with Some v => v | None => None end).
Proof.
  intros I. unfold restored. rewrite dget_dupdate by (rewrite dkeys_map; exact overload_nodup).
  rewrite (dget_map (fun n => match dget n (w_builtins w) with Some v => v | None => None end)) by exact I. reflexivity.
Qed.
Lemma restored_out w n d : ~ In n overload_names -> dget n (dupdate d (restored w)) = dget n d.
Proof.
  intros I. unfold restored. rewrite dget_dupdate by (rewrite dkeys_map; exact overload_nodup).
  match goal with |- match dget n ?e with _ => _ end = _ => assert (dget n e = None) as -> end; [|reflexivity].
  apply dget_None. rewrite dkeys_map. exact I.
Qed.
Lemma given_in (vals : list Z) i n v (d : list (text * option Z)) : length vals = 8%nat -> nth_error overload_names i = Some n -> nth_error vals i = Some v ->
  dget n (dupdate d (combine overload_names (map Some vals))) = Some (Some v).
Proof.
  intros L A B. rewrite dget_dupdate by (rewrite dkeys_combine; [exact overload_nodup|rewrite map_length, L; reflexivity]).
  rewrite (dget_combine overload_names (map Some vals) i n (Some v)); [reflexivity|exact overload_nodup|exact A|]. apply map_nth_error. exact B.
Qed.
Lemma given_out (vals : list Z) n (d : list (text * option Z)) : length vals = 8%nat -> ~ In n overload_names -> dget n (dupdate d (combine overload_names (map Some vals))) = dget n d.
Proof.
  intros L I. rewrite dget_dupdate by (rewrite dkeys_combine; [exact overload_nodup|rewrite map_length, L; reflexivity]).
  assert (dget n (combine overload_names (map Some vals)) = None) as ->; [|reflexivity].
  apply dget_None. rewrite dkeys_combine; [exact I|rewrite map_length, L; reflexivity].
Qed.

Lemma connecting_spec l : forall need, exists fss rest, Forall (fun fs => In true fs) fss /\ l = map ACannot fss ++ rest /\
  match snd (connecting need l) with
  | Connected => exists t, rest = AOk :: t
  | Waiting => rest = []
  | Failed x => exists a t, rest = a :: t /\ match a with AEof => x = XExit (CInt 1) | AOther y => x = y | ACannot fs => ~ In true fs /\ x = CannotConnect | AOk => False end
  end /\
  fst (connecting need l) = firstn (length fss + match rest with [] => 0 | _ => 1 end) (need :: repeat true (length l)).
Proof.
  induction l as [|a l IH]; intros need; cbn [connecting].
  - exists [], []. cbn. auto.
  - destruct a as [|fs|x|].
    + exists [], (AOk :: l). split; [constructor|]. split; [reflexivity|]. split; [exists l; reflexivity|reflexivity].
    + destruct (existsb (fun b => b) fs) eqn:X.
      * destruct (IH true) as (fss & rest & A & B & C & D). destruct (connecting true l) as [p c]. cbn [fst snd] in *.
        exists (fs :: fss), rest. split; [constructor; [|exact A]|].
        { apply existsb_exists in X as (b & I & ->). exact I. }
        split; [cbn; rewrite B; reflexivity|]. split; [exact C|].
        cbn [length plus firstn]. f_equal. rewrite D. cbn [repeat length]. reflexivity.
      * exists [], (ACannot fs :: l). cbn. split; [constructor|]. split; [reflexivity|]. split; [|reflexivity].
        exists (ACannot fs), l. split; [reflexivity|]. split; [|reflexivity]. intros I.
        assert (existsb (fun b => b) fs = true) by (apply existsb_exists; exists true; auto). congruence.
    + exists [], (AOther x :: l). split; [constructor|]. split; [reflexivity|]. split; [exists (AOther x), l; auto|reflexivity].
    + exists [], (AEof :: l). split; [constructor|]. split; [reflexivity|]. split; [exists AEof, l; auto|reflexivity].
Qed.
