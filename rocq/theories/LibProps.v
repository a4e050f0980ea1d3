(** LibProps.v: C52 (reading libraries), C53 (bindings), C54 (categories) *)
From Coq Require FinFun.
From Verif Require Import PyStr PyStrProof PyDict PyDictProof BaseProof LibModel LibSpec LibProof LibProof2 LibProof3 LibProof4.

(** C52: reading a document gives the library it describes *)
Theorem C52_library U preface sections qs : unicode_ok U -> Forall (ok_text U) preface -> Forall (ok_section U) sections ->
  Forall (fun s => known_type s /\ known_method s) sections -> queries U [] sections qs ->
  exists lib, from_lines U (show preface sections) = Ok lib /\ library_of U preface sections lib.
Proof. intros UO. apply (library_ok U UO). Qed.
Print Assumptions C52_library.
(** a reference to a symbol that is not defined above is refused *)
Theorem C52_undefined U preface sections : unicode_ok U -> Forall (ok_text U) preface -> Forall (ok_section U) sections ->
  (forall qs, ~ queries U [] sections qs) -> from_lines U (show preface sections) = Err TypeError.
Proof. intros UO. apply (library_undefined U UO). Qed.
Print Assumptions C52_undefined.
(** so is an annotation that does not exist *)
Theorem C52_unknown U preface sections qs : unicode_ok U -> Forall (ok_text U) preface -> Forall (ok_section U) sections ->
  queries U [] sections qs -> ~ Forall (fun s => known_type s /\ known_method s) sections ->
  from_lines U (show preface sections) = Err ValueError.
Proof. intros UO. apply (library_unknown U UO). Qed.
Print Assumptions C52_unknown.
(** the queries of a document are determined *)
Theorem C52_queries_unique U sections : forall defs qs qs', queries U defs sections qs -> queries U defs sections qs' -> qs = qs'.
Proof.
  induction sections as [|s ss IH]; intros defs qs qs' Q Q'; inversion Q as [|? ? q ? ? A B]; inversion Q' as [|? ? q' ? ? A' B']; subst; [reflexivity|].
  assert (q = q').
  { destruct A as (doc & code & F & C & N & ->). destruct A' as (doc' & code' & F' & C' & N' & ->).
    assert (E : doc ++ code = doc' ++ code').
    { clear - F F'. remember (doc ++ code) as x eqn:X. remember (doc' ++ code') as y eqn:Y. clear X Y. revert y F'.
      induction F as [|l t ls ts H _ IHF]; intros y F'; inversion F' as [|? ? ? ? H' F2]; subst; [reflexivity|]. f_equal; [|now apply IHF].
      inversion H; subst; inversion H'; subst; [reflexivity|]. f_equal. eapply latest_det; eauto. }
    assert (E2 : code = code') by (rewrite <- (skip_comments_det doc code C N), <- (skip_comments_det doc' code' C' N'); now f_equal). now subst code'. }
  subst q'. eauto.
Qed.
Print Assumptions C52_queries_unique.
(** a line of SQL between brackets is taken for a marker, and the text before the first marker is not free-form *)
Theorem C52_bracket_line_refuted : exists lib, from_lines ascii_unicode [str "[a]"; str "SELECT ARRAY"; str "[1,2]"] = Ok lib /\
  symbols lib = [str "a"; str "1,2"] /\ option_map sy_source (get_symbol lib (str "a")) = Some (str "SELECT ARRAY").
Proof. vm_compute. eexists. repeat split. Qed.
Print Assumptions C52_bracket_line_refuted.
Theorem C52_preface_refuted : from_lines ascii_unicode [str "*[note] this library ..."; str "[a]"; str "SELECT 1"] = Err TypeError.
Proof. reflexivity. Qed.
Print Assumptions C52_preface_refuted.

(** a document of the kind the theorems speak of: comments, a reference with text after it, a redefinition, a procedure *)
Definition nl (s : string) : text := str s ++ [10].
Definition ex_sections : list dsection :=
  [{| d_before := []; d_amp := false; d_name := str "sym"; d_fields := []; d_after := [10]; d_lines := [DText (nl "-- about it"); DText (nl "select 1"); DText (nl "-- more")] |};
   {| d_before := []; d_amp := false; d_name := str "trail"; d_fields := [str "preload"; str "first"]; d_after := [10]; d_lines := [DRef (str "sym") (nl " WHERE FALSE")] |};
   {| d_before := []; d_amp := true; d_name := str "sym"; d_fields := [[]; str "all"; str "x"]; d_after := [32; 10]; d_lines := [DText (nl "SELECT 'SELECT 1'")] |};
   {| d_before := []; d_amp := false; d_name := str "p"; d_fields := [str "proc"]; d_after := [10]; d_lines := [DText (nl " test(int)"); DText [10]] |}].
Definition ex_queries : list (text * text) :=
  [(str "sym", nl "select 1" ++ nl "-- more"); (str "trail", nl "select 1" ++ nl "-- more" ++ nl " WHERE FALSE"); (str "sym", nl "SELECT 'SELECT 1'"); (str "p", str "test(int)")].
Lemma not_marker_dec U l : unicode_ok U -> is_header U l = false -> ~ marker U l.
Proof. intros UO H M. apply (marker_header U UO) in M. congruence. Qed.
Lemma ok_text_dec l : is_header ascii_unicode l = false -> py_startswith [42; 91] l = false -> ok_text ascii_unicode l.
Proof.
  intros H P. split; [apply not_marker_dec; [apply ascii_unicode_ok|exact H]|]. intros r E. exfalso. subst l. discriminate P.
Qed.
Lemma notin_dec (c : Z) l : existsb (Z.eqb c) l = false -> ~ In c l.
Proof. intros H I. assert (T : existsb (Z.eqb c) l = true) by (apply existsb_exists; exists c; split; [exact I|apply Z.eqb_refl]). congruence. Qed.
Example C52_ex : Forall (ok_text ascii_unicode) [nl "preface"; [10]] /\ Forall (ok_section ascii_unicode) ex_sections /\
  Forall (fun s => known_type s /\ known_method s) ex_sections /\ queries ascii_unicode [] ex_sections ex_queries.
Proof.
  split; [repeat (apply Forall_cons; [apply ok_text_dec; reflexivity|]); apply Forall_nil|].
  split; [|split].
    + repeat (apply Forall_cons; [
        (split; [repeat (apply Forall_cons; [reflexivity|]); apply Forall_nil|split; [repeat (apply Forall_cons; [reflexivity|]); apply Forall_nil|
         split; [apply notin_dec; reflexivity|split; [repeat (apply Forall_cons; [apply notin_dec; reflexivity|]); apply Forall_nil|
         split; [intros c [H|H]; cbn in H; injection H as <-; split; discriminate|split; [intros _; discriminate|]]]]]]);
        repeat (apply Forall_cons; [first [apply ok_text_dec; reflexivity|apply notin_dec; reflexivity]|]); apply Forall_nil |]); apply Forall_nil.
    + repeat (constructor; [split; cbn; auto 10|]); constructor.
    + apply Q_cons with (q := nl "select 1" ++ nl "-- more").
      { exists [nl "-- about it"], [nl "select 1"; nl "-- more"]. split; [repeat constructor|]. split; [repeat constructor; now eexists|].
        split; [intros l r [= <- _] (x & X); discriminate X|reflexivity]. }
      apply Q_cons with (q := nl "select 1" ++ nl "-- more" ++ nl " WHERE FALSE").
      { exists [], [nl "select 1" ++ nl "-- more" ++ nl " WHERE FALSE"]. split; [|split; [constructor|split; [intros l r [= <- _] (x & X); discriminate X|reflexivity]]].
        constructor; [|constructor]. apply (LT_ref _ (str "sym") (nl " WHERE FALSE") (nl "select 1" ++ nl "-- more")). exists [], []. split; [reflexivity|intros []]. }
      apply Q_cons with (q := nl "SELECT 'SELECT 1'").
      { exists [], [nl "SELECT 'SELECT 1'"]. split; [repeat constructor|]. split; [constructor|split; [intros l r [= <- _] (x & X); discriminate X|reflexivity]]. }
      apply Q_cons with (q := str "test(int)").
      { exists [], [nl " test(int)"; [10]]. split; [repeat constructor|]. split; [constructor|split; [intros l r [= <- _] (x & X); discriminate X|reflexivity]]. }
      apply Q_nil.
Qed.

(** C53 *)
Section C53.
Context {V : Type} (is_none : V -> bool) (o_prepare : nat -> bool) (o_run : nat -> res V) (o_rows : nat -> res (list (list text))).
Notation used := (used is_none o_prepare o_run o_rows).
Notation bind_library := (bind_library is_none o_prepare o_run o_rows).
Notation getattr := (getattr is_none o_prepare o_run o_rows).
Notation bsteps := (bsteps is_none o_prepare o_run o_rows).
(** the symbols of a library read are found by their names *)
Theorem C53_named U lines l : from_lines U lines = Ok l -> named l.
Proof. apply from_lines_named. Qed.
(** whatever is executed under the name of a symbol is the statement of that symbol, prepared before, with the symbol's method;
    a reference's own query is executed to make another statement *)
Theorem C53_executes l ops g out i n k m : named l -> used l ops g out -> nth_error (g_log g) i = Some (EvRun n k m) ->
  (k < i)%nat /\ exists s, made o_rows l (g_log g) n k s /\ m = if has_type s (str "proc") then None else sy_method s.
Proof. intros NL H E. destruct (used_good is_none o_prepare o_run o_rows l NL ops g out H) as [[L _] _]. exact (L _ _ E). Qed.
Theorem C53_reference_query l ops g out i n k : named l -> used l ops g out -> nth_error (g_log g) i = Some (EvRows n k) ->
  (k < i)%nat /\ exists s, get_symbol l n = Some s /\ sy_ref s = true /\ nth_error (g_log g) k = Some (EvPrepare n (sy_source s) true).
Proof. intros NL H E. destruct (used_good is_none o_prepare o_run o_rows l NL ops g out H) as [[L _] _]. exact (L _ _ E). Qed.
(** the object read as attribute n is that of symbol n *)
Theorem C53_attribute l ops g out n g' b : named l -> used l ops g out -> getattr l g n = (g', Ok (ASym b)) ->
  b_name b = n /\ exists s, made o_rows l (g_log g') n (b_id b) s /\ b_method b = if has_type s (str "proc") then None else sy_method s.
Proof.
  intros NL H E. destruct (used_good is_none o_prepare o_run o_rows l NL ops g out H) as [GD _].
  destruct (getattr_ok is_none o_prepare o_run o_rows l NL _ _ _ _ GD E) as (_ & _ & (s & M & EM) & s' & G & A). cbn [attr_of] in A. rewrite A in M.
  split; [exact A|]. exists s. auto.
Qed.
(** what was read once is given again, without any operation on the database, whatever happens meanwhile: unless the symbol is
    transient, or it is a constant whose value is None *)
Theorem C53_kept l g n s a g1 out ops : get_symbol l n = Some s -> ~ typed s "transient" -> is_none_attr is_none a = false ->
  getattr l g n = (g1, Ok a) -> forall g2 out2, bsteps l g1 out ops = (g2, out2) -> getattr l g2 n = (g2, Ok a).
Proof.
  intros G T N E g2 out2 R. apply (kept_getattr is_none o_prepare o_run o_rows l).
  assert (T' : has_type s (str "transient") = false).
  { unfold has_type. destruct (sy_type s) as [t|] eqn:ET; [|reflexivity]. apply seqb_ne. intros ->. now apply T. }
  pose proof (bsteps_kept is_none o_prepare o_run o_rows l ops n a g1 out (getattr_keeps is_none o_prepare o_run o_rows l _ _ _ _ _ G T' N E)) as K.
  now rewrite R in K.
Qed.
(** a transient symbol is prepared anew each time it is read *)
Theorem C53_transient l ops g out n s g' r : named l -> used l ops g out -> get_symbol l n = Some s -> typed s "transient" -> sy_ref s = false ->
  getattr l g n = (g', r) -> exists ok, g_log g' = g_log g ++ [EvPrepare n (sy_source s) ok] /\ g_cache g' = g_cache g /\ (if ok then exists b, r = Ok (ASym b) /\ b_id b = length (g_log g) else exists e, r = Err e).
Proof.
  intros NL H G T R E. destruct (used_good is_none o_prepare o_run o_rows l NL ops g out H) as [[_ GC] _].
  assert (D : dget n (g_cache g) = None).
  { destruct (dget n (g_cache g)) as [a|] eqn:D; [|reflexivity]. apply GC in D as (_ & s' & G' & T' & _). rewrite G in G'. injection G' as <-.
    unfold has_type in T'. rewrite T in T'. discriminate T'. }
  unfold LibModel.getattr in E. rewrite D, G in E. unfold make in E. rewrite R in E. unfold bind_symbol in E. pose proof (NL _ _ G) as N.
  unfold has_type in E. rewrite T in E. change (seqb (str "transient") (str "proc")) with false in E. change (seqb (str "transient") (str "const")) with false in E.
  change (seqb (str "transient") (str "transient")) with true in E. cbv iota in E. rewrite N in E.
  exists (o_prepare (length (g_log g))). cbv beta iota zeta delta [log] in E; rewrite ?T in E; change (seqb (str "transient") (str "proc")) with false in E; change (seqb (str "transient") (str "const")) with false in E; change (seqb (str "transient") (str "transient")) with true in E; cbv iota in E; destruct (o_prepare (length (g_log g))); injection E as <- <-; (split; [reflexivity|]; split; [reflexivity|]).
  - eexists. split; reflexivity.
  - eexists. reflexivity.
Qed.
(** a name that is not a symbol: AttributeError, and nothing is done *)
Theorem C53_missing l ops g out n : named l -> used l ops g out -> get_symbol l n = None -> getattr l g n = (g, Err AttributeError).
Proof.
  intros NL H G. destruct (used_good is_none o_prepare o_run o_rows l NL ops g out H) as [[_ GC] _]. unfold LibModel.getattr. rewrite G.
  destruct (dget n (g_cache g)) as [a|] eqn:D; [|reflexivity]. apply GC in D as (_ & s' & G' & _). congruence.
Qed.
(** binding a library prepares its preloaded statements, which are then at hand, and touches nothing else *)
Theorem C53_preload l g n s : named l -> bind_library l = (g, Ok tt) -> In n (l_preload l) -> get_symbol l n = Some s ->
  sy_ref s = false -> ~ typed s "transient" -> ~ typed s "const" ->
  exists b, getattr l g n = (g, Ok (ASym b)) /\ made o_rows l (g_log g) n (b_id b) s.
Proof.
  intros NL B I G R T K.
  assert (T' : has_type s (str "transient") = false).
  { unfold has_type. destruct (sy_type s) as [t|] eqn:ET; [|reflexivity]. apply seqb_ne. intros ->. now apply T. }
  assert (K' : has_type s (str "const") = false).
  { unfold has_type. destruct (sy_type s) as [t|] eqn:ET; [|reflexivity]. apply seqb_ne. intros ->. now apply K. }
  pose proof (good_init (V := V) o_rows l) as G0. unfold LibModel.bind_library in B.
  destruct (load_all_cached is_none o_prepare o_run o_rows l NL _ _ _ _ _ B G0 I G R T' K') as (b & KB). exists b.
  split; [now apply (kept_getattr is_none o_prepare o_run o_rows l)|].
  destruct (load_all_ok is_none o_prepare o_run o_rows l NL _ _ _ _ G0 B) as [[_ GC] _]. destruct KB as [D _]. apply GC in D as ((s' & M & _) & s2 & G2 & _ & A).
  cbn [attr_of] in A. rewrite A in M. assert (s' = s) by (destruct M as [M _]; congruence). now subst s'.
Qed.
Theorem C53_preload_only l g r e : named l -> bind_library l = (g, r) -> In e (g_log g) -> In (ev_name e) (l_preload l).
Proof.
  intros NL B I. unfold LibModel.bind_library in B. pose proof (good_init (V := V) o_rows l) as G0.
  destruct (load_names is_none o_prepare o_run o_rows l NL _ _ _ _ _ G0 B I) as [[]|H]. exact H.
Qed.
End C53.
Print Assumptions C53_named.
Print Assumptions C53_executes.
Print Assumptions C53_reference_query.
Print Assumptions C53_attribute.
Print Assumptions C53_kept.
Print Assumptions C53_transient.
Print Assumptions C53_missing.
Print Assumptions C53_preload.
Print Assumptions C53_preload_only.
(** the documentation says the constants are executed, and the procedures found, when the library is bound, and a constant once.
    Neither is: nothing is done when it is bound, and a constant that is None is executed again at each access *)
Definition ex_lines : list text := [str "[c:const:first]"; str "SELECT x WHERE false"; str "[p:proc]"; str "f(int)"].
Theorem C53_const_refuted : exists l, from_lines ascii_unicode ex_lines = Ok l /\
  forall op rows (none : Z),
    bind_library (fun v => v =? none) op (fun _ => Ok none) rows l = ({| g_cache := []; g_log := [] |}, Ok tt) /\
    (forall g out, used (fun v => v =? none) (fun _ => true) (fun _ => Ok none) rows l [BGet (str "c"); BGet (str "c")] g out ->
       filter (fun e => match e with EvRun _ _ _ => true | _ => false end) (g_log g) = [EvRun (str "c") 0 (Some (str "first")); EvRun (str "c") 2 (Some (str "first"))]).
Proof.
  assert (E : exists l, from_lines ascii_unicode ex_lines = Ok l /\ l_preload l = [] /\ l_symbols l =
    [(str "c", {| sy_name := str "c"; sy_source := str "SELECT x WHERE false"; sy_method := Some (str "first"); sy_type := Some (str "const"); sy_ref := false |});
     (str "p", {| sy_name := str "p"; sy_source := str "f(int)"; sy_method := None; sy_type := Some (str "proc"); sy_ref := false |})]).
  { vm_compute. eexists. repeat split. }
  destruct E as (l & E & P & S). exists l. split; [exact E|]. intros op rows none. unfold bind_library. rewrite P. split; [reflexivity|].
  intros g out U. inversion U as [ops g0 g1 out1 B R E1 E2 E3]. subst. unfold bind_library in B. rewrite P in B. cbn [load_all] in B. injection B as <-.
  remember (fun v : Z => v =? none) as f eqn:F. assert (NN : f none = true) by (subst f; apply Z.eqb_refl). clear F.
  destruct l as [aa syms pre]. cbn [l_preload l_symbols] in P, S. subst syms pre. vm_compute in R. rewrite NN in R. injection R as <- _. reflexivity.
Qed.
Print Assumptions C53_const_refuted.
(** a use of a binding of the test library: the statement is prepared once and executed twice *)
Example C53_ex : exists l g out, from_lines ascii_unicode [str "[s:preload]"; str "select 1"; str "[&r]"; str "select 'select 2'"] = Ok l /\
  used (fun v => v =? 0) (fun _ => true) (fun i => Ok (Z.of_nat i)) (fun _ => Ok [[str "select"; str "2"]; [str "limit 1"]]) l [BGet (str "s"); BCall 0; BGet (str "s"); BCall 2; BGet (str "r"); BCall 4; BCall 5] g out /\
  g_log g = [EvPrepare (str "s") (str "select 1") true; EvRun (str "s") 0 None; EvRun (str "s") 0 None; EvPrepare (str "r") (str "select 'select 2'") true;
             EvRows (str "r") 3; EvPrepare (str "r") (str "select 2" ++ [10] ++ str "limit 1") true; EvRun (str "r") 5 None].
Proof.
  eexists _, _, _. split; [vm_compute; reflexivity|]. split; [econstructor; vm_compute; reflexivity|]. reflexivity.
Qed.

(** C54: a category binds every library it is made of, each under its names, if all the names exist, differ, and are free *)
Theorem C54_bound aliases direct name bindable libs d d' : category aliases direct name bindable libs d = (d', None) ->
  forall n l, In (Some n, l) (all_names aliases direct name libs) -> dget n d' = Some (Some l).
Proof.
  intros H n l I. apply category_ok in H as (_ & ps & E & ND & F & ->). rewrite E in I. apply in_map_iff in I as ([m k] & X & I). cbn [fst snd] in X. injection X as -> ->.
  rewrite dget_app. assert (D : dget n d = None) by (apply dget_None, F; apply (in_map fst) in I; exact I). rewrite D.
  apply In_dget; [unfold dkeys, bound_pairs; now rewrite map_map|]. unfold bound_pairs. apply in_map_iff. now exists (n, l).
Qed.
Print Assumptions C54_bound.
(** it succeeds exactly then *)
Theorem C54_succeeds aliases direct name bindable libs d : (exists d', category aliases direct name bindable libs d = (d', None)) <->
  Forall (fun l => bindable l = true) libs /\
  (forall l, ~ In (None, l) (all_names aliases direct name libs)) /\
  NoDup (map fst (all_names aliases direct name libs)) /\
  (forall n l, In (Some n, l) (all_names aliases direct name libs) -> dget n d = None).
Proof.
  split.
  - intros (d' & H). apply category_ok in H as (B & ps & E & ND & F & _). split; [exact B|]. rewrite E. split; [|split].
    + intros l I. apply in_map_iff in I as (x & X & _). discriminate.
    + unfold somes. rewrite map_map. cbn [fst]. rewrite <- map_map with (f := fst) (g := Some). apply FinFun.Injective_map_NoDup; [intros a b [= ->]; reflexivity|exact ND].
    + intros n l I. apply in_map_iff in I as ([m k] & X & I). cbn [fst snd] in X. injection X as -> ->. apply dget_None, F. apply (in_map fst) in I. exact I.
  - intros (B & NN & ND & F). assert (X : exists ps, all_names aliases direct name libs = somes ps).
    { clear - NN. induction (all_names aliases direct name libs) as [|[[n|] l] ns IH].
      - now exists [].
      - destruct IH as (ps & ->); [intros k I; apply (NN k); now right|]. now exists ((n, l) :: ps).
      - exfalso. apply (NN l). now left. }
    destruct X as (ps & E). exists (d ++ bound_pairs ps). apply category_ok. split; [exact B|]. exists ps. split; [exact E|]. rewrite E in ND, F. split; [|split; [|reflexivity]].
    + unfold somes in ND. rewrite map_map in ND. cbn [fst] in ND. rewrite <- map_map with (f := fst) (g := Some) in ND. now apply NoDup_map_inv in ND.
    + intros n I. apply in_map_iff in I as ([m k] & <- & I). cbn [fst]. apply dget_None. apply (F m k). unfold somes. apply in_map_iff. now exists (m, k).
Qed.
Print Assumptions C54_succeeds.
(** nothing the connection has is replaced, whether it succeeds or not *)
Theorem C54_not_replaced aliases direct name bindable libs d n v : dget n d = Some v -> dget n (fst (category aliases direct name bindable libs d)) = Some v.
Proof. apply category_keep. Qed.
Print Assumptions C54_not_replaced.
(** nothing else is added *)
Theorem C54_nothing_else aliases direct name bindable libs d d' n : category aliases direct name bindable libs d = (d', None) ->
  (forall l, ~ In (Some n, l) (all_names aliases direct name libs)) -> dget n d' = dget n d.
Proof.
  intros H N. apply category_ok in H as (_ & ps & E & _ & _ & ->). rewrite dget_app. destruct (dget n d); [reflexivity|].
  apply dget_None. unfold dkeys, bound_pairs. rewrite map_map. intros I. apply in_map_iff in I as ([m l] & <- & I). apply (N l). rewrite E. apply in_map_iff. now exists (m, l).
Qed.
Print Assumptions C54_nothing_else.
(** a library that cannot be bound ends it with that error; what is before it stays bound, nothing behind it is *)
Theorem C54_stops aliases direct name bindable ls l r d : bindable l = false ->
  category aliases direct name bindable (ls ++ l :: r) d =
    match category aliases direct name bindable ls d with (d', None) => (d', Some (OtherError 1)) | x => x end.
Proof.
  intros B. revert d. induction ls as [|a ls IH]; intros d; cbn [app category]; [rewrite B; reflexivity|]. destruct (bindable a); [|reflexivity].
  destruct (set_names a (lib_names aliases direct name a) d) as [d' [e|]]; [reflexivity|apply IH].
Qed.
Print Assumptions C54_stops.
(** a conflict is not announced by the AttributeError the code means to raise but by a NameError, with a part of the libraries bound *)
Theorem C54_conflict_refuted : category (fun _ => []) (fun _ => true) (fun l => Some (if (l =? 0)%nat then str "a" else str "execute")) (fun _ => true) [0; 1]%nat [(str "execute", None)]
  = ([(str "execute", None); (str "a", Some 0%nat)], Some (OtherError 9)).
Proof. reflexivity. Qed.
Print Assumptions C54_conflict_refuted.
Example C54_ex : category (fun l => if (l =? 1)%nat then [str "x"; str "y"] else []) (fun l => (l =? 0)%nat) (fun l => Some (str "a")) (fun _ => true) [0; 1]%nat [(str "execute", None)]
  = ([(str "execute", None); (str "a", Some 0%nat); (str "x", Some 1%nat); (str "y", Some 1%nat)], None).
Proof. reflexivity. Qed.
