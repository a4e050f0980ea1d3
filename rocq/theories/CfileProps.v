(** CfileProps.v: C83, configuration files on disk *)
From Verif Require Import Base BaseProof PyStr PyStrProof PyDict PyDictProof ConfModel ConfSpec ConfProps CfileModel CfileSpec CfileProof.
From Coq Require Import String.
Local Notation str s := (PyStr.str s%string).

(** Whatever the system does, at every moment of an operation the file is as it was, or a beginning of what the settings asked for make of it (C24).
    It is touched only after all of it was read and all of the new content computed, and only when settings were asked for. *)
Theorem C83_states : forall U o o2 op w, let w' := fst (cf_step U o o2 op w) in
  (disk w' = disk w /\ seen w' = seen w) \/
  exists m new l, asks w op m /\ config_update U m (disk w) = Ok new /\ prefix_of (disk w') new /\ seen w' = seen w ++ [] :: l /\ Forall (fun s => prefix_of s new) l.
Proof.
  intros U o o2 op w. cbv zeta.
  assert (UP : forall o m, (forall x, x = m -> asks w op x) -> let w1 := fst (cf_update U o m w) in
    (disk w1 = disk w /\ seen w1 = seen w) \/ exists m new l, asks w op m /\ config_update U m (disk w) = Ok new /\ prefix_of (disk w1) new /\ seen w1 = seen w ++ [] :: l /\ Forall (fun s => prefix_of s new) l).
  { intros o' m A. cbv zeta. destruct (update_spec U o' m w) as [H _]. cbv zeta in H. destruct (snd (cf_update U o' m w)).
    - destruct H as (new & C & D & _ & _ & l & S1 & F). right. exists m, new, l. split; [apply A; reflexivity|]. split; [exact C|]. split; [rewrite D; exists []; rewrite app_nil_r; reflexivity|]. split; assumption.
    - destruct H as [[E _]|(new & C & _ & P & l & S1 & F)]; [left; rewrite E; auto|right; exists m, new, l; split; [apply A; reflexivity|auto]]. }
  destruct op; try (cbn [cf_step fst]; left; split; reflexivity).
  - cbn [cf_step]. specialize (UP o m (fun x E => E)). cbv zeta in UP. destruct (cf_update U o m w) as [w1 r]. exact UP.
  - cbn [cf_step]. specialize (UP o [(k, v)] (fun x E => E)). cbv zeta in UP. destruct (cf_update U o [(k, v)] w) as [w1 r]. exact UP.
  - destruct (store w) as [|kw st] eqn:ST; [cbn [cf_step]; rewrite ST; left; split; reflexivity|]. rewrite (enter_unfold U o o2 w kw st ST). destruct (cf_getset U o (dkeys kw) w); [|left; split; reflexivity].
    specialize (UP o2 kw). cbv zeta in UP. destruct (cf_update U o2 kw w) as [w1 [u|e]]; cbn [fst disk seen] in *; apply UP; intros x ->; exists st; exact ST.
Qed.
Print Assumptions C83_states.
(** If settings were asked for and the operation returns, the file has them; reading it and writing it did not fail. *)
Theorem C83_done : forall U o o2 op w m r, asks w op m -> snd (cf_step U o o2 op w) = Ok r ->
  config_update U m (disk w) = Ok (disk (fst (cf_step U o o2 op w))) /\ r = RNone.
Proof.
  intros U o o2 op w m r A E.
  assert (UP : forall o m w1 u, cf_update U o m w = (w1, Ok u) -> config_update U m (disk w) = Ok (disk w1)).
  { intros o' m' w1 u H. destruct (update_spec U o' m' w) as [X _]. cbv zeta in X. rewrite H in X. cbn [fst snd] in X. destruct X as (new & C & D & _). rewrite C, D. reflexivity. }
  destruct op; cbn [asks] in A; try contradiction.
  - subst m0. cbn [cf_step] in *. destruct (cf_update U o m w) as [w1 [u|e]] eqn:F; cbn [fst snd bind] in *; [|discriminate E]. split; [exact (UP _ _ _ _ F)|congruence].
  - subst m. cbn [cf_step] in *. destruct (cf_update U o _ w) as [w1 [u|e]] eqn:F; cbn [fst snd bind] in *; [|discriminate E]. split; [exact (UP _ _ _ _ F)|congruence].
  - destruct A as (st & ST). rewrite (enter_unfold U o o2 w m st ST) in *. destruct (cf_getset U o (dkeys m) w); [|discriminate E]. destruct (cf_update U o2 m w) as [w1 [u|e]] eqn:F; cbn [fst snd disk] in *; [|discriminate E]. split; [exact (UP _ _ _ _ F)|congruence].
Qed.
Print Assumptions C83_done.
(** If it raises, either the file was not touched, or writing failed and the error is that of the system. *)
Theorem C83_failed : forall U o o2 op w e, snd (cf_step U o o2 op w) = Err e ->
  (disk (fst (cf_step U o o2 op w)) = disk w /\ seen (fst (cf_step U o o2 op w)) = seen w) \/ o_fail o = Some e \/ o_fail o2 = Some e.
Proof.
  intros U o o2 op w e E.
  assert (UP : forall o m w1 e, cf_update U o m w = (w1, Err e) -> (disk w1 = disk w /\ seen w1 = seen w) \/ o_fail o = Some e).
  { intros o' m' w1 e' H. destruct (update_spec U o' m' w) as [X _]. cbv zeta in X. rewrite H in X. cbn [fst snd] in X. destruct X as [[-> _]|(new & _ & F & _)]; auto. }
  destruct op; try (cbn [cf_step fst]; left; split; reflexivity).
  - cbn [cf_step] in *. destruct (cf_update U o m w) as [w1 [u|e']] eqn:F; cbn [fst snd bind] in *; [discriminate E|]. assert (e' = e) as -> by congruence. destruct (UP _ _ _ _ F); auto.
  - cbn [cf_step] in *. destruct (cf_update U o _ w) as [w1 [u|e']] eqn:F; cbn [fst snd bind] in *; [discriminate E|]. assert (e' = e) as -> by congruence. destruct (UP _ _ _ _ F); auto.
  - destruct (store w) as [|kw st] eqn:ST; [cbn [cf_step]; rewrite ST; left; split; reflexivity|]. rewrite (enter_unfold U o o2 w kw st ST) in *. destruct (cf_getset U o (dkeys kw) w); [|left; split; reflexivity].
    destruct (cf_update U o2 kw w) as [w1 [u|e']] eqn:F; cbn [fst snd] in *; [discriminate E|]. assert (e' = e) as -> by congruence. destruct (UP _ _ _ _ F); auto.
Qed.
Print Assumptions C83_failed.
(** A setting that was put into the file is read from it (C24 says when), whatever operations that do not ask for settings, or fail without
    writing, come in between. *)
Theorem C83_read_back : forall U o o2 w name v r1 between o3 r3 o4, unicode_ok U -> setting_name name -> ~ In 10 v ->
  (forall l, In l (file_lines (disk w)) -> mentions U name l -> quotes_closed l /\ forall k, same_name U k name -> spells U k l -> k = name) ->
  snd (cf_step U o o2 (SetItem name (Some v)) w) = Ok r1 ->
  let w1 := cf_run U between (fst (cf_step U o o2 (SetItem name (Some v)) w)) in
  (forall before x y op after, between = before ++ (x, y, op) :: after -> forall m, ~ asks (cf_run U before (fst (cf_step U o o2 (SetItem name (Some v)) w))) op m) ->
  (snd (cf_step U o3 o4 (Get name) w1) = Ok r3 -> r3 = RValue (Some v)) /\ (snd (cf_step U o3 o4 (GetItem name) w1) = Ok r3 -> r3 = RValue (Some v)).
Proof.
  intros U o o2 w name v r1 between o3 r3 o4 UO SN NV L E w1 B. destruct (C83_done U o o2 (SetItem name (Some v)) w [(name, Some v)] r1 eq_refl E) as [C _].
  set (w0 := fst (cf_step U o o2 (SetItem name (Some v)) w)) in *. assert (D : disk w1 = disk w0).
  { subst w1. clear - B. clearbody w0. revert w0 B. induction between as [|[[x y] op] l IH]; intros w0 B; [reflexivity|]. cbn [cf_run]. rewrite IH.
    - destruct (C83_states U x y op w0) as [[H _]|(m & _ & _ & A & _)]; [exact H|]. exfalso. exact (B [] x y op l eq_refl m A).
    - intros before x' y' op' after E. specialize (B ((x, y, op) :: before) x' y' op' after). cbn [cf_run app] in B. apply B. rewrite E. reflexivity. }
  assert (G : config_get U name (disk w1) = Some v).
  { rewrite D. destruct (C24_file U [(name, Some v)] (disk w) (disk w0) UO) as [H _].
    - split; [constructor; [exact SN|constructor]|]. constructor; [intros []|constructor].
    - intros n v' [X|[]]. assert (v' = v) by congruence. subst. exact NV.
    - intros n l [X|[]] I M. cbn in X. subst n. apply (L l I M).
    - exact C.
    - apply H; [left; reflexivity|]. intros l I M. apply (L l I M). }
  clearbody w1. cbn [cf_step snd]. unfold read_file. destruct (o_open o3), (o_read o3); cbn [bind]; rewrite ?G; split; intros X; congruence.
Qed.
Print Assumptions C83_read_back.
(** reading operations do not change the file *)
Theorem C83_reads : forall U o o2 op w, (forall m, ~ asks w op m) -> disk (fst (cf_step U o o2 op w)) = disk w /\ seen (fst (cf_step U o o2 op w)) = seen w.
Proof. intros U o o2 op w N. destruct (C83_states U o o2 op w) as [H|(m & _ & _ & A & _)]; [exact H|]. destruct (N m A). Qed.
Print Assumptions C83_reads.
(** refuted: "an edit happens as a whole or not at all".  Each edit empties the file first: whoever reads it at this moment, or after a crash
    then, finds none of the settings *)
Theorem C83_crash_refuted : forall U o o2 op w m r, asks w op m -> snd (cf_step U o o2 op w) = Ok r ->
  In [] (seen (fst (cf_step U o o2 op w))) /\ forall k, config_get U k [] = None.
Proof.
  intros U o o2 op w m r A E. split; [|reflexivity].
  assert (UP : forall o m w1 u, cf_update U o m w = (w1, Ok u) -> In [] (seen w1)).
  { intros o' m' w1 u H. destruct (update_spec U o' m' w) as [X _]. cbv zeta in X. rewrite H in X. cbn [fst snd] in X. destruct X as (new & _ & _ & _ & _ & l & -> & _). apply in_or_app. right. left. reflexivity. }
  destruct op; cbn [asks] in A; try contradiction.
  - cbn [cf_step] in *. destruct (cf_update U o m0 w) as [w1 [u|e]] eqn:F; cbn [fst snd bind] in *; [exact (UP _ _ _ _ F)|discriminate E].
  - cbn [cf_step] in *. destruct (cf_update U o _ w) as [w1 [u|e]] eqn:F; cbn [fst snd bind] in *; [exact (UP _ _ _ _ F)|discriminate E].
  - destruct A as (st & ST). rewrite (enter_unfold U o o2 w m st ST) in *. destruct (cf_getset U o (dkeys m) w); [|discriminate E]. destruct (cf_update U o2 m w) as [w1 [u|e]] eqn:F; cbn [fst snd seen] in *; [exact (UP _ _ _ _ F)|discriminate E].
Qed.
Print Assumptions C83_crash_refuted.
(** refuted: "after a with block the settings are as before": leaving it always raises AttributeError and restores nothing *)
Theorem C83_block_refuted : forall U o o2 w, cf_step U o o2 Exit w = (w, Err AttributeError).
Proof. reflexivity. Qed.
Print Assumptions C83_block_refuted.
(** refuted: a ConfigFile cannot be iterated, nor asked with "in" *)
Theorem C83_iter_refuted : forall U o o2 w r, snd (cf_step U o o2 Iter w) <> Ok r.
Proof. intros U o o2 w r. cbn [cf_step snd]. destruct (read_file o w); discriminate. Qed.
Print Assumptions C83_iter_refuted.

(** ** pg_dotconf *)
(** without -f: the file gets the settings of the arguments, the last of each name; with --stdout they are only shown *)
Theorem C83_dotconf : forall U o stdout fp ps w,
  (forall p v, In p ps -> ~ argument U p [] v) ->
  exists m, (forall k v, dget k m = Some v <-> exists a p b, ps = a ++ p :: b /\ argument U p k v /\ forall q v', In q b -> ~ argument U q k v') /\
  (stdout = false -> fp <> str "/dev/stdin" ->
     let '(w', r) := dotconf U o [] stdout (fp :: ps) w in
     match r with
     | Ok (shown, x) => shown = [] /\ x = Returned /\ config_update U m (disk w) = Ok (disk w')
     | Err e => (w' = w \/ o_fail o = Some e) /\ (reads o -> writes o -> config_update U m (disk w) = Err e)
     end) /\
  (stdout = true ->
     let '(w', r) := dotconf U o [] stdout (fp :: ps) w in w' = w /\
     match r with Ok (shown, x) => x = Returned /\ config_update U m (disk w) = Ok shown | Err e => reads o -> config_update U m (disk w) = Err e end).
Proof.
  intros U o stdout fp ps w N. destruct (read_args_spec U ps []) as [A1 A2]. destruct (read_args U ps []) as [m|] eqn:R.
  2:{ exfalso. destruct (A2 eq_refl) as (p & v & I & A). exact (N p v I A). }
  destruct (A1 m eq_refl) as [_ A]. exists m. split; [|split].
  - intros k v. rewrite (A k v). split; [intros [H|[H _]]; [exact H|discriminate H]|auto].
  - intros -> FP. cbn [dotconf read_settings]. rewrite R. unfold read_file. destruct (seqb_spec fp (str "/dev/stdin")); [contradiction|]. cbn [orb].
    destruct (o_open o) as [e|] eqn:O1; [split; [auto|]; intros [X _]; congruence|]. destruct (o_read o) as [e|] eqn:O2; [split; [auto|]; intros [_ X]; congruence|].
    destruct (config_update U m (disk w)) as [new|e] eqn:C; [|auto]. destruct (write_spec o new w) as [W _]. destruct (write_file o new w) as [w' [u|e]]; cbn [fst snd bind] in *.
    + destruct W as [-> _]. auto.
    + split; [destruct W as [[-> _]|(_ & F & _)]; auto|]. intros _ [X Y]. exfalso. destruct W as [[_ X']|(_ & Y' & _)]; congruence.
  - intros ->. cbn [dotconf read_settings orb]. rewrite R. unfold read_file. destruct (o_open o) as [e|] eqn:O1; [split; [reflexivity|]; intros [X _]; congruence|]. destruct (o_read o) as [e|] eqn:O2; [split; [reflexivity|]; intros [_ X]; congruence|].
    destruct (config_update U m (disk w)) as [new|e] eqn:C; split; auto.
Qed.
Print Assumptions C83_dotconf.
(** an argument without a name ends the program with status 1, the file untouched *)
Theorem C83_dotconf_invalid : forall U o stdout fp ps w p v, In p ps -> argument U p [] v -> dotconf U o [] stdout (fp :: ps) w = (w, Ok ([], SysExit1)).
Proof.
  intros U o stdout fp ps w p v I A. cbn [dotconf read_settings]. destruct (read_args_spec U ps []) as [A1 _]. destruct (read_args U ps []) as [m|]; [|reflexivity]. exfalso. destruct (A1 m eq_refl) as [H _]. exact (H p [] v I A eq_refl).
Qed.
Print Assumptions C83_dotconf_invalid.
(** refuted: "-f applies the settings of a file": the first line that has one raises NameError *)
Theorem C83_dotconf_file_refuted : forall U o stdout f fs fp ps w, (exists l, In l (file_lines f) /\ parse_line U l <> None) ->
  dotconf U o (f :: fs) stdout (fp :: ps) w = (w, Err (OtherError 2)).
Proof.
  intros U o stdout f fs fp ps w (l & I & N). cbn [dotconf read_settings]. assert (existsb (fun l => match parse_line U l with Some _ => true | None => false end) (file_lines f) = true) as ->; [|reflexivity].
  apply existsb_exists. exists l. split; [exact I|]. destruct (parse_line U l); congruence.
Qed.
Print Assumptions C83_dotconf_file_refuted.

(** ** the hypotheses are met *)
Definition ex_io : io := {| o_open := None; o_read := None; o_wopen := None; o_flush := [3%nat]; o_fail := None |}.
Definition ex_full : io := {| o_open := None; o_read := None; o_wopen := None; o_flush := [3%nat]; o_fail := Some (OtherError 28) |}.
Definition ex_world : world := {| disk := str "port = 5432" ++ [10]; seen := []; store := []; restore := [] |}.
Example C83_ex : cf_step ascii_unicode ex_io ex_io (SetItem (str "port") (Some (str "1"))) ex_world =
  ({| disk := str "port = '1'" ++ [10]; seen := [[]; str "por"; str "port = '1'" ++ [10]]; store := []; restore := [] |}, Ok RNone).
Proof. vm_compute. reflexivity. Qed.
Example C83_ex_full : cf_step ascii_unicode ex_full ex_io (SetItem (str "port") (Some (str "1"))) ex_world =
  ({| disk := str "por"; seen := [[]; str "por"]; store := []; restore := [] |}, Err (OtherError 28)).
Proof. vm_compute. reflexivity. Qed.
Example C83_ex_block : let w := fst (cf_step ascii_unicode ex_io ex_io (Call [(str "port", Some (str "2"))]) ex_world) in
  asks w Enter [(str "port", Some (str "2"))] /\ disk (fst (cf_step ascii_unicode ex_io ex_io Enter w)) = str "port = '2'" ++ [10].
Proof. cbv zeta. split; [exists []; reflexivity|vm_compute; reflexivity]. Qed.
Example C83_ex_dotconf : dotconf ascii_unicode ex_io [] true [str "f"; str "port=1"; str " port =a=b"] ex_world = (ex_world, Ok (str "port = 'a=b'" ++ [10], Returned)) /\
  dotconf ascii_unicode ex_io [] false [str "f"; str "port"] ex_world = ({| disk := str "#port = 5432" ++ [10]; seen := [[]; str "#po"; str "#port = 5432" ++ [10]]; store := []; restore := [] |}, Ok ([], Returned)) /\
  dotconf ascii_unicode ex_io [] false [str "f"; str "=1"] ex_world = (ex_world, Ok ([], SysExit1)).
Proof. vm_compute. auto. Qed.
