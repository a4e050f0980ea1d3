(** CluProof5.v: init, address and connect *)
From Verif Require Import Base BaseProof PyStr PyStrProof PyDict PyDictProof PyInt ConfModel PgcModel PgcProof2 CluModel CluSpec CluProof CluProof2.

Section CluP5.
Variable U : unicode. Variable dv : decimals. Variable E : env.
Variable dir : text. Variable initdb pg_ctl : option text.

Lemma flag_map k : dget k option_map_ = flag k.
Proof. unfold option_map_, flag. cbn [dget]. repeat (match goal with |- context [seqb k ?x] => destruct (seqb k x) end; [reflexivity|]). reflexivity. Qed.
Lemma opts_known kw : known_kw kw -> init_opts kw = Ret (concat (map one_option kw)).
Proof.
  induction kw as [|[k v] kw IH]; intros K; [reflexivity|]. specialize (IH (Forall_inv_tail K)). apply Forall_inv in K. cbn [fst snd] in K. cbn [init_opts map concat]. rewrite flag_map.
  destruct K as [(t & F & ->) | [-> | ->]].
  - assert (N : (seqb k (str "logfile") || seqb k (str "extra_arguments"))%bool = false).
    { apply orb_false_intro; match goal with |- seqb k ?y = false => destruct (seqb_spec k y) as [->|]; [|reflexivity] end; exfalso; apply F; vm_compute; reflexivity. }
    rewrite N, IH. unfold one_option. cbn [fst snd]. destruct (flag k) as [o|]; [reflexivity|congruence].
  - change (seqb (str "logfile") (str "logfile")) with true. cbn [orb]. rewrite IH. unfold one_option. cbn [fst]. change (flag (str "logfile")) with (@None text). reflexivity.
  - change (seqb (str "extra_arguments") (str "logfile") || seqb (str "extra_arguments") (str "extra_arguments"))%bool with true. cbv iota. rewrite IH. unfold one_option. cbn [fst]. change (flag (str "extra_arguments")) with (@None text). reflexivity.
Qed.
Lemma opts_unknown kw k v : In (k, v) kw -> flag k = None -> k <> str "logfile" -> k <> str "extra_arguments" -> init_opts kw = Raise XType.
Proof.
  intros I F N1 N2. induction kw as [|[j x] kw IH]; [contradiction|]. cbn [init_opts]. rewrite flag_map. destruct I as [Q|I].
  - injection Q as -> ->. destruct (seqb_spec k (str "logfile")); [contradiction|]. destruct (seqb_spec k (str "extra_arguments")); [contradiction|]. cbn [orb]. now rewrite F.
  - rewrite (IH I). destruct (seqb j (str "logfile") || seqb j (str "extra_arguments"))%bool; [reflexivity|]. destruct (flag j); [|reflexivity]. destruct x; reflexivity.
Qed.
Lemma dmem_existsb (k : text) (kw : list (text * kwval)) : dmem k kw = existsb (fun kv => seqb (fst kv) k) kw.
Proof.
  unfold dmem. induction kw as [|[j v] kw IH]; [reflexivity|]. cbn [dget existsb fst]. rewrite (seqb_sym j k). destruct (seqb k j); [reflexivity|exact IH].
Qed.
Lemma default_known kw : known_kw kw -> known_kw (setdefault (str "encoding") (KText (str "utf-8")) kw).
Proof.
  intros K. unfold setdefault. destruct (dmem _ kw); [assumption|]. apply Forall_app. split; [assumption|]. apply Forall_cons; [|apply Forall_nil]. left. eexists. split; [|reflexivity]. vm_compute. discriminate.
Qed.
Lemma default_options kw : concat (map one_option (setdefault (str "encoding") (KText (str "utf-8")) kw)) = command_options kw.
Proof.
  unfold setdefault, command_options. rewrite dmem_existsb. destruct (existsb _ kw); [now rewrite app_nil_r|]. rewrite map_app, concat_app. reflexivity.
Qed.
Lemma default_extra kw : dget (str "extra_arguments") (setdefault (str "encoding") (KText (str "utf-8")) kw) = dget (str "extra_arguments") kw.
Proof.
  unfold setdefault. destruct (dmem _ kw); [reflexivity|]. rewrite dget_app. destruct (dget (str "extra_arguments") kw); reflexivity.
Qed.

Lemma run_init_spec cmd w w' r : run_init E cmd w = (w', r) -> exists q, w' = add [EInit cmd q] w /\ r = init_outcome q.
Proof.
  unfold run_init, bindM, ask. cbv beta zeta. intros H. exists (e_init E (w_hist w) cmd). destruct (e_init _ _ _) as [rc|err]; cbn [init_outcome].
  - destruct (rc =? 0); injection H as <- <-; split; reflexivity.
  - injection H as <- <-; split; reflexivity.
Qed.
Lemma init_spec password kw exe w w' r : known_kw kw -> init_program initdb pg_ctl exe -> init E dir initdb pg_ctl password kw w = (w', r) ->
  let cmd pwf := exe ++ [str "-D"; dir] ++ command_options kw ++ pwf ++ extra_of kw in
  exists t, w' = add t w /\
  match password with
  | None => exists q, t = [EInit (cmd []) q] /\ r = init_outcome q
  | Some pw => exists name,
      (exists n, t = [ETemp name; EWrite name pw (Some n); ETempGone name] /\ r = Raise (XOther n))
      \/ (exists q, t = [ETemp name; EWrite name pw None; EInit (cmd [str "--pwfile=" ++ name]) q; ETempGone name] /\ r = init_outcome q)
  end.
Proof.
  intros K P H. cbv zeta. unfold init in H.
  assert (X : match initdb with Some p => Some [p] | None => match pg_ctl with Some p => Some [p; str "initdb"] | None => None end end = Some exe).
  { unfold init_program in P. destruct initdb; [now subst|]. destruct pg_ctl; [now subst|contradiction]. }
  rewrite X in H. cbv zeta in H. rewrite opts_known in H by now apply default_known. rewrite default_options in H. unfold init_cmd in H. rewrite default_extra in H. fold (extra_of kw) in H.
  destruct password as [pw|].
  - unfold bindM at 1, ask at 1 in H. cbv beta zeta in H. set (name := e_temp E (w_hist w)) in *. clearbody name. unfold finally in H.
    match type of H with (let (_, _) := ?m ?x in _) = _ => destruct (m x) as [w2 r2] eqn:M end. unfold note in H. injection H as <- <-.
    unfold bindM, ask in M. cbv beta zeta in M. destruct (e_write _ _ _ _) as [n|].
    + injection M as <- <-. eexists [_; _; _]. split; [unfold add; cbn [w_hist w_proc]; rewrite <- !app_assoc; reflexivity|]. exists name. left. eauto.
    + apply run_init_spec in M as (q & -> & ->). eexists [_; _; _; _]. split; [unfold add; cbn [w_hist w_proc]; rewrite <- !app_assoc; reflexivity|]. exists name. right. eauto.
  - apply run_init_spec in H as (q & -> & ->). eexists. split; [reflexivity|]. eauto.
Qed.
Lemma init_unknown password kw k v w : In (k, v) kw -> flag k = None -> k <> str "logfile" -> k <> str "extra_arguments" ->
  (exists exe, init_program initdb pg_ctl exe) -> init E dir initdb pg_ctl password kw w = (w, Raise XType).
Proof.
  intros I F N1 N2 (exe & P). unfold init, init_program in *.
  assert (X : init_opts (setdefault (str "encoding") (KText (str "utf-8")) kw) = Raise XType).
  { apply (opts_unknown _ k v); try assumption. unfold setdefault. destruct (dmem _ kw); [assumption|]. apply in_or_app. now left. }
  destruct initdb; [|destruct pg_ctl; [|contradiction]]; cbv zeta; now rewrite X.
Qed.

(** the configuration *)
Lemma read_get (sel : text -> bool) k ls : sel k = true -> dget k (read_config U sel ls) = dget k (read_config U (seqb k) ls).
Proof.
  intros S. unfold read_config. assert (G : forall ls d e, dget k d = dget k e ->
    dget k (fold_left (fun d l => match read_line U l with Some (j, v) => if sel j then dset j v d else d | None => d end) ls d) =
    dget k (fold_left (fun d l => match read_line U l with Some (j, v) => if seqb k j then dset j v d else d | None => d end) ls e)).
  { clear ls. induction ls as [|l ls IH]; intros d e Q; [exact Q|]. cbn [fold_left]. apply IH. destruct (read_line U l) as [[j v]|]; [|assumption].
    destruct (seqb_spec k j) as [<-|N].
    - rewrite S, !dget_set_same. reflexivity.
    - destruct (sel j); [|assumption]. rewrite dget_set_other by congruence. assumption. }
  now apply G.
Qed.
Lemma read_none (sel : text -> bool) k ls : sel k = false -> dget k (read_config U sel ls) = None.
Proof.
  intros S. unfold read_config. assert (G : forall ls d, dget k d = None -> dget k (fold_left (fun d l => match read_line U l with Some (j, v) => if sel j then dset j v d else d | None => d end) ls d) = None).
  { clear ls. induction ls as [|l ls IH]; intros d Q; [exact Q|]. cbn [fold_left]. apply IH. destruct (read_line U l) as [[j v]|]; [|assumption].
    destruct (sel j) eqn:SJ; [|assumption]. rewrite dget_set_other; [assumption|congruence]. }
  now apply G.
Qed.
Lemma dget_map_some (d : list (text * text)) k : dget k (map (fun p => (fst p, Some (snd p))) d) = match dget k d with Some v => Some (Some v) | None => None end.
Proof. induction d as [|[j v] d IH]; [reflexivity|]. cbn [map dget fst snd]. destruct (seqb k j); [reflexivity|exact IH]. Qed.
Lemma dget_map_none (l : list text) k : match dget k (map (fun j => (j, @None text)) l) with Some (Some v) => Some v | _ => None end = None.
Proof. induction l as [|j l IH]; [reflexivity|]. cbn [map dget]. destruct (seqb k j); [reflexivity|exact IH]. Qed.
Lemma getset_get ks k c : In k ks -> match dget k (config_getset U ks c) with Some (Some v) => Some v | _ => None end = config_get U k c.
Proof.
  intros I. unfold config_getset, config_get. rewrite dget_app, dget_map_some. rewrite (read_get (fun j => existsb (seqb j) ks)).
  - destruct (dget k (read_config U (seqb k) (file_lines c))); [reflexivity|]. apply dget_map_none.
  - apply existsb_exists. exists k. split; [assumption|apply seqb_refl].
Qed.
Lemma address_eq c : address_of U c = (match config_get U (str "listen_addresses") c with Some a => Some (choose_host U a) | None => None end, config_get U (str "port") c).
Proof.
  unfold address_of. cbv zeta. rewrite !getset_get; [reflexivity| |]; cbn [In]; auto.
Qed.

Lemma in_existsb x l : existsb (seqb x) l = true <-> In x l.
Proof. rewrite existsb_exists. split; [intros (y & I & Q); destruct (seqb_spec x y); [subst; assumption|discriminate]|intros I; exists x; split; [assumption|apply seqb_refl]]. Qed.
Lemma lower_comma c : ascii_lower c = 44 -> c = 44.
Proof. unfold ascii_lower, ascii_upper. destruct ((65 <=? c) && (c <=? 90)) eqn:Q; [|auto]. lia. Qed.
Lemma join_lower l : map ascii_lower (py_join [44] l) = py_join [44] (map (map ascii_lower) l).
Proof.
  induction l as [|x l IH]; [reflexivity|]. destruct l as [|y l]; [reflexivity|]. cbn [map]. rewrite !py_join_cons by discriminate. rewrite !map_app, IH. reflexivity.
Qed.
Lemma host_spec items (UO : unicode_ok U) : items <> [] -> Forall (fun x => ~ In 44 x /\ Forall (fun c => 0 <= c < 128) x) items ->
  preferred items (choose_host U (py_join [44] items)).
Proof.
  intros N F. unfold choose_host. rewrite (lower_ascii U UO).
  2: { clear N. induction items as [|x items IH]; [constructor|]. specialize (IH (Forall_inv_tail F)). apply Forall_inv in F as (_ & A). destruct items as [|y items]; [assumption|]. rewrite py_join_cons by discriminate. apply Forall_app. split; [assumption|]. apply Forall_app. split; [repeat constructor; lia|assumption]. }
  rewrite join_lower, split_join; [|intros Q; apply map_eq_nil in Q; contradiction|].
  2: { apply Forall_map. eapply Forall_impl; [|exact F]. intros x (A & _) I. apply in_map_iff in I as (c & Q & I). apply lower_comma in Q. subst. contradiction. }
  cbv zeta. unfold preferred. cbv zeta. set (low := map (map ascii_lower) items).
  pose proof (in_existsb (str "localhost") low) as B1. pose proof (in_existsb (str "*") low) as B2. pose proof (in_existsb (str "127.0.0.1") low) as B3. pose proof (in_existsb (str "::1") low) as B4.
  assert (H1 : existsb (seqb (str "localhost")) low = true \/ existsb (seqb (str "localhost")) low = false) by (match goal with |- ?b = true \/ _ => destruct b end; auto).
  assert (H2 : existsb (seqb (str "*")) low = true \/ existsb (seqb (str "*")) low = false) by (match goal with |- ?b = true \/ _ => destruct b end; auto).
  assert (H3 : existsb (seqb (str "127.0.0.1")) low = true \/ existsb (seqb (str "127.0.0.1")) low = false) by (match goal with |- ?b = true \/ _ => destruct b end; auto).
  assert (H4 : existsb (seqb (str "::1")) low = true \/ existsb (seqb (str "::1")) low = false) by (match goal with |- ?b = true \/ _ => destruct b end; auto).
  assert (NT : forall b P, (b = true <-> P) -> b = false -> ~ P) by (intros b P Q -> X; apply Q in X; discriminate).
  destruct H1 as [H1|H1]; rewrite H1; cbn [orb]; [left; split; [reflexivity|left; now apply B1]|].
  destruct H2 as [H2|H2]; rewrite H2; cbn [orb]; [left; split; [reflexivity|right; now apply B2]|]. apply (NT _ _ B1) in H1. apply (NT _ _ B2) in H2. right.
  destruct H3 as [H3|H3]; rewrite H3; [left; split; [reflexivity|]; split; [assumption|]; split; [assumption|]; now apply B3|]. apply (NT _ _ B3) in H3. right.
  destruct H4 as [H4|H4]; rewrite H4; [left; split; [reflexivity|]; split; [assumption|]; split; [assumption|]; split; [assumption|]; now apply B4|]. apply (NT _ _ B4) in H4. right.
  split; [assumption|]. split; [assumption|]. split; [assumption|]. split; [assumption|]. destruct items as [|x items]; [congruence|]. exists x, items. split; reflexivity.
Qed.

(** connect() *)
Lemma connect_spec user w w' r : connect U dv E user w = (w', r) ->
  exists t0 t, w_hist w' = w_hist w ++ t0 ++ t /\
  ((seen_view U dv (w_proc w) (w_proc w') t0 (Ret false) /\ t = [] /\ r = Raise XNotRunning)
   \/ (exists x, seen_view U dv (w_proc w) (w_proc w') t0 (Raise x) /\ t = [] /\ r = Raise x)
   \/ (seen_view U dv (w_proc w) (w_proc w') t0 (Ret true) /\
       ((exists err, t = [EConf (inr err)] /\ r = Raise (XOS err))
        \/ (exists c q, t = [EConf (inl c); EConnect (or_else (fst (address_of U c)) (str "localhost")) (or_else (snd (address_of U c)) (str "5432")) user q]
             /\ r = match q with PConnected => Ret tt | PCannot fs => Raise (XCannot fs) | POther n => Raise (XOther n) end)))).
Proof.
  unfold connect. intros H. apply bindM_inv in H as [(w1 & b & H1 & H2) | (x & H1 & ->)]; apply running_spec in H1 as (t0 & E0 & V0).
  2: { exists t0, []. rewrite app_nil_r. split; [assumption|]. right. left. eauto. }
  destruct b; cbn [negb] in H2.
  2: { injection H2 as <- <-. exists t0, []. rewrite app_nil_r. split; [assumption|]. left. auto. }
  apply bindM_inv in H2 as [(w2 & a & H2 & H3) | (x & H2 & ->)]; apply address_spec in H2 as [(c & -> & Q) | (err & -> & Q)]; try discriminate; injection Q as ->.
  - unfold try_connect, bindM, ask in H3. cbv beta zeta in H3. set (q := e_connect E _ _ _ _) in *. clearbody q. exists t0, [EConf (inl c); EConnect (or_else (fst (address_of U c)) (str "localhost")) (or_else (snd (address_of U c)) (str "5432")) user q].
    assert (G : w' = {| w_proc := w_proc (add [EConf (inl c)] w1); w_hist := w_hist (add [EConf (inl c)] w1) ++ [EConnect (or_else (fst (address_of U c)) (str "localhost")) (or_else (snd (address_of U c)) (str "5432")) user q] |} /\ r = match q with PConnected => Ret tt | PCannot fs => Raise (XCannot fs) | POther n => Raise (XOther n) end).
    { destruct q; injection H3 as <- <-; split; reflexivity. }
    destruct G as (-> & ->). cbn [add w_hist w_proc]. rewrite E0, <- !app_assoc. split; [reflexivity|]. right. right. split; [exact V0|]. right. exists c, q. split; reflexivity.
  - exists t0, [EConf (inr err)]. cbn [add w_hist w_proc]. rewrite E0, <- app_assoc. split; [reflexivity|]. right. right. split; [exact V0|]. left. eauto.
Qed.
End CluP5.
