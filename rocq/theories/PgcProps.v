(** PgcProps.v: C66 *)
From Verif Require Import Base BaseProof PyStr PyStrProof PyStrProof2 PyDict PyDictProof PyInt StrModel StrProof VersionModel VersionSpec VersionProof MarkModel PgcModel PgcSpec PgcProof PgcProof2.

(** every option given to configure is found, with its value as it was given, in order *)
Theorem C66_options : forall q os, q = 39 \/ q = 34 -> Forall (regular q) os ->
  (q = 39 \/ match os with o :: _ => o_quoted o = true | [] => True end) ->
  parse_configure_options (py_join [32] (map (shown q) os)) = map (fun o => (option_key o, o_value o)) os.
Proof. exact options_parsed. Qed.

Lemma in_find {A} (f : A -> text * option text) l k v : last_said (map f l) k v -> exists x, In x l /\ f x = (k, v).
Proof. intros (a & b & E & _). assert (I : In (k, v) (map f l)) by (rewrite E; apply in_app_iff; right; now left). apply in_map_iff in I as (x & Q & I). eauto. Qed.

Section C66.
Variable U : unicode. Variable UO : unicode_ok U.

(** what pg_config prints is what the dictionary has: for every name the value last given, and nothing else *)
Theorem C66_lines : forall run ls, Forall (cline_ok U) ls -> run [] = Some (lines_text (map cline_text ls)) ->
  exists d, pg_config_dictionary U run = Ok d /\ forall k v, dget k d = Some v <-> last_said (said ls) k v.
Proof.
  intros run ls F R. unfold pg_config_dictionary, get_command_output. cbn [map]. rewrite R.
  rewrite lines_split by (rewrite Forall_map; eapply Forall_impl; [|exact F]; intros l; apply cline_no_break).
  eexists. split; [reflexivity|]. rewrite (config_lines U UO) by assumption. intros k v. apply dupdate_last.
Qed.

Lemma zip_get ks : forall vs d, NoDup ks -> forall k, dget k (zip_dict d ks vs) = match dget k (combine ks vs) with Some v => Some v | None => dget k d end.
Proof.
  induction ks as [|x ks IH]; intros vs d ND k; [reflexivity|]. destruct vs as [|y vs]; [reflexivity|]. cbn [zip_dict combine dget]. inversion ND as [|? ? NI ND']; subst. rewrite IH by assumption.
  rewrite dget_set. destruct (seqb_spec k x) as [->|]; [|reflexivity]. assert (E : dget x (combine ks vs) = None).
  { apply dget_None. intros I. apply NI. unfold dkeys in I. apply in_map_iff in I as ([a b] & <- & I). now apply in_combine_l in I. }
  now rewrite E.
Qed.
Lemma remove_in x l : NoDup l -> forall y, In y (remove_first x l) <-> In y l /\ y <> x.
Proof.
  induction 1 as [|z l NI ND IH]; intros y; [cbn; tauto|]. cbn [remove_first]. destruct (seqb_spec x z) as [->|N].
  - cbn [In]. split; [intros I; split; [now right|intros ->; contradiction]|]. intros ([I|I] & Q); [congruence|assumption].
  - cbn [In]. rewrite IH. split; [intros [->|(I & Q)]; split; auto; congruence|]. intros ([I|I] & Q); auto.
Qed.
Lemma remove_nodup x l : NoDup l -> NoDup (remove_first x l).
Proof.
  induction 1 as [|z l NI ND IH]; [constructor|]. cbn [remove_first]. destruct (seqb x z); [assumption|]. constructor; [|assumption]. intros I. apply remove_in in I as [I _]; auto.
Qed.
(** servers whose pg_config must be asked for each name: the names --help tells, but help, and version *)
Theorem C66_fallback : forall run hs vals version, Forall hline_ok hs -> NoDup (told hs) -> Forall (fun n => py_strip U n = n) (told hs) -> Forall no_break vals -> trim U version ->
  run [] = None -> run [str "--help"] = Some (lines_text (map hline_text hs)) -> run [str "--version"] = Some (version ++ [10]) ->
  (forall names, NoDup names -> (forall n, In n names <-> In n (told hs) /\ n <> str "help" /\ n <> str "version") ->
     exists vs, run (map (fun n => str "--" ++ n) names) = Some (lines_text vs) /\ Forall2 (fun n v => dget n (combine (told hs) vals) = Some v) names vs /\ Forall no_break vs) ->
  exists d, pg_config_dictionary U run = Ok d /\
    forall n, dget n d = if seqb n (str "version") then Some version else if seqb n (str "help") then None else dget n (combine (told hs) vals).
Proof.
  intros run hs vals version F ND ST FV TV R0 RH RV RO. unfold pg_config_dictionary, get_command_output. cbn [map]. rewrite R0.
  assert (SV : forall w, In w [str "help"; str "version"] -> py_strip U w = w).
  { intros w I. unfold py_strip. apply strip_id. assert (A : Forall (fun c => 97 <= c <= 122) w) by (destruct I as [<-|[<-|[]]]; vm_compute; repeat (apply Forall_cons; [split; discriminate|]); apply Forall_nil).
    clear - UO A. induction A as [|c w H _ IH]; [reflexivity|]. cbn [forallb]. rewrite IH, (uo_space U UO) by lia. unfold ascii_space.
    destruct (Z.leb_spec c 13), (Z.leb_spec c 32); try lia. }
  rewrite (SV (str "help")) by (now left). rewrite (SV (str "version")) by (right; now left).
  change ([45; 45] ++ str "help") with (str "--help"). change ([45; 45] ++ str "version") with (str "--version"). rewrite RH, RV.
  rewrite lines_split. 2:{ rewrite Forall_map. eapply Forall_impl; [|exact F]. intros [pre name rest|t]; cbn [hline_ok hline_text]; [|tauto]. intros (_ & _ & A & B & C). unfold no_break in *. rewrite !Forall_app. repeat split; auto; repeat constructor. }
  assert (E : flat_map (fun l => match help_option l with Some o => [o] | None => [] end) (map hline_text hs) = told hs).
  { clear - F. induction F as [|l ls H _ IH]; [reflexivity|]. cbn [map flat_map]. rewrite help_spec by assumption. rewrite IH. unfold told. cbn [flat_map]. now destruct l. }
  rewrite E. set (names := remove_first (str "version") (remove_first (str "help") (told hs))).
  assert (NN : NoDup names) by (now repeat apply remove_nodup).
  assert (IN : forall n, In n names <-> In n (told hs) /\ n <> str "help" /\ n <> str "version").
  { intros n. unfold names. rewrite !remove_in by (assumption || now apply remove_nodup). tauto. }
  destruct (RO names NN IN) as (vs & R & F2 & NB).
  assert (M : map (fun x => [45; 45] ++ py_strip U x) names = map (fun n => str "--" ++ n) names).
  { apply map_ext_in. intros n I. apply IN in I as (I & _). rewrite Forall_forall in ST. now rewrite ST. }
  rewrite M, R. assert (PV : py_strip U (version ++ [10]) = version).
  { unfold py_strip. destruct version as [|c r]; [apply strip_all; repeat constructor; rewrite (uo_space U UO) by lia; reflexivity|].
    rewrite <- (app_nil_l ((c :: r) ++ [10])). apply strip_around; [constructor|repeat constructor; rewrite (uo_space U UO) by lia; reflexivity|discriminate|now apply (trim_solid U)]. }
  rewrite PV, lines_split by assumption. eexists. split; [reflexivity|]. intros n. rewrite dget_set. destruct (seqb_spec n (str "version")) as [->|N1]; [reflexivity|].
  rewrite zip_get by assumption. cbn [dget].
  assert (G : dget n (combine names vs) = if seqb n (str "help") then None else dget n (combine (told hs) vals)).
  { destruct (seqb_spec n (str "help")) as [->|N2].
    - apply dget_None. intros I. unfold dkeys in I. apply in_map_iff in I as ([a b] & Q & I). cbn in Q. subst a. apply in_combine_l, IN in I. tauto.
    - destruct (in_dec (list_eq_dec Z.eq_dec) n (told hs)) as [I|I].
      + assert (I' : In n names) by (apply IN; auto). clear - F2 I'. revert I'. induction F2 as [|a b l l' H F2 IH]; [intros []|]. intros I. cbn [combine dget]. destruct (seqb_spec n a) as [->|N]; [congruence|]. destruct I as [I|I]; [congruence|auto].
      + transitivity (@None text); [|symmetry]; apply dget_None; intros J; unfold dkeys in J; apply in_map_iff in J as ([a b] & Q & J); cbn in Q; subst a; apply in_combine_l in J; [apply IN in J; tauto|contradiction]. }
  rewrite G. destruct (seqb n (str "help")); [reflexivity|]. now destruct (dget n (combine (told hs) vals)).
Qed.

Lemma words_app_space s t cur : spaces_only U s -> words_go U (s ++ t) cur = match s, cur with [], _ => words_go U t cur | _, [] => words_go U t [] | _, _ => rev cur :: words_go U t [] end.
Proof.
  intros F. revert cur. induction F as [|c s H F IH]; intros cur; [reflexivity|]. cbn [app words_go]. rewrite H. destruct cur; rewrite IH; destruct s; reflexivity.
Qed.
Lemma words_app_word w t cur : Forall (fun c => u_space U c = false) w -> words_go U (w ++ t) cur = words_go U t (rev w ++ cur).
Proof.
  intros F. revert cur. induction F as [|c s H F IH]; intros cur; [reflexivity|]. cbn [app words_go]. rewrite H, IH. cbn [rev]. now rewrite <- app_assoc.
Qed.
Lemma words_two t a b : two_words U t a b -> py_words U t = [a; b].
Proof.
  intros ((NA & FA) & (NB & FB) & s0 & s1 & s2 & -> & N1 & S0 & S1 & S2). unfold py_words. rewrite words_app_space by assumption.
  transitivity (words_go U (a ++ s1 ++ b ++ s2) []); [now destruct s0|]. rewrite words_app_word, app_nil_r by assumption. rewrite words_app_space by assumption.
  destruct s1 as [|c s1]; [congruence|]. destruct (rev a) eqn:RA; [apply (f_equal (@rev Z)) in RA; rewrite rev_involutive in RA; contradiction|]. rewrite <- RA, rev_involutive. f_equal.
  rewrite words_app_word, app_nil_r by assumption. rewrite <- (app_nil_r s2), words_app_space by assumption.
  destruct (rev b) eqn:RB; [apply (f_equal (@rev Z)) in RB; rewrite rev_involutive in RB; contradiction|]. rewrite <- RB. destruct s2; [|now rewrite rev_involutive].
  rewrite RB. cbn [words_go]. rewrite <- RB. now rewrite rev_involutive.
Qed.
Variable dv : decimals. Variable exists_ : text -> bool.
(** an installation tells its type, its version and the options it was configured with *)
Theorem C66_installation : forall info t ty vs v os, dget (str "version") info = Some t -> two_words U t ty vs -> valid U v -> written v vs ->
  dget (str "configure") info = Some (py_join [32] (map (shown 39) os)) -> Forall (regular 39) os ->
  exists i, installation_init U dv exists_ info = Ok i /\ in_version i = t /\ in_type i = ty /\ in_version_info i = full_tuple v /\
    (forall k x, dget k (in_options i) = Some x <-> last_said (map (fun o => (option_key o, o_value o)) os) k x) /\
    (install_ssl i = true <-> exists o, In o os /\ (option_key o = str "with_openssl" \/ exists a b, option_key o = a ++ str "with_ssl" ++ b)).
Proof.
  intros info t ty vs v os DV TW V W DC R. unfold installation_init. rewrite DV, (words_two _ _ _ TW).
  assert (SW : version_split U dv vs = Ok (version_tuple v)) by (rewrite <- (app_nil_r vs); apply (split_written U dv UO v vs [] []); auto).
  rewrite SW. cbn [bind]. rewrite (normalize_tuple U v V) || erewrite normalize_tuple by eauto. cbn [bind]. rewrite DC. rewrite options_parsed by auto.
  assert (G : forall k x, dget k (dupdate [] (map (fun o => (option_key o, o_value o)) os)) = Some x <-> last_said (map (fun o => (option_key o, o_value o)) os) k x) by (intros; apply dupdate_last).
  eexists. split; [reflexivity|]. cbn [in_version in_type in_version_info in_options]. do 3 (split; [reflexivity|]). split; [exact G|].
  unfold install_ssl. cbn [in_options]. set (d := dupdate [] (map (fun o => (option_key o, o_value o)) os)) in *.
  assert (KD : forall k, In k (dkeys d) <-> exists o, In o os /\ option_key o = k).
  { intros k. split.
    - intros I. destruct (dget k d) as [x|] eqn:E; [|apply dget_None in E; contradiction]. apply G, in_find in E as (o & I' & Q). exists o. split; congruence.
    - intros (o & I & <-). destruct (dget (option_key o) d) as [x|] eqn:E; [apply dget_In in E; unfold dkeys; apply in_map_iff; eexists (_, _); split; [|exact E]; reflexivity|].
      exfalso. clear - I E G. assert (H : exists x, last_said (map (fun o => (option_key o, o_value o)) os) (option_key o) x).
      { clear - I. induction os as [|p l IH] using rev_ind; [destruct I|]. destruct (list_eq_dec Z.eq_dec (option_key o) (option_key p)) as [Q|N].
        - exists (o_value p), (map (fun o => (option_key o, o_value o)) l), []. rewrite map_app. cbn. rewrite Q. split; [reflexivity|intros []].
        - apply in_app_iff in I as [I|[<-|[]]]; [|congruence]. destruct (IH I) as (x & a & b & Q & NI). exists x, a, (b ++ [(option_key p, o_value p)]). rewrite map_app, Q. cbn. rewrite <- app_assoc. split; [reflexivity|].
          rewrite map_app. intros J. apply in_app_iff in J as [J|[J|[]]]; [contradiction|]. cbn in J. congruence. }
      destruct H as (x & H). apply G in H. congruence. }
  assert (SUB : forall sub k, py_in sub k = true <-> exists a b, k = a ++ sub ++ b).
  { clear. intros sub k. unfold py_in. split.
    - induction k as [|c k IH]; cbn [index_of]; destruct (prefixb _ _) eqn:P; try (intros Q; discriminate Q).
      + intros _. exists [], []. destruct sub; [reflexivity|discriminate P].
      + intros _. exists []. cbn [app]. revert P. generalize (c :: k). clear. induction sub as [|x s IH]; intros l P; [exists l; reflexivity|]. destruct l as [|y l]; [discriminate P|]. cbn [prefixb] in P. apply andb_true_iff in P as [Q P]. apply Z.eqb_eq in Q as ->. destruct (IH _ P) as (b & ->). exists b. reflexivity.
      + destruct (index_of sub k); [|discriminate]. intros _. destruct (IH eq_refl) as (a & b & ->). exists (c :: a), b. reflexivity.
    - intros (a & b & ->). induction a as [|c a IH].
      + cbn [app]. destruct (sub ++ b) eqn:E; cbn [index_of]; rewrite <- E, prefixb_app; reflexivity.
      + cbn [app index_of]. destruct (prefixb _ _); [reflexivity|]. destruct (index_of sub (a ++ sub ++ b)); [reflexivity|discriminate]. }
  rewrite orb_true_iff. split.
  - intros [D|D].
    + unfold dmem in D. destruct (dget (str "with_openssl") d) as [x|] eqn:E; [|discriminate]. apply G, in_find in E as (o & I & Q). exists o. split; [assumption|left; congruence].
    + apply existsb_exists in D as (k & I & S). apply KD in I as (o & I & <-). exists o. split; [assumption|right; now apply SUB].
  - intros (o & I & [Q|Q]).
    + left. unfold dmem. destruct (dget (str "with_openssl") d) as [x|] eqn:E; [reflexivity|]. apply dget_None in E. destruct E. apply KD. eauto.
    + right. apply existsb_exists. exists (option_key o). split; [apply KD; eauto|now apply SUB].
Qed.

(** a version with more words than two is refused *)
Theorem C66_more_words : forall info t, dget (str "version") info = Some t -> (forall a b, py_words U t <> [a; b]) -> installation_init U dv exists_ info = Err ValueError.
Proof. intros info t D N. unfold installation_init. rewrite D. destruct (py_words U t) as [|a [|b [|c l]]]; try reflexivity. destruct (N a b eq_refl). Qed.

Lemma fold_dset_in (f : text -> option text) ks : forall d k, In k ks -> dget k (fold_left (fun d k => dset k (f k) d) ks d) = Some (f k).
Proof.
  induction ks as [|x ks IH] using rev_ind; intros d k I; [destruct I|]. rewrite fold_left_app. cbn [fold_left]. rewrite dget_set. destruct (seqb_spec k x) as [->|N]; [reflexivity|].
  apply IH. apply in_app_iff in I as [I|[I|[]]]; [assumption|congruence].
Qed.
Lemma fold_dset_out (f : text -> option text) ks : forall d k, ~ In k ks -> dget k (fold_left (fun d k => dset k (f k) d) ks d) = dget k d.
Proof.
  induction ks as [|x ks IH] using rev_ind; intros d k N; [reflexivity|]. rewrite fold_left_app. cbn [fold_left]. rewrite dget_set. destruct (seqb_spec k x) as [->|_]; [destruct N; apply in_app_iff; right; now left|].
  apply IH. intros I. apply N, in_app_iff. now left.
Qed.
(** the executables are those that are there, under the directory pg_config tells *)
Theorem C66_paths : forall info i, installation_init U dv exists_ info = Ok i ->
  (forall k, In k pg_executables -> dget k (in_paths i) =
     Some match dget (str "bindir") info with Some b => if exists_ (path_join b k) then Some (path_join b k) else None | None => None end) /\
  (forall k, In k pg_directories -> dget k (in_paths i) = Some (dget k info)).
Proof.
  intros info i E. unfold installation_init in E. destruct (dget (str "version") info) as [t|]; [|discriminate]. destruct (py_words U t) as [|? [|? [|]]]; try discriminate.
  apply bind_Ok in E as (vi & _ & E). apply bind_Ok in E as (vi' & _ & E). apply Ok_inj in E. subst i. cbn [in_paths]. unfold find_paths. cbv zeta.
  assert (DIS : forall k, In k pg_directories -> ~ In k pg_executables).
  { intros k I J. assert (B : forallb (fun k => negb (existsb (seqb k) pg_executables)) pg_directories = true) by reflexivity. rewrite forallb_forall in B. specialize (B k I). apply negb_true_iff in B.
    assert (existsb (seqb k) pg_executables = true) by (apply existsb_exists; exists k; split; [assumption|apply seqb_refl]). congruence. }
  split; intros k I.
  - destruct (dget (str "bindir") info) as [b|].
    + apply (fold_dset_in (fun k => if exists_ (path_join b k) then Some (path_join b k) else None)). assumption.
    + apply (fold_dset_in (fun _ => None)). assumption.
  - destruct (dget (str "bindir") info) as [b|].
    + rewrite (fold_dset_out (fun k => if exists_ (path_join b k) then Some (path_join b k) else None)) by auto. apply (fold_dset_in (fun k => dget k info)). assumption.
    + rewrite (fold_dset_out (fun _ => None)) by auto. apply (fold_dset_in (fun k => dget k info)). assumption.
Qed.

(** pg_config is the one named by PGINSTALLATION, else the first one on the PATH *)
Theorem C66_default : forall env path p, default_pg_config exists_ env path = Some p <->
  match env with
  | Some (c :: e) => p = c :: e
  | _ => exists before dir after, py_split [58] (match path with Some x => x | None => [] end) = before ++ dir :: after /\
           p = path_join dir (str "pg_config") /\ exists_ p = true /\ Forall (fun d => exists_ (path_join d (str "pg_config")) = false) before
  end.
Proof.
  assert (G : forall l p, find_file exists_ (str "pg_config") l = Some p <-> exists before dir after, l = before ++ dir :: after /\
           p = path_join dir (str "pg_config") /\ exists_ p = true /\ Forall (fun d => exists_ (path_join d (str "pg_config")) = false) before).
  { induction l as [|d l IH]; intros p; cbn [find_file].
    - split; [discriminate|]. intros (b & d & a & Q & _). destruct b; discriminate.
    - destruct (exists_ (path_join d (str "pg_config"))) eqn:E.
      + split; [intros Q; injection Q as <-; exists [], d, l; auto|]. intros (b & d' & a & Q & -> & X & F). destruct b as [|b0 b]; [injection Q as -> _; reflexivity|]. injection Q as <- _. apply Forall_inv in F. congruence.
      + rewrite IH. split; intros (b & d' & a & Q & -> & X & F).
        * exists (d :: b), d', a. rewrite Q. auto.
        * destruct b as [|b0 b]; [injection Q as -> _; congruence|]. injection Q as <- ->. exists b, d', a. inversion F; subst. auto. }
  intros env path p. unfold default_pg_config, find_executable. destruct env as [[|c e]|]; [apply G| |apply G]. split; [intros Q; congruence|intros ->; reflexivity].
Qed.
End C66.
Print Assumptions C66_options. Print Assumptions C66_lines. Print Assumptions C66_fallback. Print Assumptions C66_installation. Print Assumptions C66_more_words. Print Assumptions C66_paths. Print Assumptions C66_default.

(** ** The rest of the claims is false of the code *)
(** dashes and quotes at the end of a value are lost, a quoted quote is not read as configure wrote it *)
Theorem C66_options_refuted :
  parse_configure_options (str "'--with-extra-version=-' '--prefix=/a'") = [(str "with_extra_version", Some []); (str "prefix", Some (str "/a"))] /\
  parse_configure_options (str "'--with-extra-version=a-'") = [(str "with_extra_version", Some (str "a"))] /\
  (* CFLAGS=a'b as the shell reads it *)
  parse_configure_options (str "'CFLAGS=a'\''b'") = [(str "CFLAGS", Some (str "a'\'b"))].
Proof. split; [|split]; vm_compute; reflexivity. Qed.
(** the version of a packaged server is refused; the directory of the server's headers is never found *)
Theorem C66_packaged_refuted : forall dv ex rest,
  installation_init ascii_unicode dv ex ((str "version", str "PostgreSQL 14.5 (Debian 14.5-1)") :: rest) = Err ValueError.
Proof. reflexivity. Qed.
Theorem C66_directories_refuted : forall dv ex,
  let out := str "VERSION = PostgreSQL 9.6" ++ [10] ++ str "INCLUDEDIR-SERVER = /usr/include/server" ++ [10] in
  exists d i, pg_config_dictionary ascii_unicode (fun _ => Some out) = Ok d /\ installation_init ascii_unicode dv ex d = Ok i /\
    dget (str "includedir-server") d = Some (str "/usr/include/server") /\ dget (str "includedir_server") (in_paths i) = Some None.
Proof. intros dv ex out. eexists. eexists. split; [vm_compute; reflexivity|]. split; [vm_compute; reflexivity|]. split; vm_compute; reflexivity. Qed.
(** an option of --help at the end of its line loses its last character *)
Theorem C66_fallback_refuted : help_option (str "  --bindir") = Some (str "bindi").
Proof. reflexivity. Qed.
Print Assumptions C66_options_refuted. Print Assumptions C66_packaged_refuted. Print Assumptions C66_directories_refuted. Print Assumptions C66_fallback_refuted.

(** ** Cases *)
Definition o1 := {| o_dashes := str "--"; o_name := str "with-openssl"; o_value := None; o_quoted := true |}.
Definition o2 := {| o_dashes := []; o_name := str "CFLAGS"; o_value := Some (str "-O2 -g"); o_quoted := true |}.
Definition o3 := {| o_dashes := str "--"; o_name := str "prefix"; o_value := Some (str "/usr"); o_quoted := false |}.
Example regulars : Forall (regular 39) [o1; o2; o3].
Proof.
  assert (R : forall o, Forall (eq 45) (o_dashes o) -> ~ In 61 (o_name o) -> ~ In 39 (argument o) -> (exists c r, o_name o = c :: r /\ ~ dash_or_quote c) ->
    ~ dash_or_quote (last (argument o) 0) -> (o_quoted o = false -> Forall (fun c => c <> 32 /\ c <> 39 /\ c <> 34) (argument o)) -> regular 39 o).
  { intros o A B C D E F. repeat split; auto; try apply F; auto. intros r c X. rewrite X, last_last in E. exact E. }
  repeat (apply Forall_cons; [apply R; cbn;
    [repeat constructor|intuition discriminate|intuition discriminate|eexists; eexists; split; [reflexivity|unfold dash_or_quote; intuition discriminate]|unfold dash_or_quote; intuition discriminate|
     intros; try discriminate; repeat constructor; discriminate]|]). apply Forall_nil.
Qed.
Example shown_all : py_join [32] (map (shown 39) [o1; o2; o3]) = str "'--with-openssl' 'CFLAGS=-O2 -g' --prefix=/usr". Proof. reflexivity. Qed.
Example keys_all : map (fun o => (option_key o, o_value o)) [o1; o2; o3] = [(str "with_openssl", None); (str "CFLAGS", Some (str "-O2 -g")); (str "prefix", Some (str "/usr"))]. Proof. reflexivity. Qed.
Example entry_ok : cline_ok ascii_unicode (Entry (str "BINDIR") (str "/usr/bin") [[]; [32]; [32]]).
Proof.
  split; [cbn; intuition discriminate|]. split; [split; [intros c r E; injection E as <- _; reflexivity|]|].
  - intros r c E. apply (f_equal (fun l => last l 0)) in E. rewrite last_last in E. cbn in E. subst c. reflexivity.
  - split; [cbn; repeat (apply Forall_cons; [lia|]); apply Forall_nil|]. split; [split; [intros c r E; injection E as <- _; reflexivity|]|].
    + intros r c E. apply (f_equal (fun l => last l 0)) in E. rewrite last_last in E. cbn in E. subst c. reflexivity.
    + split; [cbn; repeat constructor|]. split; [cbn; repeat constructor|]. repeat constructor.
Qed.
Example entry_text : cline_text (Entry (str "BINDIR") (str "/usr/bin") [[]; [32]; [32]]) = str "BINDIR = /usr/bin". Proof. reflexivity. Qed.
Example help_ok : hline_ok (HOption [32; 32] (str "bindir") (str "  show location")) /\ hline_text (HOption [32; 32] (str "bindir") (str "  show location")) = str "  --bindir   show location".
Proof. split; [|reflexivity]. cbn. repeat split; try (repeat constructor; discriminate); try (repeat constructor). intuition discriminate. Qed.
Example words_ok : two_words ascii_unicode (str "PostgreSQL 9.6") (str "PostgreSQL") (str "9.6").
Proof. split; [split; [discriminate|cbn; repeat constructor]|]. split; [split; [discriminate|cbn; repeat constructor]|]. exists [], [32], []. split; [reflexivity|]. split; [discriminate|]. repeat split; repeat constructor. Qed.

(** the path of a file in a directory: the two with one slash between them *)
Theorem C66_join dir name : (path_join [] name = name) /\ (path_join (dir ++ [47]) name = dir ++ [47] ++ name) /\
  (dir <> [] -> (forall d, dir <> d ++ [47]) -> path_join dir name = dir ++ [47] ++ name).
Proof.
  assert (E : forall a, a <> [] -> path_join a name = if py_endswith [47] a then a ++ name else a ++ [47] ++ name) by (intros [|]; [contradiction|reflexivity]).
  split; [reflexivity|]. split.
  - rewrite E by (intros C; apply app_eq_nil in C as [_ C]; discriminate). rewrite endswith_app. now rewrite <- app_assoc.
  - intros N NS. rewrite E by exact N. destruct (py_endswith [47] dir) eqn:W; [|reflexivity]. exfalso.
    destruct (exists_last N) as (d & x & ->). apply (NS d). f_equal. f_equal. unfold py_endswith in W. rewrite rev_app_distr in W. cbn [rev app prefixb] in W. 
    destruct (Z.eqb_spec 47 x) as [EX|]; [symmetry; exact EX|discriminate W].
Qed.
Print Assumptions C66_join.
