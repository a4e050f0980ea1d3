(** ConfProps.v: C24, configuration files *)
From Verif Require Import PyStr PyStrProof PyDict ConfModel ConfSpec ConfProof4 ConfProof6 ConfProof7.

(** Altering a file that has lines always succeeds. *)
Theorem C24_succeeds : forall U m lines, unicode_ok U -> proper_map U m -> lines <> [] -> exists lines', alter_config U m lines = Ok lines'.
Proof. intros U m lines UO P N. now apply alter_config_total. Qed.
Print Assumptions C24_succeeds.

(** A setting that was set is read with its new value, under one spelling of its
    name and under no other; the spelling is that of a line of the file, or the given one. *)
Theorem C24_set : forall U m lines lines' name v, unicode_ok U -> proper_map U m -> alter_config U m lines = Ok lines' -> In (name, Some v) m ->
  exists k', same_name U k' name /\ (k' = name \/ exists l, In l lines /\ mentions U name l /\ spells U k' l) /\
    forall k, same_name U k name -> dget k (read_config U everything lines') = if seqb k k' then Some v else None.
Proof. intros. eapply get_set; eauto. Qed.
Print Assumptions C24_set.

(** A setting that was set to None is not read any more. *)
Theorem C24_removed : forall U m lines lines' name k, unicode_ok U -> proper_map U m -> alter_config U m lines = Ok lines' -> In (name, None) m ->
  same_name U k name -> dget k (read_config U everything lines') = None.
Proof. intros. eapply get_unset; eauto. Qed.
Print Assumptions C24_removed.

(** Every other setting keeps its value. *)
Theorem C24_others : forall U m lines lines' k, unicode_ok U -> proper_map U m -> alter_config U m lines = Ok lines' ->
  (forall name, In name (map fst m) -> ~ same_name U k name) ->
  dget k (read_config U everything lines') = dget k (read_config U everything lines).
Proof. intros. eapply get_other; eauto. Qed.
Print Assumptions C24_others.

(** Every line that does not mention an altered setting is unchanged and where it
    was; only the last line may get a missing line feed. *)
Theorem C24_unrelated_lines : forall U m lines lines' j l, unicode_ok U -> proper_map U m -> alter_config U m lines = Ok lines' ->
  nth_error lines j = Some l -> (forall name, In name (map fst m) -> ~ mentions U name l) ->
  exists l', nth_error lines' j = Some l' /\ (l' = l \/ (S j = length lines /\ py_endswith [10] l = false /\ l' = l ++ [10])).
Proof. intros. eapply lines_unrelated; eauto. Qed.
Print Assumptions C24_unrelated_lines.

(** A line that mentions only settings to remove is unchanged or commented out. *)
Theorem C24_removed_lines : forall U m lines lines' j l, unicode_ok U -> proper_map U m -> alter_config U m lines = Ok lines' ->
  nth_error lines j = Some l -> (forall name v, In (name, Some v) m -> ~ mentions U name l) ->
  exists l' l'', nth_error lines' j = Some l'' /\ (l' = l \/ l' = [35] ++ l) /\ line_kept l' l''.
Proof. intros. eapply lines_removed; eauto. Qed.
Print Assumptions C24_removed_lines.

(** No line is dropped, and at most one is added for each setting. *)
Theorem C24_line_count : forall U m lines lines', unicode_ok U -> proper_map U m -> alter_config U m lines = Ok lines' ->
  (length lines <= length lines' <= length lines + length m)%nat.
Proof. intros. eapply lines_count; eauto. Qed.
Print Assumptions C24_line_count.

(** The same of ConfigFile, with the file written and read again: values hold no
    line feed, and the lines to be rewritten close their quotes. *)
Theorem C24_file : forall U m content content', unicode_ok U -> proper_map U m ->
  (forall name v, In (name, Some v) m -> ~ In 10 v) ->
  (forall name l, In name (map fst m) -> In l (file_lines content) -> mentions U name l -> quotes_closed l) ->
  config_update U m content = Ok content' ->
  (forall name v, In (name, Some v) m -> (forall l, In l (file_lines content) -> mentions U name l -> forall k, same_name U k name -> spells U k l -> k = name) ->
     config_get U name content' = Some v) /\
  (forall name k, In (name, None) m -> same_name U k name -> config_get U k content' = None) /\
  (forall k, (forall name, In name (map fst m) -> ~ same_name U k name) -> config_get U k content' = config_get U k content).
Proof.
  intros U m content content' UO P NV QC H. destruct (file_update U UO m content content' P NV QC H) as (lines' & E & F).
  unfold config_get. rewrite F. split; [|split].
  - intros name v I SP. rewrite select_get. destruct (get_set U UO m _ lines' name v P E I) as (k' & S & [->|(l & Il & Ml & Sl)] & G).
    + rewrite G by reflexivity. destruct (PyDictProof.seqb_spec name name); congruence.
    + assert (k' = name) as -> by (apply (SP l Il Ml k' S Sl)). rewrite G by reflexivity. destruct (PyDictProof.seqb_spec name name); congruence.
  - intros name k I S. rewrite select_get. eapply get_unset; eauto.
  - intros k N. rewrite !select_get. eapply get_other; eauto.
Qed.
Print Assumptions C24_file.

(** ** a case that meets the hypotheses *)
Definition example_file : text := str "# sample" ++ [10] ++ str "port = 5432  # the port" ++ [10] ++ str "#Port = 1" ++ [10] ++ str "name = 'it''s'".
Definition example_map : list (text * option text) := [(str "port", Some (str "6'7")); (str "name", None); (str "fsync", Some (str "off"))].
Example C24_example : proper_map ascii_unicode example_map /\
  config_update ascii_unicode example_map example_file =
    Ok (str "# sample" ++ [10] ++ str "port = '6''7'  # the port" ++ [10] ++ str "#Port = 1" ++ [10] ++ str "#name = 'it''s'" ++ [10] ++ str "fsync = 'off'").
Proof.
  split; [|vm_compute; reflexivity]. split.
  - repeat constructor; discriminate.
  - vm_compute. repeat constructor; cbn; intuition discriminate.
Qed.

(** ** where the property fails *)
(** an empty file: IndexError instead of the setting *)
Theorem C24_empty_file_refuted : forall U, unicode_ok U -> config_update U [(str "port", Some (str "1"))] [] = Err IndexError.
Proof.
  intros U UO. unfold config_update, alter_config. change (file_lines []) with (@nil text). cbn [find_candidates].
  unfold pkeys. cbn [dkeys map fst fold_left dset append_unfound dmem dget].
  replace (nth (index_key (str "port") [str "port"]) [str "port"] []) with (str "port") by reflexivity. reflexivity.
Qed.
Print Assumptions C24_empty_file_refuted.
(** deleting a setting raises TypeError and leaves the file *)
Theorem C24_delete_refuted : forall U k content content', config_del U k content = Ok content' -> False.
Proof. intros U k content content' H. unfold config_del in H. destruct (alter_config U [(k, None)] (file_lines content)); discriminate. Qed.
Print Assumptions C24_delete_refuted.
(** a name with a period (a custom setting) is written, but never found again: the value
    cannot be read, and every update adds a line *)
Theorem C24_custom_name_refuted : exists content content' content'',
  config_update ascii_unicode [(str "my.opt", Some (str "1"))] content = Ok content' /\
  config_get ascii_unicode (str "my.opt") content' = None /\
  config_update ascii_unicode [(str "my.opt", Some (str "2"))] content' = Ok content'' /\
  content'' = str "a = 1" ++ [10] ++ str "my.opt = '1'" ++ [10] ++ str "my.opt = '2'".
Proof.
  exists (str "a = 1"), (str "a = 1" ++ [10] ++ str "my.opt = '1'"), (str "a = 1" ++ [10] ++ str "my.opt = '1'" ++ [10] ++ str "my.opt = '2'").
  vm_compute. auto.
Qed.
(** another spelling of the name: the value is in the file, but not found under the given name *)
Theorem C24_spelling_refuted : exists content content',
  config_update ascii_unicode [(str "port", Some (str "2"))] content = Ok content' /\
  config_get ascii_unicode (str "port") content' = None /\ config_get ascii_unicode (str "Port") content' = Some (str "2").
Proof. exists (str "Port = 1"), (str "Port = '2'"). vm_compute. auto. Qed.
(** an unterminated quote swallows the end of its line: the next setting is lost *)
Theorem C24_open_quote_refuted : exists content content',
  config_update ascii_unicode [(str "a", Some (str "2"))] content = Ok content' /\
  config_get ascii_unicode (str "b") content = Some (str "5") /\ config_get ascii_unicode (str "b") content' = None.
Proof. exists (str "a = 'x" ++ [10] ++ str "b = 5"), (str "a = '2'b = 5"). vm_compute. auto. Qed.
(** the empty line list is rejected, but a proper map of removals only is accepted *)
Example C24_example_removal : alter_config ascii_unicode [(str "a", None)] [] = Ok [].
Proof. reflexivity. Qed.
