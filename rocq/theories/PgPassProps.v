(** PgPassProps.v: C21, the password file. *)
From Verif Require Import PyStr PyStrProof BaseProof PgPassModel PgPassSpec PgPassProof.

(** C21: the line written for any five fields, with blanks around it, is split into
    those fields, when neither end of the line is itself a blank of a field.  Missing:
    see [C21_blank_refuted]. *)
Theorem C21_line_partial : forall U e before after, unicode_ok U -> no_outer_blank U e ->
  Forall (fun c => u_space U c = true) before -> Forall (fun c => u_space U c = true) after ->
  pass_split U (before ++ line_of e ++ after) = Some [e_host e; e_port e; e_db e; e_user e; e_pass e].
Proof. intros. apply line_split; auto. Qed.
Print Assumptions C21_line_partial.

(** C21, refuted in full: a password that ends with a blank is read without it. *)
Theorem C21_blank_refuted :
  let e := {| e_host := str "h"; e_port := str "1"; e_db := str "d"; e_user := str "u"; e_pass := str "secret " |} in
  pass_split ascii_unicode (line_of e) = Some [str "h"; str "1"; str "d"; str "u"; str "secret"].
Proof. reflexivity. Qed.
Print Assumptions C21_blank_refuted.

(** C21: looking up in a file made of such lines gives the password of the first entry
    that matches, or none when there is none. *)
Theorem C21_lookup : forall U es lines user host port database, unicode_ok U ->
  Forall2 (fun e l => exists a b, l = a ++ line_of e ++ b /\
     Forall (fun c => u_space U c = true) a /\ Forall (fun c => u_space U c = true) b) es lines ->
  Forall (no_outer_blank U) es ->
  exists r, lookup_pgpass U (Some lines) user host port (Some database) = Ok r /\ first_match user host port database es r.
Proof.
  intros U es lines user host port db UO F NB. unfold lookup_pgpass. rewrite (parse_lines U es lines UO F NB). apply lookup_entries.
Qed.
Print Assumptions C21_lookup.

(** C21: without a database, the one named as the user is looked for; without the file
    there is no password. *)
Theorem C21_defaults : forall U file user host port,
  lookup_pgpass U file user host port None = lookup_pgpass U file user host port (Some user) /\
  (forall db, lookup_pgpass U None user host port db = Ok None).
Proof. intros. split; reflexivity. Qed.
Print Assumptions C21_defaults.

(** C21: the lookup never raises on any file, and a line that is not made of five
    fields contributes nothing. *)
Theorem C21_any_file : forall U lines user host port database,
  (exists r, lookup_pgpass U (Some lines) user host port database = Ok r) /\
  (forall a l b, lines = a ++ l :: b -> pass_split U l = None ->
     lookup_pgpass U (Some lines) user host port database = lookup_pgpass U (Some (a ++ b)) user host port database).
Proof.
  intros U lines user host port database.
  assert (L : forall x r, pass_split U x = Some r -> length r = 5%nat).
  { intros x r H. unfold pass_split in H. destruct (py_strip U x); [discriminate|].
    destruct (negb _) eqn:E in H; [discriminate|]. injection H as <-. unfold len in E. lia. }
  split.
  - unfold lookup_pgpass. set (db := match database with Some d => d | None => user end). clearbody db.
    induction lines as [|x lines (r & IH)]; [eexists; reflexivity|]. cbn [pass_parse].
    destruct (pass_split U x) as [f|] eqn:E; [|eauto]. apply L in E.
    destruct f as [|f1 [|f2 [|f3 [|f4 [|f5 [|]]]]]]; try discriminate.
    change (pyslice [f1; f2; f3; f4; f5] 0 4) with [f1; f2; f3; f4]. cbn [lookup_password].
    match goal with |- context [if ?b then _ else _] => destruct b end; eauto.
  - intros a l b -> N. unfold lookup_pgpass. f_equal. induction a as [|x a IH]; cbn [app pass_parse].
    + now rewrite N.
    + destruct (pass_split U x); now rewrite IH.
Qed.
Print Assumptions C21_any_file.

Example C21_ex : let e := {| e_host := str "a:b\"; e_port := str "*"; e_db := str ""; e_user := str ":"; e_pass := str "p\:w" |} in
  no_outer_blank ascii_unicode e /\ line_of e = str "a\:b\\:*::\::p\\\:w" /\
  lookup_pgpass ascii_unicode (Some [str "#comment"; line_of e ++ [10]]) (str ":") (str "a:b\") (str "5432") (Some []) = Ok (Some (str "p\:w")) /\
  lookup_pgpass ascii_unicode (Some [line_of e]) (str "x") (str "a:b\") (str "5432") (Some []) = Ok None.
Proof.
  cbv zeta. split; [|vm_compute; auto]. split.
  - intros c r H. vm_compute in H. injection H as <- <-. reflexivity.
  - intros c r H. change (e_pass _) with ((str "p\:") ++ [119]) in H. apply app_inj_tail in H as [_ <-]. reflexivity.
Qed.
