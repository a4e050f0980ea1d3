(** DoProps.v: C84. *)
From Verif Require Import Base BaseProof PBufferModel PBufferSpec Element3Model PyStr RegexModel StrModel StrSpec StrProof DoModel DoSpec DoProof.

(** do(language, source): exactly one Query message goes out, and the server reads
    it as a DO statement with exactly that source and that language, whatever quotes,
    semicolons, dollars or comments they contain; there is no other way to read it. *)
Theorem C84_do : forall enc dec language source w,
  (forall t d, enc t = Ok d -> dec d = Some t) ->
  (forall d, enc (do_sql language source) = Ok d -> ~ In 0 d) ->
  do_bytes enc language source = Ok w ->
  exists sql, server_gets dec w sql /\ is_do sql source language /\
    (forall sql', server_gets dec w sql' -> sql' = sql) /\
    (forall s l, is_do sql s l -> s = source /\ l = language).
Proof.
  intros enc dec l s w D N E. change (execute_bytes enc (do_sql l s) = Ok w) in E.
  destruct (execute_bytes_spec _ _ _ E) as (d & Q & _ & _).
  pose proof (execute_gets enc dec _ w d E Q (N _ Q) (D _ _ Q)) as G.
  exists (do_sql l s). split; [exact G|]. split; [apply is_do_sql|]. split.
  - intros q' G'. exact (server_gets_det _ _ _ _ G' G).
  - intros s' l' I. destruct (is_do_det _ _ _ _ _ I (is_do_sql l s)); auto.
Qed.
Print Assumptions C84_do.

(** execute(query): one Query message holding exactly the query; it goes out exactly
    when the text can be encoded and is below the protocol's length limit *)
Theorem C84_execute : forall enc dec query,
  (forall t d, enc t = Ok d -> dec d = Some t) ->
  (forall w, execute_bytes enc query = Ok w -> forall d, enc query = Ok d -> ~ In 0 d ->
     server_gets dec w query /\ forall q', server_gets dec w q' -> q' = query) /\
  ((exists w, execute_bytes enc query = Ok w) <-> (exists d, enc query = Ok d /\ len d + 5 < 2 ^ 32)) /\
  (forall e, enc query = Err e -> execute_messages enc query = Err e).
Proof.
  intros enc dec q D. split; [|split].
  - intros w E d Q N. pose proof (execute_gets enc dec q w d E Q N (D _ _ Q)) as G. split; [exact G|].
    intros q' G'. exact (server_gets_det _ _ _ _ G' G).
  - split.
    + intros [w E]. destruct (execute_bytes_spec _ _ _ E) as (d & Q & _ & L). eauto.
    + intros (d & Q & L). exact (execute_total _ _ _ Q L).
  - intros e E. unfold execute_messages. rewrite E. reflexivity.
Qed.
Print Assumptions C84_execute.

(** different code, or a different language, is a different statement *)
Theorem C84_injective : forall l s l' s', do_sql l s = do_sql l' s' -> l = l' /\ s = s'.
Proof.
  intros l s l' s' E. pose proof (is_do_sql l s) as A. pose proof (is_do_sql l' s') as B. rewrite E in A.
  destruct (is_do_det _ _ _ _ _ A B). auto.
Qed.
Print Assumptions C84_injective.

(** a NUL is not refused: it ends the string field of the message, so no statement
    can be read from what is sent (the text behind it is trailing garbage) *)
Theorem C84_nul_refuted : forall enc dec query d a b w, enc query = Ok d -> d = a ++ 0 :: b ->
  execute_bytes enc query = Ok w -> forall q, ~ server_gets dec w q.
Proof. intros enc dec q d a b w Q C E. exact (execute_cut enc dec q w d a b E Q C). Qed.
Print Assumptions C84_nul_refuted.

(** with standard_conforming_strings off, the code block can end early: here the
    source given to do() is one text, and the server runs another one in a language
    the caller did not name, and then a second statement *)
Theorem C84_nonstandard_strings_refuted :
  exists source, let sql := do_sql (str "plpgsql") source in
    is_do_bs sql (str "'") (str "sql") (str "; drop table t --' LANGUAGE ""plpgsql"";") /\
    source <> str "'".
Proof.
  exists ([92] ++ str "' LANGUAGE ""sql""; drop table t --"). split.
  - exists ([92; 39; 39] ++ str " LANGUAGE ""sql""; drop table t --' LANGUAGE ""plpgsql"";"),
      (str """sql""; drop table t --' LANGUAGE ""plpgsql"";").
    split; [vm_compute; reflexivity|]. split.
    + change (str "'") with [39]. apply (qbb_bs 39 39). apply qbb_end. intros r. vm_compute. discriminate.
    + exists (str "sql""; drop table t --' LANGUAGE ""plpgsql"";"). split; [reflexivity|].
      vm_compute. do 3 (apply qb_char; [discriminate|]). apply qb_end. discriminate.
  - vm_compute. discriminate.
Qed.
Print Assumptions C84_nonstandard_strings_refuted.

(** the hypotheses are met: ASCII as the session encoding *)
Definition ascii_enc (t : text) : res bytes := if forallb (fun c => (0 <=? c) && (c <? 128)) t then Ok t else Err ValueError.
Example C84_ex : exists w, do_bytes ascii_enc (str "pl""x") (str "begin; 'a' $$ -- end") = Ok w /\
  w = [81;0;0;0;50] ++ str "DO 'begin; ''a'' $$ -- end' LANGUAGE ""pl""""x"";" ++ [0].
Proof. eexists. split; vm_compute; reflexivity. Qed.
Example C84_ex_enc : forall t d, ascii_enc t = Ok d -> Some d = Some t.
Proof. intros t d. unfold ascii_enc. destruct (forallb _ t); [|discriminate]. congruence. Qed.
Example C84_ex_nul : exists d, ascii_enc (do_sql (str "l") [65; 0; 66]) = Ok d /\ d = str "DO 'A" ++ 0 :: str "B' LANGUAGE ""l"";".
Proof. eexists. split; vm_compute; reflexivity. Qed.
