(** PercentProps.v: property C36 (DB-API parameters). *)
From Verif Require Import PyStr PyStrProof StrModel StrSpec StrProof StrProof3 PyInt PyDict PercentModel PercentSpec PercentProof3.

(** ** C36 *)
(** %s: the i-th %s of the statement becomes $i and is given the i-th parameter; any other number of parameters is refused *)
Theorem C36_positional : forall V U l (vs : list V), unicode_ok U -> stmt_ok U l -> names l = [] ->
  execute_query U (stmt_text l) (PSeq vs) = if len vs =? positions l then Ok (stmt_pos 1 l, vs) else Err TypeError.
Proof. intros. now apply execute_pos. Qed.
Print Assumptions C36_positional.
(** %(name)s: every occurrence of a name becomes one $n, and the n-th argument is the value of that name *)
Theorem C36_named : forall V U l (m : list (text * V)), unicode_ok U -> stmt_ok U l -> positions l = 0 -> names l <> [] -> NoDup (dkeys m) ->
  (forall k, In k (dkeys m) <-> In k (names l)) -> exists num args,
  execute_query U (stmt_text l) (PMap m) = Ok (stmt_key num l, args) /\ len args = len m /\
  (forall k, In k (names l) -> 1 <= num k <= len args /\ nth_error args (Z.to_nat (num k - 1)) = dget k m).
Proof. intros. now apply execute_key. Qed.
Print Assumptions C36_named.
(** the names given have to be exactly those used: a dictionary with one more is refused *)
Theorem C36_named_exact : forall V U l (m : list (text * V)) r, unicode_ok U -> stmt_ok U l -> positions l = 0 -> names l <> [] -> NoDup (dkeys m) ->
  execute_query U (stmt_text l) (PMap m) = Ok r -> forall k, In k (dkeys m) <-> In k (names l).
Proof. intros. now apply (execute_key_exact U l m r). Qed.
Print Assumptions C36_named_exact.
(** both styles in one statement are refused, whatever parameters are given *)
Theorem C36_mixed : forall V U l (p : params V), unicode_ok U -> stmt_ok U l -> positions l <> 0 -> names l <> [] ->
  execute_query U (stmt_text l) p = Err TypeError.
Proof. intros. unfold execute_query. rewrite convert_mixed by assumption. reflexivity. Qed.
Print Assumptions C36_mixed.
(** a statement without placeholder outside of its quotations is left alone (also when it has other per-cent signs) *)
Theorem C36_plain : forall U s, Forall (fun p => match p with PU t => no_placeholder t | PQ _ _ => True end) (str_split U s) ->
  str_unsplit (str_split U s) = Ok s -> forall V, execute_query U s (@PSeq V []) = Ok (s, []).
Proof. intros U s F E V. unfold execute_query. rewrite convert_plain by assumption. reflexivity. Qed.
Print Assumptions C36_plain.

(** ** examples *)
Definition ex_toks (s : text) : list tok := map TChar s.
Definition ex_named : list spart :=
  [SU (ex_toks (str "select "));
   SQ [39] (str "%s %(x)s %%");
   SU (ex_toks (str ", ") ++ [TKey (str "b")] ++ ex_toks (str " + ") ++ [TKey (str "a")] ++ ex_toks (str " ") ++ [TPct] ++ ex_toks (str " ") ++ [TKey (str "b")])].
Definition ex_pos : list spart :=
  [SU (ex_toks (str "select 4 ") ++ [TPct] ++ ex_toks (str " 2, ")); SQ [39] (str "%s"); SU (ex_toks (str ", ") ++ [TPos] ++ ex_toks (str " ") ++ [TPct] ++ ex_toks (str " ") ++ [TPos])].
Lemma plain_b t : forallb (fun c => negb ((c =? 39) || (c =? 34) || (c =? 36))) t = true -> plain t.
Proof. induction t as [|c t IH]; cbn [forallb plain]; auto. rewrite andb_true_iff. intros (H & Ht). split; [lia|]. split; [lia|]. split; [lia|auto]. Qed.
Lemma ex_stmt_ok u b v : plain (toks_text u) -> plain (toks_text v) -> (forall w, toks_text u <> w ++ [69]) -> doubled 39 b -> not_starting 39 (toks_text v) -> Forall tok_ok u -> Forall tok_ok v ->
  stmt_ok ascii_unicode [SU u; SQ [39] b; SU v].
Proof.
  intros A B C D E F G. split; [|repeat constructor; assumption]. cbn [stmt_parts map spart_part wf_parts]. split; [exact A|]. split; [intros _; exact C|].
  split; [left; split; [reflexivity|]; split; [exact D|]; unfold render; cbn [map render1 concat]; rewrite app_nil_r; exact E|]. split; [discriminate|]. split; [exact B|exact I].
Qed.
Ltac toks_ok := repeat first [apply Forall_nil | apply Forall_cons; [cbn; first [exact Logic.I | discriminate | split; intros X; repeat destruct X as [X|X]; discriminate || exact X]|]].
Lemma last_ne (t : text) : last t 0 <> 69 -> forall w, t <> w ++ [69].
Proof. intros H w ->. apply H. apply last_last. Qed.
Ltac no_e := apply last_ne; vm_compute; discriminate.
Example ex_named_ok : stmt_ok ascii_unicode ex_named /\ positions ex_named = 0 /\ names ex_named = [str "b"; str "a"; str "b"].
Proof.
  split; [|split; reflexivity]. apply ex_stmt_ok; [apply plain_b; reflexivity|apply plain_b; reflexivity|no_e| | |toks_ok|toks_ok].
  - cbn. repeat (apply d_char; [discriminate|]). apply d_nil.
  - intros r. cbn. discriminate.
Qed.
Example ex_pos_ok : stmt_ok ascii_unicode ex_pos /\ positions ex_pos = 2 /\ names ex_pos = [].
Proof.
  split; [|split; reflexivity]. apply ex_stmt_ok; [apply plain_b; reflexivity|apply plain_b; reflexivity|no_e| | |toks_ok|toks_ok].
  - cbn. repeat (apply d_char; [discriminate|]). apply d_nil.
  - intros r. cbn. discriminate.
Qed.
(** what these statements become *)
Example ex_named_text : stmt_text ex_named = str "select '%s %(x)s %%', %(b)s + %(a)s %% %(b)s".
Proof. reflexivity. Qed.
Example ex_named_run : execute_query ascii_unicode (stmt_text ex_named) (PMap [(str "a", 10); (str "b", 20)]) =
  Ok (str "select '%s %(x)s %%', $1 + $2 % $1", [20; 10]).
Proof. vm_compute. reflexivity. Qed.
(** ** where %% is not preserved: in an unquoted part without a placeholder it stays doubled,
    in another part of the same statement it is halved *)
Theorem C36_percent_escape_refuted :
  stmt_text ex_pos = str "select 4 %% 2, '%s', %s %% %s" /\
  execute_query ascii_unicode (stmt_text ex_pos) (PSeq [7; 8]) = Ok (str "select 4 %% 2, '%s', $1 % $2", [7; 8]).
Proof. split; [reflexivity|]. vm_compute. reflexivity. Qed.
Print Assumptions C36_percent_escape_refuted.
(** a digit right after %s makes another parameter of it, a dictionary with one more key is refused *)
Theorem C36_adjacent_digit_refuted : execute_query ascii_unicode (str "select %s0") (PSeq [7]) = Ok (str "select $10", [7]).
Proof. vm_compute. reflexivity. Qed.
Print Assumptions C36_adjacent_digit_refuted.
Theorem C36_extra_key_refuted : execute_query ascii_unicode (str "select %(a)s") (PMap [(str "a", 1); (str "unused", 2)]) = Err TypeError.
Proof. vm_compute. reflexivity. Qed.
Print Assumptions C36_extra_key_refuted.
Example ex_plain : execute_query ascii_unicode (str "select 5 % 2 where a like '%s'") (@PSeq Z []) = Ok (str "select 5 % 2 where a like '%s'", []).
Proof. vm_compute. reflexivity. Qed.
