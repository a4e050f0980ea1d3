(** StmtProps.v: C81, a prepared statement describes itself, and says which value could not be converted *)
From Verif Require Import Base BaseProof PyStr PyInt PyDict Element3Model IterModel StmtModel StmtSpec StmtProof.
From Coq Require Import String.
Local Notation str s := (PyStr.str s%string).
Local Notation length := List.length.

Section C81.
Context {V T : Type}.
Notation typio := (@typio V T).
(** the description of a statement that gives rows: names and types of the columns as the server gave them, in order ... *)
Theorem C81_columns : forall (ti : typio) args d s, fini ti args (Some d) = Ok s ->
  pg_column_types s = Some (map atyp d) /\ column_types ti s = Some (map (fun a => ti_type ti (atyp a)) d) /\
  sql_column_types ti s = Some (map (fun a => ti_sql ti (atyp a)) d) /\
  exists n, column_names ti s = Ok (Some n) /\ Forall2 (fun a t => ti_decode ti (an a) = Ok t) d n /\
    (forall k, (In k n <-> exists i, dget k (s_attmap s) = Some i) /\
       forall i, dget k (s_attmap s) = Some i -> exists m, i = Z.of_nat m /\ nth_error n m = Some k /\ forall q, (m < q)%nat -> nth_error n q <> Some k).
Proof.
  intros ti args d s F. destruct (fini_input _ _ _ _ F) as (OUT & _). destruct (fini_output _ _ _ _ F) as (_ & _ & n & NM & AM).
  unfold sql_column_types, pg_column_types, column_types, column_names, decoded_names. rewrite OUT, NM. split; [reflexivity|]. split; [reflexivity|]. split; [rewrite map_map; reflexivity|].
  exists n. split; [reflexivity|]. split; [apply mapM_Forall2; exact NM|]. intros k. rewrite AM, dupdate_get. cbn [dget].
  assert (L : forall i, fold_left (fun o p => if seqb k (fst p) then Some (snd p) else o) (count_from 0 n) None = Some i -> exists m, i = Z.of_nat m /\ nth_error n m = Some k /\ forall q, (m < q)%nat -> nth_error n q <> Some k).
  { intros i H. destruct (last_position n k 0 None i H) as [(m & -> & N & Q)|[X _]]; [|discriminate X]. exists m. split; [lia|]. auto. }
  split; [|exact L]. split; [intros H; exact (last_some n k H 0 None)|]. intros (i & H). destruct (L i H) as (m & _ & N & _). eapply nth_error_In. exact N.
Qed.
(** ... of one that gives none, None *)
Theorem C81_no_columns : forall (ti : typio) args, exists s, fini ti args None = Ok s /\
  column_names ti s = Ok None /\ pg_column_types s = None /\ column_types ti s = None /\ sql_column_types ti s = None.
Proof. intros ti args. eexists. split; [reflexivity|]. auto. Qed.
Theorem C81_parameter_types : forall (ti : typio) args d s, fini ti args d = Ok s ->
  pg_parameter_types s = args /\ parameter_types ti s = map (ti_type ti) args /\ sql_parameter_types ti s = map (ti_sql ti) args.
Proof. intros ti args d s F. destruct (fini_input _ _ _ _ F) as (_ & I & _). unfold sql_parameter_types, parameter_types, pg_parameter_types. rewrite I. auto. Qed.
(** a column is asked for in the binary format exactly when there is a function to read it with *)
Theorem C81_formats : forall (ti : typio) args d s, fini ti args (Some d) = Ok s ->
  Forall2 (fun a f => f = FBinary <-> ti_unpack ti (atyp a) <> None) d (s_output_formats s).
Proof.
  intros ti args d s F. destruct (fini_output _ _ _ _ F) as (_ & -> & _). clear. induction d as [|a d IH]; constructor; [|exact IH]. destruct (ti_unpack ti (atyp a)); split; intros H; try reflexivity; try discriminate; exfalso; apply H; reflexivity.
Qed.

(** the parameters: each converted by the function of its type, None sent as NULL; or the error names the first that cannot be *)
Theorem C81_parameters : forall (ti : typio) args d s params, fini ti args d = Ok s ->
  (length params <> length args -> pq_parameters ti s params = Raised TypeError) /\
  (length params = length args ->
     (exists r, pq_parameters ti s params = Got r /\ Forall3 (sent ti) args params r) \/
     (exists i oid v e c, bad_parameter ti args params i oid v e /\ pq_parameters ti s params = Client c /\ parameter_error ti i oid v e c)).
Proof. exact parameters_spec. Qed.
(** the rows, as given by chunks() *)
Theorem C81_chunk : forall (ti : typio) args d s x, fini ti args (Some d) = Ok s -> Forall (fun row => length row = length d) x ->
  match chunk_of ti true s x with
  | Got r => Forall2 (row_ok ti d) x r
  | Client c => exists before row after i a v e, x = before ++ row :: after /\ Forall (fun y => exists r, row_ok ti d y r) before /\
      bad_column ti d row i a v e /\ column_error ti (str "failed to") i a v e c
  | Raised _ => False
  end.
Proof.
  intros ti args d s x F L. unfold chunk_of. pose proof (omapM_spec (fun y => process_tuple (row_procs s) y (fun e i => raise_column ti true true s e y i)) x) as M.
  assert (R : forall y, In y x -> (exists r, process_tuple (row_procs s) y (fun e i => raise_column ti true true s e y i) = Got r /\ row_ok ti d y r) \/
    (exists i a v e c, bad_column ti d y i a v e /\ process_tuple (row_procs s) y (fun e i => raise_column ti true true s e y i) = Client c /\ column_error ti (str "failed to") i a v e c)).
  { intros y I. rewrite Forall_forall in L. destruct (proj2 (row_spec ti args d s y (fun e i => raise_column ti true true s e y i) F) (L y I)) as [H|(i & a & v & e & B & E)]; [left; exact H|right].
    destruct B as (B1 & B2 & B3). destruct (proj1 (@raise_column_spec V T (list (option V)) ti args d s true true y i a v e F B1 B2) eq_refl) as (c & C1 & C2). exists i, a, v, e, c. split; [split; [exact B1|split; [exact B2|exact B3]]|]. split; [rewrite E; exact C1|exact C2]. }
  destruct (omapM _ x) as [r|c|e].
  - clear L. revert r M R. induction x as [|y x IH]; intros r M R; inversion M; subst; constructor; [|apply IH; [assumption|intros z Z0; apply R; right; exact Z0]].
    destruct (R y ltac:(left; reflexivity)) as [(r & E & O)|(i & a & v & e & c & _ & E & _)]; [|congruence]. assert (y0 = r) as -> by congruence. exact O.
  - destruct M as (l1 & y & l2 & r1 & -> & F1 & E). destruct (R y ltac:(apply in_or_app; right; left; reflexivity)) as [(r & E' & _)|(i & a & v & e & c' & B & E' & CE)]; [congruence|]. assert (c' = c) as -> by congruence.
    exists l1, y, l2, i, a, v, e. split; [reflexivity|]. split; [|split; [exact B|exact CE]]. apply Forall_forall. intros z Z0. destruct (R z ltac:(apply in_or_app; left; exact Z0)) as [(r & _ & O)|(i' & a' & v' & e' & c' & _ & E2 & _)]; [eauto|]. exfalso.
    clear - F1 Z0 E2. induction F1 as [|w r l1 r1 H F1 IH]; [contradiction|]. destruct Z0 as [->|Z0]; [congruence|exact (IH Z0)].
  - destruct M as (l1 & y & l2 & r1 & -> & F1 & E). destruct (R y ltac:(apply in_or_app; right; left; reflexivity)) as [(r & E' & _)|(i & a & v & e' & c' & B & E' & CE)]; congruence.
Qed.
(** rows() gives the same values, as rows with the attribute map *)
Theorem C81_rows : forall (ti : typio) has s x,
  match chunk_of ti has s x, chunk_of_rows ti has s x with
  | Got r, Got rows => map snd rows = r /\ Forall (fun row => fst row = s_attmap s) rows
  | Client c, Client c' => c = c'
  | Raised e, Raised e' => e = e'
  | _, _ => False
  end.
Proof.
  intros ti has s x. unfold chunk_of_rows. destruct (chunk_of ti has s x) as [r|c|e]; cbn [obind]; [|reflexivity|reflexivity]. rewrite map_map. split; [apply map_id|]. apply Forall_forall. intros row I. apply in_map_iff in I as (y & <- & _). reflexivity.
Qed.
(** first() has its own text, else the same *)
Theorem C81_first : forall (ti : typio) args d s row, fini ti args (Some d) = Ok s -> length row = length d ->
  let r := process_tuple (row_procs s) row (fun e i => raise_column ti false true s e row i) in
  (exists v, r = Got v /\ row_ok ti d row v) \/ (exists i a v e c, bad_column ti d row i a v e /\ r = Client c /\ column_error ti (str "could not") i a v e c).
Proof.
  intros ti args d s row F L. cbv zeta. destruct (proj2 (row_spec ti args d s row (fun e i => raise_column ti false true s e row i) F) L) as [H|(i & a & v & e & B & E)]; [left; exact H|right].
  destruct B as (B1 & B2 & B3). destruct (proj1 (@raise_column_spec V T (list (option V)) ti args d s false true row i a v e F B1 B2) eq_refl) as (c & C1 & C2). exists i, a, v, e, c. split; [split; [exact B1|split; [exact B2|exact B3]]|]. split; [rewrite E; exact C1|exact C2].
Qed.
(** column(): the first column of all rows ... *)
Theorem C81_column : forall (ti : typio) args a d s x vs, fini ti args (Some (a :: d)) = Ok s ->
  Forall2 (fun row v => exists y r, row = y :: r /\ unpacks ti (atyp a) y (Ok v)) x vs -> chunk_of_column s x = Got vs.
Proof.
  intros ti args a d s x vs F H. destruct (fini_output _ _ _ _ F) as (IO & _). unfold chunk_of_column. rewrite IO. cbn [map]. set (f := match ti_unpack ti (atyp a) with Some f => f | None => ti_decode_value ti end).
  assert (E1 : exists l, mapM (fun y => at_ y 0) x = Ok l /\ mapM f l = Ok vs).
  { clear - H. induction H as [|row v x vs (y & r & -> & U) H IH]; [exists []; auto|]. destruct IH as (l & E0 & E). exists (y :: l). split; [cbn [mapM]; rewrite E0; reflexivity|]. cbn [mapM]. apply unpacks_iff in U. fold f in U. rewrite U, E. reflexivity. }
  destruct E1 as (l & -> & E). cbn [lift obind]. rewrite E. reflexivity.
Qed.
(** ... refuted: "a value that cannot be converted is reported": next() of a range raises TypeError ... *)
Theorem C81_column_refuted : forall (ti : typio) args a d s before y r after e, fini ti args (Some (a :: d)) = Ok s ->
  Forall (fun row => row <> []) before -> Forall (fun row => row <> []) after ->
  unpacks ti (atyp a) y (Err e) -> chunk_of_column s (before ++ (y :: r) :: after) = Raised TypeError.
Proof.
  intros ti args a d s before y r after e F B1 B2 U. destruct (fini_output _ _ _ _ F) as (IO & _). unfold chunk_of_column. rewrite IO. cbn [map]. apply unpacks_iff in U. set (f := match ti_unpack ti (atyp a) with Some f => f | None => ti_decode_value ti end) in *.
  assert (N : forall l, Forall (fun row => row <> []) l -> exists k, mapM (fun y : list (option (list Z)) => at_ y 0) l = Ok k).
  { intros l H. induction H as [|[|z w] l Hz _ (k & E)]; [exists []; reflexivity|contradiction|]. exists (z :: k). cbn [mapM]. rewrite E. reflexivity. }
  assert (M : exists k1 k2, mapM (fun y : list (option (list Z)) => at_ y 0) (before ++ (y :: r) :: after) = Ok (k1 ++ y :: k2)).
  { destruct (N _ B2) as (k2 & E2). induction B1 as [|[|z w] l Hz B1 (k1 & k2' & E)]; [exists [], k2; cbn [app mapM]; rewrite E2; reflexivity|contradiction|]. exists (z :: k1), k2'. cbn [app mapM]. rewrite E. reflexivity. }
  destruct M as (k1 & k2 & ->). cbn [lift obind]. assert (exists e', mapM f (k1 ++ y :: k2) = Err e') as (e' & ->); [|reflexivity].
  clear - U. induction k1 as [|z k1 (e' & E)]; cbn [app mapM]; [rewrite U; eexists; reflexivity|]. destruct (f z); cbn [bind]; [rewrite E|]; eexists; reflexivity.
Qed.
(** ... and so does a NULL in the column, with every conversion that does not accept None *)
Theorem C81_column_null_refuted : forall (ti : typio) args a d s r e, fini ti args (Some (a :: d)) = Ok s -> unpacks ti (atyp a) None (Err e) ->
  chunk_of_column s [None :: r] = Raised TypeError /\ (forall x, length x = length d -> Forall (fun y => y = None) x -> exists v, chunk_of ti true s [None :: x] = Got [v]).
Proof.
  intros ti args a d s r e F U. split; [apply (C81_column_refuted ti args a d s [] None r [] e F); [constructor|constructor|exact U]|].
  intros x L N. pose proof (C81_chunk ti args (a :: d) s [None :: x] F) as C. specialize (C ltac:(repeat constructor; cbn; lia)). destruct (chunk_of ti true s [None :: x]) as [l|c|e'].
  - inversion C; subst. inversion H3; subst. eauto.
  - exfalso. destruct C as (b & row & af & i & a' & v & e' & E & _ & (_ & B2 & _) & _). destruct b as [|b0 b]; [|destruct b; discriminate E]. injection E as <- <-. destruct i as [|i]; [discriminate B2|]. cbn in B2. rewrite Forall_forall in N. apply nth_error_In in B2. discriminate (N _ B2).
  - contradiction.
Qed.
(** refuted for cursors made by cursor_from_id(): the report itself fails *)
Theorem C81_cursor_refuted : forall (ti : typio) args d s row i a v e, fini ti args (Some d) = Ok s -> length row = length d -> bad_column ti d row i a v e ->
  chunk_of ti false s [row] = Raised AttributeError.
Proof.
  intros ti args d s row i a v e F L B. unfold chunk_of. cbn [omapM]. destruct (proj2 (row_spec ti args d s row (fun e i => raise_column ti true false s e row i) F) L) as [(r & E & O)|(i' & a' & v' & e' & (B1 & B2 & _) & E)].
  - exfalso. destruct B as (B1 & B2 & B3 & _). clear - O B1 B2 B3. revert i B1 B2. induction O as [|a0 b c la lb lc H O IH]; intros i B1 B2; [destruct i; discriminate B1|]. destruct i as [|i]; [|exact (IH i B1 B2)]. injection B1 as ->. injection B2 as ->. cbn in H. destruct c as [c|]; [|exact H]. apply unpacks_iff in H. apply unpacks_iff in B3. congruence.
  - rewrite E. rewrite (proj2 (@raise_column_spec V T (list (option V)) ti args d s true false row i' a' v' e' F B1 B2) eq_refl). reflexivity.
Qed.
(** refuted: the format of a parameter is that of its conversion.  It always is binary, also when the value is encoded text *)
Theorem C81_input_format_refuted : forall (ti : typio) args d s, fini ti args d = Ok s -> Forall2 (fun _ f => f = FBinary) args (s_input_formats s).
Proof. intros ti args d s F. destruct (fini_input _ _ _ _ F) as (_ & _ & _ & ->). clear. induction args; constructor; auto. Qed.

(** calling a statement: the number of parameters is checked first, they are converted before anything is sent, and the rows of all
    chunks are given in order *)
Theorem C81_call : forall (ti : typio) args d s params execute, fini ti args d = Ok s ->
  (length params <> length args -> call ti s params execute = Raised TypeError) /\
  (length params = length args ->
   match pq_parameters ti s params with
   | Client c => call ti s params execute = Client c
   | Raised e => False
   | Got p =>
     match execute p with
     | Raised e => call ti s params execute = Raised e
     | Client c => call ti s params execute = Client c
     | Got a =>
       match d with
       | None => call ti s params execute = Got (match a_command a with Some (c, n) => CCommand c n | None => CCopy (List.concat (a_copied a)) end)
       | Some cols => forall rs, Forall2 (fun x r => Forall2 (row_ok ti cols) x r) (a_chunks a) rs ->
           call ti s params execute = Got (CRows (map (fun v => (s_attmap s, v)) (List.concat rs)))
       end
     end
   end).
Proof.
  intros ti args d s params execute F. destruct (fini_input _ _ _ _ F) as (OUT & IN & _). unfold call. rewrite IN. split; intros L.
  - replace (len params =? len args) with false; [reflexivity|]. symmetry. apply Z.eqb_neq. unfold len. lia.
  - replace (len params =? len args) with true; [|symmetry; apply Z.eqb_eq; unfold len; lia]. cbn [negb]. pose proof (proj2 (parameters_spec ti args d s params F) L) as P. destruct (pq_parameters ti s params) as [p|c|e]; cbn [obind]; [|reflexivity|destruct P as [(r & E & _)|(i & o & v & e' & c & _ & E & _)]; discriminate E].
    destruct (execute p) as [a|c|e]; cbn [obind]; [|reflexivity|reflexivity]. rewrite OUT. destruct d as [cols|]; [|destruct (a_command a) as [[c n]|]; reflexivity]. intros rs H.
    assert (E : omapM (chunk_of_rows ti true s) (a_chunks a) = Got (map (fun r => map (fun v => (s_attmap s, v)) r) rs)).
    { clear - H F. induction H as [|x r l rs H _ IH]; cbn [omapM map]; [reflexivity|]. rewrite IH. assert (C : chunk_of ti true s x = Got r).
      { clear - H F. unfold chunk_of. induction H as [|row v x r H _ IH]; cbn [omapM]; [reflexivity|]. rewrite IH. replace (process_tuple (row_procs s) row (fun e i => raise_column ti true true s e row i)) with (@Got (list (option V)) v); [reflexivity|].
        assert (LR : length row = length cols) by (clear - H; induction H; cbn; auto). destruct (proj2 (row_spec ti args cols s row (fun e i => raise_column ti true true s e row i) F) LR) as [(v' & -> & O)|(i & a & y & e & (B1 & B2 & B3 & _) & _)].
        - f_equal. clear - H O. revert v' O. induction H as [|a b c la lb lc P H IH]; intros v' O; inversion O; subst; [reflexivity|]. f_equal; [|apply IH; assumption]. unfold received in *. destruct b as [b|], c as [c|], c0 as [c0|]; try contradiction; [|reflexivity]. f_equal. apply unpacks_iff in P. match goal with U : unpacks _ _ _ (Ok c0) |- _ => apply unpacks_iff in U; congruence end.
        - exfalso. clear - H B1 B2 B3. revert i B1 B2. induction H as [|a0 b c la lb lc P H IH]; intros i B1 B2; [destruct i; discriminate B1|]. destruct i as [|i]; [|exact (IH i B1 B2)]. injection B1 as ->. injection B2 as ->. cbn in P. destruct c as [c|]; [|exact P]. apply unpacks_iff in P. apply unpacks_iff in B3. congruence. }
      unfold chunk_of_rows at 1. rewrite C. reflexivity. }
    rewrite E. cbn [obind]. rewrite concat_map. reflexivity.
Qed.
End C81.
Print Assumptions C81_columns. Print Assumptions C81_no_columns. Print Assumptions C81_parameter_types. Print Assumptions C81_formats. Print Assumptions C81_parameters. Print Assumptions C81_chunk. Print Assumptions C81_rows. Print Assumptions C81_first. Print Assumptions C81_column. Print Assumptions C81_column_refuted. Print Assumptions C81_column_null_refuted. Print Assumptions C81_cursor_refuted. Print Assumptions C81_input_format_refuted. Print Assumptions C81_call.

(** an example: integers in decimal as the binary format of type 23, type 16 unknown to the client *)
Definition ex_ti : @typio Z Z := {| ti_decode := fun b => Ok b; ti_decode_value := fun b => match b with Some b => Ok (len b) | None => Err TypeError end; ti_encode_value := fun v => Ok [v];
  ti_pack := fun o => if o =? 23 then Some (fun v => if v <? 0 then Err ValueError else Ok [v; v]) else None;
  ti_unpack := fun o => if o =? 23 then Some (fun d => match d with Some [x] => Ok x | Some _ => Err StructError | None => Err TypeError end) else None;
  ti_sql := fun o => if o =? 23 then Some (str "INTEGER") else None; ti_type := fun o => o; ti_repr := str_int; ti_repr_bytes := fun b => str "b''" |}.
Definition ex_cols : list attdesc := [{| an := str "a"; arel := 0; acol := 0; atyp := 23; alen := 4; amod := -1; afmt := 0 |}; {| an := str "b"; arel := 0; acol := 0; atyp := 16; alen := 4; amod := -1; afmt := 0 |}].
Example C81_ex : exists s, fini ex_ti [16; 23] (Some ex_cols) = Ok s /\ s_output_formats s = [FBinary; FString] /\ column_names ex_ti s = Ok (Some [str "a"; str "b"]) /\
  pq_parameters ex_ti s [Some 4; None] = Got [Some [4]; None] /\
  pq_parameters ex_ti s [Some 4; Some (-7)] = Client {| ce_code := str "--PIO"; ce_message := str "could not pack parameter $2::INTEGER for transfer"; ce_detail := str "-7";
    ce_hint := str "Try casting the parameter to 'text', then to the target type."; ce_position := str "1"; ce_cause := ValueError |} /\
  chunk_of ex_ti true s [[Some [5]; Some [1; 1]]; [None; None]] = Got [[Some 5; Some 2]; [None; None]] /\
  chunk_of ex_ti true s [[Some [5; 6]; Some [1; 1]]] = Client {| ce_code := str "--CIO"; ce_message := str "failed to unpack column 0, a::INTEGER, from wire data"; ce_detail := str "b''";
    ce_hint := str "Try casting the column to 'text'."; ce_position := str "0"; ce_cause := StructError |} /\
  chunk_of_column s [[Some [5]; None]; [Some [6]; None]] = Got [5; 6] /\ chunk_of_column s [[None; None]] = Raised TypeError.
Proof. eexists. split; [reflexivity|]. repeat split. Qed.
Example C81_ex_shown : shown (repeat 65 90) (repeat 65 75 ++ str " ...").
Proof. right. split; [reflexivity|]. exists (repeat 65 75), (repeat 65 15). repeat split. Qed.
