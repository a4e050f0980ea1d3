(** ProcProps.v: C78, stored procedures *)
From Verif Require Import Base BaseProof PyStr PyStrProof PyDict PyInt PyIntProof StrModel StrSpec StrProof LoadModel LoadSpec ProcModel ProcSpec.
From Coq Require Import String.
Local Notation str s := (PyStr.str s%string).
Local Notation length := List.length.

Lemma zget_in {V} k (v : V) l : zget k l = Some v -> In (k, v) l.
Proof. induction l as [|[j w] l IH]; cbn [zget]; [discriminate|]. destruct (Z.eqb_spec k j) as [->|]; [intros E; injection E as <-; left; reflexivity|right; auto]. Qed.
Lemma zget_none {V} k (l : list (Z * V)) : zget k l = None -> forall v, ~ In (k, v) l.
Proof. induction l as [|[j w] l IH]; cbn [zget]; [intros _ v []|]. destruct (Z.eqb_spec k j) as [->|N]; [discriminate|]. intros H v [E|I]; [injection E as -> _; contradiction|]. eapply IH; eauto. Qed.
Lemma sql_upper oid s : In (oid, s) oid_to_sql_name -> s <> [] /\ Forall (fun c => 65 <= c <= 90 \/ c = 32) s.
Proof.
  intros H. assert (B : forallb (fun p => negb (match snd p with [] => true | _ => false end) && forallb (fun c => ((65 <=? c) && (c <=? 90)) || (c =? 32)) (snd p)) oid_to_sql_name = true) by (vm_compute; reflexivity).
  rewrite forallb_forall in B. specialize (B _ H). cbn [snd] in B. apply andb_prop in B as [B1 B2]. split; [intros ->; discriminate B1|].
  apply Forall_forall. rewrite forallb_forall in B2. intros c C. specialize (B2 _ C). lia.
Qed.
Lemma name_plain oid s : In (oid, s) oid_to_name -> plain_ident s = true /\ map ascii_lower s = s.
Proof.
  intros H. assert (B : forallb (fun p => plain_ident (snd p) && seqb (map ascii_lower (snd p)) (snd p)) oid_to_name = true) by (vm_compute; reflexivity).
  rewrite forallb_forall in B. specialize (B _ H). cbn [snd] in B. apply andb_prop in B as [B1 B2]. apply seqb_eq in B2. auto.
Qed.
Section C78.
Context (typinfo : Z -> option (text * text)).
Lemma type_read oid t rest : sql_type_from_oid typinfo oid = Some t -> ends_type rest -> exists ty, type_named typinfo oid ty /\ reads_type (t ++ rest) ty rest.
Proof.
  intros H E. unfold sql_type_from_oid in H. destruct (zget oid oid_to_sql_name) as [s|] eqn:S1.
  - injection H as ->. apply zget_in in S1. exists (Sql t). split; [constructor; exact S1|]. destruct (sql_upper _ _ S1). constructor; assumption.
  - destruct (typinfo oid) as [[a b]|] eqn:T.
    + assert (ET : t = quote_ident a ++ [46] ++ quote_ident b) by congruence. clear H. subst t. exists (Qualified a b). split; [apply tn_found; [apply zget_none, S1|exact T]|].
      replace ((quote_ident a ++ [46] ++ quote_ident b) ++ rest) with (quote_ident a ++ 46 :: (quote_ident b ++ rest)) by (rewrite <- app_assoc; reflexivity).
      eapply rt_quoted; [| |exact E].
      * apply quote_ident_lexed. discriminate.
      * apply quote_ident_lexed. intros r C. destruct E as (x & [E|E]); rewrite E in C; discriminate C.
    + destruct (zget oid oid_to_name) as [[|c n]|] eqn:S2; try discriminate H. assert (ET : t = str "pg_catalog." ++ c :: n) by congruence. clear H. subst t. apply zget_in in S2.
      exists (Qualified (str "pg_catalog") (c :: n)). split; [apply tn_known; [apply zget_none, S1|exact T|exact S2]|]. destruct (name_plain _ _ S2) as [P1 P2].
      change ((str "pg_catalog." ++ c :: n) ++ rest) with (str "pg_catalog" ++ [46] ++ (c :: n) ++ rest). apply rt_plain; auto.
Qed.
Lemma args_read oids : forall x rest, 0 <= x -> (forall o, In o oids -> sql_type_from_oid typinfo o <> None) ->
  exists tys, Forall2 (type_named typinfo) oids tys /\ reads_args (py_join (str ", ") (arguments typinfo x oids) ++ 41 :: rest) (numbered (x + 1) tys) rest.
Proof.
  induction oids as [|o oids IH]; intros x rest X K; [exists []; split; constructor|].
  destruct (sql_type_from_oid typinfo o) as [t|] eqn:T; [|exfalso; apply (K o); [left; reflexivity|exact T]].
  destruct (IH (x + 1) rest ltac:(lia) ltac:(intros q Q; apply K; right; exact Q)) as (tys & F & R). cbn [arguments]. unfold argument. rewrite T.
  assert (D : all_digits (str_nat (x + 1)) /\ digits_value (str_nat (x + 1)) = x + 1) by (split; [apply str_nat_digits|apply str_nat_value]; lia). destruct D as [D DV].
  destruct oids as [|o' oids'].
  - inversion F; subst. destruct (type_read o t (41 :: rest) T ltac:(exists rest; auto)) as (ty & N & RT). exists [ty]. split; [constructor; [exact N|constructor]|].
    cbn [arguments py_join numbered]. replace [(x + 1, ty)] with [(digits_value (str_nat (x + 1)), ty)] by (rewrite DV; reflexivity).
    replace ((str "$" ++ str_nat (x + 1) ++ str "::" ++ t) ++ 41 :: rest) with (36 :: str_nat (x + 1) ++ 58 :: 58 :: (t ++ 41 :: rest)).
    2:{ change (str "$") with [36]. change (str "::") with [58; 58]. cbn [app]. f_equal. rewrite <- app_assoc. reflexivity. }
    constructor; assumption.
  - destruct (type_read o t (44 :: 32 :: py_join (str ", ") (arguments typinfo (x + 1) (o' :: oids')) ++ 41 :: rest) T ltac:(eexists; left; reflexivity)) as (ty & N & RT).
    exists (ty :: tys). split; [constructor; assumption|]. rewrite py_join_cons by discriminate. cbn [numbered]. replace ((x + 1, ty) :: numbered (x + 1 + 1) tys) with ((digits_value (str_nat (x + 1)), ty) :: numbered (x + 1 + 1) tys) by (rewrite DV; reflexivity).
    match goal with |- reads_args ?g _ _ => replace g with (36 :: str_nat (x + 1) ++ 58 :: 58 :: (t ++ 44 :: 32 :: py_join (str ", ") (arguments typinfo (x + 1) (o' :: oids')) ++ 41 :: rest)) end.
    2:{ change (str "$") with [36]. change (str "::") with [58; 58]. change (str ", ") with [44; 32]. cbn [app]. f_equal. rewrite <- !app_assoc. reflexivity. }
    eapply ra_more; [exact D|exact RT| |exact R]. inversion F; subst. discriminate.
Qed.
(** The statement that is prepared calls the function found, with one parameter for every argument, in their order and each cast to
    the type of that argument, whatever the names of the types are. *)
Theorem C78_statement lookup ident description p : new_proc typinfo lookup ident description = Ok p ->
  exists t, lookup ident = Ok (Some t) /\
  ((forall o, In o (pt_argtypes t) -> sql_type_from_oid typinfo o <> None) ->
   exists tys, Forall2 (type_named typinfo) (pt_argtypes t) tys /\
     reads_call (p_string p) (pt_proid t) (numbered 1 tys) (match description with [] => [] | _ => str "(" ++ py_join (str ",") description ++ str ")" end)).
Proof.
  intros H. unfold new_proc in H. apply bind_Ok in H as ([t|] & L & H); [|discriminate H]. apply Ok_inj in H. subst p. exists t. split; [exact L|]. intros K.
  cbn [p_string]. unfold call_text, reads_call. set (desc := match description with [] => [] | _ => _ end).
  destruct (args_read (pt_argtypes t) 0 (str " AS func" ++ desc) ltac:(lia) K) as (tys & F & R). exists tys. split; [exact F|]. eexists. split; [|exact R].
  change (str ") AS func") with (41 :: str " AS func"). change (str "(") with [40]. reflexivity.
Qed.
(** an unknown function raises LookupError *)
Theorem C78_no_such lookup ident description : lookup ident = Ok None -> new_proc typinfo lookup ident description = Err (OtherError 40).
Proof. intros H. unfold new_proc. rewrite H. reflexivity. Qed.

Context {A V : Type} (stmt_call : list A -> res (list (list V))) (stmt_rows : list A -> res (src (list V))).
Lemma map_firsts (s : src (list V)) : firsts s (map_get0 s).
Proof. induction s as [|e|r s IH]; cbn [map_get0 firsts]; [exact Logic.I|reflexivity|]. destruct r as [|v r]; cbn [firsts]; [reflexivity|auto]. Qed.
(** What a call gives: the row, or the only value, of a function that returns one; the rows, or their first values, as they come, of a
    function that returns a set. *)
Theorem C78_call lookup ident description p args : new_proc typinfo lookup ident description = Ok p -> exists t, lookup ident = Ok (Some t) /\
  match pt_retset t, pt_composite t with
  | false, true => forall r l, stmt_call args = Ok (r :: l) -> call p stmt_call stmt_rows args [] = Ok (ORow r)
  | false, false => forall v r l, stmt_call args = Ok ((v :: r) :: l) -> call p stmt_call stmt_rows args [] = Ok (OValue v)
  | true, true => forall s, stmt_rows args = Ok s -> call p stmt_call stmt_rows args [] = Ok (ORows s)
  | true, false => forall s, stmt_rows args = Ok s -> exists t, call p stmt_call stmt_rows args [] = Ok (OValues t) /\ firsts s t
  end.
Proof.
  intros H. unfold new_proc in H. apply bind_Ok in H as ([t|] & L & H); [|discriminate H]. apply Ok_inj in H. subst p. exists t. split; [exact L|].
  unfold call. cbn [p_srf p_composite]. destruct (pt_retset t), (pt_composite t).
  - intros s ->. reflexivity.
  - intros s ->. eexists. split; [reflexivity|apply map_firsts].
  - intros r l ->. reflexivity.
  - intros v r l ->. reflexivity.
Qed.
(** An error of the statement is the error of the call. *)
Theorem C78_error p args e : (if p_srf p then stmt_rows args = Err e else stmt_call args = Err e) -> call p stmt_call stmt_rows args [] = Err e.
Proof. unfold call. destruct (p_srf p); intros ->; reflexivity. Qed.
(** Arguments cannot be given by keyword, though the interface promises it (api.py, StoredProcedure.__call__): any keyword raises
    AttributeError or NameError, and nothing is executed. *)
Theorem C78_keywords_refuted p args kw : kw <> [] -> exists e, call p stmt_call stmt_rows args kw = Err e /\ (e = AttributeError \/ e = OtherError 41).
Proof. destruct kw as [|k kw]; [contradiction|]. intros _. unfold call. destruct (forallb _ _); eauto. Qed.
End C78.
(** An argument of type character(n) is cast to CHARACTER: the server cuts it to one character. *)
Theorem C78_character_refuted typinfo lookup ident t : lookup ident = Ok (Some t) -> pt_argtypes t = [1042] ->
  exists p, new_proc typinfo lookup ident [] = Ok p /\ exists ty, reads_call (p_string p) (pt_proid t) [(1, ty)] [] /\ cut_to ty = Some 1.
Proof.
  intros L A. unfold new_proc. rewrite L. cbn [bind]. eexists. split; [reflexivity|]. exists (Sql (str "CHARACTER")). split; [|reflexivity].
  cbn [p_string]. rewrite A. eexists. split; [unfold call_text; change (str "(") with [40]; reflexivity|].
  destruct (args_read typinfo [1042] 0 (str " AS func") ltac:(lia) ltac:(intros o [<-|[]]; discriminate)) as (tys & F & R).
  inversion F as [|? ty ? tl N F']; subst. inversion F'; subst. inversion N as [? s I E1 E2|? a b C _ E1 E2|? s C _ _ E1 E2]; subst.
  - assert (s = str "CHARACTER") by (cbn [oid_to_sql_name In] in I; repeat (destruct I as [I|I]; [apply pair_equal_spec in I as [I1 I2]; first [discriminate I1|symmetry; exact I2]|]); destruct I). subst s. exact R.
  - exfalso. apply (C (str "CHARACTER")). left. reflexivity.
  - exfalso. apply (C (str "CHARACTER")). left. reflexivity.
Qed.
Print Assumptions C78_statement. Print Assumptions C78_no_such. Print Assumptions C78_call. Print Assumptions C78_error. Print Assumptions C78_keywords_refuted. Print Assumptions C78_character_refuted.

Example C78_ex : option_map (fun p => p_string p)
   (match new_proc (fun o => if o =? 99999 then Some (str "my ""schema", str "t), x(") else None)
      (fun _ => Ok (Some {| pt_oid := 1; pt_name := str "f"; pt_argnames := None; pt_argtypes := [23; 99999; 25]; pt_proid := str "f"; pt_retset := false; pt_composite := false |}))
      (ByName (str "f(integer)")) [] with Ok p => Some p | _ => None end) = Some (str "SELECT * FROM f($1::INTEGER, $2::""my """"schema"".""t), x("", $3::pg_catalog.text) AS func").
Proof. vm_compute. reflexivity. Qed.
Example C78_ex_call : call {| p_oid := 1; p_name := []; p_attmap := []; p_string := []; p_srf := true; p_composite := false |}
   (fun _ : list Z => Err TypeError) (fun a => Ok (SCons [1; 2] (SCons [3] SNil))) [5] [] = Ok (OValues (SCons 1 (SCons 3 SNil))).
Proof. reflexivity. Qed.
