(** TresProps.v: C55 (rows are converted column by column) and C56 (the resolution of types) *)
From Verif Require Import PyStr PyDict PyDictProof BaseProof TypeIOModel TypeIOSpec ArrayModel ArraySpec TresModel TresSpec TresProof TresProof2 TresProof3.

(** C55: every item but NULL is given to the processor of its column, and the results are in the same order *)
Theorem C55_converted : forall A B (procs : list (A -> res B)) tup h r, process_tuple procs tup h = Ok r <->
  length tup = length procs /\ length r = length procs /\
  forall i p x, nth_error procs i = Some p -> nth_error tup i = Some x ->
    match x with None => nth_error r i = Some None | Some x => exists y, p x = Ok y /\ nth_error r i = Some (Some y) end.
Proof.
  intros A B procs tup h r. unfold process_tuple. destruct (Nat.eqb_spec (length tup) (length procs)) as [L|L]; [|split; [discriminate|intros (L' & _); contradiction]].
  rewrite process_items_ok by exact L. split.
  - intros F. split; [exact L|]. split; [rewrite <- (Forall2_len _ _ _ F), combine_length; lia|]. intros i p x P X.
    revert r F i P X. clear h. revert procs L. induction tup as [|x0 tup IH]; intros [|p0 procs] L r F i P X; cbn [length] in L; try lia; [destruct i; discriminate|].
    cbn [combine] in F. inversion F as [|? y ? r' PY FR]; subst. destruct i as [|i].
    + cbn in P, X. injection P as ->. injection X as ->. cbn [fst snd] in PY. destruct x as [x|]; [destruct PY as (z & E & ->); exists z; auto|now rewrite PY].
    + apply (IH procs ltac:(lia) r' FR i P X).
  - intros (_ & LR & H). revert procs L r LR H. induction tup as [|x0 tup IH]; intros [|p0 procs] L r LR H; cbn [length] in *; try lia.
    + destruct r; [constructor|discriminate].
    + destruct r as [|y r]; [discriminate|]. cbn [combine length] in *. constructor.
      * cbn [fst snd]. specialize (H O p0 x0 eq_refl eq_refl). destruct x0 as [x|]; [destruct H as (z & E & [= ->]); exists z; auto|now injection H].
      * apply IH; [lia|lia|]. intros i p x P X. exact (H (S i) p x P X).
Qed.
Print Assumptions C55_converted.
(** otherwise the tuple is of the wrong length, or the first column that cannot be converted is the one reported *)
Theorem C55_failed : forall A B (procs : list (A -> res B)) tup h e, process_tuple procs tup h = Err e <->
  (length tup <> length procs /\ e = TypeError) \/
  (length tup = length procs /\ exists k p x c, nth_error procs k = Some p /\ nth_error tup k = Some (Some x) /\ p x = Err c /\ e = h k c /\
     forall j q y, (j < k)%nat -> nth_error procs j = Some q -> nth_error tup j = Some (Some y) -> exists z, q y = Ok z).
Proof.
  intros A B procs tup h e. unfold process_tuple. destruct (Nat.eqb_spec (length tup) (length procs)) as [L|L].
  - rewrite process_items_err by exact L. split; [intros H; right; split; [exact L|exact H]|intros [[C _]|[_ H]]; [contradiction|exact H]].
  - split; [intros [= <-]; now left|intros [[_ ->]|[C _]]; [reflexivity|contradiction]].
Qed.
Print Assumptions C55_failed.
(** a chunk of rows: each row *)
Theorem C55_chunk : forall A B (procs : list (A -> res B)) tups h rs, process_chunk procs tups h = Ok rs <-> Forall2 (fun t r => process_tuple procs t h = Ok r) tups rs.
Proof.
  intros A B procs tups h. unfold process_chunk. induction tups as [|t tups IH]; intros rs; cbn [mapM].
  - split; [intros [= <-]; constructor|intros H; inversion H; reflexivity].
  - split.
    + intros H. apply bind_Ok in H as (r & E & H). apply bind_Ok in H as (l & F & [= <-]). constructor; [exact E|]. now apply IH.
    + intros H. inversion H as [|? r ? l E F]; subst. rewrite E. cbn [bind]. apply IH in F. now rewrite F.
Qed.
Print Assumptions C55_chunk.
Example C55_ex : process_tuple [(fun x => Ok (x + 1)); (fun x => if x =? 0 then Err ValueError else Ok x); (fun x => Ok x)] [Some 1; None; Some 5] (fun i _ => OtherError (Z.of_nat i)) = Ok [Some 2; None; Some 5] /\
  process_tuple [(fun x => Ok (x + 1)); (fun x => if x =? 0 then Err ValueError else Ok x); (fun x => Err KeyError)] [Some 1; Some 0; Some 5] (fun i _ => OtherError (Z.of_nat i)) = Err (OtherError 1).
Proof. split; reflexivity. Qed.

(** C56 *)
Section C56.
Context {B : Type}.
Notation pv := (pv B). Notation io := (io B).
Context (iter_other : pv -> res (list pv)) (chars_other : pv -> option (list pv)) (encode : pv -> res (list Z)) (decode : list Z -> res pv) (builtins : Z -> option io).
Notation resolve := (resolve iter_other chars_other encode decode builtins).
Notation resolves := (resolves iter_other chars_other encode decode builtins).
Notation resolver := (resolver iter_other chars_other encode decode builtins).
Context (c : cache (B := B)) (cat : catalog).
Notation known := (fun o => zget o c).
(** whatever types were resolved before, a type's pair sends its values in the form the catalog tells, and reads them back *)
Theorem C56_round_trip : bases_ok cat -> forall anon fuel history o t st i, is_type builtins known cat o t ->
  resolve cat anon fuel (resolves cat anon fuel c history) o [] = (st, Ok i) ->
  forall v v' b, wire encode decode t v v' b -> pack_of encode i v = Ok b /\ unpack_of decode i b = Ok v'.
Proof.
  intros BO anon fuel history o t st i T R.
  pose proof (resolves_inv iter_other chars_other encode decode builtins known cat BO anon fuel history c (inv_init encode decode builtins c cat)) as I.
  destruct (resolve_sound iter_other chars_other encode decode builtins known cat BO _ _ _ _ _ _ _ I R) as [_ G]. apply (proj1 (G i t eq_refl T)).
Qed.
(** a composite value with too few or too many columns is refused *)
Theorem C56_columns : bases_ok cat -> forall anon fuel history o cols st i, is_type builtins known cat o (TRow cols) ->
  resolve cat anon fuel (resolves cat anon fuel c history) o [] = (st, Ok i) ->
  forall v vs, row_value (map col_name cols) v vs -> length vs <> length cols -> pack_of encode i v = Err TypeError.
Proof.
  intros BO anon fuel history o cols st i T R.
  pose proof (resolves_inv iter_other chars_other encode decode builtins known cat BO anon fuel history c (inv_init encode decode builtins c cat)) as I.
  destruct (resolve_sound iter_other chars_other encode decode builtins known cat BO _ _ _ _ _ _ _ I R) as [_ G]. apply (proj2 (G i _ eq_refl T)).
Qed.
(** every type of a catalog in which no type contains itself is resolved *)
Theorem C56_resolved : bases_ok cat -> acyclic builtins known cat -> forall o t, is_type builtins known cat o t ->
  exists N, forall anon fuel history, (N <= fuel)%nat -> exists st i, resolve cat anon fuel (resolves cat anon fuel c history) o [] = (st, Ok i).
Proof.
  intros BO AC o t T. destruct (types_resolved iter_other chars_other encode decode builtins c cat BO AC o t T) as (N & F). exists N. intros anon fuel history L. apply F; [exact L|].
  apply resolves_inv; [exact BO|apply inv_init].
Qed.
(** anonymous records are read with the types their data tells, to any depth *)
Lemma resolves_inva anon fuel l : forall st, InvA decode builtins c cat anon st -> InvA decode builtins c cat anon (resolves cat anon fuel st l).
Proof.
  induction l as [|o l IH]; intros st I; [exact I|]. cbn [TresModel.resolves]. apply IH. destruct (resolve cat anon fuel st o []) as [st' r] eqn:E. exact (proj1 (resolve_inva iter_other chars_other encode decode builtins c cat anon fuel _ _ _ _ _ I E)).
Qed.
Theorem C56_anonymous : bases_ok cat -> acyclic builtins known cat -> forall n o v b, received encode decode builtins known cat n o v b ->
  exists N, forall fuel depth history, (N <= fuel)%nat -> (n <= depth)%nat ->
    exists st i, resolve cat (resolver cat c fuel depth) fuel (resolves cat (resolver cat c fuel depth) fuel c history) o [] = (st, Ok i) /\ unpack_of decode i b = Ok v.
Proof.
  intros BO AC n o v b R. apply (received_reads iter_other chars_other encode decode builtins c cat BO AC) in R as (N & F). exists N. intros fuel depth history L LD. apply F; [exact L|exact LD| |].
  - apply resolves_inv; [exact BO|apply inv_init].
  - apply resolves_inva, inva_init.
Qed.
(** in a finite catalog, cyclic or not, the resolution ends *)
Theorem C56_terminates : forall types anon st o, finite_catalog cat types -> In o types -> snd (resolve cat anon (S (length types)) st o []) <> Err OutOfFuel.
Proof. intros types anon st o F I. apply (resolve_terminates iter_other chars_other encode decode builtins cat types F); [exact I|constructor|intros x []|cbn [length]; lia]. Qed.
(** a type once resolved is not looked up again: what the catalog says later does not matter *)
Theorem C56_once : forall cat' anon fuel st o i, zget o st = Some i -> resolve cat' anon (S fuel) st o [] = (st, Ok i).
Proof. intros cat' anon fuel st o i E. cbn [TresModel.resolve existsb]. now rewrite E. Qed.
End C56.
Print Assumptions C56_round_trip.
Print Assumptions C56_columns.
Print Assumptions C56_resolved.
Print Assumptions C56_anonymous.
Print Assumptions C56_terminates.
Print Assumptions C56_once.

(** a catalog: 1000: text, 23: integer (one byte here), 1001: domain over 1002, itself a domain over 23; 2000: composite (a 1001, b 2001);
    2001: array of 2002; 2002: composite (x 25, y 23); 2249: record *)
Definition mk (nm : text) (ty el rel : Z) (ae : option (bool * bool)) : typinfo := {| t_namespace := str "pg_catalog"; t_name := nm; t_type := ty; t_elem := el; t_relid := rel; t_ae := ae |}.
Definition ex_cat : catalog :=
  {| lookup_type o := Ok (if o =? 1001 then Some (mk (str "d1") 100 0 0 None) else if o =? 1002 then Some (mk (str "d2") 100 0 0 None)
       else if o =? 2000 then Some (mk (str "c1") 99 0 1 None) else if o =? 2001 then Some (mk (str "_c2") 98 2002 0 (Some (true, true)))
       else if o =? 2002 then Some (mk (str "c2") 99 0 2 None) else if o =? 2249 then Some (mk (str "record") 112 0 0 None) else None);
     lookup_composite r := Ok (if r =? 1 then [(1001, str "a", true); (2001, str "b", false)] else [(25, str "x", false); (23, str "y", false)]);
     lookup_base o := Ok (if o =? 1001 then 1002 else if o =? 1002 then 23 else 0);
     lookup_base_recursive o := Ok (if (o =? 1001) || (o =? 1002) then 23 else 0);
     since_84 := true |}.
Definition ex_encode (v : pv Z) : res (list Z) := match v with VBase b => Ok [b] | _ => Err TypeError end.
Definition ex_decode (b : list Z) : res (pv Z) := match b with [b] => Ok (VBase b) | _ => Err ValueError end.
Definition ex_int : io Z := {| io_pack := Some (fun v => match v with VBase b => if (0 <=? b) && (b <? 256) then Ok [0; 0; 0; b] else Err StructError | _ => Err StructError end);
  io_unpack := Some (fun b => match b with [_; _; _; x] => Ok (VBase x) | _ => Err StructError end) |}.
Definition ex_builtins (o : Z) : option (io Z) := if o =? 23 then Some ex_int else None.
Definition ex_known (o : Z) : option (io Z) := zget o cache0.
Definition ex_c2 : ty (B := Z) := TRow [(25, str "x", TAtom strio); (23, str "y", TAtom ex_int)].
Definition ex_c1 : ty := TRow [(1001, str "a", TAtom ex_int); (2001, str "b", TArr 2002 ex_c2)].
Lemma ex_domain : domain_base ex_cat 1001 23.
Proof. apply (DB_more ex_cat 1001 1002); [discriminate|reflexivity|discriminate|]. apply DB_end; [discriminate|reflexivity|discriminate|reflexivity]. Qed.
Example C56_ex_type : is_type ex_builtins ex_known ex_cat 2000 ex_c1 /\ bases_ok ex_cat.
Proof.
  split.
  - apply (T_row ex_builtins ex_known ex_cat 2000 (mk (str "c1") 99 0 1 None) [(1001, str "a", true); (2001, str "b", false)]); try reflexivity; [discriminate| |].
    { cbn. constructor; [intros [H|[]]; discriminate|]. constructor; [intros []|constructor]. }
    apply (C_domain _ _ _ 1001 23); [apply ex_domain|apply T_builtin; reflexivity|]. apply C_cons; [|constructor].
    apply (T_array ex_builtins ex_known ex_cat 2001 (mk (str "_c2") 98 2002 0 (Some (true, true)))); try reflexivity.
    apply (T_row ex_builtins ex_known ex_cat 2002 (mk (str "c2") 99 0 2 None) [(25, str "x", false); (23, str "y", false)]); try reflexivity; [discriminate| |].
    { cbn. constructor; [intros [H|[]]; discriminate|]. constructor; [intros []|constructor]. }
    apply C_cons; [apply T_known; reflexivity|]. apply C_cons; [apply T_builtin; reflexivity|constructor].
  - intros o b D. cbn [lookup_base_recursive ex_cat]. assert (E : (o = 1001 \/ o = 1002) /\ b = 23); [|destruct E as [[->| ->] ->]; reflexivity].
    induction D as [o b N E NB E0|o o' b N E N' D IH].
    + cbn [lookup_base ex_cat] in E, E0. destruct (Z.eqb_spec o 1001) as [->|]; [injection E as <-; discriminate|]. destruct (Z.eqb_spec o 1002) as [->|]; [injection E as <-; auto|injection E as <-; contradiction].
    + destruct IH as [IH ->]. cbn [lookup_base ex_cat] in E. destruct (Z.eqb_spec o 1001) as [->|]; [auto|]. destruct (Z.eqb_spec o 1002) as [->|]; [auto|injection E as <-; contradiction].
Qed.
Definition ex_value : pv Z := VDict [(str "b", VList [VTuple [VBase 65; VBase 7]; VNone; VTuple [VNone; VBase 8]]); (str "a", VBase 3)].
Definition ex_back : pv Z := VRow [(str "a", 0); (str "b", 1)] [VBase 3;
  VArr [VRow [(str "x", 0); (str "y", 1)] [VBase 65; VBase 7]; VNone; VRow [(str "x", 0); (str "y", 1)] [VNone; VBase 8]] [1] [3] [3]].
Lemma wf_rec_dec l : forallb (fun c : Z * option (list Z) => (0 <=? fst c) && (fst c <? 2 ^ 32) && match snd c with None => true | Some v => len v <? 2 ^ 31 end) l = true -> len l < 2 ^ 31 -> wf_record l.
Proof.
  intros H L. split; [exact L|]. apply Forall_forall. intros c I. rewrite forallb_forall in H. specialize (H _ I). apply andb_prop in H as [H H2]. apply andb_prop in H as [H0 H1].
  split; [lia|]. destruct (snd c); cbn [small]; [lia|exact Logic.I].
Qed.
(** a value of it, its NULLs, and what it comes back as *)
Example C56_ex_value : exists b, wire ex_encode ex_decode ex_c1 ex_value ex_back b.
Proof.
  eexists. cbn [wire ex_c1]. exists [VBase 3; VList [VTuple [VBase 65; VBase 7]; VNone; VTuple [VNone; VBase 8]]].
  eexists _, [Some [0; 0; 0; 3]; Some _]. split; [apply (RV_dict [str "a"; str "b"] [(str "b", VList [VTuple [VBase 65; VBase 7]; VNone; VTuple [VNone; VBase 8]]); (str "a", VBase 3)])|].
  split; [|split; [reflexivity|split; [|reflexivity]]].
  - split; [apply Value; [discriminate|split; reflexivity]|]. split; [|exact Logic.I]. apply Value; [discriminate|]. cbn [wire].
    exists [VTuple [VBase 65; VBase 7]; VNone; VTuple [VNone; VBase 8]], [1], [3].
    exists [VRow [(str "x", 0); (str "y", 1)] [VBase 65; VBase 7]; VNone; VRow [(str "x", 0); (str "y", 1)] [VNone; VBase 8]].
    exists [Some (record_wire [(25, Some [65]); (23, Some [0; 0; 0; 7])]); None; Some (record_wire [(25, None); (23, Some [0; 0; 0; 8])])].
    split; [apply (AV_nested [VTuple [VBase 65; VBase 7]; VNone; VTuple [VNone; VBase 8]] [3]); [repeat constructor; discriminate|split; [reflexivity|now left]|repeat (apply Forall_cons; [eexists; reflexivity|]); apply Forall_nil]|].
    split; [|split; [reflexivity|split; [|reflexivity]]].
    + apply each_cons; [|apply each_cons; [apply Null|apply each_cons; [|apply each_nil]]]; (apply Value; [discriminate|]); cbn [wire ex_c2].
      * exists [VBase 65; VBase 7], [VBase 65; VBase 7], [Some [65]; Some [0; 0; 0; 7]]. split; [apply RV_tuple|]. split; [|split; [reflexivity|split; [apply wf_rec_dec; reflexivity|reflexivity]]].
        split; [apply Value; [discriminate|split; reflexivity]|]. split; [apply Value; [discriminate|split; reflexivity]|exact Logic.I].
      * exists [VNone; VBase 8], [VNone; VBase 8], [None; Some [0; 0; 0; 8]]. split; [apply RV_tuple|]. split; [|split; [reflexivity|split; [apply wf_rec_dec; reflexivity|reflexivity]]].
        split; [apply Null|]. split; [apply Value; [discriminate|split; reflexivity]|exact Logic.I].
    + unfold wf_array, is_s32. split; [lia|]. split; [lia|]. split; [reflexivity|]. split; [repeat constructor; cbn; lia|]. repeat (apply Forall_cons; [first [exact Logic.I|reflexivity]|]). apply Forall_nil.
  - apply wf_rec_dec; reflexivity.
Qed.
(** the program on it; a type that contains itself is refused *)
Definition ex_loop : catalog :=
  {| lookup_type o := if o =? 3000 then Ok (Some (mk (str "loop") 98 3000 0 (Some (true, true)))) else lookup_type ex_cat o;
     lookup_composite := lookup_composite ex_cat; lookup_base := lookup_base ex_cat; lookup_base_recursive := lookup_base_recursive ex_cat; since_84 := true |}.
Definition ex_resolve cat st o := resolve (fun _ => Err TypeError) (fun _ => None) ex_encode ex_decode ex_builtins cat (fun _ => Err TypeError) 10 st o [].
Example C56_ex_run : match snd (ex_resolve ex_cat cache0 2000) with Ok i => (do b <- pack_of ex_encode i ex_value; unpack_of ex_decode i b) = Ok ex_back | Err _ => False end /\
  snd (ex_resolve ex_loop cache0 3000) = Err TypeError.
Proof. split; vm_compute; reflexivity. Qed.
Example C56_ex_finite : finite_catalog ex_loop [1001; 1002; 2000; 2001; 2002; 2249; 3000; 25; 23; 0].
Proof.
  split; [reflexivity|]. split; [intros o E; cbn in E; destruct (o =? 3000) in E; discriminate E|]. split; [intros o E; discriminate E|]. split; [intros o E; discriminate E|]. intros o ti I H.
  repeat (destruct I as [<-|I]; [cbn in H; first [discriminate H|injection H as <-]; cbn; (split; [intros atts x [= <-] X|split; [auto 20|intros b [= <-]; auto 20]]); repeat (destruct X as [<-|X]; [cbn; auto 20; try (intros b [= <-]; auto 20)|]); destruct X|]). destruct I.
Qed.
Example C56_ex_acyclic : acyclic ex_builtins ex_known ex_cat.
Proof.
  exists (fun o => if o =? 2000 then 3%nat else if o =? 2001 then 2%nat else if o =? 2002 then 1%nat else if (o =? 1001) || (o =? 1002) then 1%nat else 0%nat).
  intros o ti K BI L. cbn [lookup_type ex_cat] in L.
  assert (DB : forall o b, domain_base ex_cat o b -> b = 23).
  { intros o' b D. pose proof (proj2 C56_ex_type o' b D) as E. cbn [lookup_base_recursive ex_cat] in E. destruct ((o' =? 1001) || (o' =? 1002)); injection E as <-; [reflexivity|]. apply base_loop_end in D. destruct D as [D _]. now destruct D. }
  repeat match type of L with Ok (if ?c =? ?n then _ else _) = _ => let Q := fresh in destruct (Z.eqb_spec c n) as [Q|_]; [rewrite Q in *; clear o Q|] end; try discriminate L;
  apply Ok_inj in L; injection L as L; subst ti; cbn [t_relid t_ae t_type t_elem mk].
  6: split; [congruence|]; split; [congruence|discriminate].
  1,2: split; [congruence|]; split; [congruence|]; intros _ _ _ b D; rewrite (DB _ _ D); cbn; lia.
  - split; [|split; [discriminate|discriminate]]. intros _ atts x [= <-] [<-|[<-|[]]] b; cbn [att_domain att_type fst snd]; [intros D; rewrite (DB _ _ D); cbn; lia|intros ->; cbn; lia].
  - split; [congruence|]. split; [intros; cbn; lia|discriminate].
  - split; [|split; [discriminate|discriminate]]. intros _ atts x [= <-] [<-|[<-|[]]] b; cbn [att_domain att_type fst snd]; intros ->; cbn; lia.
Qed.
Example C56_ex_anonymous : received ex_encode ex_decode ex_builtins ex_known ex_cat 2 2249 (VTuple [VBase 5; VTuple [VNone; VBase 66]])
  (record_wire [(23, Some [0; 0; 0; 5]); (2249, Some (record_wire [(23, None); (25, Some [66])]))]).
Proof.
  assert (A : anonymous ex_builtins ex_known ex_cat 2249) by (split; [reflexivity|]; split; [reflexivity|]; exists (mk (str "record") 112 0 0 None); auto 10).
  apply R_anonymous; [exact A|apply wf_rec_dec; reflexivity|].
  apply RC_cons; [apply (R_typed _ _ _ _ _ _ _ (TAtom ex_int) (VBase 5)); [apply T_builtin; reflexivity|split; reflexivity]|].
  apply RC_cons; [|apply RC_nil]. apply R_anonymous; [exact A|apply wf_rec_dec; reflexivity|].
  apply (RC_null _ _ _ _ _ _ _ (TAtom ex_int)); [left; apply T_builtin; reflexivity|].
  apply RC_cons; [apply (R_typed _ _ _ _ _ _ _ (TAtom strio) (VBase 66)); [apply T_known; reflexivity|split; reflexivity]|apply RC_nil].
Qed.
(** the pairs are kept: after a column is added to a composite type that was used, its values can no longer be read on the connection *)
Definition ex_cat' : catalog :=
  {| lookup_type := lookup_type ex_cat; lookup_composite r := Ok (if r =? 1 then [(1001, str "a", true); (2001, str "b", false)] else [(25, str "x", false); (23, str "y", false); (23, str "z", false)]);
     lookup_base := lookup_base ex_cat; lookup_base_recursive := lookup_base_recursive ex_cat; since_84 := true |}.
Theorem C56_altered_refuted :
  let run cat st o := resolve (fun _ => Err TypeError) (fun _ => None) ex_encode ex_decode ex_builtins cat (fun _ => Err TypeError) 10 st o [] in
  let data := record_wire [(25, Some [65]); (23, Some [0; 0; 0; 7]); (23, Some [0; 0; 0; 9])] in
  (do i <- snd (run ex_cat' cache0 2002); unpack_of ex_decode i data) = Ok (VRow [(str "x", 0); (str "y", 1); (str "z", 2)] [VBase 65; VBase 7; VBase 9]) /\
  (do i <- snd (run ex_cat' (fst (run ex_cat cache0 2002)) 2002); unpack_of ex_decode i data) = Err TypeError.
Proof. split; vm_compute; reflexivity. Qed.
Print Assumptions C56_altered_refuted.
(** identify() has no effect on the composites resolved before *)
Theorem C56_identify_refuted :
  let run st o := resolve (fun _ => Err TypeError) (fun _ => None) ex_encode ex_decode (fun _ => None) ex_cat (fun _ => Err TypeError) 10 st o [] in
  let value := VTuple [VBase 65; VBase 7] in
  (do i <- snd (run (identify cache0 [(23, ex_int)]) 2002); pack_of ex_encode i value) = Ok (record_wire [(25, Some [65]); (23, Some [0; 0; 0; 7])]) /\
  (do i <- snd (run (identify (fst (run cache0 2002)) [(23, ex_int)]) 2002); pack_of ex_encode i value) = Ok (record_wire [(25, Some [65]); (23, Some [7])]).
Proof. split; vm_compute; reflexivity. Qed.
Print Assumptions C56_identify_refuted.
