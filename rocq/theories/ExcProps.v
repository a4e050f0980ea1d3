(** ExcProps.v: C45, exception classes by SQLSTATE *)
From Verif Require Import PyStr PyStrProof BaseProof PyListProof PyDict PyDictProof ExcModel ExcTable ExcSpec ExcProof.

Local Opaque statements exported lookups Error Warning.
Definition okey (o : option text) (k : text) : bool := match o with Some x => seqb x k | None => false end.
Definition errors := fst lookups.
Definition warnings := snd lookups.
Lemma entries_ok : forall base cont, (base = Error /\ cont = errors) \/ (base = Warning /\ cont = warnings) ->
  forallb (fun p => existsb (eqc (snd p)) exported && issubclass statements (snd p) base && (okey (code_of (snd p)) (fst p) || okey (c_pg (snd p)) (fst p))) cont = true /\
  forallb (fun c => implb (issubclass statements c base) (match code_of c with Some k => dmem k cont | None => false end)) exported = true /\
  forallb (fun c => implb (issubclass statements c base) (match c_code c with Some k => match dget k cont with Some d => eqc d c | None => false end | None => true end)) exported = true /\
  forallb (fun c => implb (issubclass statements c base) (match c_pg c with Some k => match dget k cont with Some d => eqc d c | None => false end | None => true end)) exported = true /\
  existsb (eqc base) exported = true /\
  forallb (fun p => match dget (pyslice (fst p) 0 2 ++ str "000") cont with Some d => issubclass statements (snd p) d | None => true end) cont = true.
Proof. intros base cont [[-> ->]|[-> ->]]; vm_compute; auto 10. Qed.

Lemma eqc_in c d : In c statements -> In d statements -> eqc c d = true -> c = d.
Proof. intros A B E. apply ids_unique; auto. now apply Z.eqb_eq. Qed.
Lemma base_in base cont : (base = Error /\ cont = errors) \/ (base = Warning /\ cont = warnings) -> In base statements.
Proof. intros [[-> _]|[-> _]]; apply in_by; vm_compute; reflexivity. Qed.
Lemma entry base cont : (base = Error /\ cont = errors) \/ (base = Warning /\ cont = warnings) -> forall k c, dget k cont = Some c ->
  In c exported /\ subclass statements c base /\ (has_code statements c k \/ c_pg c = Some k).
Proof.
  intros B k c G. pose proof (base_in base cont B) as IB. destruct (entries_ok base cont B) as (H & _). apply dget_In in G. rewrite forallb_forall in H. specialize (H _ G). cbn [fst snd] in H.
  apply andb_prop in H as [H K]. apply andb_prop in H as [H S]. apply existsb_exists in H as (d & Id & E).
  assert (CS : In c statements).
  { assert (forall p, In p cont -> In (snd p) statements) as X; [|exact (X _ G)]. clear -B.
    assert (C : forallb (fun p => existsb (class_eqb (snd p)) statements) cont = true) by (destruct B as [[_ ->]|[_ ->]]; vm_compute; reflexivity).
    intros p Ip. rewrite forallb_forall in C. specialize (C p Ip). now apply in_by. }
  pose proof (exported_in d Id) as DS. apply eqc_in in E; auto. subst d. split; [exact Id|]. split; [now apply issubclass_spec|].
  apply orb_prop in K as [K|K].
  - left. apply code_of_spec; [exact CS|]. destruct (code_of c) as [x|]; [|discriminate]. cbn in K. destruct (seqb_spec x k); [congruence|discriminate].
  - right. destruct (c_pg c) as [x|]; [|discriminate]. cbn in K. destruct (seqb_spec x k); [congruence|discriminate].
Qed.
Lemma covered base cont : (base = Error /\ cont = errors) \/ (base = Warning /\ cont = warnings) -> forall k, dget k cont = None ->
  forall c, In c exported -> subclass statements c base -> ~ has_code statements c k.
Proof.
  intros B k G c I S HC. pose proof (base_in base cont B) as IB. destruct (entries_ok base cont B) as (_ & H & _). rewrite forallb_forall in H. specialize (H c I). cbn beta in H.
  pose proof (exported_in c I) as IS. apply issubclass_spec in S; auto. rewrite S in H. apply has_code_complete in HC; auto. rewrite HC in H. cbn [implb] in H. unfold dmem in H. rewrite G in H. discriminate.
Qed.
Lemma slice2 code : pyslice code 0 2 ++ str "000" = general code.
Proof. unfold general. f_equal. rewrite pyslice_firstn_skipn by lia. reflexivity. Qed.

(** What a lookup gives, for any string: a class for exactly this code if there is one, else the class of its first
    two characters, else the default. *)
Definition resolves (base : class) (lookup : text -> class) : Prop := forall code,
  subclass statements (lookup code) base /\ In (lookup code) exported /\
  ((has_code statements (lookup code) code \/ c_pg (lookup code) = Some code) \/
   (forall c, In c exported -> subclass statements c base -> ~ has_code statements c code) /\
   (has_code statements (lookup code) (general code) \/
    (forall c, In c exported -> subclass statements c base -> ~ has_code statements c (general code)) /\ lookup code = base)).
Lemma resolve base cont : (base = Error /\ cont = errors) \/ (base = Warning /\ cont = warnings) -> (forall k c, dget (general k) cont = Some c -> c_pg c = Some (general k) -> has_code statements c (general k)) ->
  resolves base (code_lookup base cont).
Proof.
  intros B PG code. pose proof (entry base cont B) as E. pose proof (covered base cont B) as C. unfold code_lookup. rewrite slice2. destruct (dget code cont) as [c|] eqn:G.
  - destruct (E _ _ G) as (X & S & K). auto.
  - destruct (dget (general code) cont) as [c|] eqn:G2.
    + destruct (E _ _ G2) as (X & S & K). split; [exact S|]. split; [exact X|]. right. split; [now apply C|]. left. destruct K as [K|K]; [exact K|]. now apply (PG code).
    + split; [constructor|]. split; [|right; split; [now apply C|right; split; [now apply C|reflexivity]]].
      destruct (entries_ok base cont B) as (_ & _ & _ & _ & H & _). apply existsb_exists in H as (d & Id & Q). apply eqc_in in Q; [subst d; exact Id|now apply (base_in base cont)|now apply exported_in].
Qed.
Lemma general_last k : exists a, general k = a ++ [48].
Proof. exists (firstn 2 k ++ [48; 48]). unfold general. rewrite <- app_assoc. reflexivity. Qed.
Lemma pg_not_general cont : cont = errors \/ cont = warnings -> forall k c, dget (general k) cont = Some c -> c_pg c = Some (general k) -> has_code statements c (general k).
Proof.
  intros B k c G P. exfalso. apply dget_In in G.
  assert (C : forallb (fun p => match c_pg (snd p) with Some x => negb (seqb (skipn (length x - 3) x) (str "000")) | None => true end) cont = true) by (destruct B as [->| ->]; vm_compute; reflexivity).
  rewrite forallb_forall in C. specialize (C _ G). cbn [snd] in C. rewrite P in C. unfold general in C. rewrite app_length in C. change (length (str "000")) with 3%nat in C.
  rewrite Nat.add_sub, skipn_app, skipn_all, Nat.sub_diag in C. discriminate.
Qed.
Theorem C45_error_lookup : resolves Error ErrorLookup.
Proof. apply resolve; [left; auto|apply pg_not_general; left; reflexivity]. Qed.
Print Assumptions C45_error_lookup.
Theorem C45_warning_lookup : resolves Warning WarningLookup.
Proof. apply resolve; [right; auto|apply pg_not_general; right; reflexivity]. Qed.
Print Assumptions C45_warning_lookup.

(** The code in the body of any exported error or warning class leads to that class, and so does its pg_code. *)
Theorem C45_own_code : forall c k, In c exported -> c_code c = Some k \/ c_pg c = Some k ->
  (subclass statements c Error -> ErrorLookup k = c) /\ (subclass statements c Warning -> WarningLookup k = c).
Proof.
  intros c k I K. pose proof (exported_in c I) as IS.
  assert (G : forall base cont, (base = Error /\ cont = errors) \/ (base = Warning /\ cont = warnings) -> subclass statements c base -> code_lookup base cont k = c).
  { intros base cont B S. pose proof (base_in base cont B) as IB. destruct (entries_ok base cont B) as (_ & _ & H & P & _). rewrite forallb_forall in H, P. specialize (H c I). specialize (P c I). cbn beta in H, P.
    apply issubclass_spec in S; auto. rewrite S in H, P. cbn [implb] in H, P.
    assert (D : exists d, dget k cont = Some d /\ eqc d c = true).
    { destruct K as [K|K]; rewrite K in *; [destruct (dget k cont) as [d|]; [eauto|discriminate]|]. destruct (dget k cont) as [d|]; [eauto|discriminate]. }
    destruct D as (d & D & E). unfold code_lookup. rewrite D. destruct (entry base cont B _ _ D) as (Xd & _). apply eqc_in in E; auto. now apply exported_in. }
  split; intros S; [apply (G Error errors)|apply (G Warning warnings)]; auto.
Qed.
Print Assumptions C45_own_code.
(** The class of the first two characters catches every code that begins with them. *)
Theorem C45_class_catches : forall code, (2 <= length code)%nat ->
  subclass statements (ErrorLookup code) (ErrorLookup (general code)) /\ subclass statements (WarningLookup code) (WarningLookup (general code)).
Proof.
  assert (G : forall base cont, (base = Error /\ cont = errors) \/ (base = Warning /\ cont = warnings) -> forall code, (2 <= length code)%nat ->
    subclass statements (code_lookup base cont code) (code_lookup base cont (general code))).
  { intros base cont B code L. pose proof (entry base cont B) as E. unfold code_lookup. rewrite !slice2.
    replace (general (general code)) with (general code).
    2:{ unfold general. f_equal. rewrite firstn_app, firstn_firstn, firstn_length. rewrite !Nat.min_l by lia. rewrite Nat.sub_diag. cbn [firstn]. now rewrite app_nil_r. }
    destruct (dget code cont) as [c|] eqn:D, (dget (general code) cont) as [d|] eqn:D2; try constructor.
    - destruct (E _ _ D) as (Ic & _). destruct (E _ _ D2) as (Id & _). apply issubclass_spec; [now apply exported_in|now apply exported_in|].
      destruct (entries_ok base cont B) as (_ & _ & _ & _ & _ & H). apply dget_In in D. rewrite forallb_forall in H. specialize (H _ D). cbn [fst snd] in H. rewrite slice2, D2 in H. exact H.
    - destruct (E _ _ D) as (_ & S & _). exact S. }
  intros code L. split; [apply (G Error errors)|apply (G Warning warnings)]; auto.
Qed.
Print Assumptions C45_class_catches.

(** For any list of classes, in any order: a class that has a code is found through it unless a more special
    class has taken it, and the most general class of a code is the one found (codes without pg_code variants). *)
Theorem C45_most_general : forall (tbl : list class) err warn (objs : list class) c k,
  (forall x y z, issubclass tbl x y = true -> issubclass tbl y z = true -> issubclass tbl x z = true) ->
  (forall o, In o objs -> attr tbl c_pg o = None) ->
  In c objs -> attr tbl c_code c = Some k -> issubclass tbl c err = true ->
  (forall o, In o objs -> attr tbl c_code o = Some k -> issubclass tbl o c = true) ->
  (forall o, In o objs -> issubclass tbl c o = true -> attr tbl c_code o = Some k -> o = c) ->
  code_lookup err (fst (map_errors_and_warnings tbl err warn objs)) k = c.
Proof.
  intros tbl err warn objs c k TR NP I K S MG UN. unfold code_lookup.
  assert (H : forall l d w, (forall o, In o l -> In o objs) -> In c l \/ dget k d = Some c -> (forall o, dget k d = Some o -> In o objs /\ attr tbl c_code o = Some k) ->
    dget k (fst (fold_left (map_one tbl err warn) l (d, w))) = Some c).
  { clear I. induction l as [|o l IH]; intros d w Hl HC HD; cbn [fold_left].
    - destruct HC as [[]|HC]. exact HC.
    - assert (Io : In o objs) by (apply Hl; now left). assert (Hl' : forall x, In x l -> In x objs) by (intros; apply Hl; now right).
      unfold map_one at 2. destruct (attr tbl c_code o) as [ko|] eqn:KO.
      2:{ apply IH; auto. destruct HC as [[->|HC]|HC]; auto. congruence. }
      destruct (issubclass tbl o err) eqn:SE.
      2:{ destruct (issubclass tbl o warn); apply IH; auto; (destruct HC as [[->|HC]|HC]; auto; congruence). }
      unfold put. rewrite (NP o Io). destruct (seqb_spec k ko) as [<-|NE].
      + destruct (dget k d) as [cur|] eqn:D.
        * destruct (HD cur eq_refl) as [ICUR KCUR]. destruct (issubclass tbl cur o) eqn:SC.
          -- apply IH; auto.
             ++ destruct HC as [[->|HC]|HC]; [right; apply dget_set_same|auto|]. injection HC as ->. right. rewrite dget_set_same. f_equal. now apply UN.
             ++ intros x Hx. rewrite dget_set_same in Hx. injection Hx as <-. auto.
          -- apply IH; auto.
             ++ destruct HC as [[->|HC]|HC]; [|auto|rewrite D; auto]. rewrite (MG cur ICUR KCUR) in SC. discriminate.
             ++ rewrite D. intros x Hx. injection Hx as <-. auto.
        * apply IH; auto.
          -- destruct HC as [[->|HC]|HC]; [right; apply dget_set_same|auto|discriminate].
          -- intros x Hx. rewrite dget_set_same in Hx. injection Hx as <-. auto.
      + assert (HC' : In c l \/ dget k d = Some c) by (destruct HC as [[->|HC]|HC]; auto; congruence).
        destruct (match dget ko d with None => true | Some cur => issubclass tbl cur o end); apply IH; auto; rewrite dget_set_other by exact NE; auto. }
  unfold map_errors_and_warnings. rewrite H; auto. intros o Ho. discriminate.
Qed.
Print Assumptions C45_most_general.

(** Two defects of the table.  The classes for program_limit_exceeded (54...) derive from the builtin OverflowError,
    not from Error, and are never found; and the class for 22019, replaced by a second statement of the same name, is not either. *)
Theorem C45_program_limit_refuted : exists c, In c statements /\ c_name c = str "PLEError" /\ c_code c = Some (str "54000") /\
  ErrorLookup (str "54000") = Error /\ ErrorLookup (str "54001") = Error /\ ErrorLookup (str "54011") = Error /\ ErrorLookup (str "54023") = Error.
Proof. exists (mk 347 (str "PLEError") [] (Some (str "54000")) None). split; [apply in_by; vm_compute; reflexivity|]. do 5 (split; [vm_compute; reflexivity|]). vm_compute; reflexivity. Qed.
Print Assumptions C45_program_limit_refuted.
Theorem C45_escape_character_refuted : exists c, In c statements /\ c_name c = str "EscapeCharacterError" /\ c_code c = Some (str "22019") /\
  ErrorLookup (str "22019") = class_named (str "DataError").
Proof. exists (mk 585 (str "EscapeCharacterError") [514] (Some (str "22019")) None). split; [apply in_by; vm_compute; reflexivity|]. do 2 (split; [vm_compute; reflexivity|]). vm_compute; reflexivity. Qed.
Print Assumptions C45_escape_character_refuted.

Example C45_ex : c_name (ErrorLookup (str "42P01")) = str "UndefinedTableError" /\ c_name (ErrorLookup (str "42XYZ")) = str "SEARVError" /\
  c_name (ErrorLookup (str "22020")) = str "LimitValueError" /\ c_name (ErrorLookup (str "ZZ999")) = str "Error" /\ c_name (WarningLookup (str "01P99")) = str "Warning".
Proof. vm_compute. auto 10. Qed.
