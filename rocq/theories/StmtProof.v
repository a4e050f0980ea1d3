(** StmtProof.v: lemmas for C81 *)
From Verif Require Import Base BaseProof PyStr PyInt PyDict PyDictProof Element3Model IterModel IterSpec IterProof StmtModel StmtSpec.
From Coq Require Import String.
Local Notation str s := (PyStr.str s%string).
Local Notation length := List.length.

Lemma shorten_shown t : shown t (shorten t).
Proof.
  unfold shorten, shown. destruct (Z.ltb_spec 80 (len t)) as [L|L]; [right|left; auto]. split; [exact L|]. exists (firstn 75 t), (skipn 75 t).
  split; [symmetry; apply firstn_skipn|]. split; [|reflexivity]. unfold len in *. rewrite firstn_length_le; [reflexivity|lia].
Qed.
Lemma nth_app_exact {A} (l : list A) : nth_error l (length l) = None. Proof. apply nth_error_None. lia. Qed.
Section P.
Context {V T : Type}.
Notation typio := (@typio V T).
Lemma or_unknown_name (ti : typio) oid : type_name ti oid (or_unknown (ti_sql ti oid)).
Proof. unfold type_name, or_unknown, unknown. destruct (ti_sql ti oid) as [[|c t]|]; [right; auto|left; split; [reflexivity|discriminate]|right; auto]. Qed.
Lemma at_nth {A} (l : list A) i x : nth_error l i = Some x -> at_ l (Z.of_nat i) = Ok x.
Proof. intros H. unfold at_. rewrite Nat2Z.id, H. reflexivity. Qed.
(** the fields of a statement *)
Lemma fini_input ti args d s : fini ti args d = Ok s ->
  s_output s = d /\ s_input s = args /\ s_input_io s = map (fun x => match @ti_pack V T ti x with Some p => p | None => ti_encode_value ti end) args /\
  s_input_formats s = map (fun _ => FBinary) args.
Proof.
  unfold fini. destruct d as [d|]; intros H; [|apply Ok_inj in H as <-; auto]. apply bind_Ok in H as (m & E & H). apply Ok_inj in H as <-. auto.
Qed.
Lemma fini_output ti args d s : fini ti args (Some d) = Ok s ->
  s_output_io s = map (fun a => match @ti_unpack V T ti (atyp a) with Some f => f | None => ti_decode_value ti end) d /\
  s_output_formats s = map (fun a => match ti_unpack ti (atyp a) with Some _ => FBinary | None => FString end) d /\
  exists n, mapM (fun a => ti_decode ti (an a)) d = Ok n /\ s_attmap s = dupdate [] (count_from 0 n).
Proof.
  unfold fini. intros H. apply bind_Ok in H as (m & E & H). apply Ok_inj in H as <-. cbn. rewrite !map_map. split; [reflexivity|]. split; [apply map_ext; intros a; destruct (ti_unpack ti (atyp a)); reflexivity|].
  unfold attribute_map, decoded_names in E. apply bind_Ok in E as (n & E & H). apply Ok_inj in H as <-. eauto.
Qed.
Lemma packs_iff (ti : typio) oid v r : packs ti oid v r <-> match ti_pack ti oid with Some p => p | None => ti_encode_value ti end v = r.
Proof.
  unfold packs. destruct (ti_pack ti oid) as [p|]; split; [intros [(q & Q & E)|[N _]]; [congruence|discriminate]|eauto|intros [(q & Q & _)|[_ E]]; [discriminate|exact E]|auto].
Qed.
Lemma unpacks_iff (ti : typio) oid v r : unpacks ti oid v r <-> match ti_unpack ti oid with Some p => p | None => ti_decode_value ti end v = r.
Proof.
  unfold unpacks. destruct (ti_unpack ti oid) as [p|]; split; [intros [(q & Q & E)|[N _]]; [congruence|discriminate]|eauto|intros [(q & Q & _)|[_ E]]; [discriminate|exact E]|auto].
Qed.
Lemma loop_three {A B C} (f : A -> (B -> res C)) (l : list A) (tup : list (option B)) (r : list (option C)) :
  Forall2 (fun p xy => column_ok p (fst xy) (snd xy)) (map f l) (combine tup r) -> length (map f l) = length tup -> length r = length tup ->
  Forall3 (fun a x y => column_ok (f a) x y) l tup r.
Proof.
  revert tup r. induction l as [|a l IH]; intros [|x tup] [|y r] H L1 L2; cbn in *; try discriminate; [constructor|]. inversion H; subst. constructor; [assumption|]. apply IH; [assumption|lia|lia].
Qed.
Lemma F3_mono {A B C} (P Q : A -> B -> C -> Prop) l m n : (forall a b c, P a b c -> Q a b c) -> Forall3 P l m n -> Forall3 Q l m n.
Proof. intros I H. induction H; constructor; auto. Qed.
Lemma parameters_spec (ti : typio) args d s params : fini ti args d = Ok s ->
  (length params <> length args -> pq_parameters ti s params = Raised TypeError) /\
  (length params = length args ->
     (exists r, pq_parameters ti s params = Got r /\ Forall3 (sent ti) args params r) \/
     (exists i oid v e c, bad_parameter ti args params i oid v e /\ pq_parameters ti s params = Client c /\ parameter_error ti i oid v e c)).
Proof.
  intros F. destruct (fini_input _ _ _ _ F) as (_ & IN & IO & _). unfold pq_parameters, process_tuple. rewrite IO. split; intros L.
  - replace (len params =? len (map _ args)) with false; [reflexivity|]. symmetry. apply Z.eqb_neq. unfold len. rewrite map_length. lia.
  - replace (len params =? len (map _ args)) with true; [|symmetry; apply Z.eqb_eq; unfold len; rewrite map_length; lia]. cbn [negb].
    set (f := fun x => match ti_pack ti x with Some p => p | None => ti_encode_value ti end). pose proof (process_loop_spec (map f args) params 0 ltac:(rewrite map_length; lia)) as P. destruct (process_loop 0 (map f args) params) as [r|[j e]].
    + left. exists r. split; [reflexivity|]. destruct P as [P1 P2]. eapply F3_mono; [|apply (loop_three f args params r P1); [rewrite map_length; lia|exact P2]]. intros a [x|] [y|] H; cbn in *; try contradiction; [apply packs_iff; exact H|exact Logic.I].
    + right. destruct P as (k & -> & (p & v & H1 & H2 & H3) & H4). rewrite nth_error_map in H1. destruct (nth_error args k) as [oid|] eqn:O; [|discriminate H1]. injection H1 as <-. exists k, oid, v, e. unfold raise_parameter, pg_parameter_types. rewrite IN, Z.add_0_l, (at_nth _ _ _ O), (at_nth _ _ _ H2). cbn [lift obind].
      eexists. split; [|split; [reflexivity|]].
      * split; [exact O|]. split; [exact H2|]. split; [apply packs_iff; exact H3|]. intros j o w J N1 N2. destruct (H4 j (f o) w J) as (b & B); [rewrite nth_error_map, N1; reflexivity|exact N2|]. exists b. apply packs_iff. exact B.
      * split; [reflexivity|]. split; [reflexivity|]. split; [reflexivity|]. split; [apply shorten_shown|]. eexists. split; [apply or_unknown_name|reflexivity].
Qed.
Lemma names_nth (ti : typio) d n i a : mapM (fun a => ti_decode ti (an a)) d = Ok n -> nth_error d i = Some a -> exists t, nth_error n i = Some t /\ ti_decode ti (an a) = Ok t.
Proof.
  revert n i. induction d as [|b d IH]; intros n i E N; [destruct i; discriminate N|]. cbn [mapM] in E. apply bind_Ok in E as (t & Et & E). apply bind_Ok in E as (r & Er & E). apply Ok_inj in E as <-. destruct i as [|i]; [injection N as ->; exists t; auto|]. exact (IH r i Er N).
Qed.
Lemma row_spec (ti : typio) args d s row h : fini ti args (Some d) = Ok s ->
  (length row <> length d -> process_tuple (row_procs s) row h = Raised TypeError) /\
  (length row = length d ->
     (exists r, process_tuple (row_procs s) row h = Got r /\ row_ok ti d row r) \/
     (exists i a x e, bad_column ti d row i a x e /\ process_tuple (row_procs s) row h = h e (Z.of_nat i))).
Proof.
  intros F. destruct (fini_output _ _ _ _ F) as (IO & _ & _). unfold row_procs, process_tuple. rewrite IO, map_map. set (f := fun (a : attdesc) (x : list Z) => match ti_unpack ti (atyp a) with Some f => f | None => ti_decode_value ti end (Some x)). split; intros L.
  - replace (len row =? len (map _ d)) with false; [reflexivity|]. symmetry. apply Z.eqb_neq. unfold len. rewrite map_length. lia.
  - replace (len row =? len (map _ d)) with true; [|symmetry; apply Z.eqb_eq; unfold len; rewrite map_length; lia]. cbn [negb]. change (map _ d) with (map f d).
    pose proof (process_loop_spec (map f d) row 0 ltac:(rewrite map_length; lia)) as P. destruct (process_loop 0 (map f d) row) as [r|[j e]].
    + left. exists r. split; [reflexivity|]. destruct P as [P1 P2]. eapply F3_mono; [|apply (loop_three f d row r P1); [rewrite map_length; lia|exact P2]]. intros a [x|] [y|] H; cbn in *; try contradiction; [apply unpacks_iff; exact H|exact Logic.I].
    + right. destruct P as (k & -> & (p & v & H1 & H2 & H3) & H4). rewrite nth_error_map in H1. destruct (nth_error d k) as [a|] eqn:O; [|discriminate H1]. injection H1 as <-. exists k, a, v, e. split; [|rewrite Z.add_0_l; reflexivity].
      split; [exact O|]. split; [exact H2|]. split; [apply unpacks_iff; exact H3|]. intros j o w J N1 N2. destruct (H4 j (f o) w J) as (b & B); [rewrite nth_error_map, N1; reflexivity|exact N2|]. exists b. apply unpacks_iff. exact B.
Qed.
Lemma raise_column_spec {A} (ti : typio) args d s output has row i a x e : fini ti args (Some d) = Ok s -> nth_error d i = Some a -> nth_error row i = Some (Some x) ->
  (output && negb has = false -> exists c, @raise_column V T A ti output has s e row (Z.of_nat i) = Client c /\ column_error ti (str (if output then "failed to" else "could not")) i a x e c) /\
  (output && negb has = true -> @raise_column V T A ti output has s e row (Z.of_nat i) = Raised AttributeError).
Proof.
  intros F N R. destruct (fini_input _ _ _ _ F) as (OUT & _). destruct (fini_output _ _ _ _ F) as (_ & _ & n & NM & _). destruct (names_nth ti d n i a NM N) as (t & NT & DT).
  unfold raise_column. rewrite (at_nth _ _ _ R). cbn [lift obind]. unfold column_names, pg_column_types, decoded_names. rewrite OUT, NM. cbn [bind lift obind]. rewrite (at_nth _ _ _ NT). cbn [lift obind]. rewrite (at_nth (map atyp d) i (atyp a)) by (rewrite nth_error_map, N; reflexivity). cbn [lift obind].
  destruct (output && negb has); split; intros H; try discriminate H; [reflexivity|]. eexists. split; [reflexivity|]. split; [reflexivity|]. split; [reflexivity|]. split; [reflexivity|]. split; [apply shorten_shown|]. exists t. eexists. split; [exact DT|]. split; [apply or_unknown_name|]. reflexivity.
Qed.
Lemma omapM_spec {A B} (f : A -> out B) l : match omapM f l with
  | Got r => Forall2 (fun x y => f x = Got y) l r
  | Client e => exists l1 x l2 r1, l = l1 ++ x :: l2 /\ Forall2 (fun x y => f x = Got y) l1 r1 /\ f x = Client e
  | Raised e => exists l1 x l2 r1, l = l1 ++ x :: l2 /\ Forall2 (fun x y => f x = Got y) l1 r1 /\ f x = Raised e end.
Proof.
  induction l as [|x l IH]; cbn [omapM]; [constructor|]. destruct (f x) as [y|e|e] eqn:E; cbn [obind].
  - destruct (omapM f l) as [r|e|e]; cbn [obind]; [constructor; assumption| |]; destruct IH as (l1 & z & l2 & r1 & -> & F & Z0); exists (x :: l1), z, l2, (y :: r1); (split; [reflexivity|]; split; [constructor; assumption|exact Z0]).
  - exists [], x, l, []. split; [reflexivity|]. split; [constructor|exact E].
  - exists [], x, l, []. split; [reflexivity|]. split; [constructor|exact E].
Qed.
End P.
(** dict() of the names and positions: the last position of each *)
Lemma dupdate_get n k j : forall (acc : list (text * Z)), dget k (dupdate acc (count_from j n)) =
  fold_left (fun o p => if seqb k (fst p) then Some (snd p) else o) (count_from j n) (dget k acc).
Proof.
  unfold dupdate. revert j. induction n as [|a n IH]; intros j acc; [reflexivity|]. cbn [count_from fold_left fst snd]. rewrite IH. f_equal.
  apply dget_set.
Qed.
Lemma last_position n k : forall j o i, fold_left (fun o p => if seqb k (fst p) then Some (snd p) else o) (count_from j n) o = Some i ->
  (exists m, i = j + Z.of_nat m /\ nth_error n m = Some k /\ forall q, (m < q)%nat -> nth_error n q <> Some k) \/ (o = Some i /\ ~ In k n).
Proof.
  induction n as [|a n IH]; intros j o i H; cbn [count_from fold_left fst snd] in H; [right; auto|]. apply IH in H as [(m & -> & N & L)|[E NI]].
  - left. exists (S m). split; [lia|]. split; [exact N|]. intros [|q] Q; [lia|]. apply L. lia.
  - destruct (seqb_spec k a) as [->|NE].
    + injection E as <-. left. exists 0%nat. split; [lia|]. split; [reflexivity|]. intros [|q] Q; [lia|]. cbn. intros X. apply NI. eapply nth_error_In. exact X.
    + right. split; [exact E|]. intros [X|X]; [congruence|contradiction].
Qed.
Lemma last_some n k : In k n -> forall j o, exists i, fold_left (fun o p => if seqb k (fst p) then Some (snd p) else o) (count_from j n) o = Some i.
Proof.
  induction n as [|a n IH]; [intros []|]. intros H j o. cbn [count_from fold_left fst snd]. destruct (in_dec (list_eq_dec Z.eq_dec) k n) as [I|I]; [exact (IH I _ _)|]. destruct H as [->|H]; [|contradiction].
  destruct (seqb_spec k k) as [_|N]; [|contradiction]. destruct (fold_left (fun o p => if seqb k (fst p) then Some (snd p) else o) (count_from (j + 1) n) (Some j)) as [i|] eqn:E; [eauto|]. exfalso. clear IH.
  revert E. generalize (j + 1). generalize j. induction n as [|b n IH2]; intros j0 z; cbn [count_from fold_left fst snd]; [discriminate|]. destruct (seqb k b); apply IH2; intros X; apply I; right; exact X.
Qed.
