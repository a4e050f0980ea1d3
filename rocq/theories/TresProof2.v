(** TresProof2.v: whatever was resolved before, a type is resolved to a pair that is good for it *)
From Verif Require Import PyStr PyDict PyDictProof BaseProof TypeIOModel TypeIOSpec TypeIOProof ArrayModel RowProof TresModel TresSpec TresProof.

Scheme is_type_mut := Minimality for is_type Sort Prop with columns_mut := Minimality for columns Sort Prop.

Section Resolve.
Context {B : Type}.
Notation pv := (pv B). Notation io := (io B).
Context (iter_other : pv -> res (list pv)) (chars_other : pv -> option (list pv)) (encode : pv -> res (list Z)) (decode : list Z -> res pv).
Context (builtins : Z -> option io) (known : Z -> option io) (cat : catalog) (BO : bases_ok cat).
Definition good (t : ty) (i : io) : Prop := TresProof.good encode decode t i /\ strict encode t i.
Notation is_type := (is_type builtins known cat). Notation columns := (columns builtins known cat).
Notation resolve := (resolve iter_other chars_other encode decode builtins cat).

Lemma zget_set k v (d : cache) j : zget j (zset k v d) = if j =? k then Some v else zget (B := B) j d.
Proof. reflexivity. Qed.
(** the base type *)
Lemma base_loop_end o b : domain_base cat o b -> b <> 0 /\ lookup_base cat b = Ok 0.
Proof. induction 1; auto. Qed.
Lemma base_loop_ok o b : domain_base cat o b -> forall fuel r, base_loop cat fuel o = Ok r -> r = b.
Proof.
  induction 1 as [o b N E NB E0|o o' b N E N' D IH]; intros [|fuel] r H; cbn [base_loop] in H; try discriminate; (destruct (Z.eqb_spec o 0); [contradiction|]); rewrite E in H; cbn [bind] in H.
  - destruct (Z.eqb_spec b 0); [contradiction|]. destruct fuel as [|fuel]; cbn [base_loop] in H; [discriminate|]. destruct (Z.eqb_spec b 0); [contradiction|]. rewrite E0 in H. cbn in H. now injection H.
  - destruct (Z.eqb_spec o' 0); [contradiction|]. now apply (IH fuel).
Qed.
Lemma base_ok fuel o b r : domain_base cat o b -> lookup_domain_basetype cat fuel o = Ok r -> r = b.
Proof.
  unfold lookup_domain_basetype. intros D H. destruct (since_84 cat); [|now apply (base_loop_ok o b D fuel)]. rewrite (BO _ _ D) in H. congruence.
Qed.
Lemma base_total o b : domain_base cat o b -> exists n, forall fuel, (n <= fuel)%nat -> lookup_domain_basetype cat fuel o = Ok b.
Proof.
  intros D. unfold lookup_domain_basetype. destruct (since_84 cat); [exists O; intros; now apply BO|].
  induction D as [o b N E NB E0|o o' b N E N' D IH].
  - exists 2%nat. intros [|[|fuel]] L; try lia. cbn [base_loop]. destruct (Z.eqb_spec o 0); [contradiction|]. rewrite E. cbn [bind]. destruct (Z.eqb_spec b 0); [contradiction|]. rewrite E0. reflexivity.
  - destruct IH as (n & IH). exists (S n). intros [|fuel] L; [lia|]. cbn [base_loop]. destruct (Z.eqb_spec o 0); [contradiction|]. rewrite E. cbn [bind]. destruct (Z.eqb_spec o' 0); [contradiction|]. apply IH. lia.
Qed.

Definition Inv (st : cache) : Prop :=
  (forall o i, known o = Some i -> zget o st = Some i) /\ (forall o i t, zget o st = Some i -> is_type o t -> good t i).
Lemma inv_set st o i : Inv st -> known o = None -> (forall t, is_type o t -> good t i) -> Inv (zset o i st).
Proof.
  intros [K G] N H. split.
  - intros o' i' KO. rewrite zget_set. destruct (Z.eqb_spec o' o) as [->|]; [congruence|auto].
  - intros o' i' t E T. rewrite zget_set in E. destruct (Z.eqb_spec o' o) as [->|]; [injection E as <-; auto|eauto].
Qed.
(** an atom is its pair *)
Lemma atom_good (i : io) : good (TAtom i) i.
Proof. split; [intros v v' b W; exact W|exact Logic.I]. Qed.
Lemma strio_good : good (TAtom strio) (strio (B := B)).
Proof. apply atom_good. Qed.
Lemma map_col_name atts cols : columns atts cols -> map col_name cols = map att_name atts /\ map col_oid cols = map att_type atts.
Proof. induction 1 as [|o n t atts cols T C [E1 E2]|o b n t atts cols D T C [E1 E2]]; split; cbn [map]; f_equal; assumption || reflexivity. Qed.

Section Step.
Context (anon : Z -> res io) (fuel : nat).
Context (IH : forall st o from st' r, Inv st -> resolve anon fuel st o from = (st', r) -> Inv st' /\ forall i t, r = Ok i -> is_type o t -> good t i).
Let f from n st (x : Z * text * bool) :=
  match (if att_domain x then lookup_domain_basetype cat n (att_type x) else Ok (att_type x)) with
  | Err e => (st, Err e)
  | Ok t => resolve anon fuel st t from
  end.
Lemma cols_sound from n : forall atts st st' r, Inv st -> mapS (f from n) st atts = (st', r) ->
  Inv st' /\ forall cio cols, r = Ok cio -> columns atts cols -> Forall2 (fun c i => good (col_type c) i) cols cio.
Proof.
  induction atts as [|[[o nm] d] atts IHA]; intros st st' r I H; cbn [mapS] in H.
  - injection H as <- <-. split; [exact I|]. intros cio cols [= <-] C. inversion C. constructor.
  - destruct (f from n st (o, nm, d)) as [st1 r1] eqn:F. unfold f, att_domain, att_type in F. cbn [fst snd] in F.
    assert (S1 : Inv st1 /\ forall i b t, r1 = Ok i -> (if d then domain_base cat o b else b = o) -> is_type b t -> good t i).
    { destruct d.
      - destruct (lookup_domain_basetype cat n o) as [b0|e] eqn:EB; [|injection F as <- <-; split; [exact I|discriminate]].
        destruct (IH _ _ _ _ _ I F) as [I1 G1]. split; [exact I1|]. intros i b t E D T. rewrite (base_ok _ _ _ _ D EB) in G1. eauto.
      - destruct (IH _ _ _ _ _ I F) as [I1 G1]. split; [exact I1|]. intros i b t E -> T. eauto. }
    destruct S1 as [I1 G1]. destruct r1 as [i|e]; [|injection H as <- <-; split; [exact I1|discriminate]].
    destruct (mapS (f from n) st1 atts) as [st2 r2] eqn:M. destruct (IHA _ _ _ I1 M) as [I2 G2].
    destruct r2 as [ys|e]; injection H as <- <-; (split; [exact I2|]); [|discriminate].
    intros cio cols [= <-] C. inversion C as [|o' n' t a c T CC|o' b n' t a c DB T CC]; subst; constructor; cbn [col_type snd]; eauto.
Qed.
End Step.

Ltac invert_type T := inversion T; subst; clear T; try congruence.
Lemma resolve_sound anon fuel : forall st o from st' r, Inv st -> resolve anon fuel st o from = (st', r) ->
  Inv st' /\ forall i t, r = Ok i -> is_type o t -> good t i.
Proof.
  induction fuel as [|fuel IH]; intros st o from st' r I H.
  { injection H as <- <-. split; [exact I|discriminate]. }
  cbn [TresModel.resolve] in H. destruct (existsb (Z.eqb o) from); [injection H as <- <-; split; [exact I|discriminate]|].
  destruct (zget o st) as [i0|] eqn:EZ.
  { injection H as <- <-. split; [exact I|]. intros i t [= <-] T. now apply (proj2 I o). }
  assert (K : known o = None). { destruct (known o) eqn:K; [|reflexivity]. apply (proj1 I) in K. congruence. }
  destruct (builtins o) as [i0|] eqn:EB.
  { injection H as <- <-. assert (G : forall t, is_type o t -> good t i0) by (intros t T; inversion T; subst; try congruence; replace i0 with i by congruence; apply atom_good).
    split; [now apply inv_set|]. intros i t [= <-]. apply G. }
  destruct (lookup_type cat o) as [[ti|]|e] eqn:EL; [|injection H as <- <-|injection H as <- <-; split; [exact I|discriminate]].
  2:{ split; [exact I|]. intros i t [= <-] T. inversion T; subst; try congruence. apply strio_good. }
  destruct (negb (t_relid ti =? 0)) eqn:ER.
  { apply negb_true_iff, Z.eqb_neq in ER. destruct (lookup_composite cat (t_relid ti)) as [atts|e] eqn:EC; [|injection H as <- <-; split; [exact I|discriminate]].
    match type of H with match ?m with _ => _ end = _ => destruct m as [st1 r1] eqn:M end.
    destruct (cols_sound anon fuel IH _ _ _ _ _ _ I M) as [I1 G1]. destruct r1 as [cio|e]; injection H as <- <-; [|split; [exact I1|discriminate]].
    assert (G : forall t, is_type o t -> good t (record_io_factory iter_other encode decode cio (map att_type atts) (attribute_map (map att_name atts)))).
    { intros t T. inversion T as [| | |o' ti' atts' cols K' B' L' R' C' ND' CC'| | | |]; subst; try congruence.
      assert (ti' = ti) by congruence. subst ti'. assert (atts' = atts) by congruence. subst atts'. destruct (map_col_name _ _ CC') as [EN EO]. rewrite <- EN, <- EO. pose proof (G1 cio cols eq_refl CC') as GG. split; [refine (row_good iter_other chars_other encode decode cols cio _ _); [rewrite EN; exact ND'|]|refine (row_strict iter_other chars_other encode decode cols cio _); now rewrite (Forall2_len _ _ _ GG)]. clear - GG. induction GG as [|c i cols cio [X _]]; constructor; assumption. }
    split; [now apply inv_set|]. intros i t [= <-]. apply G. }
  apply negb_false_iff, Z.eqb_eq in ER. destruct (t_ae ti) as [[bi bo]|] eqn:EA.
  { destruct (resolve anon fuel st (t_elem ti) (from ++ [o])) as [st1 r1] eqn:M. destruct (IH _ _ _ _ _ I M) as [I1 G1].
    destruct r1 as [te|e]; injection H as <- <-; [|split; [exact I1|discriminate]].
    assert (G : forall t, is_type o t -> good t (array_io_factory iter_other chars_other encode decode te (t_elem ti) bi bo)).
    { intros t T. inversion T as [| | | |o' ti' t' K' B' L' R' A' T'|o' ti' t' K' B' L' R' A' T'| |]; subst; try congruence; assert (ti' = ti) by congruence; subst ti'; rewrite EA in A'; injection A' as -> ->.
      - split; [|exact Logic.I]. refine (array_good iter_other chars_other encode decode (t_elem ti) t' te _). now apply (G1 te t').
      - apply strio_good. }
    split; [now apply inv_set|]. intros i t [= <-]. apply G. }
  destruct (t_type ti =? 100) eqn:ET.
  { apply Z.eqb_eq in ET. destruct (lookup_domain_basetype cat (S fuel) o) as [b|e] eqn:ED; [|injection H as <- <-; split; [exact I|discriminate]].
    destruct (resolve anon fuel st b (from ++ [o])) as [st1 r1] eqn:M. destruct (IH _ _ _ _ _ I M) as [I1 G1].
    destruct r1 as [te|e]; injection H as <- <-; [|split; [exact I1|discriminate]].
    assert (G : forall t, is_type o t -> good t te).
    { intros t T. inversion T as [| | | | | |o' ti' b' t' K' B' L' R' A' TT DB T'|]; subst; try congruence. apply (G1 te t eq_refl). now rewrite (base_ok _ _ _ _ DB ED). }
    split; [now apply inv_set|]. intros i t [= <-]. apply G. }
  apply Z.eqb_neq in ET. match type of H with (if ?c then _ else _) = _ => destruct c eqn:EN end; injection H as <- <-.
  - apply andb_prop in EN as [EN E3]. apply andb_prop in EN as [E1 E2]. apply Z.eqb_eq in E1. apply seqb_eq in E2. apply seqb_eq in E3.
    assert (G : forall t i, is_type o t -> good t i).
    { intros t i T. inversion T as [| | | | | | |o' ti' K' B' L' R' A' T' NA]; subst; try congruence. exfalso. apply NA. assert (ti' = ti) by congruence. subst. auto. }
    split; [apply inv_set; auto|]. intros i t [= <-]. apply G.
  - assert (G : forall t, is_type o t -> good t strio).
    { intros t T. inversion T; subst; try congruence. apply strio_good. }
    split; [apply inv_set; auto|]. intros i t [= <-]. apply G.
Qed.
Lemma resolves_inv anon fuel l : forall st, Inv st -> Inv (resolves iter_other chars_other encode decode builtins cat anon fuel st l).
Proof.
  induction l as [|o l IH]; intros st I; [exact I|]. cbn [resolves]. destruct (resolve anon fuel st o []) as [st' r] eqn:R. apply IH. now apply (resolve_sound anon fuel st o [] st' r).
Qed.
End Resolve.
