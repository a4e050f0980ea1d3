From Verif Require Import Base BaseProof IterModel IterSpec.
From Coq Require Import Arith.

Lemma chunk_loop_ok {A} n : (0 < n)%nat -> forall fuel (l : list A), (length l < fuel)%nat ->
  exists cs last, chunk_loop fuel n l = Some (cs ++ [last]) /\ chunks_of n l cs last.
Proof.
  intros Hn. induction fuel as [|fuel IH]; intros l H; [lia|]. cbn [chunk_loop].
  destruct (Nat.eqb_spec (length (firstn n l)) n) as [E|E].
  - rewrite firstn_length in E.
    destruct (IH (skipn n l)) as (cs & last & -> & H1 & H2 & H3); [rewrite skipn_length; lia|].
    exists (firstn n l :: cs), last. split; [reflexivity|]. repeat split; auto.
    + cbn [concat]. rewrite <- app_assoc, <- H1. symmetry; apply firstn_skipn.
    + constructor; auto. rewrite firstn_length; lia.
  - exists [], (firstn n l). rewrite firstn_length in E. split; [reflexivity|]. repeat split; auto.
    + cbn. symmetry. apply firstn_all2. lia.
    + rewrite firstn_length; lia.
Qed.
Lemma chunk_ok {A} (l : list A) n fuel : 0 < n -> (length l < fuel)%nat ->
  exists cs last, chunk fuel l n = Ok (cs ++ [last]) /\ chunks_of (Z.to_nat n) l cs last.
Proof.
  intros Hn Hf. unfold chunk. destruct (Z.ltb_spec n 0); [lia|].
  destruct (chunk_loop_ok (Z.to_nat n) ltac:(lia) fuel l Hf) as (cs & last & -> & H1). eauto.
Qed.
Lemma chunks_of_unique {A} n (l : list A) cs last cs' last' :
  chunks_of n l cs last -> chunks_of n l cs' last' -> cs = cs' /\ last = last'.
Proof.
  revert l cs'. induction cs as [|c cs IH]; intros l cs' (E & F & H) (E' & F' & H').
  - destruct cs' as [|c' cs']; [cbn in *; split; congruence|].
    exfalso. inv F'. apply (f_equal (@length A)) in E'. cbn [concat] in E'. rewrite !app_length in E'. cbn in E'. lia.
  - inv F. destruct cs' as [|c' cs'].
    + exfalso. apply (f_equal (@length A)) in E'. cbn [concat] in E'. rewrite !app_length in E'. cbn in E'. lia.
    + inv F'. cbn [concat] in E'. rewrite <- !app_assoc in E'.
      assert (c = c').
      { apply (f_equal (firstn (length c))) in E'. rewrite firstn_app_exact in E' by auto.
        rewrite firstn_app_exact in E' by auto. auto. }
      subst c'. apply app_inv_head in E'.
      destruct (IH (concat cs ++ last) cs') as [-> ->]; auto; repeat split; auto.
Qed.
Lemma chunk_zero {A} (l : list A) fuel : chunk fuel l 0 = Err OutOfFuel.
Proof.
  unfold chunk. cbn. assert (E : chunk_loop fuel 0 l = None).
  { revert l; induction fuel as [|fuel IH]; intros l; cbn; [reflexivity|]. rewrite IH. reflexivity. }
  rewrite E. reflexivity.
Qed.

Lemma round_robin_step {A} (x : A) l rest p :
  round_robin (rest ++ [l]) p = round_robin ((x :: l) :: rest) (S p).
Proof.
  unfold round_robin. rewrite app_length. cbn [length]. rewrite Nat.add_1_r.
  set (m := S (length rest)). assert (Hm : m <> 0%nat) by (unfold m; lia).
  pose proof (Nat.div_mod p m Hm) as D. pose proof (Nat.mod_upper_bound p m Hm) as B.
  destruct (Nat.eq_dec (p mod m) (length rest)) as [E|E].
  - assert (S p = m * (S (p / m)) + 0)%nat by (unfold m in *; lia).
    rewrite <- (Nat.mod_unique (S p) m (S (p / m)) 0) by (unfold m in *; lia).
    rewrite <- (Nat.div_unique (S p) m (S (p / m)) 0) by (unfold m in *; lia).
    rewrite E, app_nth2, Nat.sub_diag by lia. reflexivity.
  - rewrite <- (Nat.mod_unique (S p) m (p / m) (S (p mod m))) by (unfold m in *; lia).
    rewrite <- (Nat.div_unique (S p) m (p / m) (S (p mod m))) by (unfold m in *; lia).
    rewrite app_nth1 by (unfold m in *; lia). reflexivity.
Qed.
Lemma round_robin_0 {A} (l : list A) rest : round_robin (l :: rest) 0 = nth_error l 0.
Proof. unfold round_robin. rewrite Nat.mod_0_l, Nat.div_0_l by (cbn; lia). reflexivity. Qed.

Lemma interlace_q_spec {A} fuel : forall q : list (list A), q <> [] -> length (concat q) = fuel -> forall p,
  (forall x, nth_error (interlace_q fuel q) p = Some x -> round_robin q p = Some x) /\
  (nth_error (interlace_q fuel q) p = None -> exists p', (p' <= p)%nat /\ round_robin q p' = None).
Proof.
  induction fuel as [|fuel IH]; intros q Hq Hl p.
  - split.
    + intros x H. cbn in H. destruct p; discriminate.
    + intros _. exists 0%nat. split; [lia|]. destruct q as [|[|x l] q]; [congruence|rewrite round_robin_0; reflexivity|cbn in Hl; lia].
  - destruct q as [|[|x l] rest]; [congruence| |].
    + cbn [interlace_q]. split.
      * destruct p; discriminate.
      * intros _. exists 0%nat. split; [lia|rewrite round_robin_0; reflexivity].
    + cbn [interlace_q].
      assert (Hl' : length (concat (rest ++ [l])) = fuel).
      { rewrite concat_app, app_length. cbn in *. rewrite app_nil_r. rewrite app_length in Hl. lia. }
      assert (Hq' : rest ++ [l] <> []) by (destruct rest; discriminate).
      destruct p as [|p].
      * rewrite round_robin_0. cbn. split; [auto|discriminate].
      * cbn [nth_error]. destruct (IH _ Hq' Hl' p) as [I1 I2]. split.
        -- intros y H. rewrite <- round_robin_step. auto.
        -- intros H. destruct (I2 H) as (p' & Hp & E). exists (S p'). split; [lia|]. rewrite <- round_robin_step. exact E.
Qed.
Lemma interlace_spec {A} (sources : list (list A)) p : sources <> [] ->
  (forall x, nth_error (interlace sources) p = Some x -> round_robin sources p = Some x) /\
  (nth_error (interlace sources) p = None -> exists p', (p' <= p)%nat /\ round_robin sources p' = None).
Proof. intros H. apply interlace_q_spec; auto. Qed.

(** two sources of the same length: used by array_pack *)
Fixpoint zip2 {A} (a b : list A) : list A :=
  match a, b with x :: a, y :: b => x :: y :: zip2 a b | _, _ => [] end.
Lemma interlace_q_2 {A} (a b : list A) fuel : length a = length b -> (length a + length b <= fuel)%nat ->
  interlace_q fuel [a; b] = zip2 a b.
Proof.
  revert b fuel; induction a as [|x a IH]; intros [|y b] fuel H Hf; cbn in H; try lia.
  - destruct fuel; reflexivity.
  - destruct fuel as [|[|fuel]]; cbn in Hf; try lia. cbn. f_equal. f_equal. apply IH; lia.
Qed.
Lemma interlace_2 {A} (a b : list A) : length a = length b -> interlace [a; b] = zip2 a b.
Proof. intros H. apply interlace_q_2; auto. cbn. rewrite app_nil_r, app_length. lia. Qed.

Lemma find_first_spec {A} (sel : A -> bool) l :
  match find_first sel l with
  | Some x => exists a b, l = a ++ x :: b /\ sel x = true /\ Forall (fun y => sel y = false) a
  | None => Forall (fun y => sel y = false) l
  end.
Proof.
  induction l as [|x l IH]; cbn; [constructor|]. destruct (sel x) eqn:E.
  - exists [], l. auto.
  - destruct (find_first sel l) as [y|].
    + destruct IH as (a & b & -> & H1 & H2). exists (x :: a), b. auto.
    + constructor; auto.
Qed.

Section Process.
  Context {A B : Type}.
  Implicit Types (procs : list (A -> res B)) (row : list (option A)).
  Lemma process_loop_spec procs : forall row i, length procs = length row ->
    match process_loop i procs row with
    | inl r => Forall2 (fun p xy => column_ok p (fst xy) (snd xy)) procs (combine row r) /\ length r = length row
    | inr (j, e) => exists k, j = i + Z.of_nat k /\ fails_at procs row k e
    end.
  Proof.
    induction procs as [|p procs IH]; intros [|ob row] i H; cbn in H; try discriminate.
    - cbn. auto.
    - cbn [process_loop]. specialize (IH row (i + 1) ltac:(lia)).
      destruct ob as [x|].
      + destruct (p x) as [y|e] eqn:E.
        * destruct (process_loop (i + 1) procs row) as [r|[j e]].
          -- destruct IH as [I1 I2]. split; [|cbn; lia]. constructor; auto.
          -- destruct IH as (k & -> & (H1 & H2)). exists (S k). split; [lia|]. split.
             ++ exact H1.
             ++ intros [|q] p' a Hq Hp Hr; cbn in *; [inv Hp; inv Hr; eauto|]. eapply (H2 q); eauto. lia.
        * exists 0%nat. split; [lia|]. split; [exists p, x; auto|intros; lia].
      + destruct (process_loop (i + 1) procs row) as [r|[j e]].
        * destruct IH as [I1 I2]. split; [|cbn; lia]. constructor; cbn; auto.
        * destruct IH as (k & -> & (H1 & H2)). exists (S k). split; [lia|]. split.
          -- exact H1.
          -- intros [|q] p' a Hq Hp Hr; cbn in *; [inv Hr|]. eapply (H2 q); eauto. lia.
  Qed.
  Lemma process_tuple_ok procs row h r :
    process_tuple procs row h = Ok r <->
    length procs = length row /\ length r = length row /\
    forall i p x y, nth_error procs i = Some p -> nth_error row i = Some x -> nth_error r i = Some y -> column_ok p x y.
  Proof.
    assert (Aux : forall (ps : list (A -> res B)) (rw : list (option A)) (rr : list (option B)), length ps = length rw -> length rr = length rw ->
      ((forall i p x y, nth_error ps i = Some p -> nth_error rw i = Some x -> nth_error rr i = Some y -> column_ok p x y)
        <-> Forall2 (fun p xy => column_ok p (fst xy) (snd xy)) ps (combine rw rr))).
    { induction ps as [|p ps IH]; intros [|x rw] [|y rr] H1 H2; cbn in H1, H2; try discriminate.
      - split; [constructor|]. intros _ i p x y H. destruct i; discriminate.
      - cbn [combine]. split.
        + intros H. constructor; [apply (H 0%nat); reflexivity|]. apply IH; [lia|lia|].
          intros i p' x' y' G1 G2 G3. apply (H (S i)); auto.
        + intros H [|i] p' x' y' G1 G2 G3; cbn in *; inv H.
          * inv G1. inv G2. inv G3. auto.
          * eapply (proj2 (IH rw rr ltac:(lia) ltac:(lia))); eauto. }
    unfold process_tuple, len. destruct (Z.eqb_spec (Z.of_nat (length row)) (Z.of_nat (length procs))) as [E|E]; cbn [negb].
    - assert (E' : length procs = length row) by lia.
      pose proof (process_loop_spec procs row 0 E') as P.
      destruct (process_loop 0 procs row) as [r'|[j e]].
      + destruct P as [P1 P2]. split.
        * intros H. okinv H. split; auto. split; auto. apply (Aux _ _ _ E' P2). auto.
        * intros (_ & H2 & H3). f_equal. apply (Aux _ _ _ E' H2) in H3.
          clear Aux E E'. revert row r r' P1 P2 H2 H3.
          induction procs as [|p procs IH]; intros [|x row] [|y r] [|y' r'] P1 P2 H2 H3; cbn in P2, H2; try discriminate; auto;
            cbn [combine] in *; inv P1; inv H3.
          f_equal.
          -- cbn in *. unfold column_ok in *. destruct x, y, y'; try tauto; congruence.
          -- eapply IH; eauto.
      + destruct P as (k & -> & F1 & F2). split; [destruct (h e (0 + Z.of_nat k)); discriminate|].
        intros (_ & H2 & H3). exfalso. destruct F1 as (p & a & G1 & G2 & G3).
        destruct (nth_error r k) as [y|] eqn:Ey.
        * specialize (H3 k p (Some a) y G1 G2 Ey). destruct y; cbn in H3; [congruence|auto].
        * apply nth_error_None in Ey. assert (k < length row)%nat by (apply nth_error_Some; congruence). lia.
    - split; [discriminate|]. lia.
  Qed.
  Lemma process_tuple_mismatch procs row h : length procs <> length row -> process_tuple procs row h = Err TypeError.
  Proof. intros H. unfold process_tuple, len. destruct (Z.eqb_spec (Z.of_nat (length row)) (Z.of_nat (length procs))); [lia|reflexivity]. Qed.
  Lemma process_tuple_fail procs row h i e : length procs = length row -> fails_at procs row i e ->
    process_tuple procs row h = Err (match h e (Z.of_nat i) with Some e' => e' | None => RuntimeError end).
  Proof.
    intros E F. unfold process_tuple, len. rewrite E, Z.eqb_refl. cbn [negb].
    pose proof (process_loop_spec procs row 0 E) as P. destruct (process_loop 0 procs row) as [r'|[j e']].
    - exfalso. destruct P as [P1 P2]. destruct F as [(p & a & G1 & G2 & G3) _]. clear E h.
      revert row r' i P1 P2 G1 G2. induction procs as [|q procs IH]; intros row r' i P1 P2 G1 G2; [destruct i; discriminate|].
      destruct row as [|x row]; [destruct i; discriminate|]. destruct r' as [|y r']; [discriminate|].
      cbn [combine] in P1. inv P1. destruct i as [|i]; cbn in *.
      + inv G1. inv G2. destruct y; cbn in H2; [congruence|auto].
      + eapply IH; eauto.
    - destruct P as (k & -> & F1 & F2). rewrite Z.add_0_l.
      assert (k = i /\ e' = e) as [-> ->].
      { destruct F as [(p & a & G1 & G2 & G3) G4]. destruct F1 as (p' & a' & K1 & K2 & K3).
        destruct (Nat.lt_trichotomy k i) as [L|[->|L]].
        - destruct (G4 k p' a' L K1 K2); congruence.
        - split; auto. congruence.
        - destruct (F2 i p a L G1 G2); congruence. }
      destruct (h e (Z.of_nat i)); reflexivity.
  Qed.
  Lemma process_tuple_total procs row h : length procs = length row ->
     (forall r', process_tuple procs row h <> Ok r') -> exists i e, fails_at procs row i e.
  Proof.
    intros E H. unfold process_tuple, len in H. rewrite E, Z.eqb_refl in H. cbn [negb] in H.
    pose proof (process_loop_spec procs row 0 E) as P. destruct (process_loop 0 procs row) as [r'|[j e']].
    - exfalso; eapply H; reflexivity.
    - destruct P as (k & _ & F). eauto.
  Qed.
  Lemma process_chunk_ok procs rows h rs :
    process_chunk procs rows h = Ok rs <-> Forall2 (fun row r => process_tuple procs row h = Ok r) rows rs.
  Proof. unfold process_chunk. apply mapM_Forall2. Qed.
  Lemma process_chunk_fail procs rows1 row rows2 h rs e :
    Forall2 (fun row r => process_tuple procs row h = Ok r) rows1 rs -> process_tuple procs row h = Err e ->
    process_chunk procs (rows1 ++ row :: rows2) h = Err e.
  Proof.
    unfold process_chunk. intros H. revert rs H. induction rows1 as [|x rows1 IH]; intros rs H E; inv H; cbn [app mapM].
    - rewrite E. reflexivity.
    - rewrite H2. cbn [bind]. erewrite IH; eauto.
  Qed.
End Process.
