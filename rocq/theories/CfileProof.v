(** CfileProof.v *)
From Verif Require Import Base BaseProof PyStr PyStrProof PyDict PyDictProof ConfModel ConfSpec CfileModel CfileSpec.
Local Notation length := List.length.
Section U.
Context (U : unicode).
Lemma flushes_prefix new l : forall k, Forall (fun s => prefix_of s new) (flushes new k l).
Proof. induction l as [|n l IH]; intros k; cbn [flushes]; constructor; [|apply IH]. exists (skipn (k + n) new). symmetry. apply firstn_skipn. Qed.
Lemma last_prefix new l k : prefix_of (last ([] :: flushes new k l) []) new.
Proof.
  assert (F : Forall (fun s => prefix_of s new) ([] :: flushes new k l)) by (constructor; [exists new; reflexivity|apply flushes_prefix]).
  revert F. generalize ([] :: flushes new k l). intros L F. induction F as [|x L P F IH]; [exists new; reflexivity|]. destruct L; [exact P|exact IH].
Qed.
(** the writing *)
Lemma write_spec o new w : 
  match snd (write_file o new w) with
  | Ok _ => disk (fst (write_file o new w)) = new /\ exists l, seen (fst (write_file o new w)) = seen w ++ [] :: l /\ Forall (fun s => prefix_of s new) l /\ writes o
  | Err e => (fst (write_file o new w) = w /\ o_wopen o = Some e) \/
      (o_wopen o = None /\ o_fail o = Some e /\ prefix_of (disk (fst (write_file o new w))) new /\ exists l, seen (fst (write_file o new w)) = seen w ++ [] :: l /\ Forall (fun s => prefix_of s new) l)
  end /\ store (fst (write_file o new w)) = store w /\ restore (fst (write_file o new w)) = restore w.
Proof.
  unfold write_file. destruct (o_wopen o) as [e|] eqn:W; [cbn [fst snd]; split; [left|]; auto|]. destruct (o_fail o) as [e|] eqn:F; cbn [fst snd disk seen store restore]; split; [right|auto| |auto].
  - split; [reflexivity|]. split; [reflexivity|]. split; [apply last_prefix|]. eexists. split; [reflexivity|apply flushes_prefix].
  - split; [reflexivity|]. eexists. split; [reflexivity|]. split; [|split; assumption]. apply Forall_app. split; [apply flushes_prefix|]. constructor; [|constructor]. exists []. rewrite app_nil_r. reflexivity.
Qed.
Lemma update_spec o m w : let w' := fst (cf_update U o m w) in
  match snd (cf_update U o m w) with
  | Ok _ => exists new, config_update U m (disk w) = Ok new /\ disk w' = new /\ reads o /\ writes o /\ exists l, seen w' = seen w ++ [] :: l /\ Forall (fun s => prefix_of s new) l
  | Err e =>
      (w' = w /\ (o_open o = Some e \/ o_read o = Some e \/ config_update U m (disk w) = Err e \/ o_wopen o = Some e)) \/
      exists new, config_update U m (disk w) = Ok new /\ o_fail o = Some e /\ prefix_of (disk w') new /\ exists l, seen w' = seen w ++ [] :: l /\ Forall (fun s => prefix_of s new) l
  end /\ store w' = store w /\ restore w' = restore w.
Proof.
  cbv zeta. unfold cf_update, read_file. destruct (o_open o) as [e|] eqn:O1; [cbn [fst snd]; auto 6|]. destruct (o_read o) as [e|] eqn:O2; [cbn [fst snd]; auto 6|].
  destruct (config_update U m (disk w)) as [new|e] eqn:C; [|cbn [fst snd]; auto 7]. pose proof (write_spec o new w) as W. cbv zeta in W. destruct W as [W [W1 W2]]. split; [|split; assumption].
  destruct (snd (write_file o new w)) as [[]|e] eqn:S1.
  - destruct W as [D (l & S & F & R)]. exists new. split; [reflexivity|]. split; [exact D|]. split; [split; assumption|]. split; [exact R|]. eauto.
  - destruct W as [[E X]|(_ & X & P & l & S & F)]; [left; split; [exact E|auto]|right; exists new; split; [reflexivity|]; split; [exact X|]; split; [exact P|]; eauto].
Qed.
Lemma enter_unfold o o2 w kw st : store w = kw :: st -> cf_step U o o2 Enter w =
  match cf_getset U o (dkeys kw) w with
  | Err e => (w, Err e)
  | Ok r => let '(w1, x) := cf_update U o2 kw w in
      match x with Err e => (w1, Err e) | Ok _ => ({| disk := disk w1; seen := seen w1; store := st; restore := restore w1 ++ [r] |}, Ok RNone) end
  end.
Proof. intros E. cbn [cf_step]. rewrite E. reflexivity. Qed.
(** ** pg_dotconf's arguments *)
Lemma split_first p : In 61 p -> exists a b, p = a ++ [61] ++ b /\ ~ In 61 a /\ py_splitn 1 [61] p = [a; b].
Proof.
  induction p as [|c p IH]; intros I; [destruct I|]. destruct (Z.eq_dec c 61) as [->|N].
  - exists [], p. split; [reflexivity|]. split; [intros []|]. reflexivity.
  - destruct I as [E|I]; [contradiction|]. destruct (IH I) as (a & b & E & NI & S). exists (c :: a), b. split; [rewrite E; reflexivity|]. split; [intros [H|H]; [congruence|contradiction]|].
    cbn [py_splitn] in S |- *. cbn [index_of prefixb]. destruct (Z.eqb_spec 61 c); [congruence|]. cbn [andb]. destruct (index_of [61] p) as [i|] eqn:G; [|discriminate S]. cbn [option_map firstn skipn List.length Nat.add] in *.
    cbn [app] in *. injection S as S1 S2. rewrite S1. f_equal. f_equal. rewrite <- S2. reflexivity.
Qed.
Lemma argument_unique p k v k' v' : argument U p k v -> argument U p k' v' -> k = k' /\ v = v'.
Proof.
  assert (FA : forall a b c d : text, ~ In 61 a -> ~ In 61 c -> a ++ 61 :: b = c ++ 61 :: d -> a = c /\ b = d).
  { induction a as [|x a IH]; intros b [|y c] d N1 N2 E; cbn in E.
    - split; congruence.
    - exfalso. apply N2. left. congruence.
    - exfalso. apply N1. left. congruence.
    - assert (x = y) by congruence. subst y. destruct (IH b c d) as [-> ->]; [intros H; apply N1; right; exact H|intros H; apply N2; right; exact H|congruence|]. auto. }
  destruct v as [v|], v' as [v'|]; cbn [argument].
  - intros (a & E & N & K) (a' & E' & N' & K'). cbn [app] in *. destruct (FA a v a' v' N N') as [-> ->]; [congruence|]. subst. auto.
  - intros (a & E & N & K) [N' _]. exfalso. apply N'. rewrite E. apply in_or_app. right. left. reflexivity.
  - intros [N _] (a & E & N' & K). exfalso. apply N. rewrite E. apply in_or_app. right. left. reflexivity.
  - intros [N K] [N' K']. subst. auto.
Qed.
Lemma argument_total p : exists k v, argument U p k v /\
  (let '(k, v) := if memZ 61 p then (match py_splitn 1 [61] p with k :: v :: _ => (k, Some v) | _ => (p, None) end) else (p, None) in (py_strip U k, v)) = (k, v).
Proof.
  destruct (memZ 61 p) eqn:M.
  - apply memZ_In in M. destruct (split_first p M) as (a & b & E & N & S). rewrite S. exists (py_strip U a), (Some b). split; [exists a; auto|reflexivity].
  - exists (py_strip U p), None. split; [|reflexivity]. split; [|reflexivity]. intros I. apply memZ_In in I. congruence.
Qed.
Lemma read_args_spec ps : forall d,
  (forall m, read_args U ps d = Some m ->
     (forall p k v, In p ps -> argument U p k v -> k <> []) /\
     forall k, (forall v, dget k m = Some v <-> (exists a p b, ps = a ++ p :: b /\ argument U p k v /\ forall q v', In q b -> ~ argument U q k v') \/ (dget k d = Some v /\ forall q v', In q ps -> ~ argument U q k v'))) /\
  (read_args U ps d = None -> exists p v, In p ps /\ argument U p [] v).
Proof.
  induction ps as [|p ps IH]; intros d; cbn [read_args].
  - split; [|discriminate]. intros m E. injection E as ->. split; [intros p k v []|]. intros k v. split; [intros H; right; split; [exact H|intros q v' []]|]. intros [(a & q & b & E & _)|[H _]]; [destruct a; discriminate E|exact H].
  - destruct (argument_total p) as (k0 & v0 & A & E0). destruct (if memZ 61 p then _ else _) as [k1 v1]. cbn [fst snd] in E0. injection E0 as E1 E2. subst v1. rewrite E1.
    destruct k0 as [|c k0]; [split; [discriminate|]; intros _; exists p, v0; split; [left; reflexivity|exact A]|].
    set (K := c :: k0) in *. destruct (IH (dset K v0 d)) as [I1 I2]. split; [|intros H; destruct (I2 H) as (q & v & Q & X); exists q, v; split; [right; exact Q|exact X]].
    intros m E. destruct (I1 m E) as [P1 P2]. split.
    + intros q k v [<-|Q] X; [destruct (argument_unique _ _ _ _ _ A X) as [<- _]; discriminate|exact (P1 q k v Q X)].
    + intros k v. rewrite P2, dget_set. split.
      * intros [(a & q & b & -> & X & Y)|[H N]]; [left; exists (p :: a), q, b; split; [reflexivity|auto]|].
        destruct (seqb_spec k K) as [->|NE]; [left; exists [], p, ps; split; [reflexivity|]; split; [assert (v0 = v) by congruence; subst; exact A|exact N]|].
        right. split; [exact H|]. intros q v' [<-|Q] X; [destruct (argument_unique _ _ _ _ _ A X) as [Z _]; congruence|exact (N q v' Q X)].
      * intros [(a & q & b & E' & X & Y)|[H N]].
        -- destruct a as [|z a]; cbn in E'; injection E' as -> ->; [|left; exists a, q, b; auto]. right. destruct (argument_unique _ _ _ _ _ A X) as [<- <-]. destruct (seqb_spec K K); [|contradiction]. split; [reflexivity|exact Y].
        -- right. destruct (seqb_spec k K) as [->|NE]; [exfalso; apply (N p v0); [left; reflexivity|exact A]|]. split; [exact H|]. intros q v' Q. apply N. right. exact Q.
Qed.
End U.
