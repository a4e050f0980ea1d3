(** CrypProof3.v: a round of the cipher *)
From Verif Require Import Base CrypTable CrypModel CrypSpec CrypProof CrypProof2.
From Coq Require Import Bool NArith.

(** the order in which the bits of a half block are in a word *)
Definition rot {A} (d : A) (R : list A) : list A := nth 31 R d :: firstn 31 R.
Definition W (R : list bool) : Z := B (rot false R).
Lemma rot_map {A C} (f : A -> C) d R : map f (rot d R) = rot (f d) (map f R).
Proof. unfold rot. cbn [map]. rewrite firstn_map, map_nth. reflexivity. Qed.

(** *** the indices of the tables *)
Definition xindex_u (E0 : Z) (ka r : list N) : list (list N) :=
  let t := xxor r (xand 0xffff (xshr 16 r)) in
  let u := xand E0 t in
  let u := xxor (xxor (xxor u (xshl 16 u)) r) ka in
  [xand 0x3f u; xand 0x3f (xshr 8 u); xand 0x3f (xshr 16 u); xand 0x3f (xshr 24 u)].
Definition xindex_t (E1 : Z) (kb r : list N) : list (option (list N)) :=
  let t := xxor r (xand 0xffff (xshr 16 r)) in
  let t := xand E1 t in
  let t := xxor (xxor (xxor t (xshl 16 t)) r) kb in
  let t := xor_ (Some (xand 0x0fffffff (xshr 4 t))) (Some (xshl 28 t)) in
  [omap (xand 0x3f) t; omap (fun t => xand 0x3f (xshr 8 t)) t; omap (fun t => xand 0x3f (xshr 16 t)) t; omap (fun t => xand 0x3f (xshr 24 t)) t].
Definition osame (o : option (list N)) (e : list N) : bool := match o with Some l => same l e | None => false end.
Definition Rvars : list N := map var (seq 0 32).
Definition Kvars : list N := map var (seq 32 48).
Definition salt_of (v0 v1 : Z) : list bool := rev (bits_of 6 v0) ++ rev (bits_of 6 v1).
Definition xsum (v0 v1 : Z) : list N :=
  map (fun p => N.lxor (fst p) (snd p)) (combine (expand 0%N (salt_of v0 v1) Rvars) Kvars).
Definition index_ok (v0 v1 : Z) : bool :=
  let x := xsum v0 v1 in
  forallb (fun p => same (fst p) (grp (2 * snd p) x)) (combine (xindex_u v0 (ka 0%N Kvars) (rot 0%N Rvars)) (seq 0 4))
  && forallb (fun p => osame (fst p) (grp (2 * snd p + 1) x)) (combine (xindex_t (Z.shiftl v1 4) (kb 0%N Kvars) (rot 0%N Rvars)) (seq 0 4)).
Definition values : list Z := map Z.of_nat (seq 0 64).
Lemma index_checked : forallb (fun v0 => forallb (index_ok v0) values) values = true.
Proof. vm_compute. reflexivity. Qed.

(** *** the tables *)
Definition placed (i : nat) (s : list bool) : list bool := repeat false (4 * i) ++ s ++ repeat false (28 - 4 * i).
Lemma tables_checked :
  forallb (fun i => forallb (fun g => at_ (SP i) (B g) =? W (pick false P_table (placed i (S_box i g)))) cube6) (seq 0 8) = true.
Proof. vm_compute. reflexivity. Qed.
Lemma six_in_cube g : length g = 6%nat -> In g cube6.
Proof.
  intros L. do 6 (destruct g as [|? g]; [discriminate L|]). destruct g; [|discriminate L]. apply cube6_in.
Qed.
Lemma table_spec i g : (i < 8)%nat -> length g = 6%nat -> at_ (SP i) (B g) = W (pick false P_table (placed i (S_box i g))).
Proof.
  intros Hi Hg. pose proof tables_checked as H. rewrite forallb_forall in H.
  specialize (H i ltac:(apply in_seq; lia)). rewrite forallb_forall in H. apply Z.eqb_eq, H, six_in_cube, Hg.
Qed.

Section Index.
Variable rho : nat -> bool.
Notation rep := (rep rho).
Notation orep := (orep rho).
Notation evb := (evb rho).
Ltac sym := repeat first
  [ assumption | reflexivity | apply orep_some | apply orep_or | apply orep_look | apply rep_and | apply rep_xor
  | apply rep_shl' | apply rep_shr' ].
Lemma orep_map f z z' o : (forall l, rep z l -> rep z' (f l)) -> orep z o -> orep z' (omap f o).
Proof. intros H Ho l E. destruct o as [x|]; [|discriminate E]. injection E as <-. apply H, Ho. reflexivity. Qed.
Lemma osame_rep z o e : orep z o -> osame o e = true -> z = B (map evb e).
Proof. intros H E. destruct o as [l|]; [|discriminate E]. eapply same_rep; [apply H; reflexivity|exact E]. Qed.
(** the words u and t of the program *)
Definition word_u (E0 k r : Z) : Z :=
  let t := Z.lxor r (Z.land (Z.shiftr r 16) 0xffff) in let u := Z.land t E0 in Z.lxor (Z.lxor (Z.lxor u (Z.shiftl u 16)) r) k.
Definition word_t (E1 k r : Z) : Z :=
  let t := Z.lxor r (Z.land (Z.shiftr r 16) 0xffff) in let t := Z.land t E1 in
  let t := Z.lxor (Z.lxor (Z.lxor t (Z.shiftl t 16)) r) k in
  Z.lor (Z.land (Z.shiftr t 4) 0x0fffffff) (Z.shiftl t 28).
Lemma index_u E0 k r lk lr es : rep k lk -> rep r lr ->
  forallb (fun p => same (fst p) (snd p)) (combine (xindex_u E0 lk lr) es) = true -> length es = 4%nat ->
  let u := word_u E0 k r in
  [Z.land u 0x3f; Z.land (Z.shiftr u 8) 0x3f; Z.land (Z.shiftr u 16) 0x3f; Z.land (Z.shiftr u 24) 0x3f] = map (fun e => B (map evb e)) es.
Proof.
  intros Hk Hr H Le u. do 4 (destruct es as [|? es]; [discriminate Le|]). destruct es; [|discriminate Le].
  unfold xindex_u in H. cbv zeta in H. unfold u, word_u. cbv zeta. cbn [combine forallb fst snd map] in *.
  apply andb_prop in H as [H0 H]. apply andb_prop in H as [H1 H]. apply andb_prop in H as [H2 H]. apply andb_prop in H as [H3 _].
  refine (f_equal2 cons _ _); [eapply same_rep; [|exact H0]; sym|].
  refine (f_equal2 cons _ _); [eapply same_rep; [|exact H1]; sym|].
  refine (f_equal2 cons _ _); [eapply same_rep; [|exact H2]; sym|].
  refine (f_equal2 cons _ _); [eapply same_rep; [|exact H3]; sym|reflexivity].
Qed.
Lemma index_t E1 k r lk lr es : rep k lk -> rep r lr ->
  forallb (fun p => osame (fst p) (snd p)) (combine (xindex_t E1 lk lr) es) = true -> length es = 4%nat ->
  let t := word_t E1 k r in
  [Z.land t 0x3f; Z.land (Z.shiftr t 8) 0x3f; Z.land (Z.shiftr t 16) 0x3f; Z.land (Z.shiftr t 24) 0x3f] = map (fun e => B (map evb e)) es.
Proof.
  intros Hk Hr H Le t. do 4 (destruct es as [|? es]; [discriminate Le|]). destruct es; [|discriminate Le].
  assert (HT : orep t (let t := xxor lr (xand 0xffff (xshr 16 lr)) in let t := xand E1 t in
                       let t := xxor (xxor (xxor t (xshl 16 t)) lr) lk in
                       xor_ (Some (xand 0x0fffffff (xshr 4 t))) (Some (xshl 28 t)))).
  { unfold t, word_t. cbv zeta. sym. }
  unfold xindex_t in H. cbv zeta in H, HT. revert H HT. generalize t.
  match goal with |- context [orep _ ?o] => generalize o end. clear. intros o t H HT.
  cbn [combine forallb fst snd map] in *.
  apply andb_prop in H as [H0 H]. apply andb_prop in H as [H1 H]. apply andb_prop in H as [H2 H]. apply andb_prop in H as [H3 _].
  assert (M1 : orep (Z.land t 0x3f) (omap (xand 0x3f) o)) by (apply (orep_map _ t); [intros; sym|exact HT]).
  assert (M2 : orep (Z.land (Z.shiftr t 8) 0x3f) (omap (fun t => xand 0x3f (xshr 8 t)) o)) by (apply (orep_map _ t); [intros; sym|exact HT]).
  assert (M3 : orep (Z.land (Z.shiftr t 16) 0x3f) (omap (fun t => xand 0x3f (xshr 16 t)) o)) by (apply (orep_map _ t); [intros; sym|exact HT]).
  assert (M4 : orep (Z.land (Z.shiftr t 24) 0x3f) (omap (fun t => xand 0x3f (xshr 24 t)) o)) by (apply (orep_map _ t); [intros; sym|exact HT]).
  rewrite <- (osame_rep _ _ _ M1 H0), <- (osame_rep _ _ _ M2 H1), <- (osame_rep _ _ _ M3 H2), <- (osame_rep _ _ _ M4 H3). reflexivity.
Qed.
End Index.

(** *** sums *)
Lemma salted_map {A C} (f : A -> C) s : forall a b,
  salted s (map f a) (map f b) = (map f (fst (salted s a b)), map f (snd (salted s a b))).
Proof.
  induction s as [|x s IH]; intros a b; cbn [salted]; [reflexivity|].
  destruct a as [|p a]; [reflexivity|]. destruct b as [|q b]; [reflexivity|]. cbn [map]. rewrite IH.
  destruct (salted s a b) as [a' b']. cbn [fst snd]. destruct x; reflexivity.
Qed.
Lemma expand_map {A C} (f : A -> C) d s R : map f (expand d s R) = expand (f d) s (map f R).
Proof.
  unfold expand. rewrite <- pick_map, firstn_map, skipn_map, salted_map.
  destruct (salted s (firstn 24 (pick d E_table R)) (skipn 24 (pick d E_table R))) as [a b]. cbn [fst snd]. apply map_app.
Qed.
Lemma salted_length {A} s : forall a b : list A, length (fst (salted s a b)) = length a /\ length (snd (salted s a b)) = length b.
Proof.
  induction s as [|x s IH]; intros a b; cbn [salted]; [split; reflexivity|].
  destruct a as [|p a]; [split; reflexivity|]. destruct b as [|q b]; [split; reflexivity|].
  specialize (IH a b). destruct (salted s a b) as [a' b']. cbn [fst snd] in IH. destruct IH as [I1 I2].
  destruct x; cbn [fst snd length]; split; lia.
Qed.
Lemma expand_length {A} (d : A) s R : length (expand d s R) = 48%nat.
Proof.
  unfold expand. pose proof (salted_length s (firstn 24 (pick d E_table R)) (skipn 24 (pick d E_table R))) as [H1 H2].
  destruct (salted s (firstn 24 (pick d E_table R)) (skipn 24 (pick d E_table R))) as [a b]. cbn [fst snd] in *.
  rewrite app_length, H1, H2. reflexivity.
Qed.
Lemma vars_read (l : list bool) n : map (evb (fun i => nth i (l : list bool) false)) (map var (seq n (length l - n))) = skipn n l.
Proof.
  rewrite map_map. transitivity (map (fun i => nth i l false) (seq n (length l - n))).
  { apply map_ext. intros i. apply evb_var. }
  revert n. induction l as [|b l IH]; intros n; [destruct n; reflexivity|].
  destruct n as [|n].
  - cbn [length Nat.sub seq map nth skipn]. f_equal. specialize (IH 0%nat). rewrite Nat.sub_0_r in IH. cbn [skipn] in IH.
    rewrite <- IH at 2. rewrite <- seq_shift, map_map. reflexivity.
  - cbn [length Nat.sub skipn]. rewrite <- (IH n), <- seq_shift, map_map. reflexivity.
Qed.
Lemma B_xor a : forall b, length a = length b -> B (xor_bits a b) = Z.lxor (B a) (B b).
Proof.
  intros b Hl. apply Z.bits_inj'. intros n Hn. rewrite Z.lxor_spec, !B_bit by exact Hn.
  revert b Hl. generalize (Z.to_nat n) as k. clear. induction a as [|x a IH]; intros k [|y b] Hl; try discriminate Hl.
  - destruct k; reflexivity.
  - destruct k as [|k]; [reflexivity|]. injection Hl as Hl. exact (IH k b Hl).
Qed.
Lemma xor_length a b : length a = length b -> length (xor_bits a b) = length a.
Proof. intros H. unfold xor_bits. rewrite map_length, combine_length. lia. Qed.
Lemma xor_nth a : forall b k, length a = length b -> nth k (xor_bits a b) false = xorb (nth k a false) (nth k b false).
Proof.
  induction a as [|x a IH]; intros [|y b] k Hl; try discriminate Hl; [destruct k; reflexivity|].
  destruct k as [|k]; [reflexivity|]. injection Hl as Hl. exact (IH b k Hl).
Qed.
Lemma xor_firstn a : forall b k, length a = length b -> firstn k (xor_bits a b) = xor_bits (firstn k a) (firstn k b).
Proof.
  induction a as [|x a IH]; intros [|y b] k Hl; try discriminate Hl; [destruct k; reflexivity|].
  destruct k as [|k]; [reflexivity|]. injection Hl as Hl. unfold xor_bits in *. cbn [combine map firstn]. f_equal. exact (IH b k Hl).
Qed.
Lemma W_xor a b : length a = 32%nat -> length b = 32%nat -> W (xor_bits a b) = Z.lxor (W a) (W b).
Proof.
  intros La Lb. unfold W. rewrite <- B_xor by (unfold rot; cbn [length]; rewrite !firstn_length; lia).
  f_equal. unfold rot. rewrite xor_nth, xor_firstn by lia. reflexivity.
Qed.
Lemma pick_length {A} (d : A) t l : length (pick d t l) = length t.
Proof. apply map_length. Qed.
Lemma S_length i g : length g = 6%nat -> length (S_box i g) = 4%nat.
Proof. intros L. do 6 (destruct g as [|? g]; [discriminate L|]). destruct g; [|discriminate L]. reflexivity. Qed.
Lemma eight (s : nat -> list bool) : (forall i, (i < 8)%nat -> length (s i) = 4%nat) ->
  let p i := pick false P_table (placed i (s i)) in
  xor_bits (xor_bits (xor_bits (xor_bits (xor_bits (xor_bits (xor_bits (p 1%nat) (p 3%nat)) (p 5%nat)) (p 7%nat)) (p 0%nat)) (p 2%nat)) (p 4%nat)) (p 6%nat)
  = pick false P_table (concat (map s (seq 0 8))).
Proof.
  intros H p. unfold p. cbn [map seq concat].
  assert (E : forall i, (i < 8)%nat -> exists a b c d, s i = [a; b; c; d]).
  { intros i Hi. specialize (H i Hi). destruct (s i) as [|a [|b [|c [|d [|]]]]]; try discriminate H. do 4 eexists. reflexivity. }
  destruct (E 0%nat ltac:(lia)) as (a0 & b0 & c0 & d0 & ->). destruct (E 1%nat ltac:(lia)) as (a1 & b1 & c1 & d1 & ->).
  destruct (E 2%nat ltac:(lia)) as (a2 & b2 & c2 & d2 & ->). destruct (E 3%nat ltac:(lia)) as (a3 & b3 & c3 & d3 & ->).
  destruct (E 4%nat ltac:(lia)) as (a4 & b4 & c4 & d4 & ->). destruct (E 5%nat ltac:(lia)) as (a5 & b5 & c5 & d5 & ->).
  destruct (E 6%nat ltac:(lia)) as (a6 & b6 & c6 & d6 & ->). destruct (E 7%nat ltac:(lia)) as (a7 & b7 & c7 & d7 & ->).
  clear. cbv -[xorb]. rewrite ?xorb_false_l, ?xorb_false_r. reflexivity.
Qed.
Lemma xor_comm a : forall b, xor_bits a b = xor_bits b a.
Proof. induction a as [|x a IH]; intros [|y b]; try reflexivity. unfold xor_bits in *. cbn [combine map fst snd]. rewrite xorb_comm. f_equal. apply IH. Qed.
Lemma grp_group i l : grp i l = group i l.
Proof. reflexivity. Qed.
Lemma grp_len {A} (x : list A) i : length x = 48%nat -> (i < 8)%nat -> length (grp i x) = 6%nat.
Proof. intros Hx Hi. unfold grp. rewrite firstn_length, skipn_length. lia. Qed.
Lemma values_in v : 0 <= v < 64 -> In v values.
Proof. intros Hv. unfold values. replace v with (Z.of_nat (Z.to_nat v)) by lia. apply in_map. apply in_seq. lia. Qed.
Lemma combine_grp {A} (f : A -> list N -> bool) l x (g : nat -> nat) :
  forallb (fun p => f (fst p) (grp (g (snd p)) x)) (combine l (seq 0 4)) = true ->
  forallb (fun p => f (fst p) (snd p)) (combine l (map (fun j => grp (g j) x) (seq 0 4))) = true.
Proof.
  generalize (seq 0 4). intros q; revert l. induction q as [|j q IH]; intros [|a l] H; try reflexivity.
  cbn [map combine forallb fst snd] in *. apply andb_prop in H as [-> H2]. apply IH. exact H2.
Qed.

Lemma app_front {A} (a : list A) : forall b c d, a ++ b = c ++ d -> length a = length c -> a = c.
Proof.
  induction a as [|x a IH]; intros b [|y c] d H L; try discriminate L; [reflexivity|].
  injection H as -> H. injection L as L. rewrite (IH _ _ _ H L). reflexivity.
Qed.
Lemma list4 {A} (a b c d a' b' c' d' : A) : [a; b; c; d] = [a'; b'; c'; d'] -> a = a' /\ b = b' /\ c = c' /\ d = d'.
Proof. intros H. injection H as -> -> -> ->. auto. Qed.
Theorem feistel_spec v0 v1 L R K : 0 <= v0 < 64 -> 0 <= v1 < 64 -> length L = 32%nat -> length R = 32%nat -> length K = 48%nat ->
  feistel v0 (Z.shiftl v1 4) (B (ka false K), B (kb false K)) (W L) (W R)
  = W (xor_bits L (cipher_f (salt_of v0 v1) R K)).
Proof.
  intros V0 V1 HL HR HK.
  pose proof index_checked as C. rewrite forallb_forall in C. specialize (C v0 (values_in _ V0)).
  rewrite forallb_forall in C. specialize (C v1 (values_in _ V1)). unfold index_ok in C. cbv zeta in C. apply andb_prop in C as [Cu Ct].
  set (rho := fun i => nth i (R ++ K) false).
  assert (ER : map (evb rho) Rvars = R).
  { pose proof (vars_read (R ++ K) 0) as H. rewrite app_length, HR, HK in H. cbn [skipn] in H.
    change (32 + 48 - 0)%nat with (32 + 48)%nat in H. rewrite seq_app, !map_app in H.
    apply app_front in H; [exact H|]. rewrite !map_length, seq_length. symmetry. exact HR. }
  assert (EK : map (evb rho) Kvars = K).
  { pose proof (vars_read (R ++ K) 32) as H. rewrite app_length, HR, HK in H.
    rewrite skipn_app, HR, Nat.sub_diag in H. rewrite skipn_all2 in H by lia. exact H. }
  assert (RR : rep rho (W R) (rot 0%N Rvars)).
  { unfold rep, evw. rewrite rot_map, ER. reflexivity. }
  assert (RA : rep rho (B (ka false K)) (ka 0%N Kvars)).
  { unfold rep, evw. rewrite ka_map, EK. reflexivity. }
  assert (RB : rep rho (B (kb false K)) (kb 0%N Kvars)).
  { unfold rep, evw. rewrite kb_map, EK. reflexivity. }
  set (x := xor_bits (expand false (salt_of v0 v1) R) K).
  assert (EX : map (evb rho) (xsum v0 v1) = x).
  { unfold xsum, x, xor_bits. rewrite map_map. rewrite <- ER, <- EK at 1. change false with (evb rho 0%N). rewrite <- expand_map.
    generalize (expand 0%N (salt_of v0 v1) Rvars), Kvars. clear.
    induction l as [|a l IH]; intros [|b k]; try reflexivity. cbn [combine map fst snd]. rewrite evb_xor, IH. reflexivity. }
  assert (LX : length x = 48%nat) by (unfold x; rewrite xor_length; rewrite expand_length; lia).
  pose proof (index_u rho v0 _ _ _ _ _ RA RR (combine_grp same _ _ (fun j => 2 * j)%nat Cu) ltac:(reflexivity)) as IU.
  pose proof (index_t rho (Z.shiftl v1 4) _ _ _ _ _ RB RR (combine_grp osame _ _ (fun j => 2 * j + 1)%nat Ct) ltac:(reflexivity)) as IT.
  rewrite map_map in IU, IT.
  assert (G : forall i, B (map (evb rho) (grp i (xsum v0 v1))) = B (grp i x)) by (intros i; rewrite grp_map, EX; reflexivity).
  cbn [map seq] in IU, IT. rewrite !G in IU, IT. cbn [Nat.mul Nat.add] in IU, IT.
  apply list4 in IU as (U0 & U1 & U2 & U3). apply list4 in IT as (T0 & T1 & T2 & T3).
  unfold feistel. cbv zeta. cbn [fst snd].
  fold (word_u v0 (B (ka false K)) (W R)). 
  change (Z.lor (Z.land (Z.shiftr (Z.lxor (Z.lxor (Z.lxor (Z.land (Z.lxor (W R) (Z.land (Z.shiftr (W R) 16) 0xffff)) (Z.shiftl v1 4)) (Z.shiftl (Z.land (Z.lxor (W R) (Z.land (Z.shiftr (W R) 16) 0xffff)) (Z.shiftl v1 4)) 16)) (W R)) (B (kb false K))) 4) 0x0fffffff) (Z.shiftl (Z.lxor (Z.lxor (Z.lxor (Z.land (Z.lxor (W R) (Z.land (Z.shiftr (W R) 16) 0xffff)) (Z.shiftl v1 4)) (Z.shiftl (Z.land (Z.lxor (W R) (Z.land (Z.shiftr (W R) 16) 0xffff)) (Z.shiftl v1 4)) 16)) (W R)) (B (kb false K))) 28))
    with (word_t (Z.shiftl v1 4) (B (kb false K)) (W R)).
  rewrite U0, U1, U2, U3, T0, T1, T2, T3.
  assert (Tb : forall i, (i < 8)%nat -> at_ (SP i) (B (grp i x)) = W (pick false P_table (placed i (S_box i (grp i x))))).
  { intros i Hi. apply table_spec; [exact Hi|]. apply grp_len; assumption. }
  rewrite !Tb by lia.
  assert (PL : forall i, length (pick false P_table (placed i (S_box i (grp i x)))) = 32%nat) by (intros i; rewrite pick_length; reflexivity).
  unfold cipher_f. cbv zeta. fold x.
  rewrite <- (eight (fun i => S_box i (group i x))) by (intros i Hi; apply S_length, (grp_len x); assumption).
  cbv beta zeta. rewrite xor_comm. change (@grp bool) with group in *.
  rewrite !W_xor; rewrite ?xor_length; rewrite ?PL; try reflexivity; try assumption.
Qed.
