(** CrypProof.v: words whose bits are sums (mod 2) of variables *)
From Verif Require Import Base CrypTable CrypModel CrypSpec.
From Coq Require Import Bool NArith Nnat.

(** the number with these bits, the least significant one first *)
Fixpoint B (l : list bool) : Z := match l with [] => 0 | b :: r => Z.b2z b + 2 * B r end.
Lemma B_bit l : forall n, 0 <= n -> Z.testbit (B l) n = nth (Z.to_nat n) l false.
Proof.
  induction l as [|b l IH]; intros n Hn.
  - rewrite Z.bits_0. destruct (Z.to_nat n); reflexivity.
  - cbn [B]. destruct (Z.eq_dec n 0) as [->|N0].
    + rewrite Z.add_comm, Z.testbit_0_r. reflexivity.
    + replace n with (Z.succ (n - 1)) by lia. rewrite Z.add_comm, Z.testbit_succ_r by lia.
      rewrite IH by lia. replace (Z.to_nat (Z.succ (n - 1))) with (S (Z.to_nat (n - 1))) by lia. reflexivity.
Qed.
Lemma B_range l : 0 <= B l < 2 ^ Z.of_nat (length l).
Proof.
  induction l as [|b l IH]; cbn [B length]; [cbn; lia|].
  rewrite Nat2Z.inj_succ, Z.pow_succ_r by lia. destruct b; cbn [Z.b2z]; lia.
Qed.

(** *** a sum of variables: a bit for each variable *)
Section Sym.
Variable rho : nat -> bool.
Fixpoint evp (i : nat) (p : positive) : bool :=
  match p with xH => rho i | xO p => evp (S i) p | xI p => xorb (rho i) (evp (S i) p) end.
Definition evn (i : nat) (s : N) : bool := match s with N0 => false | Npos p => evp i p end.
Definition evb (s : N) : bool := evn 0 s.
Lemma evn_double i s : evn i (Pos.Ndouble s) = evn (S i) s.
Proof. destruct s; reflexivity. Qed.
Lemma evn_succ_double i s : evn i (Pos.Nsucc_double s) = xorb (rho i) (evn (S i) s).
Proof. destruct s; cbn; [symmetry; apply xorb_false_r|reflexivity]. Qed.
Lemma evp_xor p : forall q i, evn i (Pos.lxor p q) = xorb (evp i p) (evp i q).
Proof.
  induction p as [p IH|p IH|]; intros [q|q|] i; cbn [Pos.lxor evp].
  - rewrite evn_double, IH. destruct (rho i), (evp (S i) p), (evp (S i) q); reflexivity.
  - rewrite evn_succ_double, IH. destruct (rho i), (evp (S i) p), (evp (S i) q); reflexivity.
  - cbn [evn evp]. destruct (rho i), (evp (S i) p); reflexivity.
  - rewrite evn_succ_double, IH. destruct (rho i), (evp (S i) p), (evp (S i) q); reflexivity.
  - rewrite evn_double, IH. reflexivity.
  - cbn [evn evp]. destruct (rho i), (evp (S i) p); reflexivity.
  - cbn [evn evp]. destruct (rho i), (evp (S i) q); reflexivity.
  - cbn [evn evp]. destruct (rho i), (evp (S i) q); reflexivity.
  - cbn [evn evp]. symmetry. apply xorb_nilpotent.
Qed.
Lemma evb_xor a b : evb (N.lxor a b) = xorb (evb a) (evb b).
Proof.
  destruct a as [|p], b as [|q]; unfold evb; cbn [N.lxor evn].
  - reflexivity.
  - destruct (evp 0 q); reflexivity.
  - symmetry. apply xorb_false_r.
  - apply evp_xor.
Qed.
(** the variable i *)
Definition var (i : nat) : N := N.pow 2 (N.of_nat i).
Lemma evp_iter n i q : evn i (N.shiftl (Npos q) (N.of_nat n)) = evp (i + n) q.
Proof.
  revert i q. induction n as [|n IH]; intros i q; [cbn; rewrite Nat.add_0_r; reflexivity|].
  rewrite Nat2N.inj_succ, <- N.add_1_r, N.add_comm, <- N.shiftl_shiftl.
  change (N.shiftl (N.pos q) 1) with (N.pos (q~0)). rewrite IH. cbn [evp]. f_equal. lia.
Qed.
Lemma evb_var i : evb (var i) = rho i.
Proof. unfold var, evb. rewrite <- N.shiftl_1_l. rewrite evp_iter. reflexivity. Qed.

(** *** words *)
Definition evw (l : list N) : Z := B (map evb l).
Lemma evw_bit l n : 0 <= n -> Z.testbit (evw l) n = evb (nth (Z.to_nat n) l 0%N).
Proof.
  intros Hn. unfold evw. rewrite B_bit by exact Hn. change false with (evb 0%N). apply map_nth.
Qed.
Definition rep (z : Z) (l : list N) : Prop := z = evw l.
Lemma rep_bits z l : (forall n, 0 <= n -> Z.testbit z n = evb (nth (Z.to_nat n) l 0%N)) -> rep z l.
Proof. intros H. apply Z.bits_inj'. intros n Hn. rewrite H, evw_bit by exact Hn. reflexivity. Qed.
End Sym.

Definition xshl (n : nat) (l : list N) : list N := repeat 0%N n ++ l.
Definition xshr (n : nat) (l : list N) : list N := skipn n l.
Fixpoint xand (m : Z) (l : list N) : list N :=
  match l with [] => [] | b :: r => (if Z.odd m then b else 0%N) :: xand (Z.div2 m) r end.
Fixpoint xxor (a b : list N) : list N :=
  match a, b with
  | [], _ => b
  | _, [] => a
  | x :: a, y :: b => N.lxor x y :: xxor a b
  end.
Fixpoint apart (a b : list N) : bool :=
  match a, b with
  | x :: a, y :: b => ((x =? 0) || (y =? 0))%N && apart a b
  | _, _ => true
  end.
Definition xor_ (a b : option (list N)) : option (list N) :=
  match a, b with Some a, Some b => if apart a b then Some (xxor a b) else None | _, _ => None end.
(** looking up in a table that is linear *)
Definition basis (T : list Z) : list Z := [at_ T 1; at_ T 2; at_ T 4; at_ T 8; at_ T 16; at_ T 32].
Fixpoint sumz (bs : list bool) (t : list Z) : Z :=
  match bs, t with b :: bs, x :: t => Z.lxor (if b then x else 0) (sumz bs t) | _, _ => 0 end.
Definition cube6 : list (list bool) := let B := [false; true] in
  flat_map (fun a => flat_map (fun b => flat_map (fun c => flat_map (fun d => flat_map (fun e => map (fun f => [a; b; c; d; e; f]) B) B) B) B) B) B.
Definition linear (T : list Z) : bool := forallb (fun g => at_ T (B g) =? sumz g (basis T)) cube6 && forallb (fun x => (0 <=? x) && (x <? 2 ^ 32)) (basis T).
Fixpoint wsum (i : list N) (t : list Z) (p : nat) : N :=
  match i, t with b :: i, x :: t => N.lxor (if Z.testbit x (Z.of_nat p) then b else 0%N) (wsum i t p) | _, _ => 0%N end.
Definition xlook (T : list Z) (i : option (list N)) : option (list N) :=
  match i with
  | Some i =>
      if linear T && (6 <=? length i)%nat && forallb (fun b => (b =? 0)%N) (skipn 6 i)
      then Some (map (wsum (firstn 6 i) (basis T)) (seq 0 32)) else None
  | None => None
  end.

Section Sound.
Variable rho : nat -> bool.
Notation rep := (rep rho).
Notation evb := (evb rho).
Lemma rep_shl a la n : rep a la -> rep (Z.shiftl a (Z.of_nat n)) (xshl n la).
Proof.
  intros H. apply rep_bits. intros m Hm. unfold xshl. rewrite Z.shiftl_spec by exact Hm.
  destruct (Z.ltb_spec m (Z.of_nat n)) as [L|L].
  - rewrite Z.testbit_neg_r by lia. rewrite app_nth1 by (rewrite repeat_length; lia). rewrite nth_repeat. reflexivity.
  - rewrite app_nth2 by (rewrite repeat_length; lia). rewrite repeat_length. rewrite H, evw_bit by lia.
    f_equal. f_equal. lia.
Qed.
Lemma rep_shr a la n : rep a la -> rep (Z.shiftr a (Z.of_nat n)) (xshr n la).
Proof.
  intros H. apply rep_bits. intros m Hm. unfold xshr. rewrite Z.shiftr_spec by exact Hm.
  rewrite H, evw_bit by lia. f_equal.
  replace (Z.to_nat (m + Z.of_nat n)) with (n + Z.to_nat m)%nat by lia.
  generalize (Z.to_nat m) as k. clear. revert la. induction n as [|n IH]; intros la k; [reflexivity|].
  destruct la; cbn [skipn Nat.add nth]; [destruct k; reflexivity|apply IH].
Qed.
Lemma xand_nth m l : forall n, nth n (xand m l) 0%N = if Z.testbit m (Z.of_nat n) then nth n l 0%N else 0%N.
Proof.
  revert m. induction l as [|b l IH]; intros m n; cbn [xand].
  - destruct n; cbn [nth]; match goal with |- context [Z.testbit ?x ?y] => destruct (Z.testbit x y) end; reflexivity.
  - destruct n as [|n]; cbn [nth].
    + rewrite Z.bit0_odd. reflexivity.
    + rewrite IH. rewrite Z.div2_spec, Z.shiftr_spec by lia. replace (Z.of_nat n + 1) with (Z.of_nat (S n)) by lia. reflexivity.
Qed.
Lemma rep_and a la m : rep a la -> rep (Z.land a m) (xand m la).
Proof.
  intros H. apply rep_bits. intros n Hn. rewrite Z.land_spec, H, evw_bit by exact Hn.
  rewrite xand_nth. rewrite Z2Nat.id by exact Hn. destruct (Z.testbit m n); [apply andb_true_r|apply andb_false_r].
Qed.
Lemma xxor_nth a : forall b n, nth n (xxor a b) 0%N = N.lxor (nth n a 0%N) (nth n b 0%N).
Proof.
  induction a as [|x a IH]; intros b n.
  - cbn [xxor]. destruct n; cbn [nth]; rewrite N.lxor_0_l; reflexivity.
  - destruct b as [|y b]; cbn [xxor].
    + destruct n; cbn [nth]; rewrite N.lxor_0_r; reflexivity.
    + destruct n; cbn [nth]; [reflexivity|apply IH].
Qed.
Lemma rep_xor a b la lb : rep a la -> rep b lb -> rep (Z.lxor a b) (xxor la lb).
Proof.
  intros Ha Hb. apply rep_bits. intros n Hn. rewrite Z.lxor_spec, Ha, Hb, !evw_bit by exact Hn.
  rewrite xxor_nth, evb_xor. reflexivity.
Qed.
Lemma apart_nth a : forall b n, apart a b = true -> nth n a 0%N = 0%N \/ nth n b 0%N = 0%N.
Proof.
  induction a as [|x a IH]; intros b n H; [left; destruct n; reflexivity|].
  destruct b as [|y b]; [right; destruct n; reflexivity|].
  cbn [apart] in H. apply andb_prop in H as [H1 H2]. destruct n as [|n]; cbn [nth]; [|apply IH; exact H2].
  apply orb_prop in H1 as [H1|H1]; apply N.eqb_eq in H1; auto.
Qed.
(** [orep z o]: [o] is the word of [z], if it is one *)
Definition orep (z : Z) (o : option (list N)) : Prop := forall l, o = Some l -> rep z l.
Lemma orep_some z l : rep z l -> orep z (Some l).
Proof. intros H l' E. injection E as <-. exact H. Qed.
Lemma orep_or a b la lb : orep a la -> orep b lb -> orep (Z.lor a b) (xor_ la lb).
Proof.
  intros Ha Hb l E. destruct la as [la|], lb as [lb|]; try discriminate E. cbn [xor_] in E.
  destruct (apart la lb) eqn:Ap; [|discriminate E]. injection E as <-.
  specialize (Ha _ eq_refl). specialize (Hb _ eq_refl).
  apply rep_bits. intros n Hn. rewrite Z.lor_spec, Ha, Hb, !evw_bit by exact Hn.
  rewrite xxor_nth, evb_xor. destruct (apart_nth la lb (Z.to_nat n) Ap) as [-> | ->];
    change (evb 0%N) with false.
  - destruct (evb _); reflexivity.
  - rewrite orb_false_r, xorb_false_r. reflexivity.
Qed.
Lemma cube6_in a b c d e f : In [a; b; c; d; e; f] cube6.
Proof. destruct a, b, c, d, e, f; vm_compute; tauto. Qed.
Lemma sumz_bit bs : forall t n, 0 <= n -> Z.testbit (sumz (map evb bs) t) n = evb (wsum bs t (Z.to_nat n)).
Proof.
  induction bs as [|b bs IH]; intros t n Hn; cbn [map sumz wsum]; [apply Z.bits_0|].
  destruct t as [|x t]; [apply Z.bits_0|].
  rewrite Z.lxor_spec, IH, evb_xor by exact Hn. f_equal. rewrite Z2Nat.id by exact Hn.
  destruct (evb b) eqn:Eb; destruct (Z.testbit x n) eqn:Ex; try rewrite Z.bits_0; try rewrite Ex; try rewrite Eb; reflexivity.
Qed.
Lemma wsum_big i t p : forallb (fun x => (0 <=? x) && (x <? 2 ^ 32)) t = true -> (32 <= p)%nat -> wsum i t p = 0%N.
Proof.
  intros Ft Hp. revert i. induction t as [|x t IH]; intros [|b i]; try reflexivity.
  cbn [forallb] in Ft. apply andb_prop in Ft as [H Ft]. apply andb_prop in H as [H1 H2].
  cbn [wsum]. rewrite (IH Ft).
  replace (Z.testbit x (Z.of_nat p)) with false; [reflexivity|]. symmetry.
  destruct (Z.eq_dec x 0) as [->|]; [apply Z.bits_0|].
  apply Z.bits_above_log2; [lia|]. apply Z.log2_lt_pow2; [lia|].
  apply Z.leb_le in H1. apply Z.ltb_lt in H2. eapply Z.lt_le_trans; [exact H2|]. apply Z.pow_le_mono_r; lia.
Qed.
Lemma orep_look T z i : orep z i -> orep (at_ T z) (xlook T i).
Proof.
  intros Hi l E. destruct i as [i|]; [|discriminate E]. cbn [xlook] in E.
  destruct (linear T && (6 <=? length i)%nat && forallb (fun b => (b =? 0)%N) (skipn 6 i)) eqn:C; [|discriminate E].
  apply (f_equal (fun o => match o with Some x => x | None => [] end)) in E. cbv beta match in E. subst l.
  apply andb_prop in C as [C Z6]. apply andb_prop in C as [Lin L6].
  specialize (Hi _ eq_refl). hnf in Hi. subst z.
  do 6 (destruct i as [|? i]; [discriminate L6|]). cbn [skipn firstn] in *.
  assert (Bz : forall i, forallb (fun b => (b =? 0)%N) i = true -> B (map evb i) = 0).
  { clear. induction i as [|b i IH]; intros H; [reflexivity|]. cbn [forallb] in H. apply andb_prop in H as [H1 H2].
    apply N.eqb_eq in H1 as ->. cbn [map B]. rewrite IH by exact H2. reflexivity. }
  assert (Ev : evw rho (n :: n0 :: n1 :: n2 :: n3 :: n4 :: i) = B [evb n; evb n0; evb n1; evb n2; evb n3; evb n4]).
  { unfold evw. cbn [map B]. rewrite (Bz i Z6). reflexivity. }
  rewrite Ev. unfold linear in Lin. apply andb_prop in Lin as [Lin Fb].
  rewrite forallb_forall in Lin. specialize (Lin _ (cube6_in (evb n) (evb n0) (evb n1) (evb n2) (evb n3) (evb n4))).
  apply Z.eqb_eq in Lin. rewrite Lin.
  apply rep_bits. intros m Hm.
  change [evb n; evb n0; evb n1; evb n2; evb n3; evb n4] with (map evb [n; n0; n1; n2; n3; n4]).
  rewrite sumz_bit by exact Hm. f_equal.
  destruct (le_lt_dec 32 (Z.to_nat m)) as [Hb|Hb].
  - rewrite wsum_big by assumption. rewrite nth_overflow; [reflexivity|]. rewrite map_length, seq_length. exact Hb.
  - rewrite (nth_indep _ 0%N (wsum [n; n0; n1; n2; n3; n4] (basis T) 0)) by (rewrite map_length, seq_length; exact Hb).
    rewrite map_nth, seq_nth by exact Hb. reflexivity.
Qed.
End Sound.
