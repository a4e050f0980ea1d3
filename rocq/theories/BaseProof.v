(** BaseProof.v: lemmas about Base.v *)
From Verif Require Export Base.
Ltac Zify.zify_post_hook ::= Z.div_mod_to_equations.

Ltac inv H := inversion H; clear H; subst.

Lemma is_byteb_spec b : is_byteb b = true <-> is_byte b.
Proof. unfold is_byteb, is_byte. lia. Qed.
Lemma is_bytesb_spec l : is_bytesb l = true <-> is_bytes l.
Proof.
  unfold is_bytesb, is_bytes. rewrite forallb_forall, Forall_forall.
  split; intros H x Hx; specialize (H x Hx); apply is_byteb_spec; assumption.
Qed.
Lemma is_bytes_app a b : is_bytes (a ++ b) <-> is_bytes a /\ is_bytes b.
Proof. unfold is_bytes. apply Forall_app. Qed.

Lemma pow256_pos n : 0 < 256 ^ Z.of_nat n.
Proof. apply Z.pow_pos_nonneg; lia. Qed.
Lemma pow256_S n : 256 ^ Z.of_nat (S n) = 256 * 256 ^ Z.of_nat n.
Proof. rewrite Nat2Z.inj_succ, Z.pow_succ_r; lia. Qed.

Lemma be_length n x : length (be n x) = n.
Proof.
  revert x; induction n as [|n IH]; intros x; cbn [be]; [reflexivity|].
  rewrite app_length, IH; cbn [length]; lia.
Qed.
Lemma len_be n x : len (be n x) = Z.of_nat n.
Proof. unfold len. rewrite be_length. reflexivity. Qed.
Lemma be_bytes n x : is_bytes (be n x).
Proof.
  revert x; induction n as [|n IH]; intros x; cbn [be]; [constructor|].
  apply Forall_app; split; [apply IH|]. constructor; [|constructor].
  unfold is_byte. pose proof (Z.mod_pos_bound x 256). lia.
Qed.

Lemma unbe_snoc l x : unbe (l ++ [x]) = unbe l * 256 + x.
Proof. unfold unbe. rewrite fold_left_app. reflexivity. Qed.

Lemma unbe_be n x : 0 <= x < 256 ^ Z.of_nat n -> unbe (be n x) = x.
Proof.
  revert x; induction n as [|n IH]; intros x H.
  - cbn in *. unfold unbe; cbn. lia.
  - cbn [be]. rewrite unbe_snoc, IH.
    + lia.
    + rewrite pow256_S in H. split; [apply Z.div_pos; lia|].
      apply Z.div_lt_upper_bound; lia.
Qed.

Lemma unbe_range l : is_bytes l -> 0 <= unbe l < 256 ^ Z.of_nat (length l).
Proof.
  induction l as [|x l IH] using rev_ind; intros H.
  - cbn. lia.
  - apply is_bytes_app in H as [H1 H2]. inv H2. specialize (IH H1).
    rewrite unbe_snoc, app_length. cbn [length].
    replace (length l + 1)%nat with (S (length l)) by lia.
    rewrite pow256_S. unfold is_byte in *. lia.
Qed.

Lemma be_unbe l : is_bytes l -> be (length l) (unbe l) = l.
Proof.
  induction l as [|x l IH] using rev_ind; intros H; [reflexivity|].
  apply is_bytes_app in H as [H1 H2]. inv H2.
  rewrite app_length, unbe_snoc. cbn [length].
  replace (length l + 1)%nat with (S (length l)) by lia. cbn [be].
  unfold is_byte in *.
  replace ((unbe l * 256 + x) / 256) with (unbe l) by lia.
  replace ((unbe l * 256 + x) mod 256) with x by lia.
  rewrite IH; auto.
Qed.

Lemma firstn_app_exact {A} (l r : list A) n : length l = n -> firstn n (l ++ r) = l.
Proof. intros <-. rewrite firstn_app, Nat.sub_diag, firstn_all. cbn. apply app_nil_r. Qed.
Lemma skipn_app_exact {A} (l r : list A) n : length l = n -> skipn n (l ++ r) = r.
Proof. intros <-. rewrite skipn_app, Nat.sub_diag, skipn_all. reflexivity. Qed.

Lemma pack_u_ok n x : 0 <= x < 256 ^ Z.of_nat n -> pack_u n x = Ok (be n x).
Proof. intros H. unfold pack_u. destruct (_ && _) eqn:E; [reflexivity|lia]. Qed.
Lemma pack_u_inv n x d : pack_u n x = Ok d -> 0 <= x < 256 ^ Z.of_nat n /\ d = be n x.
Proof. unfold pack_u. destruct (_ && _) eqn:E; intros H; inv H. split; [lia|reflexivity]. Qed.
Lemma unpack_u_be n x r : 0 <= x < 256 ^ Z.of_nat n -> unpack_u n (be n x ++ r) = Ok x.
Proof.
  intros H. unfold unpack_u. rewrite app_length, be_length.
  destruct (Nat.ltb_spec (n + length r) n); [lia|].
  rewrite firstn_app_exact by apply be_length. rewrite unbe_be; auto.
Qed.
Lemma unpack_pack_u n x d r : pack_u n x = Ok d -> unpack_u n (d ++ r) = Ok x.
Proof. intros H. apply pack_u_inv in H as [H ->]. apply unpack_u_be; auto. Qed.

Lemma half_pow n : (0 < n)%nat -> 2 * (256 ^ Z.of_nat n / 2) = 256 ^ Z.of_nat n.
Proof.
  intros H. destruct n as [|n]; [lia|]. rewrite pow256_S. lia.
Qed.

Lemma pack_s_ok n x : - (256 ^ Z.of_nat n / 2) <= x < 256 ^ Z.of_nat n / 2 ->
  pack_s n x = Ok (be n (x mod 256 ^ Z.of_nat n)).
Proof. intros H. unfold pack_s. destruct (_ && _) eqn:E; [reflexivity|lia]. Qed.
Lemma pack_s_inv n x d : pack_s n x = Ok d ->
  - (256 ^ Z.of_nat n / 2) <= x < 256 ^ Z.of_nat n / 2 /\ d = be n (x mod 256 ^ Z.of_nat n).
Proof. unfold pack_s. destruct (_ && _) eqn:E; intros H; inv H. split; [lia|reflexivity]. Qed.

Lemma to_signed_mod n x : (0 < n)%nat ->
  - (256 ^ Z.of_nat n / 2) <= x < 256 ^ Z.of_nat n / 2 ->
  to_signed n (x mod 256 ^ Z.of_nat n) = x.
Proof.
  intros Hn H. pose proof (half_pow n Hn) as Hp. pose proof (pow256_pos n) as Hq.
  unfold to_signed. set (m := 256 ^ Z.of_nat n) in *. clearbody m.
  set (h := m / 2) in *. clearbody h. subst m.
  destruct (Z.leb_spec 0 x).
  - rewrite Z.mod_small by lia. destruct (Z.ltb_spec x h); lia.
  - replace (x mod (2 * h)) with (x + 2 * h).
    + destruct (Z.ltb_spec (x + 2 * h) h); lia.
    + apply Z.mod_unique with (q := -1); lia.
Qed.

Lemma unpack_pack_s n x d r : (0 < n)%nat -> pack_s n x = Ok d -> unpack_s n (d ++ r) = Ok x.
Proof.
  intros Hn H. apply pack_s_inv in H as [H ->]. unfold unpack_s.
  rewrite unpack_u_be by (apply Z.mod_pos_bound, pow256_pos). cbn [bind].
  rewrite to_signed_mod; auto.
Qed.

Lemma unpack_u_ok n d : (n <= length d)%nat -> unpack_u n d = Ok (unbe (firstn n d)).
Proof. intros H. unfold unpack_u. destruct (Nat.ltb_spec (length d) n); [lia|reflexivity]. Qed.

Lemma is_bytes_firstn n l : is_bytes l -> is_bytes (firstn n l).
Proof. unfold is_bytes. revert n; induction l as [|x l IH]; intros [|n] H; cbn; auto.
  inv H. constructor; auto. Qed.
Lemma is_bytes_skipn n l : is_bytes l -> is_bytes (skipn n l).
Proof. unfold is_bytes. revert n; induction l as [|x l IH]; intros [|n] H; cbn; auto.
  inv H. auto. Qed.

Lemma pack_unpack_u n d x : is_bytes d -> length d = n -> unpack_u n d = Ok x -> pack_u n x = Ok d.
Proof.
  intros Hb Hl H. rewrite unpack_u_ok in H by lia. inv H.
  rewrite firstn_all. rewrite pack_u_ok by (apply unbe_range; auto). rewrite be_unbe; auto.
Qed.

Lemma pack_unpack_s n d x : (0 < n)%nat -> is_bytes d -> length d = n -> unpack_s n d = Ok x -> pack_s n x = Ok d.
Proof.
  intros Hn Hb Hl H. unfold unpack_s in H. rewrite unpack_u_ok in H by lia. cbn [bind] in H. inv H.
  rewrite firstn_all. pose proof (unbe_range d Hb) as Hr. pose proof (half_pow _ Hn) as Hp.
  rewrite pack_s_ok.
  - f_equal. transitivity (be (length d) (unbe d)); [|apply be_unbe; auto]. f_equal. unfold to_signed.
    destruct (_ <? _) eqn:E.
    + apply Z.mod_small; auto.
    + symmetry. apply Z.mod_unique with (q := -1); lia.
  - unfold to_signed. destruct (_ <? _) eqn:E; lia.
Qed.

Lemma seqb_eq a b : seqb a b = true <-> a = b.
Proof.
  revert b; induction a as [|x a IH]; intros [|y b]; cbn; try (split; congruence).
  rewrite andb_true_iff, IH, Z.eqb_eq. split; [intros [-> ->]; auto | intros H; inv H; auto].
Qed.
Lemma seqb_refl a : seqb a a = true.
Proof. apply seqb_eq; reflexivity. Qed.
Lemma seqb_neq a b : seqb a b = false <-> a <> b.
Proof. rewrite <- seqb_eq. destruct (seqb a b); split; congruence. Qed.
Lemma prefixb_spec p l : prefixb p l = true <-> exists r, l = p ++ r.
Proof.
  revert l; induction p as [|x p IH]; intros l; cbn.
  - split; eauto.
  - destruct l as [|y l].
    + split; [congruence|]. intros [r H]; discriminate.
    + rewrite andb_true_iff, IH, Z.eqb_eq. split.
      * intros [-> [r ->]]. eauto.
      * intros [r H]. inv H. eauto.
Qed.
Lemma memZ_In x l : memZ x l = true <-> In x l.
Proof.
  unfold memZ. rewrite existsb_exists. split.
  - intros [y [H1 H2]]. apply Z.eqb_eq in H2 as ->. auto.
  - intros H. exists x. rewrite Z.eqb_refl. auto.
Qed.
Lemma memZ_not_In x l : memZ x l = false <-> ~ In x l.
Proof. rewrite <- memZ_In. destruct (memZ x l); split; congruence. Qed.

Lemma mapM_length {A B} (f : A -> res B) l r : mapM f l = Ok r -> length r = length l.
Proof.
  revert r; induction l as [|x l IH]; intros r H; cbn in H.
  - inv H; auto.
  - destruct (f x); cbn in H; [|discriminate]. destruct (mapM f l); cbn in H; [|discriminate].
    inv H. cbn. f_equal. auto.
Qed.
Lemma mapM_Forall2 {A B} (f : A -> res B) l r :
  mapM f l = Ok r <-> Forall2 (fun x y => f x = Ok y) l r.
Proof.
  split.
  - revert r; induction l as [|x l IH]; intros r H; cbn in H.
    + inv H; constructor.
    + destruct (f x) eqn:E; cbn in H; [|discriminate]. destruct (mapM f l); cbn in H; [|discriminate].
      inv H. constructor; auto.
  - induction 1 as [|x y l r H1 H2 IH]; cbn; auto. rewrite H1, IH. reflexivity.
Qed.

Lemma bind_Ok {A B} (m : res A) (f : A -> res B) b :
  bind m f = Ok b -> exists a, m = Ok a /\ f a = Ok b.
Proof. destruct m as [a|e]; cbn; [eauto|discriminate]. Qed.

Lemma Ok_inj {A} (a b : A) : Ok a = Ok b -> a = b.
Proof. intros H. injection H. auto. Qed.
(** like inversion on [Ok a = Ok b], without unfolding anything *)
Ltac okinv H := apply Ok_inj in H; try subst.

(** destructs a [do] that evaluated to [Ok] *)
Ltac binv H :=
  let a := fresh "a" in let E := fresh "E" in
  apply bind_Ok in H as [a [E H]].

Lemma Forall2_len {A B} (R : A -> B -> Prop) l m : Forall2 R l m -> length l = length m.
Proof. induction 1; cbn; auto. Qed.
Lemma len_app {A} (a b : list A) : len (a ++ b) = len a + len b.
Proof. unfold len. rewrite app_length. lia. Qed.
Lemma len_nonneg {A} (a : list A) : 0 <= len a.
Proof. unfold len. lia. Qed.
Lemma len_cons {A} (x : A) l : len (x :: l) = 1 + len l.
Proof. unfold len. cbn [length]. lia. Qed.

(* keep [be]/[unbe] folded in later files; use the lemmas above *)
Global Arguments be : simpl never.
Global Arguments unbe : simpl never.
