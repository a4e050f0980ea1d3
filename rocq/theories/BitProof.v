From Verif Require Import Base PyStr PyStrProof PyInt BaseProof ArrayModel ArraySpec TypeIOModel TypeIOSpec TypeIOProof3 BitModel.

Section bits.
Context (U : unicode) (dv : decimals).

Lemma int_char_bits s : is_bits s -> map (int_char U dv) s = s.
Proof. intros B. induction B as [|c s C B IH]; cbn [map]; [reflexivity|]. rewrite IH. destruct C as [-> | ->]; reflexivity. Qed.
Lemma mapM_bits s : is_bits s -> mapM bit_of s = Ok (map (fun c => c - 48) s).
Proof. intros B. induction B as [|c s C B IH]; cbn [mapM map]; [reflexivity|]. rewrite IH. destruct C as [-> | ->]; reflexivity. Qed.
Lemma int_digits_bits s : forall acc, is_bits s -> int_digits 2 acc false s = Some (fold_left (fun a b => a * 2 + b) (map (fun c => c - 48) s) acc, []).
Proof. induction s as [|c s IH]; intros acc B; [reflexivity|]. inversion B as [|? ? C B2]; subst. cbn [int_digits map fold_left]. destruct C as [-> | ->]; cbn -[Z.mul Z.add int_digits]; (rewrite IH; [reflexivity|exact B2]). Qed.
Lemma ascii_int_bits s : is_bits s -> s <> [] -> ascii_int 2 s = Ok (fold_left (fun a b => a * 2 + b) (map (fun c => c - 48) s) 0).
Proof.
  intros B N. destruct s as [|c s]; [congruence|]. inversion B as [|? ? C B2]; subst. unfold ascii_int.
  assert (E1 : lstrip_by c_space (c :: s) = c :: s) by (destruct C as [-> | ->]; reflexivity). rewrite E1.
  assert (E2 : sign_of (c :: s) = (1, c :: s)) by (destruct C as [-> | ->]; reflexivity). rewrite E2.
  assert (E3 : skip_prefix 2 (c :: s) = c :: s).
  { destruct s as [|d s]; [reflexivity|]. inversion B2 as [|? ? D B3]; subst. unfold skip_prefix. destruct C as [-> | ->]; [|reflexivity]. destruct D as [-> | ->]; reflexivity. }
  rewrite E3. assert (E4 : digit_value c <? 2 = true) by (destruct C as [-> | ->]; reflexivity). rewrite E4. cbn [negb].
  rewrite int_digits_bits by exact B. cbn [lstrip_by]. f_equal. lia.
Qed.
Lemma py_int_bits s : is_bits s -> py_int U dv 2 s = int_base2 s.
Proof.
  intros B. unfold py_int. rewrite int_char_bits by exact B. destruct s as [|c s]; [reflexivity|]. rewrite ascii_int_bits; [|exact B|discriminate].
  unfold int_base2. rewrite mapM_bits by exact B. reflexivity.
Qed.
Lemma pack_text_bits fuel : forall s, is_bits s -> (length s <= fuel)%nat -> pack_text U dv fuel s = pack_bits fuel s.
Proof.
  assert (E : forall s, is_bits s -> length s = 8%nat -> byte_of U dv s = int_base2 s).
  { intros s B L. unfold byte_of. rewrite py_int_bits by exact B. destruct (bits8 s B L) as (b & -> & H & _). cbn [bind]. unfold is_byte in H. destruct (Z.leb_spec 0 b), (Z.ltb_spec b 256); try lia. reflexivity. }
  induction fuel as [|fuel IH]; intros s B L; [reflexivity|]. destruct s as [|c s0]; [reflexivity|]. cbn [pack_text pack_bits]. set (s := c :: s0) in *. clearbody s.
  destruct (Nat.ltb_spec (length s) 8) as [H|H].
  - rewrite E; [reflexivity| |].
    + unfold ljust8. apply is_bits_app. split; [exact B|apply is_bits_repeat].
    + unfold ljust8. rewrite app_length, repeat_length. lia.
  - rewrite E; [|apply Forall_forall; intros x X; rewrite <- (firstn_skipn 8 s) in B; unfold is_bits in B; rewrite Forall_app in B; destruct B as [B _]; rewrite Forall_forall in B; apply B, X|rewrite firstn_length; lia].
    destruct (int_base2 _); [|reflexivity]. cbn [bind]. rewrite IH; [reflexivity| |rewrite skipn_length; lia].
    rewrite <- (firstn_skipn 8 s) in B. unfold is_bits in *. rewrite Forall_app in B. apply B.
Qed.
Lemma new_bits s : is_bits s -> varbit_new U dv s = varbit_of_str s.
Proof. intros B. unfold varbit_new, varbit_of_str. rewrite pack_text_bits by (exact B || lia). reflexivity. Qed.

(** the bits of a text are those of one object *)
Lemma new_ok s : is_bits s -> exists d, varbit_new U dv s = Ok (len s, d) /\ varbit_str (len s, d) = Ok s /\ (len s = 1 -> d = [if nth 0 s 0 =? 49 then 128 else 0]).
Proof.
  intros B. destruct (varbit_of_str_ok s B) as (d & E & _ & _ & BA & _ & S & C). exists d. rewrite new_bits by exact B. split; [exact E|]. split; [exact S|].
  intros L. unfold len in L. specialize (BA O ltac:(lia)). destruct C as [C|[-> | ->]]; [unfold len in C; lia| |]; cbn in BA; rewrite <- BA; reflexivity.
Qed.
Lemma new_inj s t d e : is_bits s -> is_bits t -> varbit_new U dv s = Ok (len s, d) -> varbit_new U dv t = Ok (len t, e) -> (len s = len t /\ d = e) <-> s = t.
Proof.
  intros A B E F. split; [|intros ->; split; congruence]. intros [L ->]. destruct (new_ok s A) as (d' & E' & S & _). destruct (new_ok t B) as (e' & F' & T & _).
  assert (d' = e) by congruence. assert (e' = e) by congruence. subst. rewrite L in S. congruence.
Qed.
Lemma same_spec v w : same v w = true <-> v = w.
Proof.
  destruct v as [a d], w as [b e]. unfold same. cbn [fst snd]. rewrite andb_true_iff. split; [|intros [= -> ->]; split; [apply Z.eqb_refl|apply seqb_refl]].
  intros [A B]. apply Z.eqb_eq in A. apply seqb_eq in B. congruence.
Qed.
End bits.

(** what int(s, 2) accepts *)
Definition allowed (c : Z) : Prop := In c [9; 10; 11; 12; 13; 32; 43; 45; 48; 49; 66; 95; 98].
Lemma lstrip_allowed s : Forall allowed (lstrip_by c_space s) -> Forall allowed s.
Proof.
  induction s as [|c s IH]; cbn [lstrip_by]; [auto|]. destruct (c_space c) eqn:C; [|auto]. intros F. constructor; [|exact (IH F)].
  unfold c_space in C. unfold allowed. assert (c = 9 \/ c = 10 \/ c = 11 \/ c = 12 \/ c = 13 \/ c = 32) as K by lia. cbn [In]. lia.
Qed.
Lemma lstrip_nil s : lstrip_by c_space s = [] -> Forall allowed s.
Proof. intros E. apply lstrip_allowed. rewrite E. constructor. Qed.
Lemma digit_allowed c : digit_value c <? 2 = true -> allowed c.
Proof. unfold digit_value, ascii_digit, ascii_lowerc, ascii_upper, allowed. intros H. cbn [In]. destruct ((48 <=? c) && (c <=? 57)) eqn:A; [lia|]. destruct ((97 <=? c) && (c <=? 122)) eqn:B; [lia|]. destruct ((65 <=? c) && (c <=? 90)) eqn:D; lia. Qed.
Lemma int_digits_allowed s : forall acc prev v r, int_digits 2 acc prev s = Some (v, r) -> exists d, s = d ++ r /\ Forall allowed d.
Proof.
  induction s as [|c s IH]; intros acc prev v r E; cbn [int_digits] in E.
  - destruct prev; [discriminate|]. injection E as <- <-. exists []. split; [reflexivity|constructor].
  - destruct (Z.eqb_spec c 95) as [->|].
    + destruct prev; [discriminate|]. destruct (IH _ _ _ _ E) as (d & -> & F). exists (95 :: d). split; [reflexivity|]. constructor; [unfold allowed; cbn [In]; lia|exact F].
    + destruct (digit_value c <? 2) eqn:D.
      * destruct (IH _ _ _ _ E) as (d & -> & F). exists (c :: d). split; [reflexivity|]. constructor; [apply digit_allowed; exact D|exact F].
      * destruct prev; [discriminate|]. injection E as <- <-. exists []. split; [reflexivity|constructor].
Qed.
Lemma sign_allowed s : Forall allowed (snd (sign_of s)) -> Forall allowed s.
Proof.
  destruct s as [|c s]; [auto|]. cbn [sign_of]. destruct (Z.eqb_spec c 43) as [->|]; [|destruct (Z.eqb_spec c 45) as [->|]; [|auto]]; cbn [snd]; intros F; (constructor; [unfold allowed; cbn [In]; lia|exact F]).
Qed.
Lemma prefix_allowed s : Forall allowed (skip_prefix 2 s) -> Forall allowed s.
Proof.
  destruct s as [|z [|p r]]; auto. unfold skip_prefix. destruct (Z.eqb_spec z 48) as [->|]; [|auto]. cbn [negb]. change (2 =? 16) with false. change (2 =? 8) with false. change (2 =? 2) with true. cbn [andb orb].
  destruct ((p =? 98) || (p =? 66)) eqn:P; [|auto]. intros F. assert (allowed p) by (unfold allowed; cbn [In]; lia). assert (allowed 48) by (unfold allowed; cbn [In]; lia).
  destruct r as [|u r]; [auto|]. assert (allowed 95) by (unfold allowed; cbn [In]; lia).
  destruct (Z.eqb_spec u 95) as [->|]; repeat (apply Forall_cons; [assumption|]); assumption.
Qed.
Lemma ascii_int_allowed s n : ascii_int 2 s = Ok n -> Forall allowed s.
Proof.
  unfold ascii_int. intros E. apply lstrip_allowed. set (a := lstrip_by c_space s) in *. clearbody a. apply sign_allowed. destruct (sign_of a) as [sg b]. cbn [snd]. apply prefix_allowed. set (c := skip_prefix 2 b) in *. clearbody c.
  destruct c as [|x c]; [constructor|]. destruct (digit_value x <? 2); [|discriminate]. cbn [negb] in E. destruct (int_digits 2 0 false (x :: c)) as [[v r]|] eqn:D; [|discriminate].
  destruct (int_digits_allowed _ _ _ _ _ D) as (d & -> & F). apply Forall_app. split; [exact F|]. apply lstrip_nil. destruct (lstrip_by c_space r); [reflexivity|discriminate].
Qed.
Section reject.
Context (U : unicode) (dv : decimals).
Definition ascii (s : text) : Prop := Forall (fun c => 0 <= c < 128) s.
Lemma byte_allowed s n : ascii s -> byte_of U dv s = Ok n -> Forall allowed s.
Proof.
  intros A E. unfold byte_of, py_int in E. assert (M : map (int_char U dv) s = s).
  { clear E. induction A as [|c s C A IH]; [reflexivity|]. cbn [map]. rewrite IH. unfold int_char. destruct (Z.ltb_spec c 128); [reflexivity|lia]. }
  rewrite M in E. destruct (ascii_int 2 s) as [k|] eqn:K; [|discriminate]. exact (ascii_int_allowed _ _ K).
Qed.
Lemma Forall_app_r {A} (P : A -> Prop) a b : Forall P (a ++ b) -> Forall P a. Proof. intros F. apply Forall_app in F. tauto. Qed.
Lemma pack_text_allowed fuel : forall s d, ascii s -> pack_text U dv fuel s = Ok d -> Forall allowed s.
Proof.
  induction fuel as [|fuel IH]; intros s d A E; destruct s as [|c s0]; try discriminate; try apply Forall_nil. cbn [pack_text] in E. set (s := c :: s0) in *. clearbody s.
  destruct (length s <? 8)%nat.
  - destruct (byte_of U dv (ljust8 s)) as [b|] eqn:B; [|discriminate]. apply byte_allowed in B; [apply Forall_app_r in B; exact B|]. unfold ljust8, ascii. apply Forall_app. split; [exact A|].
    apply Forall_forall. intros x X. apply repeat_spec in X. lia.
  - destruct (byte_of U dv (firstn 8 s)) as [b|] eqn:B; [|discriminate]. cbn [bind] in E. destruct (pack_text U dv fuel (skipn 8 s)) as [r|] eqn:R; [|discriminate].
    unfold ascii in A. rewrite <- (firstn_skipn 8 s) in A |- *. apply Forall_app in A as [A1 A2]. apply Forall_app. split; [eapply byte_allowed; [exact A1|exact B]|eapply IH; [exact A2|exact R]].
Qed.
Lemma pack_text_length fuel : forall s d, (length s <= fuel)%nat -> pack_text U dv fuel s = Ok d -> length d = ((length s + 7) / 8)%nat.
Proof.
  induction fuel as [|fuel IH]; intros s d L E; destruct s as [|c s0]; try (cbn in L; lia); try (injection E as <-; reflexivity). cbn [pack_text] in E. set (s := c :: s0) in *. assert (N : (0 < length s)%nat) by (cbn; lia). clearbody s.
  destruct (Nat.ltb_spec (length s) 8).
  - destruct (byte_of U dv (ljust8 s)) as [b|]; [|discriminate]. injection E as <-. cbn [length]. apply (Nat.div_unique _ 8 1 (length s - 1)); lia.
  - destruct (byte_of U dv (firstn 8 s)) as [b|]; [|discriminate]. cbn [bind] in E. destruct (pack_text U dv fuel (skipn 8 s)) as [r|] eqn:R; [|discriminate]. injection E as <-. cbn [length].
    rewrite (IH (skipn 8 s) r ltac:(rewrite skipn_length; lia) R), skipn_length. assert (K : (length s + 7 = (length s - 8 + 7) + 1 * 8)%nat) by lia. rewrite K, Nat.div_add by lia. rewrite Nat.add_1_r. reflexivity.
Qed.
End reject.
Lemma mapM_in {A} (t : list A) idx r : mapM (pyindex t) idx = Ok r -> incl r t.
Proof.
  revert r. induction idx as [|i idx IH]; intros r E; cbn [mapM] in E; [injection E as <-; intros x []|]. destruct (pyindex t i) as [x|] eqn:P; [|discriminate]. destruct (mapM (pyindex t) idx) as [l|]; [|discriminate].
  injection E as <-. intros y [<-|Y]; [|exact (IH _ eq_refl y Y)]. unfold pyindex in P. destruct (_ && _); [|discriminate]. destruct (nth_error t _) as [z|] eqn:N; [|discriminate]. apply nth_error_In in N. congruence.
Qed.
Lemma slice_bits s a b c t : is_bits s -> list_slice s a b c = Ok t -> is_bits t.
Proof.
  intros B E. unfold list_slice in E. destruct (slice_indices a b c (len s)) as [[[x y] z]|]; [|discriminate]. cbn [bind] in E. apply mapM_in in E. unfold is_bits in *. rewrite Forall_forall in *. auto.
Qed.
