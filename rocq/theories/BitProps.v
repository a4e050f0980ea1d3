(** C91: bit strings as the sequences of their bits (/repo/postgresql/types/bitwise.py). *)
From Verif Require Import Base PyStr PyStrProof PyInt PyDict PyDictProof BaseProof ArrayModel ArraySpec TypeIOModel TypeIOSpec TypeIOProof3 BitModel BitProof.

Section props.
Context (U : unicode) (dv : decimals).
Notation new := (varbit_new U dv).

(** A text of zeros and ones is the bit string of its digits *)
Theorem C91_text : forall s, is_bits s -> exists v, new s = Ok v /\ varbit_str v = Ok s /\ fst v = len s.
Proof. intros s B. destruct (new_ok U dv s B) as (d & E & S & _). exists (len s, d). auto. Qed.

(** Whatever text is accepted, the bit string has its length; and among ASCII texts nothing with a character other than 0, 1, white space,
    a sign, an underscore or the b of a prefix is accepted *)
Theorem C91_accepted : forall s v, new s = Ok v ->
  fst v = len s /\ (len s <> 1 -> length (snd v) = ((length s + 7) / 8)%nat) /\
  (Forall (fun c => 0 <= c < 128) s -> Forall (fun c => In c [9; 10; 11; 12; 13; 32; 43; 45; 48; 49; 66; 95; 98]) s).
Proof.
  intros s v E. unfold varbit_new in E. destruct (pack_text U dv (length s) s) as [d|] eqn:P; [|discriminate]. cbn [bind] in E. split; [|split].
  - unfold from_bits in E. destruct (Z.eqb_spec (len s) 1) as [L|].
    + destruct d as [|b d]; [discriminate|]. assert (v = if Z.testbit b 7 then OneBit else ZeroBit) by congruence. subst v. rewrite L. destruct (Z.testbit b 7); reflexivity.
    + injection E as <-. reflexivity.
  - intros N. unfold from_bits in E. destruct (Z.eqb_spec (len s) 1); [contradiction|]. injection E as <-. cbn [snd]. eapply pack_text_length; [|exact P]. lia.
  - intros A. change (Forall allowed s). eapply pack_text_allowed; [exact A|exact P].
Qed.

Lemma one_data s v : is_bits s -> new s = Ok v -> len s = 1 -> v = if seqb s (str "1") then OneBit else ZeroBit.
Proof.
  intros B E L. destruct (new_ok U dv s B) as (d & E' & _ & D). specialize (D L). assert (v = (len s, d)) by congruence. subst. rewrite L. destruct s as [|c [|? ?]]; [discriminate L| |unfold len in L; cbn [length] in L; lia].
  inversion B as [|? ? C _]; subst. destruct C as [-> | ->]; reflexivity.
Qed.
Lemma new_eq s t v w : is_bits s -> is_bits t -> new s = Ok v -> new t = Ok w -> (v = w <-> s = t).
Proof.
  intros A B E F. destruct (new_ok U dv s A) as (d & E' & _). destruct (new_ok U dv t B) as (e & F' & _). assert (v = (len s, d)) by congruence. assert (w = (len t, e)) by congruence. subst.
  rewrite <- (new_inj U dv s t d e A B E' F'). split; [intros [= -> ->]; auto|intros [-> ->]; reflexivity].
Qed.
Lemma fst_new s v : is_bits s -> new s = Ok v -> fst v = len s.
Proof. intros B E. destruct (new_ok U dv s B) as (d & E' & _). assert (v = (len s, d)) by congruence. subst. reflexivity. Qed.
Lemma isb_new s v : is_bits s -> new s = Ok v -> is_bit v = (len s =? 1).
Proof. intros B E. unfold is_bit. rewrite (fst_new s v B E). reflexivity. Qed.
Lemma same_new s t v w : is_bits s -> is_bits t -> new s = Ok v -> new t = Ok w -> (same v w = true <-> s = t).
Proof. intros. rewrite same_spec. apply new_eq; assumption. Qed.

(** Two bit strings are equal exactly if their bits are, when both or neither have a single bit *)
Theorem C91_equal : forall s t v w, is_bits s -> is_bits t -> new s = Ok v -> new t = Ok w -> (len s = 1 <-> len t = 1) ->
  exists b, py_eq U dv v (OVar w) = Ok b /\ (b = true <-> s = t).
Proof.
  intros s t v w A B E F L. exists (same v w). split; [|apply same_new; assumption]. unfold py_eq, eq_method. rewrite (isb_new s v A E), (isb_new t w B F).
  destruct (Z.eqb_spec (len s) 1), (Z.eqb_spec (len t) 1); try (exfalso; tauto); reflexivity.
Qed.
(** refuted otherwise: comparing a single bit with any other bit string, in either order, is a ValueError instead of false *)
Theorem C91_equal_refuted : forall s t v w, is_bits s -> is_bits t -> new s = Ok v -> new t = Ok w -> len s = 1 -> len t <> 1 ->
  py_eq U dv v (OVar w) = Err ValueError /\ py_eq U dv w (OVar v) = Err ValueError.
Proof.
  intros s t v w A B E F L N. unfold py_eq, eq_method, to_bit. rewrite (isb_new s v A E), (isb_new t w B F).
  destruct (Z.eqb_spec (len s) 1), (Z.eqb_spec (len t) 1); try (exfalso; tauto). split; reflexivity.
Qed.
(** A bit string is equal to the text of its bits and to no other text of bits; to a single bit only the texts 0 and 1 can be compared *)
Theorem C91_equal_text : forall s t v, is_bits s -> is_bits t -> new s = Ok v ->
  (len s <> 1 \/ len t = 1 -> exists b, py_eq U dv v (OStr t) = Ok b /\ (b = true <-> s = t)) /\
  (len s = 1 -> len t <> 1 -> py_eq U dv v (OStr t) = Err ValueError).
Proof.
  intros s t v A B E. destruct (new_ok U dv t B) as (e & F & _). unfold py_eq, eq_method. rewrite (isb_new s v A E).
  assert (T : len t = 1 -> to_bit (OStr t) = Ok (len t, e)).
  { intros L. rewrite (one_data t _ B F L). destruct t as [|c [|? ?]]; [discriminate L| |unfold len in L; cbn [length] in L; lia]. inversion B as [|? ? C _]; subst. destruct C as [-> | ->]; reflexivity. }
  split.
  - intros H. exists (same v (len t, e)). split; [|apply same_new; assumption]. destruct (Z.eqb_spec (len s) 1); [rewrite T by tauto|unfold to_varbit; rewrite F]; reflexivity.
  - intros L N. destruct (Z.eqb_spec (len s) 1); [|contradiction]. unfold to_bit.
    destruct (seqb_spec t (str "0")) as [->|]; [exfalso; apply N; reflexivity|]. destruct (seqb_spec t (str "1")) as [->|]; [exfalso; apply N; reflexivity|]. reflexivity.
Qed.
(** A slice is the bit string of the sliced bits *)
Theorem C91_slice : forall s v start stop step t, is_bits s -> new s = Ok v -> list_slice s start stop step = Ok t ->
  (len s <> 1 \/ len t = 1 -> getslice U dv v start stop step = new t) /\ is_bits t.
Proof.
  intros s v a b c t A E L. pose proof (slice_bits _ _ _ _ _ A L) as B. split; [|exact B]. intros H. unfold getslice. destruct (new_ok U dv s A) as (d & E' & S & _). assert (v = (len s, d)) by congruence. subst v. rewrite S. cbn [bind]. rewrite L. cbn [bind].
  rewrite (isb_new s _ A E). destruct (Z.eqb_spec (len s) 1) as [L1|]; [|reflexivity]. destruct H as [H|H]; [contradiction|].
  destruct t as [|y [|? ?]]; [discriminate H| |unfold len in H; cbn [length] in H; lia]. inversion B as [|? ? C _]; subst. destruct C as [-> | ->]; reflexivity.
Qed.
(** refuted: an empty slice of a single bit is a ValueError *)
Theorem C91_slice_refuted : forall s v start stop step, is_bits s -> new s = Ok v -> len s = 1 -> list_slice s start stop step = Ok [] ->
  getslice U dv v start stop step = Err ValueError.
Proof.
  intros s v a b c A E L1 L. unfold getslice. destruct (new_ok U dv s A) as (d & E' & S & _). assert (v = (len s, d)) by congruence. subst v. rewrite S. cbn [bind]. rewrite L. cbn [bind].
  rewrite (isb_new s _ A E), L1. reflexivity.
Qed.
(** refuted: the truth of a bit string says whether it has bits, not whether one of them is set *)
Theorem C91_truth_refuted : forall s v, is_bits s -> new s = Ok v -> (py_bool v = true <-> s <> []).
Proof.
  intros s v A E. unfold py_bool. rewrite (fst_new s v A E). destruct s as [|c r]; [cbn; split; [discriminate|congruence]|]. destruct (Z.eqb_spec (len (c :: r)) 0) as [H|]; [unfold len in H; cbn [length] in H; lia|]. cbn. split; [discriminate|reflexivity].
Qed.
(** refuted: no bit string but the empty one can be iterated *)
Theorem C91_iterate_refuted : forall s v fuel, is_bits s -> new s = Ok v -> s <> [] -> iterate (S fuel) 0 v = Err TypeError.
Proof.
  intros s v fuel A E N. cbn [iterate]. assert (G : getbit v 0 = Err TypeError); [|rewrite G; reflexivity]. pose proof (fst_new s v A E) as F. pose proof (C91_accepted s v E) as (_ & L & _).
  unfold getbit. rewrite F. change (0 <? 0) with false. cbv iota. destruct s as [|c r]; [congruence|]. assert (P : 0 < len (c :: r)) by (unfold len; cbn [length]; lia). destruct (Z.ltb_spec 0 (len (c :: r))); [|lia]. cbn [Z.leb Z.compare andb negb]. change (0 / 8) with 0.
  assert (D : exists b d, snd v = b :: d).
  { destruct (Z.eqb_spec (len (c :: r)) 1) as [L1|L1].
    - rewrite (one_data _ v A E L1). destruct (seqb _ _); repeat eexists.
    - specialize (L L1). destruct (snd v) as [|b d]; [|repeat eexists]. exfalso. cbn [length] in L. assert (1 <= (S (length r) + 7) / 8)%nat by (apply Nat.div_le_lower_bound; lia). lia. }
  destruct D as (b & d & ->). reflexivity.
Qed.
(** A text is appended, and the bit string repeated, as texts are *)
Theorem C91_append : forall s t v, is_bits s -> new s = Ok v -> add_text U dv v t = new (s ++ t).
Proof. intros s t v A E. unfold add_text. destruct (new_ok U dv s A) as (d & E' & S & _). assert (v = (len s, d)) by congruence. subst v. rewrite S. reflexivity. Qed.
End props.
(** refuted: a text which Python takes for a number in base 2 is accepted for its value *)
Theorem C91_text_refuted : forall U dv, unicode_ok U -> varbit_new U dv (str "0b1_0110") = varbit_new U dv (str "00010110") /\
  varbit_new U dv (str "+0b0") = varbit_new U dv (str "0000").
Proof. intros U dv K. split; reflexivity. Qed.
Print Assumptions C91_text.
Print Assumptions C91_accepted.
Print Assumptions C91_equal.
Print Assumptions C91_equal_refuted.
Print Assumptions C91_equal_text.
Print Assumptions C91_slice.
Print Assumptions C91_slice_refuted.
Print Assumptions C91_truth_refuted.
Print Assumptions C91_iterate_refuted.
Print Assumptions C91_append.
Print Assumptions C91_text_refuted.

Section examples.
Let new := varbit_new ascii_unicode (fun _ => None).
Example C91_ex_new : new (str "1011010001") = Ok (10, [180; 64]) /\ is_bits (str "1011010001") /\ new (str "10110102") = Err ValueError /\ new (str "1") = Ok OneBit /\ new [] = Ok (0, []).
Proof. repeat split; try reflexivity. repeat (constructor; [first [left; reflexivity|right; reflexivity]|]). constructor. Qed.
Example C91_ex_slice : list_slice (str "1011010001") (Some 2) None (Some 3) = Ok (str "110") /\ getslice ascii_unicode (fun _ => None) (10, [180; 64]) (Some 2) None (Some 3) = new (str "110").
Proof. split; vm_compute; reflexivity. Qed.
Example C91_ex_eq : py_eq ascii_unicode (fun _ => None) (10, [180; 64]) (OStr (str "1011010001")) = Ok true /\ py_eq ascii_unicode (fun _ => None) (10, [180; 64]) (OVar (9, [180; 0])) = Ok false /\
  py_eq ascii_unicode (fun _ => None) (16, [180; 64]) (OBytes [180; 64]) = Ok true.
Proof. repeat split; vm_compute; reflexivity. Qed.
End examples.
