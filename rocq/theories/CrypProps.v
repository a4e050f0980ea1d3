(** CrypProps.v: C74, the answer to a server that asks for "crypt" authentication is the traditional crypt(3) of the
    password (resolved/crypt.py, protocol/xact3.py:203-204). *)
From Coq Require Import String.
From Verif Require Import Base CrypTable CrypModel CrypSpec CrypProof CrypProof2 CrypProof3 CrypProof4.
From Verif Require PyStr Element3Model NegModel NegSpec NegProps.
Local Notation str s := (PyStr.str s%string).

(** For every password (of bytes) and every salt beginning with two characters of the alphabet, the answer is that of
    crypt(3): DES as FIPS 46-3 states it, with the salted E, 25 times, and the alphabet ./0-9A-Za-z. *)
Theorem C74_unix_crypt pw a b rest : Forall byte pw -> In a alphabet -> In b alphabet ->
  crypt pw (a :: b :: rest) = unix_crypt pw a b.
Proof. apply crypt_spec. Qed.
Print Assumptions C74_unix_crypt.

Lemma fill_same pw s t : fill s = fill t -> crypt pw s = crypt pw t.
Proof. intros H. unfold crypt. cbv zeta. rewrite H. reflexivity. Qed.

(** A salt that is too short is filled up with "A". *)
Theorem C74_short_salt pw : Forall byte pw ->
  crypt pw [] = unix_crypt pw 65 65 /\ forall a, In a alphabet -> crypt pw [a] = unix_crypt pw a 65.
Proof.
  intros F. assert (IA : In 65 alphabet) by (vm_compute; tauto). split.
  - rewrite (fill_same pw [] [65; 65] eq_refl). apply crypt_spec; assumption.
  - intros a Ia. rewrite (fill_same pw [a] [a; 65] eq_refl). apply crypt_spec; assumption.
Qed.
Print Assumptions C74_short_salt.

Lemma cov_in i : 0 <= i < 64 -> In (at_ cov_2char i) alphabet.
Proof.
  intros H. rewrite alphabet_same. unfold at_. apply nth_In. change (length alphabet) with 64%nat. lia.
Qed.
Lemma land6 x : 0 <= Z.land x 0x3f < 64.
Proof. change 0x3f with (Z.ones 6). rewrite Z.land_ones by lia. apply Z.mod_pos_bound. reflexivity. Qed.
Lemma six_range o1 o2 : Forall (fun i => 0 <= i < 64) (six o1 o2) /\ length (six o1 o2) = 11%nat.
Proof.
  unfold six. cbv zeta. split; [|reflexivity].
  repeat (apply Forall_cons; [apply land6|]). apply Forall_nil.
Qed.

(** Whatever the password and the salt are, the answer is two characters of the salt and 11 of the alphabet. *)
Theorem C74_shape pw a b rest : exists body, crypt pw (a :: b :: rest) = a :: b :: body /\ length body = 11%nat /\ Forall (fun c => In c alphabet) body.
Proof.
  unfold crypt. cbv beta zeta. change (fill (a :: b :: rest)) with (a :: b :: rest). destruct (CrypModel.body _ _ _) as [o1 o2].
  exists (map (fun i => at_ cov_2char i) (six o1 o2)). destruct (six_range o1 o2) as [F L]. split; [|split].
  - change (firstn 2 (a :: b :: rest)) with [a; b]. cbn [app]. reflexivity.
  - rewrite map_length. exact L.
  - apply Forall_map. eapply Forall_impl; [|exact F]. intros i Hi. apply cov_in. exact Hi.
Qed.
Print Assumptions C74_shape.

Lemma first_two pw a b r r' : crypt pw (a :: b :: r) = crypt pw (a :: b :: r').
Proof.
  unfold crypt. cbv zeta. change (fill (a :: b :: r)) with (a :: b :: r). change (fill (a :: b :: r')) with (a :: b :: r').
  change (firstn 2 (a :: b :: r)) with [a; b]. change (firstn 2 (a :: b :: r')) with [a; b].
  change (nth 0 (a :: b :: r) 0) with a. change (nth 0 (a :: b :: r') 0) with a.
  change (nth 1 (a :: b :: r) 0) with b. change (nth 1 (a :: b :: r') 0) with b. reflexivity.
Qed.
(** The hash itself can be given as the salt: this is how a password is verified; a hash is accepted only if it is the one of
    the password with the salt it begins with. *)
Theorem C74_verify pw salt : crypt pw (crypt pw salt) = crypt pw salt.
Proof.
  assert (H : forall a b rest, crypt pw (crypt pw (a :: b :: rest)) = crypt pw (a :: b :: rest)).
  { intros a b rest. destruct (C74_shape pw a b rest) as (body & E & _). rewrite E at 1. rewrite (first_two pw a b body rest). reflexivity. }
  destruct salt as [|a [|b rest]].
  - rewrite (fill_same pw [] [65; 65] eq_refl). apply H.
  - rewrite (fill_same pw [a] [a; 65] eq_refl). apply H.
  - apply H.
Qed.
Print Assumptions C74_verify.

(** Only the lower seven bits of the first eight bytes of the password are used. *)
Theorem C74_eight pw pw' a b rest rest' : Forall byte pw -> Forall byte pw' -> In a alphabet -> In b alphabet ->
  (forall i, (i < 8)%nat -> nth i pw 0 mod 128 = nth i pw' 0 mod 128) ->
  crypt pw (a :: b :: rest) = crypt pw' (a :: b :: rest').
Proof.
  intros F F' Ia Ib H. rewrite !crypt_spec by assumption. unfold unix_crypt.
  assert (K : key_of pw = key_of pw'); [|rewrite K; reflexivity].
  unfold key_of. f_equal. apply map_ext_in. intros i Hi. apply in_seq in Hi. f_equal.
  assert (G : forall n x y, (n <= 7)%nat -> x mod 128 = y mod 128 -> bits_of n x = bits_of n y).
  { clear. induction n as [|n IH]; intros x y L E; [reflexivity|]. cbn [bits_of]. f_equal; [|apply IH; [lia|exact E]].
    change 128 with (2 ^ 7) in E. rewrite <- (Z.mod_pow2_bits_low x 7), <- (Z.mod_pow2_bits_low y 7) by lia. rewrite E. reflexivity. }
  apply G; [lia|]. apply H. lia.
Qed.
Print Assumptions C74_eight.

(** A zero byte in the password is not its end, as it would be for the C function: the two passwords below, which C takes for
    the same, have different answers. *)
Theorem C74_nul_refuted : ~ forall pw more salt, Forall byte pw -> Forall byte more -> crypt (pw ++ 0 :: more) salt = crypt pw salt.
Proof.
  intros H. specialize (H [97] [98] [65; 65]). 
  assert (F : forall x, 0 <= x < 256 -> Forall byte [x]) by (intros x Hx; apply Forall_cons; [exact Hx|apply Forall_nil]).
  specialize (H (F 97 ltac:(lia)) (F 98 ltac:(lia))). vm_compute in H. discriminate H.
Qed.
Print Assumptions C74_nul_refuted.

(** Together with C29: in every negotiation, whatever else the server sends, the password message that follows a request for
    crypt with a salt of the alphabet is the crypt(3) of the password. *)
Lemma only_out (xs ys : list NegSpec.event) o l1 o' l2 : 
  xs ++ NegSpec.Out o :: ys = map NegSpec.In l1 ++ NegSpec.Out o' :: map NegSpec.In l2 -> xs = map NegSpec.In l1 /\ o = o'.
Proof.
  revert l1. induction xs as [|x xs IH]; intros l1 E; destruct l1 as [|y l1]; cbn [map app] in E.
  - injection E as E1 E2. split; [reflexivity|exact E1].
  - discriminate E.
  - exfalso. injection E as E1 E2. assert (H : In (NegSpec.Out o) (map NegSpec.In l2)).
    { rewrite <- E2. apply in_or_app. right. left. reflexivity. }
    apply in_map_iff in H as (z & Z & _). discriminate Z.
  - injection E as E1 E2. destruct (IH _ E2) as [-> ->]. split; [cbn [map]; rewrite E1; reflexivity|reflexivity].
Qed.
Theorem C74_answer md5hex startup pw n tr xs a b rest ans ys : NegSpec.nrun md5hex crypt startup pw n tr ->
  tr = xs ++ NegSpec.In (82, [0; 0; 0; 4; a; b] ++ rest) :: NegSpec.Out (Element3Model.MString Element3Model.SPassword ans) :: ys ->
  Forall byte pw -> In a alphabet -> In b alphabet -> ans = unix_crypt pw a b.
Proof.
  intros R E F Ia Ib. destruct (NegProps.C29_sends _ _ _ _ _ _ R) as [N|[(l & N)|(pre & body & req & salt & ans' & post & N & _ & Bd & Rp)]].
  - subst tr. destruct xs; discriminate N.
  - subst tr. exfalso. destruct xs as [|x xs]; [discriminate N|]. cbn [app] in N. injection N as _ N.
    assert (H : In (NegSpec.Out (Element3Model.MString Element3Model.SPassword ans)) (map NegSpec.In l)).
    { rewrite <- N. apply in_or_app. right. right. left. reflexivity. }
    apply in_map_iff in H as (z & Z & _). discriminate Z.
  - rewrite E in N. destruct xs as [|x xs]; [discriminate N|]. cbn [app] in N. injection N as _ N.
    assert (N' : (xs ++ [NegSpec.In (82, [0; 0; 0; 4; a; b] ++ rest)]) ++ NegSpec.Out (Element3Model.MString Element3Model.SPassword ans) :: ys
                 = map NegSpec.In (pre ++ [(82, body)]) ++ NegSpec.Out (Element3Model.MString Element3Model.SPassword ans') :: map NegSpec.In post).
    { rewrite map_app, <- !app_assoc. exact N. }
    apply only_out in N' as [X O']. injection O' as <-. rewrite map_app in X. apply app_inj_tail in X as [_ X]. injection X as X.
    destruct Bd as (code & Lc & Eb & U). rewrite <- X in Eb.
    destruct code as [|c0 [|c1 [|c2 [|c3 [|c4 code]]]]]; try discriminate Lc. cbn [app] in Eb. injection Eb as <- <- <- <- <-.
    change (Base.unbe [0; 0; 0; 4]) with 4 in U. subst req.
    destruct Rp as [[Q _]|[[_ Q]|[Q _]]]; [discriminate Q| |discriminate Q]. rewrite Q. apply crypt_spec; assumption.
Qed.
Print Assumptions C74_answer.

(** the examples of the documentation of crypt(), and the one of PHP's *)
Example crypt_doc : crypt (str "AlOtBsOl") (str "cE") = str "cEpWz5IUCShqM".
Proof. vm_compute. reflexivity. Qed.
Example crypt_doc_wrong : crypt (str "IaLaIoK") (str "cEpWz5IUCShqM") <> str "cEpWz5IUCShqM".
Proof. vm_compute. discriminate. Qed.
Example crypt_php : crypt (str "rasmuslerdorf") (str "rl") = str "rl.3StKT.4T8M".
Proof. vm_compute. reflexivity. Qed.
(** the specification without a salt is DES: a vector of the standard's literature *)
Example des_vector : number_of (des [] (bits_of 64 0x133457799BBCDFF1) (bits_of 64 0x0123456789ABCDEF)) = 0x85E813540F0AB405.
Proof. vm_compute. reflexivity. Qed.
Example crypt_hypotheses : Forall byte (str "AlOtBsOl") /\ In 99 alphabet /\ In 69 alphabet.
Proof. repeat split; [|vm_compute; tauto..]. unfold byte. vm_compute. repeat (apply Forall_cons; [split; [discriminate|reflexivity]|]). apply Forall_nil. Qed.
(** a negotiation in which the server asks for crypt with the salt cE *)
Definition cr_ask : list (Z * list Z) := [NegProps.ex_notice; (82, [0; 0; 0; 4; 99; 69])].
Definition cr_pw : list Z := map (fun x => x) [65; 108; 79; 116; 66; 115; 79; 108].
Definition cr_n0 := NegModel.neg_sent (NegModel.neg_init NegProps.ex_startup cr_pw).
Definition cr_n1 := fst (NegProps.okget (cr_n0, 0) (NegModel.neg_put NegProps.ex_md5 crypt cr_n0 1 cr_ask)).
Example C74_answer_ex : exists n xs ys,
  NegSpec.nrun NegProps.ex_md5 crypt NegProps.ex_startup cr_pw n
    (xs ++ NegSpec.In (82, [0; 0; 0; 4; 99; 69] ++ []) :: NegSpec.Out (Element3Model.MString Element3Model.SPassword (str "cEpWz5IUCShqM")) :: ys).
Proof.
  exists (NegModel.neg_sent cr_n1), ([NegSpec.Out (Element3Model.MStartup NegProps.ex_startup); NegSpec.In NegProps.ex_notice]), [].
  assert (R : NegSpec.nrun NegProps.ex_md5 crypt NegProps.ex_startup cr_pw cr_n1
     (([] ++ map NegSpec.Out [Element3Model.MStartup NegProps.ex_startup]) ++ map NegSpec.In (firstn (Z.to_nat 2) cr_ask))).
  { apply (NegSpec.nr_put NegProps.ex_md5 crypt NegProps.ex_startup cr_pw cr_n0 _ 1 cr_ask cr_n1 2).
    - apply NegSpec.nr_send with (n := NegModel.neg_init NegProps.ex_startup cr_pw); [constructor|reflexivity].
    - reflexivity.
    - vm_compute. reflexivity. }
  assert (M : NegModel.n_messages cr_n1 = [Element3Model.MString Element3Model.SPassword (str "cEpWz5IUCShqM")]) by (vm_compute; reflexivity).
  assert (Sd : NegModel.n_state cr_n1 = NegModel.Sending) by (vm_compute; reflexivity).
  pose proof (NegSpec.nr_send NegProps.ex_md5 crypt NegProps.ex_startup cr_pw cr_n1 _ R Sd) as H. rewrite M in H. exact H.
Qed.
