(** FirstProof2.v: there is one answer *)
From Verif Require Import Base BaseProof PBufferModel Element3Model Element3Proof NegModel NegSpec InstModel InstSpec InstProof InstProof2 InstProof3.
From Verif Require Import InstProps IterModel IterSpec IterProof FetchModel FetchSpec FetchProof FetchProof2 FirstModel FirstSpec FirstProof.

Lemma fields_front w c l : w <> [] -> Forall (fun c => ~ blank c) w -> blank c -> fields (w ++ c :: l) = w :: fields l.
Proof.
  intros N F B. apply blank_spec in B. induction w as [|x w IH]; [now contradiction N|]. clear N.
  pose proof (Forall_inv F) as Fx. apply Forall_inv_tail in F. apply blank_false in Fx. destruct w as [|y w].
  - cbn [app]. rewrite fields_cons, Fx, B. rewrite (fields_cons c l), B. reflexivity.
  - cbn [app]. rewrite fields_cons, Fx. pose proof (Forall_inv F) as Fy. apply blank_false in Fy. rewrite Fy. cbn [app] in IH. rewrite IH; [reflexivity|discriminate|exact F].
Qed.
Lemma words_det l ws : words l ws -> ws = fields l.
Proof.
  induction 1 as [|c l ws B W IH|w N F|w c l ws N F B W IH].
  - reflexivity.
  - rewrite fields_cons. apply blank_spec in B. rewrite B. exact IH.
  - symmetry. apply fields_word; auto. apply forallb_forall. intros x Hx. rewrite Forall_forall in F. specialize (F x Hx). apply blank_false in F. now rewrite F.
  - rewrite fields_front by auto. now rewrite IH.
Qed.
Lemma last_digits l : Forall (fun x => ~ digits x) l -> last_count l = None.
Proof.
  induction 1 as [|x l N F IH]; [reflexivity|]. cbn. rewrite IH. destruct (forallb is_digit x) eqn:E; [apply digits_spec in E; contradiction|reflexivity].
Qed.
Lemma last_some a w b : digits w -> Forall (fun x => ~ digits x) b -> last_count (a ++ w :: b) = Some (digits_value w).
Proof.
  intros D F. induction a as [|x a IH]; cbn [app last_count]; [|now rewrite IH]. rewrite (last_digits b F). apply digits_spec in D. now rewrite D.
Qed.
Lemma tag_count_det tag n : tag_count tag n -> extract_count tag = Some n.
Proof. intros (a & w & b & W & D & F & ->). unfold extract_count. rewrite <- (words_det _ _ W). now apply last_some. Qed.
Lemma no_count_det tag : no_count tag -> extract_count tag = None.
Proof. intros (ws & W & F). unfold extract_count. rewrite <- (words_det _ _ W). now apply last_digits. Qed.
Lemma lstrip_all_app f a l : Forall (fun c => f c = true) a -> Element3Model.lstrip f (a ++ l) = Element3Model.lstrip f l.
Proof. induction 1 as [|x a E F IH]; [reflexivity|]. cbn. now rewrite E. Qed.
Lemma lstrip_stop f l : (forall c r, l = c :: r -> f c = false) -> Element3Model.lstrip f l = l.
Proof. destruct l as [|c r]; [reflexivity|]. intros H. cbn. now rewrite (H c r eq_refl). Qed.
Lemma outer_false c : ~ outer c -> strip_char c = false.
Proof. rewrite <- outer_spec. destruct (strip_char c); congruence. Qed.
Lemma trimmed_det tag c : trimmed tag c -> Element3Model.strip strip_char tag = c.
Proof.
  intros (a & b & -> & Fa & Fb & H1 & H2).
  assert (A : Forall (fun c => strip_char c = true) a) by (eapply Forall_impl; [|exact Fa]; intros; now apply outer_spec).
  assert (B : Forall (fun c => strip_char c = true) b) by (eapply Forall_impl; [|exact Fb]; intros; now apply outer_spec).
  unfold Element3Model.strip. rewrite lstrip_all_app by exact A. destruct c as [|x r].
  - cbn [app]. rewrite <- (app_nil_r b), lstrip_all_app by exact B. reflexivity.
  - assert (E : Element3Model.lstrip strip_char ((x :: r) ++ b) = (x :: r) ++ b) by (apply lstrip_stop; intros c0 r0 [= <- _]; apply outer_false; eapply H1; reflexivity).
    rewrite E, rev_app_distr, lstrip_all_app by (apply Forall_rev, B).
    rewrite lstrip_stop; [apply rev_involutive|]. intros c0 r0 Q. apply outer_false. apply (H2 (rev r0)). rewrite <- (rev_involutive (x :: r)), Q. reflexivity.
Qed.
Lemma row_det x t u : row_is x t -> row_is x u -> t = u.
Proof. unfold row_is. congruence. Qed.

Lemma rstrip0_in z l : List.In z (rstrip0 l) -> List.In z l.
Proof.
  induction l as [|y l IH]; cbn; [auto|]. destruct (rstrip0 l) as [|a r].
  - destruct (y =? 0); [contradiction|]. intros [->|[]]. now left.
  - intros [->|H]; [now left|right; apply IH, H].
Qed.
(** tags are ASCII *)
Section R.
  Context {V : Type} (p : pstmt V).
  Lemma result_complete l M v : Forall (fun x => Forall (fun c => 0 <= c < 128) (snd x)) (tags_in l) -> Forall2 msg_is (sync_part l) M -> first_of p l v -> first_result p M = FoVal v.
  Proof.
    intros As F Fo. unfold first_result. pose proof (tuple_found _ _ F) as T. pose proof (complete_found _ _ F) as C. rewrite rows_sync in T. rewrite tags_sync in C.
    destruct Fo as [N R|x r t vs L R Rw Cv|io x r t Eo R Rw|io x r d t v Eo R Rw Ei|Eo Tg|x r n Eo Tg Tc|x r c Eo Tg Nc Tr Ne|x r Eo Tg Nc Tr].
    - destruct (ps_output p) as [|io [|io2 ios]]; [now contradiction N| |]; (destruct (first_tuple M) as [t|]; [destruct T as (x & r & T & _); congruence|reflexivity]).
    - destruct (ps_output p) as [|io [|io2 ios]]; [cbn in L; lia|cbn in L; lia|].
      destruct (first_tuple M) as [u|]; [destruct T as (y & q & T & Ry)|congruence]. rewrite R in T. injection T as <- <-. rewrite (row_det _ _ _ Ry Rw).
      rewrite (proj2 (all_converted_pt _ _ (ps_cerr p) _) Cv). reflexivity.
    - rewrite Eo. destruct (first_tuple M) as [u|]; [destruct T as (y & q & T & Ry)|congruence]. rewrite R in T. injection T as <- <-. rewrite (row_det _ _ _ Ry Rw). reflexivity.
    - rewrite Eo. destruct (first_tuple M) as [u|]; [destruct T as (y & q & T & Ry)|congruence]. rewrite R in T. injection T as <- <-. rewrite (row_det _ _ _ Ry Rw), Ei. reflexivity.
    - rewrite Eo. destruct (first_complete M) as [u|]; [destruct C as (y & q & C & _); congruence|reflexivity].
    - rewrite Eo. destruct (first_complete M) as [u|]; [destruct C as (y & q & C & ->)|congruence]. rewrite Tg in C. injection C as <- <-. rewrite (tag_count_det _ _ Tc). reflexivity.
    - rewrite Eo. destruct (first_complete M) as [u|]; [destruct C as (y & q & C & ->)|congruence]. rewrite Tg in C. injection C as <- <-. rewrite (no_count_det _ Nc).
      unfold extract_command. rewrite (trimmed_det _ _ Tr). destruct c as [|c0 c]; [now contradiction Ne|].
      assert (Af : forallb (fun c => c <? 128) (c0 :: c) = true).
      { apply forallb_forall. intros z Hz. apply Z.ltb_lt. rewrite Tg in As. apply Forall_inv in As. rewrite Forall_forall in As. apply As.
        destruct Tr as (a & b & E & _). assert (Hi : List.In z (rstrip0 (snd x))) by (rewrite E; apply in_or_app; right; apply in_or_app; left; exact Hz).
        clear - Hi. apply rstrip0_in, Hi. }
      unfold ascii_decode. rewrite Af. reflexivity.
    - rewrite Eo. destruct (first_complete M) as [u|]; [destruct C as (y & q & C & ->)|congruence]. rewrite Tg in C. injection C as <- <-. rewrite (no_count_det _ Nc).
      unfold extract_command. rewrite (trimmed_det _ _ Tr). reflexivity.
  Qed.
  (** what has to be given is determined *)
  Lemma first_of_det l v w : first_of p l v -> first_of p l w -> v = w.
  Proof.
    intros A B.
    destruct A as [N R|x r t vs L R Rw Cv|io x r t Eo R Rw|io x r d t v Eo R Rw Ei|Eo Tg|x r n Eo Tg Tc|x r c Eo Tg Nc Tr Ne|x r Eo Tg Nc Tr];
      destruct B as [N' R'|x' r' t' vs' L' R' Rw' Cv'|io' x' r' t' Eo' R' Rw'|io' x' r' d' t' v' Eo' R' Rw' Ei'|Eo' Tg'|x' r' n' Eo' Tg' Tc'|x' r' c' Eo' Tg' Nc' Tr' Ne'|x' r' Eo' Tg' Nc' Tr'];
      try reflexivity; try congruence; try (exfalso; rewrite ?Eo, ?Eo' in *; cbn in *; lia).
    all: try (match goal with R : rows_in _ = ?x :: ?r, R' : rows_in _ = ?y :: ?q |- _ => assert (XY : x = y) by congruence; subst y; clear R' end;
      match goal with A : row_is ?x ?t, B : row_is ?x ?u |- _ => pose proof (row_det _ _ _ A B) as Q end; try discriminate Q;
      first [subst t'; pose proof (proj2 (all_converted_pt _ _ (ps_cerr p) _) Cv) as E1; pose proof (proj2 (all_converted_pt _ _ (ps_cerr p) _) Cv') as E2; congruence|injection Q as <- <-; congruence]).
    all: match goal with R : tags_in _ = ?x :: ?r, R' : tags_in _ = ?y :: ?q |- _ => assert (XY : x = y) by congruence; subst y; clear R' end.
    all: repeat match goal with
      | H : tag_count _ _ |- _ => apply tag_count_det in H
      | H : no_count _ |- _ => apply no_count_det in H
      | H : trimmed _ _ |- _ => apply trimmed_det in H
      end; congruence.
  Qed.
End R.
