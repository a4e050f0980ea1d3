From Verif Require Import Base BaseProof PyStr PyStrProof XmlModel XmlSpec.
Open Scope Z_scope.

Lemma mapM_app {A B} (f : A -> res B) l m : mapM f (l ++ m) = do a <- mapM f l; do b <- mapM f m; Ok (a ++ b).
Proof.
  induction l as [|x l IH]; cbn [mapM app bind].
  - destruct (mapM f m); reflexivity.
  - destruct (f x); cbn [bind]; [|reflexivity]. rewrite IH. destruct (mapM f l); cbn [bind]; [|reflexivity]. destruct (mapM f m); reflexivity.
Qed.
Lemma divmod a b : 0 < b -> a = b * (a / b) + a mod b /\ 0 <= a mod b < b.
Proof. intros. split; [apply Z.div_mod; lia|apply Z.mod_pos_bound; lia]. Qed.
Lemma utf8_char_ok c : scalar c -> exists b, utf8_char c = Ok b /\ utf8_of c b.
Proof.
  intros [R N]. unfold utf8_char. destruct (Z.ltb_spec c 128); [eexists; split; [reflexivity|]; constructor; lia|].
  pose proof (divmod c 64 ltac:(lia)) as [D1 M1]. set (q1 := c / 64) in *. set (r1 := c mod 64) in *.
  pose proof (divmod q1 64 ltac:(lia)) as [D2 M2]. 
  assert (E2 : c / 4096 = q1 / 64) by (unfold q1; rewrite Z.div_div by lia; reflexivity).
  assert (E3 : c / 262144 = q1 / 64 / 64) by (unfold q1; rewrite !Z.div_div by lia; reflexivity).
  rewrite E2, E3. set (q2 := q1 / 64) in *. set (r2 := q1 mod 64) in *. pose proof (divmod q2 64 ltac:(lia)) as [D3 M3]. set (q3 := q2 / 64) in *. set (r3 := q2 mod 64) in *.
  clearbody q1 r1 q2 r2 q3 r3.
  destruct (Z.ltb_spec c 2048).
  { eexists; split; [reflexivity|]. replace c with (q1 * 64 + r1) by lia. constructor; lia. }
  destruct (Z.leb_spec 55296 c); [destruct (Z.ltb_spec c 57344); [lia|]|]; cbn [andb];
  (destruct (Z.ltb_spec c 65536); [eexists; split; [reflexivity|]; replace c with ((q2 * 64 + r2) * 64 + r1) by lia; constructor; try lia; split; lia|
     eexists; split; [reflexivity|]; replace c with (((q3 * 64 + r3) * 64 + r2) * 64 + r1) by lia; constructor; lia]).
Qed.
Lemma utf8_encode_ok t : Forall scalar t -> exists b, utf8_encode t = Ok b /\ utf8_text t b.
Proof.
  unfold utf8_encode. induction 1 as [|c t C F (b & E & T)]; [exists []; split; [reflexivity|constructor]|].
  destruct (utf8_char_ok c C) as (b1 & E1 & T1). cbn [mapM]. rewrite E1. cbn [bind]. destruct (mapM utf8_char t) as [l|e] eqn:M; cbn [bind] in *; [|discriminate]. apply Ok_inj in E. exists (b1 ++ b). split; [cbn [concat]; rewrite E; reflexivity|]. constructor; assumption.
Qed.
Lemma utf8_char_dec c b r : utf8_of c b -> utf8_decode (b ++ r) = do t <- utf8_decode r; Ok (c :: t).
Proof.
  assert (ct : forall z, 0 <= z < 64 -> cont (128 + z) = true) by (intros z Hz; unfold cont; rewrite (proj2 (Z.leb_le _ _)), (proj2 (Z.ltb_lt _ _)) by lia; reflexivity).
  destruct 1 as [c C|x y X Y|x y z X Y Z1 L S|x y z u X Y Z1 U1 L].
  - cbn [app utf8_decode]. rewrite (proj2 (Z.ltb_lt _ _)) by lia. reflexivity.
  - cbn [app utf8_decode]. rewrite (proj2 (Z.ltb_ge _ _)) by lia. rewrite (proj2 (Z.ltb_ge _ _)) by lia. rewrite (proj2 (Z.ltb_lt _ _)) by lia. rewrite (ct y Y). replace ((192 + x - 192) * 64 + (128 + y - 128)) with (x * 64 + y) by lia. reflexivity.
  - cbn [app utf8_decode]. rewrite (proj2 (Z.ltb_ge _ _)) by lia. rewrite (proj2 (Z.ltb_ge _ _)) by lia. rewrite (proj2 (Z.ltb_ge _ _)) by lia. rewrite (proj2 (Z.ltb_lt _ _)) by lia. cbv zeta. rewrite (ct y Y), (ct z Z1).
    replace ((224 + x - 224) * 4096 + (128 + y - 128) * 64 + (128 + z - 128)) with ((x * 64 + y) * 64 + z) by lia. set (c := (x * 64 + y) * 64 + z) in *. clearbody c. destruct S as [S1 S2].
    rewrite (proj2 (Z.leb_le 2048 c)) by lia. replace ((55296 <=? c) && (c <? 57344)) with false; [reflexivity|]. destruct (Z.leb_spec 55296 c), (Z.ltb_spec c 57344); cbn; try reflexivity; lia.
  - cbn [app utf8_decode]. rewrite (proj2 (Z.ltb_ge _ _)) by lia. rewrite (proj2 (Z.ltb_ge _ _)) by lia. rewrite (proj2 (Z.ltb_ge _ _)) by lia. rewrite (proj2 (Z.ltb_ge _ _)) by lia. rewrite (proj2 (Z.ltb_lt _ _)) by lia. cbv zeta. rewrite (ct y Y), (ct z Z1), (ct u U1).
    replace ((240 + x - 240) * 262144 + (128 + y - 128) * 4096 + (128 + z - 128) * 64 + (128 + u - 128)) with (((x * 64 + y) * 64 + z) * 64 + u) by lia. set (c := ((x * 64 + y) * 64 + z) * 64 + u) in *. clearbody c.
    rewrite (proj2 (Z.leb_le 65536 c)) by lia. rewrite (proj2 (Z.ltb_lt c 1114112)) by lia. reflexivity.
Qed.
Lemma utf8_text_dec t b r : utf8_text t b -> utf8_decode (b ++ r) = do u <- utf8_decode r; Ok (t ++ u).
Proof.
  intros H. induction H as [|c t b bs C T IH]; [cbn [app]; destruct (utf8_decode r); reflexivity|]. rewrite <- app_assoc, (utf8_char_dec c b _ C), IH. destruct (utf8_decode r); reflexivity.
Qed.
Lemma utf8_decode_text t b : utf8_text t b -> utf8_decode b = Ok t.
Proof. intros H. rewrite <- (app_nil_r b), (utf8_text_dec t b [] H). cbn [utf8_decode bind]. rewrite app_nil_r. reflexivity. Qed.
Lemma utf8_text_app t b u c : utf8_text t b -> utf8_text u c -> utf8_text (t ++ u) (b ++ c).
Proof. intros H K. induction H as [|x t b bs C T IH]; [exact K|]. cbn [app]. rewrite <- app_assoc. constructor; assumption. Qed.
(** what is not a scalar cannot be encoded *)
Lemma utf8_char_err c : 55296 <= c < 57344 -> utf8_char c = Err ValueError.
Proof. intros R. unfold utf8_char. rewrite (proj2 (Z.ltb_ge _ _)) by lia. rewrite (proj2 (Z.ltb_ge _ _)) by lia. rewrite (proj2 (Z.leb_le _ _)), (proj2 (Z.ltb_lt _ _)) by lia. reflexivity. Qed.
(** encoding is a function of the text *)
Lemma utf8_encode_concat ts : mapM utf8_encode ts = (do l <- mapM utf8_encode ts; Ok l).
Proof. destruct (mapM utf8_encode ts); reflexivity. Qed.
Lemma utf8_encode_app t u : utf8_encode (t ++ u) = do a <- utf8_encode t; do b <- utf8_encode u; Ok (a ++ b).
Proof.
  unfold utf8_encode. rewrite mapM_app. destruct (mapM utf8_char t); cbn [bind]; [|reflexivity]. destruct (mapM utf8_char u); cbn [bind]; [|reflexivity]. rewrite concat_app. reflexivity.
Qed.
(** the decoder accepts nothing else *)
Lemma cont_true z : cont z = true -> exists y, z = 128 + y /\ 0 <= y < 64.
Proof. unfold cont. intros H. apply andb_true_iff in H as [A B]. apply Z.leb_le in A. apply Z.ltb_lt in B. exists (z - 128). lia. Qed.
Lemma utf8_decode_inv : forall n b t, (length b <= n)%nat -> Forall (fun x => 0 <= x < 256) b -> utf8_decode b = Ok t -> utf8_text t b.
Proof.
  induction n as [|n IH]; intros b t L F E.
  - destruct b; [|cbn in L; lia]. apply Ok_inj in E as <-. constructor.
  - destruct b as [|b1 r]; [apply Ok_inj in E as <-; constructor|]. cbn [utf8_decode] in E. cbn [length] in L. inversion F as [|? ? B1 F1]; subst.
    destruct (Z.ltb_spec b1 128).
    { apply bind_Ok in E as (t' & E1 & E2). apply Ok_inj in E2 as <-. apply (ut_cons b1 t' [b1] r); [constructor; lia|]. apply IH; [lia|assumption|assumption]. }
    destruct (Z.ltb_spec b1 194); [discriminate|]. destruct (Z.ltb_spec b1 224).
    { destruct r as [|b2 r]; [discriminate|]. inversion F1 as [|? ? B2 F2]; subst. destruct (cont b2) eqn:C2; [|discriminate]. apply cont_true in C2 as (y & -> & Y). apply bind_Ok in E as (t' & E1 & E2). apply Ok_inj in E2 as <-. cbn [length] in L.
      apply (ut_cons _ t' [b1; 128 + y] r); [|apply IH; [lia|assumption|assumption]]. replace (128 + y - 128) with y by lia. replace b1 with (192 + (b1 - 192)) at 2 by lia. constructor; lia. }
    destruct (Z.ltb_spec b1 240).
    { destruct r as [|b2 [|b3 r]]; try discriminate. inversion F1 as [|? ? B2 F2]; subst. inversion F2 as [|? ? B3 F3]; subst. cbv zeta in E. destruct (cont b2) eqn:C2; [|discriminate]. destruct (cont b3) eqn:C3; [|discriminate]. cbn [andb] in E.
      apply cont_true in C2 as (y & -> & Y). apply cont_true in C3 as (z & -> & Z1). cbn [length] in L.
      replace ((b1 - 224) * 4096 + (128 + y - 128) * 64 + (128 + z - 128)) with (((b1 - 224) * 64 + y) * 64 + z) in E by lia. 
      destruct (Z.leb_spec 2048 (((b1 - 224) * 64 + y) * 64 + z)) as [L2|]; [|discriminate]. 
      destruct (Z.leb_spec 55296 (((b1 - 224) * 64 + y) * 64 + z)) as [L3|L3]; destruct (Z.ltb_spec (((b1 - 224) * 64 + y) * 64 + z) 57344) as [L4|L4]; cbn [andb negb] in E; try discriminate;
      (apply bind_Ok in E as (t' & E1 & E2); apply Ok_inj in E2 as <-; apply (ut_cons _ t' [b1; 128 + y; 128 + z] r); [|apply IH; [lia|assumption|assumption]]; replace b1 with (224 + (b1 - 224)) at 2 by lia; constructor; try lia; split; lia). }
    destruct (Z.ltb_spec b1 245); [|discriminate].
    destruct r as [|b2 [|b3 [|b4 r]]]; try discriminate. inversion F1 as [|? ? B2 F2]; subst. inversion F2 as [|? ? B3 F3]; subst. inversion F3 as [|? ? B4 F4]; subst. cbv zeta in E. destruct (cont b2) eqn:C2; [|discriminate]. destruct (cont b3) eqn:C3; [|discriminate]. destruct (cont b4) eqn:C4; [|discriminate]. cbn [andb] in E.
    apply cont_true in C2 as (y & -> & Y). apply cont_true in C3 as (z & -> & Z1). apply cont_true in C4 as (u & -> & U1). cbn [length] in L.
    replace ((b1 - 240) * 262144 + (128 + y - 128) * 4096 + (128 + z - 128) * 64 + (128 + u - 128)) with ((((b1 - 240) * 64 + y) * 64 + z) * 64 + u) in E by lia.
    destruct (Z.leb_spec 65536 ((((b1 - 240) * 64 + y) * 64 + z) * 64 + u)) as [L2|]; [|discriminate]. destruct (Z.ltb_spec ((((b1 - 240) * 64 + y) * 64 + z) * 64 + u) 1114112) as [L3|]; [|discriminate]. cbn [andb] in E.
    apply bind_Ok in E as (t' & E1 & E2). apply Ok_inj in E2 as <-. apply (ut_cons _ t' [b1; 128 + y; 128 + z; 128 + u] r); [|apply IH; [lia|assumption|assumption]]. replace b1 with (240 + (b1 - 240)) at 2 by lia. constructor; lia.
Qed.
