(** FirstProof.v *)
From Verif Require Import Base BaseProof PBufferModel Element3Model Element3Proof NegModel NegSpec InstModel InstSpec InstProof InstProof2 InstProof3.
From Verif Require Import InstProps IterModel IterSpec IterProof FetchModel FetchSpec FetchProof FetchProof2 FetchProof3 FetchProof4 FirstModel FirstSpec.

(** ** tags *)
Lemma blank_spec c : is_space c = true <-> blank c.
Proof. unfold is_space, blank. rewrite orb_true_iff, andb_true_iff, Z.eqb_eq, !Z.leb_le. tauto. Qed.
Lemma blank_false c : is_space c = false <-> ~ blank c.
Proof. rewrite <- blank_spec. destruct (is_space c); split; congruence. Qed.
Lemma words_fields l : words l (fields l).
Proof.
  induction l as [|x l IH]; [constructor|]. rewrite fields_cons. destruct (is_space x) eqn:Ex; [apply words_blank; [apply blank_spec, Ex|exact IH]|].
  apply blank_false in Ex. destruct l as [|y l].
  - apply words_last; [discriminate|]. constructor; auto.
  - destruct (is_space y) eqn:Ey.
    + rewrite fields_cons, Ey in IH |- *. apply (words_cons [x] y l (fields l)); [discriminate|constructor; auto|apply blank_spec, Ey|].
      apply blank_spec in Ey. inversion IH as [|c l0 ws B W E|w N F E1 E2|w c l0 ws N F B W E1 E2]; subst; auto.
      * apply Forall_inv in F. contradiction.
      * destruct w as [|w0 w]; [now contradiction N|]. injection E1 as -> _. apply Forall_inv in F. contradiction.
    + apply blank_false in Ey. revert IH. generalize (fields (y :: l)) as fs. intros fs IH. remember (y :: l) as yl eqn:Ql.
      destruct IH as [|c l0 ws B W|w N F|w c l0 ws N F B W]; [discriminate|injection Ql as -> ->; contradiction| |].
      * apply words_last; [discriminate|]. constructor; auto.
      * assert (F2 : Forall (fun c : Z => ~ blank c) (x :: w)) by (constructor; auto). refine (words_cons (x :: w) c l0 ws _ F2 B W). discriminate.
Qed.
Lemma digits_spec w : forallb is_digit w = true <-> digits w.
Proof.
  unfold digits. rewrite Forall_forall, forallb_forall. split; intros H c Hc; specialize (H c Hc); unfold is_digit in *; [apply andb_true_iff in H; rewrite !Z.leb_le in H; lia|].
  apply andb_true_iff. rewrite !Z.leb_le. lia.
Qed.
Lemma last_count_spec l : match last_count l with
  | Some n => exists a w b, l = a ++ w :: b /\ digits w /\ Forall (fun x => ~ digits x) b /\ n = digits_value w
  | None => Forall (fun x => ~ digits x) l end.
Proof.
  induction l as [|x l IH]; cbn [last_count]; [constructor|]. destruct (last_count l) as [n|].
  - destruct IH as (a & w & b & -> & H). exists (x :: a), w, b. split; [reflexivity|exact H].
  - destruct (forallb is_digit x) eqn:E.
    + exists [], x, l. split; [reflexivity|]. split; [apply digits_spec, E|]. auto.
    + constructor; [rewrite <- digits_spec; congruence|exact IH].
Qed.
Lemma count_spec tag : match extract_count tag with Some n => tag_count tag n | None => no_count tag end.
Proof.
  unfold extract_count. pose proof (last_count_spec (fields tag)) as H. pose proof (words_fields tag) as W. destruct (last_count (fields tag)) as [n|].
  - destruct H as (a & w & b & E & H). exists a, w, b. rewrite <- E. tauto.
  - exists (fields tag). auto.
Qed.
Lemma outer_spec c : strip_char c = true <-> outer c.
Proof.
  unfold strip_char, memZ, outer, is_digit. cbn [existsb]. rewrite orb_true_iff, !orb_true_iff, andb_true_iff, !Z.eqb_eq, !Z.leb_le. intuition (auto; try discriminate).
Qed.
Lemma lstrip_cut f l : exists a, l = a ++ Element3Model.lstrip f l /\ Forall (fun c => f c = true) a /\ (forall c r, Element3Model.lstrip f l = c :: r -> f c = false).
Proof.
  induction l as [|x l IH]; cbn [Element3Model.lstrip]; [exists []; split; [reflexivity|]; split; [constructor|discriminate]|].
  destruct (f x) eqn:E.
  - destruct IH as (a & E1 & F & N). exists (x :: a). split; [cbn; congruence|]. split; [constructor; auto|exact N].
  - exists []. split; [reflexivity|]. split; [constructor|]. intros c r [= <- <-]. exact E.
Qed.
Lemma strip_trimmed tag : trimmed tag (Element3Model.strip strip_char tag).
Proof.
  unfold Element3Model.strip. destruct (lstrip_cut strip_char tag) as (a & E1 & F1 & N1). set (t1 := Element3Model.lstrip strip_char tag) in *.
  destruct (lstrip_cut strip_char (rev t1)) as (b & E2 & F2 & N2). set (t2 := Element3Model.lstrip strip_char (rev t1)) in *.
  assert (T : t1 = rev t2 ++ rev b) by (rewrite <- rev_app_distr, <- E2, rev_involutive; reflexivity).
  exists a, (rev b). split; [rewrite <- T; exact E1|]. split; [|split; [|split]].
  - eapply Forall_impl; [|exact F1]. intros c Hc. now apply outer_spec.
  - apply Forall_rev. eapply Forall_impl; [|exact F2]. intros c Hc. now apply outer_spec.
  - intros c r E O. apply outer_spec in O. rewrite E in T. cbn in T. rewrite (N1 _ _ T) in O. discriminate.
  - intros r c E O. apply outer_spec in O. rewrite (N2 c (rev r)) in O; [discriminate|]. rewrite <- (rev_involutive t2), E, rev_unit. reflexivity.
Qed.
Lemma command_spec tag : match extract_command tag with Some c => trimmed tag c /\ c <> [] | None => trimmed tag [] end.
Proof.
  unfold extract_command. pose proof (strip_trimmed tag) as T. destruct (Element3Model.strip strip_char tag); [exact T|]. split; [exact T|discriminate].
Qed.

(** ** messages *)
Lemma rows_sync l : rows_in (sync_part l) = rows_in l.
Proof.
  unfold rows_in, sync_part, is_asyncb. induction l as [|x l IH]; cbn [filter]; auto.
  destruct (negb _) eqn:E; cbn [filter]; rewrite IH; auto. destruct (Z.eqb_spec (fst x) 68) as [Q|]; [rewrite Q in E; discriminate|reflexivity].
Qed.
Lemma tags_sync l : tags_in (sync_part l) = tags_in l.
Proof.
  unfold tags_in, sync_part, is_asyncb. induction l as [|x l IH]; cbn [filter]; auto.
  destruct (negb _) eqn:E; cbn [filter]; rewrite IH; auto. destruct (Z.eqb_spec (fst x) 67) as [Q|]; [rewrite Q in E; discriminate|reflexivity].
Qed.
Lemma kind_cases x m : msg_is x m -> match m with MTuple t => fst x = 68 /\ row_is x t | MComplete d => fst x = 67 /\ d = rstrip0 (snd x) | _ => fst x <> 68 /\ fst x <> 67 end.
Proof.
  intros (k & S & P). pose proof (parse_kind _ _ _ P) as K. subst k. unfold srv_kind in S.
  destruct m;
    try (repeat match type of S with (if ?a =? ?b then _ else _) = _ => destruct (Z.eqb_spec a b) as [Q|] end; try discriminate S; split; intros R; rewrite R in *; discriminate || congruence).
  - repeat match type of S with (if ?a =? ?b then _ else _) = _ => destruct (Z.eqb_spec a b) as [Q|] end; try discriminate S. split; [exact Q|]. cbn in P. congruence.
  - repeat match type of S with (if ?a =? ?b then _ else _) = _ => destruct (Z.eqb_spec a b) as [Q|] end; try discriminate S. split; [exact Q|exact P].
Qed.
Lemma tuple_found L M : Forall2 msg_is L M -> match first_tuple M with Some t => exists x r, rows_in L = x :: r /\ row_is x t | None => rows_in L = [] end.
Proof.
  induction 1 as [|x m L M H F IH]; [reflexivity|]. pose proof (kind_cases _ _ H) as K. unfold rows_in in *. cbn [first_tuple filter].
  destruct m; try (destruct K as (K & _); apply Z.eqb_neq in K; rewrite K; exact IH).
  - destruct K as (K & _). rewrite K. exact IH.
  - destruct K as (K & R). rewrite K. cbn. eauto.
Qed.
Lemma complete_found L M : Forall2 msg_is L M -> match first_complete M with Some d => exists x r, tags_in L = x :: r /\ d = rstrip0 (snd x) | None => tags_in L = [] end.
Proof.
  induction 1 as [|x m L M H F IH]; [reflexivity|]. pose proof (kind_cases _ _ H) as K. unfold tags_in in *. cbn [first_complete filter].
  destruct m; try (destruct K as (_ & K); apply Z.eqb_neq in K; rewrite K; exact IH).
  - destruct K as (K & R). rewrite K. cbn. eauto.
  - destruct K as (K & _). rewrite K. exact IH.
Qed.
Lemma all_converted_pt {A B} (fs : list (A -> res B)) xs h ys : process_tuple fs xs h = Ok ys <-> all_converted fs xs ys.
Proof. apply process_tuple_ok. Qed.

Section R.
  Context {V : Type} (p : pstmt V).
  Lemma result_sound l M v : Forall2 msg_is (sync_part l) M -> first_result p M = FoVal v -> first_of p l v.
  Proof.
    intros F E. unfold first_result in E. pose proof (tuple_found _ _ F) as T. pose proof (complete_found _ _ F) as C. rewrite rows_sync in T. rewrite tags_sync in C.
    destruct (ps_output p) as [|io [|io2 ios]] eqn:Eo.
    - destruct (first_complete M) as [tag|]; [|injection E as <-; now apply fo_no_tag].
      destruct C as (x & r & C & ->). pose proof (count_spec (rstrip0 (snd x))) as Cs. destruct (extract_count _) as [n|]; [injection E as <-; eapply fo_count; eauto|].
      pose proof (command_spec (rstrip0 (snd x))) as Cm. destruct (extract_command _) as [c|]; [|injection E as <-; eapply fo_empty; eauto].
      unfold ascii_decode in E. destruct (forallb _ c); [|discriminate]. injection E as <-. destruct Cm. eapply fo_command; eauto.
    - destruct (first_tuple M) as [[|[d|] t]|].
      + discriminate.
      + destruct T as (x & r & T & R). destruct (io d) as [w|] eqn:Ei; [|discriminate]. injection E as <-. eapply fo_one; eauto.
      + destruct T as (x & r & T & R). injection E as <-. eapply fo_null; eauto.
      + injection E as <-. apply fo_no_row; [now rewrite Eo|exact T].
    - rewrite <- Eo in E. destruct (first_tuple M) as [t|].
      + destruct T as (x & r & T & R). destruct (process_tuple (ps_output p) t (ps_cerr p)) as [vs|] eqn:P; [|discriminate]. injection E as <-.
        eapply fo_row; [rewrite Eo; cbn; lia|exact T|exact R|]. apply all_converted_pt in P. exact P.
      + injection E as <-. apply fo_no_row; [now rewrite Eo|exact T].
  Qed.
End R.

(** ** the connection *)
Section Gen.
  Context (cmds : list message) (St : starts cmds) (e0 : list wire) (NL : never_lost e0) (g : option bool) (HV : conv cmds (sync_part (wire_msgs e0)) g).
  Lemma gen_nl : ~ List.In WLost e0.
  Proof. intros H. unfold never_lost in NL. rewrite Forall_forall in NL. exact (NL _ H eq_refl). Qed.
  Lemma gen_step x e : inv cmds e0 0 x e [] -> complete x = false -> exists x' e', conn_step x e = Some (x', e', false) /\ inv cmds e0 0 x' e' [] /\ (mu x' e' < mu x e)%nat.
  Proof.
    intros I C. assert (I0 := I). destruct I as (gg & tr & left & H & K & O & P & W & X & Su & L). destruct X as [-> | (_ & C')]; [|destruct (gen_nl C')].
    assert (NC : i_state (cut 0 gg) <> IComplete) by (intros Q; apply complete_true in Q; congruence).
    destruct (L NC) as (-> & R).
    destruct (conn_step (cut 0 gg) e) as [[[x' e'] b]|] eqn:E.
    - destruct (conn_step_inv _ St _ _ _ _ _ _ _ _ I0 E) as (-> & I'). exists x', e'. split; auto. split; auto. eapply conn_step_mu; eauto.
    - exfalso. assert (E' : e = [] /\ receiving gg).
      { unfold conn_step in E. change (i_state (cut 0 gg)) with (i_state gg) in E, NC. unfold receiving. destruct (i_state gg) eqn:Es; try discriminate; try contradiction;
          (destruct e as [|[id l|] e]; [auto|destruct (inst_put (cut 0 gg) id l) as [? [?|?]]; discriminate|discriminate]). }
      destruct E' as (-> & _). cbn [wire_msgs app] in W. rewrite app_nil_r in W.
      assert (V : conv cmds (sync_part (recvd tr)) g) by (rewrite <- W; exact HV).
      destruct (C25_answered _ _ _ _ H St V) as (Q & _). apply NC. exact Q.
  Qed.
  Lemma gen_complete fuel : forall x e, inv cmds e0 0 x e [] -> (mu x e <= fuel)%nat ->
    exists x' e', run_complete fuel x e = (x', e', FDone tt) /\ inv cmds e0 0 x' e' [] /\ complete x' = true.
  Proof.
    induction fuel as [|fuel IH]; intros x e I M; cbn [run_complete].
    - destruct (complete x) eqn:C; [eauto|]. exfalso. destruct (gen_step _ _ I C) as (? & ? & _ & _ & Q). lia.
    - destruct (complete x) eqn:C; [eauto|]. destruct (gen_step _ _ I C) as (x' & e' & E & I' & Q). rewrite E. apply IH; auto. lia.
  Qed.
  Lemma gen_fatal x e : inv cmds e0 0 x e [] -> complete x = true -> i_fatal x = g /\ exists tr, irun cmds x tr /\ sync_part (recvd tr) = sync_part (wire_msgs e0).
  Proof.
    intros (gg & tr & left & H & K & O & P & W & X & Su & L) C. destruct X as [-> | (_ & C')]; [|destruct (gen_nl C')]. rewrite cut_0 in *.
    pose proof (irun_inv _ _ _ H) as (_ & _ & _ & M). unfold good, main in M.
    destruct St as (c & cs & Ec & Nc). destruct (conv_fin _ _ _ _ _ Ec Nc HV) as (r & R & Hr).
    rewrite W, sync_app, rrun_app in R. destruct (rrun cmds (RAt 0 0) None (sync_part (recvd tr))) as [r1 f1] eqn:E1. cbn [fst snd] in *.
    assert (N1 : r1 <> RViol) by (intros ->; rewrite rrun_viol in R; injection R as <- _; destruct Hr; discriminate).
    destruct (M (or_intror N1)) as (M1 & _ & M3). apply complete_true in C.
    assert (R1 : r1 = RFin \/ r1 = RStop) by (destruct r1; auto; [destruct M3 as (_ & N & _); contradiction|contradiction]).
    assert (Z0 : sync_part (left ++ wire_msgs e) = []) by (apply (rrun_end cmds r1 f1); [exact R1|rewrite R; cbn [fst]; destruct Hr; subst r; discriminate]).
    rewrite Z0 in R. cbn [rrun] in R. injection R as _ <-. split; [now symmetry|]. exists tr. split; [exact H|]. now rewrite W, sync_app, Z0, app_nil_r.
  Qed.
End Gen.
