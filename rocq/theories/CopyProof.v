(** CopyProof.v: the tracking of a COPY stream *)
From Verif Require Import Base BaseProof PBufferModel PBufferSpec PBufferProof Element3Model CopyModel CopySpec.

Lemma frame_len l : len (frame (100, l)) = len l + 5.
Proof. unfold frame. cbn [fst snd]. rewrite len_cons, len_app. unfold len at 1. rewrite be_length. lia. Qed.
Lemma copy_cons l ls : copy_frames (l :: ls) = frame (100, l) ++ copy_frames ls. Proof. reflexivity. Qed.
Lemma copy_app a b : copy_frames (a ++ b) = copy_frames a ++ copy_frames b.
Proof. unfold copy_frames, frames. now rewrite !map_app, concat_app. Qed.
Lemma app_pre {A} (a b c d : list A) : a ++ b = c ++ d -> (length a <= length c)%nat -> exists e, c = a ++ e /\ b = e ++ d.
Proof.
  revert c. induction a as [|x a IH]; intros c E L; [exists c; auto|]. destruct c as [|y c]; [cbn in L; lia|].
  cbn in E, L. injection E as -> E. destruct (IH c E ltac:(lia)) as (e & -> & ->). exists e. auto.
Qed.
(** the length in the header *)
Definition hlen (b : bytes) : Z := unbe (firstn 4 (skipn 1 b)).
Lemma hlen_frame l r : line_ok l -> hlen (frame (100, l) ++ r) = len l + 4.
Proof.
  intros (B & L). unfold hlen, frame. cbn [fst snd app skipn]. rewrite <- !app_assoc.
  rewrite BaseProof.firstn_app_exact by apply be_length. apply unbe_be. pose proof (len_nonneg l). cbn. lia.
Qed.
Lemma hlen_pre a b : (5 <= length a)%nat -> hlen (a ++ b) = hlen a.
Proof.
  intros H. unfold hlen. rewrite skipn_app. replace (1 - length a)%nat with 0%nat by lia. change (skipn 0 b) with b. f_equal.
  rewrite firstn_app, skipn_length. replace (4 - (length a - 1))%nat with 0%nat by lia. cbn. now rewrite app_nil_r.
Qed.
Lemma getlen_ok b : (5 <= length b)%nat -> getlen (take 4 (tl b)) = Ok (hlen b).
Proof.
  intros H. unfold getlen. rewrite take_firstn. change (Z.to_nat 4) with 4%nat.
  destruct b as [|c b]; [cbn in H; lia|]. cbn [tl]. rewrite firstn_length. cbn [length] in H. replace (Nat.min 4 (length b)) with 4%nat by lia. reflexivity.
Qed.

(** the state in the middle of a message, after [p] *)
Definition at_state (p : bytes) : wstate :=
  match p with
  | [] => wire_init
  | _ => if len p <? 5 then {| w_rem := -1; w_frag := tl p; w_final := None |}
         else {| w_rem := hlen p + 1 - len p; w_frag := []; w_final := None |}
  end.
Lemma unfinished_nil : unfinished [].
Proof. exists [], (frame (100, [])). split; [split; [constructor|cbn; lia]|]. split; [discriminate|reflexivity]. Qed.
Lemma unfinished_head p : unfinished p -> p = [] \/ exists q, p = 100 :: q.
Proof. intros (l & r & _ & _ & E). destruct p as [|c p]; auto. cbn in E. injection E as <- _. eauto. Qed.
Lemma unfinished_len p : unfinished p -> 5 <= len p -> len p < hlen p + 1.
Proof.
  intros (l & r & K & N & E) L. pose proof (hlen_frame l [] K) as H. rewrite app_nil_r, E, hlen_pre in H by (unfold len in L; lia).
  pose proof (frame_len l) as F. rewrite E, len_app in F. destruct r; [congruence|]. rewrite len_cons in F. pose proof (len_nonneg r). lia.
Qed.
Lemma other_unfinished t : other_message t -> ~ unfinished t.
Proof. intros (c & r & -> & N) U. apply unfinished_head in U as [U|(q & U)]; [discriminate|]. injection U as ->. contradiction. Qed.

Definition tail_ok (t : bytes) (s : wstate) : Prop :=
  (unfinished t /\ s = at_state t) \/ (other_message t /\ s = {| w_rem := 0; w_frag := []; w_final := Some t |}).

Lemma skip_message f a b rem n frag : 0 < rem -> len a = rem ->
  wire_loop (S f) (a ++ b) (len (a ++ b)) rem n frag = wire_loop (S f) b (len b) 0 (n + 1) frag.
Proof.
  intros R L. cbn [wire_loop]. replace (rem =? 0) with false by (symmetry; apply Z.eqb_neq; lia). cbv zeta.
  rewrite len_app. replace (rem - (len a + len b) <=? 0) with true by (symmetry; apply Z.leb_le; pose proof (len_nonneg b); lia).
  rewrite slice_from_skipn. replace (Z.to_nat rem) with (length a) by (unfold len in L; lia). rewrite skipn_app, skipn_all, Nat.sub_diag. cbn [app skipn].
  replace (- (rem - (len a + len b))) with (len b) by lia. reflexivity.
Qed.
Lemma part_message f t rem n : len t < rem ->
  wire_loop (S f) t (len t) rem n [] = Ok (n, {| w_rem := rem - len t; w_frag := []; w_final := None |}).
Proof.
  intros L. pose proof (len_nonneg t) as P. cbn [wire_loop]. replace (rem =? 0) with false by (symmetry; apply Z.eqb_neq; lia). cbv zeta.
  replace (rem - len t <=? 0) with false by (symmetry; apply Z.leb_gt; lia).
  rewrite slice_from_skipn, skipn_all2 by (unfold len in L; lia). reflexivity.
Qed.

Lemma loop_frames ms : forall t s f n, Forall line_ok ms -> tail_ok t s -> (length ms + 2 <= f)%nat ->
  wire_loop f (copy_frames ms ++ t) (len (copy_frames ms ++ t)) 0 n [] = Ok (n + len ms, s).
Proof.
  induction ms as [|l ms IH]; intros t s f n F T Hf; (destruct f as [|f]; [cbn in Hf; lia|]).
  - cbn [copy_frames map frames concat app]. change (len (@nil bytes)) with 0. rewrite Z.add_0_r.
    change (frames []) with (@nil Z). cbn [app].
    destruct T as [(U & ->)|((c & r & -> & N) & ->)].
    + destruct (unfinished_head _ U) as [-> |(q & ->)]; [reflexivity|]. cbn [wire_loop]. cbn [Z.eqb]. cbv beta iota zeta. change (condition 100) with false. cbv iota.
      unfold at_state. destruct (Z.ltb_spec (len (100 :: q)) 5) as [L|L]; [reflexivity|].
      change q with (tl (100 :: q)) at 1. rewrite getlen_ok by (unfold len in L; lia). cbn [bind].
      destruct f as [|f]; [cbn in Hf; lia|]. pose proof (unfinished_len _ U L) as UL. rewrite part_message by lia. reflexivity.
    + cbn [wire_loop Z.eqb]. cbv beta iota zeta. unfold condition. replace (c =? 100) with false by (symmetry; now apply Z.eqb_neq). reflexivity.
  - inversion F as [|? ? K F']; subst. rewrite copy_cons, <- app_assoc. set (rest := copy_frames ms ++ t) in *.
    pose proof (frame_len l) as FL. pose proof (len_nonneg l) as Nl. pose proof (len_nonneg rest) as Nr.
    assert (E : exists q, frame (100, l) ++ rest = 100 :: q) by (eexists; reflexivity). destruct E as (q & E).
    assert (St : wire_loop (S f) (frame (100, l) ++ rest) (len (frame (100, l) ++ rest)) 0 n [] =
                 wire_loop f (frame (100, l) ++ rest) (len (frame (100, l) ++ rest)) (len l + 4 + 1) n []).
    { rewrite E. cbn [wire_loop Z.eqb]. cbv beta iota zeta. change (condition 100) with false. cbv iota.
      rewrite <- E. rewrite len_app. replace (len (frame (100, l)) + len rest <? 5) with false by (symmetry; apply Z.ltb_ge; lia).
      replace q with (tl (frame (100, l) ++ rest)) by (now rewrite E). rewrite getlen_ok by (rewrite app_length; unfold len in FL; lia).
      rewrite hlen_frame by auto. reflexivity. }
    rewrite St. destruct f as [|f]; [cbn in Hf; lia|]. rewrite skip_message by lia. unfold rest.
    rewrite (IH t s) by (auto; cbn in Hf; lia). f_equal. f_equal. rewrite len_cons. lia.
Qed.

Lemma copy_short ms t : (length (copy_frames ms ++ t) < 5)%nat -> ms = [].
Proof.
  destruct ms as [|l ms]; auto. rewrite copy_cons, !app_length. pose proof (frame_len l) as F. pose proof (len_nonneg l). unfold len in *. lia.
Qed.
Lemma copy_length ms : (length ms <= length (copy_frames ms))%nat.
Proof. induction ms as [|l ms IH]; [cbn; lia|]. rewrite copy_cons, app_length. pose proof (frame_len l). pose proof (len_nonneg l). unfold len in *. cbn [length]. lia. Qed.

(** from the middle of a message whose header is known *)
Lemma loop_middle p view ms t s f : unfinished p -> p <> [] -> p ++ view = copy_frames ms ++ t -> Forall line_ok ms -> tail_ok t s ->
  (5 <= length (p ++ view))%nat -> (length view + 2 <= f)%nat ->
  wire_loop f view (len view) (hlen (p ++ view) + 1 - len p) 0 [] = Ok (len ms, s).
Proof.
  intros U Np E F T L5 Hf. destruct f as [|f]; [lia|].
  destruct ms as [|l ms].
  - cbn in E. destruct T as [(Ut & ->)|((c & r & -> & N) & _)].
    2:{ exfalso. destruct (unfinished_head _ U) as [->|(q & ->)]; [congruence|]. cbn in E. injection E as <- _. contradiction. }
    pose proof (unfinished_len t Ut) as UL. rewrite <- E in UL. assert (L5' : 5 <= len (p ++ view)) by (unfold len; lia). specialize (UL L5').
    rewrite len_app in UL. rewrite part_message by lia. rewrite <- E. unfold at_state.
    destruct (p ++ view) as [|c q] eqn:Eq; [cbn in L5; lia|]. rewrite <- Eq in *. replace (len (p ++ view) <? 5) with false by (symmetry; apply Z.ltb_ge; lia).
    rewrite len_app. do 3 f_equal. lia.
  - inversion F as [|? ? K F']; subst. rewrite copy_cons, <- app_assoc in E.
    assert (H : hlen (p ++ view) = len l + 4) by (rewrite E; apply hlen_frame; auto). rewrite H.
    assert (Lp : len p < len l + 5).
    { destruct (Z.ltb_spec (len p) 5); [pose proof (len_nonneg l); lia|].
      pose proof (unfinished_len _ U ltac:(lia)) as UL. rewrite hlen_pre in H by (unfold len in *; lia). lia. }
    pose proof (frame_len l) as FL.
    assert (Ea : exists a, frame (100, l) = p ++ a /\ view = a ++ copy_frames ms ++ t).
    { apply app_pre; [exact E|unfold len in *; lia]. }
    destruct Ea as (a & Ea & Ev). rewrite Ea, len_app in FL. rewrite Ev. rewrite skip_message by lia.
    rewrite (loop_frames ms t s); auto; [f_equal; f_equal; rewrite len_cons; lia|].
    rewrite Ev, !app_length in Hf. pose proof (copy_length ms). assert (0 < length a)%nat by (unfold len in *; lia). lia.
Qed.

Lemma update_at p view ms t s : unfinished p -> p ++ view = copy_frames ms ++ t -> Forall line_ok ms -> tail_ok t s ->
  wire_update (at_state p) view = Ok (len ms, s).
Proof.
  intros U E F T. unfold wire_update, at_state. destruct (unfinished_head _ U) as [-> |(q & ->)].
  - cbn [wire_init w_final w_rem w_frag Z.eqb bind]. cbn in E. subst view. cbn [Z.leb].
    change (0 <=? 0) with true. cbv iota. apply loop_frames; auto. rewrite app_length. pose proof (copy_length ms). lia.
  - destruct (Z.ltb_spec (len (100 :: q)) 5) as [L|L].
    + cbn [w_final w_rem w_frag tl]. change (-1 =? -1) with true. cbv iota zeta. rewrite take_firstn.
      rewrite len_cons in L. pose proof (len_nonneg q) as Nq.
      assert (Lf : len (q ++ firstn (Z.to_nat (4 - len q)) view) = Z.min 4 (len q + len view)) by (rewrite len_app, len_firstn; lia).
      destruct (Z.eqb_spec (len (q ++ firstn (Z.to_nat (4 - len q)) view)) 4) as [E4|E4].
      * assert (L5 : (5 <= length ((100%Z :: q) ++ view))%nat) by (cbn [app length]; rewrite app_length; unfold len in *; lia).
        assert (G : getlen (q ++ firstn (Z.to_nat (4 - len q)) view) = Ok (hlen ((100 :: q) ++ view))).
        { unfold getlen. match goal with |- context [(?a =? 4)%nat] => replace (a =? 4)%nat with true by (symmetry; apply Nat.eqb_eq; unfold len in *; lia) end.
          f_equal. unfold hlen. cbn [app skipn]. f_equal. rewrite firstn_app. rewrite (firstn_all2 (n := 4) q) by (unfold len in *; lia).
          f_equal. f_equal. unfold len. lia. }
        rewrite G. cbn [bind].
        assert (LM := loop_middle (100 :: q) view ms t s (length view + 2) U ltac:(discriminate) E F T L5 ltac:(lia)).
        rewrite len_cons in LM. replace (hlen ((100 :: q) ++ view) + 1 - (1 + len q)) with (hlen ((100 :: q) ++ view) - len q) in LM by lia.
        assert (Hh : 4 <= hlen ((100 :: q) ++ view)).
        { destruct ms as [|l ms]; [|inversion F; subst; rewrite E, copy_cons, <- app_assoc, hlen_frame by auto; pose proof (len_nonneg l); lia].
          cbn in E. destruct T as [(Ut & _)|((c & r & Ec & N) & _)]; [|exfalso; rewrite Ec in E; injection E as <- _; contradiction].
          rewrite <- E in Ut. pose proof (unfinished_len _ Ut) as UL. unfold len in UL. cbn [app] in *. lia. }
        replace (0 <=? hlen ((100 :: q) ++ view) - len q) with true by (symmetry; apply Z.leb_le; lia). exact LM.
      * cbn [bind]. change (0 <=? -1) with false. cbv iota.
        assert (Lv : len q + len view < 4) by lia.
        assert (M : ms = []) by (apply (copy_short ms t); rewrite <- E; cbn [app length]; rewrite app_length; unfold len in *; lia). subst ms.
        cbn in E. destruct T as [(Ut & ->)|((c & r & Ec & N) & _)]; [|exfalso; rewrite Ec in E; injection E as <- _; contradiction].
        rewrite <- E. unfold at_state. replace (len (100 :: q ++ view) <? 5) with true by (symmetry; apply Z.ltb_lt; rewrite len_cons, len_app; lia).
        cbn [tl]. rewrite firstn_all2 by (unfold len in *; lia). reflexivity.
    + cbn [w_final w_rem w_frag]. pose proof (unfinished_len _ U L) as UL.
      replace (hlen (100 :: q) + 1 - len (100 :: q) =? -1) with false by (symmetry; apply Z.eqb_neq; lia). cbn [bind].
      replace (0 <=? hlen (100 :: q) + 1 - len (100 :: q)) with true by (symmetry; apply Z.leb_le; lia).
      rewrite <- (hlen_pre (100 :: q) view) by (unfold len in L; lia).
      apply (loop_middle (100 :: q) view ms t s); auto; [discriminate|rewrite app_length; unfold len in L; lia].
Qed.

(** a piece of the stream *)
Lemma prefix_split ms : forall a b t, a ++ b = copy_frames ms ++ t -> Forall line_ok ms -> unfinished t \/ (length a <= length (copy_frames ms))%nat ->
  exists ms1 ms2 p, ms = ms1 ++ ms2 /\ a = copy_frames ms1 ++ p /\ unfinished p /\ p ++ b = copy_frames ms2 ++ t.
Proof.
  induction ms as [|l ms IH]; intros a b t E F U.
  - exists [], [], a. cbn in E. split; auto. split; auto. destruct U as [U|U].
    + split; auto. destruct U as (l & r & K & N & Ef). exists l, (b ++ r). split; auto. split; [destruct b; [exact N|discriminate]|]. now rewrite app_assoc, E.
    + cbn in U. destruct a; [|cbn in U; lia]. cbn in E. subst. split; [apply unfinished_nil|reflexivity].
  - inversion F as [|? ? K F']; subst. rewrite copy_cons, <- app_assoc in E.
    destruct (Nat.le_gt_cases (length (frame (100, l))) (length a)) as [G|G].
    + destruct (app_pre _ _ _ _ (eq_sym E) G) as (a' & -> & E'). symmetry in E'. clear E. rename E' into E.
      destruct (IH a' b t E F') as (ms1 & ms2 & p & -> & -> & Up & Ep).
      { destruct U as [U|U]; auto. right. rewrite copy_cons, !app_length in U. lia. }
      exists (l :: ms1), ms2, p. rewrite copy_cons, <- app_assoc. auto.
    + exists [], (l :: ms), a. split; auto. split; auto. split; [|rewrite copy_cons, <- app_assoc; auto].
      destruct (app_pre _ _ _ _ E ltac:(lia)) as (r & Er & _). exists l, r. split; auto. split; auto.
      intros ->. rewrite app_nil_r in Er. rewrite Er in G. lia.
Qed.

Lemma run_at chunks : forall p ms t, unfinished p -> p ++ concat chunks = copy_frames ms ++ t -> Forall line_ok ms -> unfinished t ->
  wire_run (at_state p) chunks = Ok (len ms, at_state t).
Proof.
  induction chunks as [|c chunks IH]; intros p ms t U E F T.
  - cbn in E. rewrite app_nil_r in E. cbn [wire_run].
    assert (M : ms = [] /\ t = p).
    { destruct ms as [|l ms]; [auto|]. exfalso. pose proof (Forall_inv F) as K. rewrite copy_cons, <- app_assoc in E.
      pose proof (frame_len l) as FL. pose proof (len_nonneg l). pose proof (len_nonneg (copy_frames ms ++ t)).
      assert (Lp : len p = len l + 5 + len (copy_frames ms ++ t)) by (rewrite E, len_app; lia).
      pose proof (unfinished_len p U ltac:(lia)) as UL. rewrite E, hlen_frame in UL by auto. rewrite <- E in UL. lia. }
    destruct M as (-> & ->). reflexivity.
  - cbn [concat] in E. rewrite app_assoc in E. destruct (prefix_split ms (p ++ c) (concat chunks) t E F (or_introl T)) as (ms1 & ms2 & q & -> & E1 & Uq & E2).
    apply Forall_app in F as (F1 & F2). cbn [wire_run].
    rewrite (update_at p c ms1 q (at_state q)); auto; [|left; auto]. cbn [bind snd fst]. rewrite (IH q ms2 t) by auto. cbn [bind fst snd]. now rewrite len_app.
Qed.
