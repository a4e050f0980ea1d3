(** StrProof3.v: split() on texts with closed quotations; split_sql. *)
From Verif Require Import PyStr RegexModel StrModel StrSpec BaseProof PBufferModel PBufferProof PyListProof PyStrProof StrProof StrProof2.

Lemma scan_q_doubled q b after : doubled q b -> not_starting q after -> scan_q q (b ++ q :: after) = after.
Proof.
  intros D N. induction D as [|t D IH|c t Hc D IH]; cbn [app].
  - cbn [scan_q]. rewrite Z.eqb_refl. destruct after as [|d r]; [reflexivity|]. destruct (Z.eqb_spec d q) as [->|]; [exfalso; eapply N; reflexivity|reflexivity].
  - cbn [scan_q]. rewrite !Z.eqb_refl. exact IH.
  - cbn [scan_q]. destruct (Z.eqb_spec c q); [congruence|]. exact IH.
Qed.
Lemma scan_e_escaped b after : escaped b -> not_starting 39 after -> scan_e (b ++ 39 :: after) = after.
Proof.
  intros D N. induction D as [|t D IH|c t D IH|c t Hc Hc2 D IH]; cbn [app].
  - cbn [scan_e]. cbn [Z.eqb Pos.eqb]. destruct after as [|d r]; [reflexivity|]. destruct (Z.eqb_spec d 39) as [->|]; [exfalso; eapply N; reflexivity|reflexivity].
  - cbn [scan_e]. cbn [Z.eqb Pos.eqb]. exact IH.
  - cbn [scan_e]. change (92 =? 39) with false. change (92 =? 92) with true. cbv iota. destruct (Z.eqb_spec c 10) as [->|]; [|exact IH].
    change (scan_e (t ++ 39 :: after) = after). exact IH.
  - cbn [scan_e]. destruct (Z.eqb_spec c 39); [congruence|]. destruct (Z.eqb_spec c 92); [congruence|]. exact IH.
Qed.
Lemma prefixb_long p a b : (length p <= length a)%nat -> prefixb p (a ++ b) = prefixb p a.
Proof.
  revert a. induction p as [|x p IH]; intros a H; [destruct a, b; reflexivity|]. destruct a as [|y a]; [cbn in H; lia|].
  cbn [app prefixb]. rewrite IH by (cbn in H; lia). reflexivity.
Qed.
Lemma index_of_cons sub c l : index_of sub (c :: l) = if prefixb sub (c :: l) then Some O else match index_of sub l with Some k => Some (S k) | None => None end.
Proof. reflexivity. Qed.
Lemma dollar_body_ok tag b after : ~ In 10 b -> index_of tag (b ++ tag) = Some (length b) -> dollar_body tag (b ++ tag ++ after) = Some after.
Proof.
  induction b as [|c b IH]; intros Hn Hi.
  - cbn [app]. assert (P : prefixb tag (tag ++ after) = true) by apply prefixb_app.
    destruct (tag ++ after) as [|y z] eqn:E; cbn [dollar_body]; rewrite P, <- ?E.
    + destruct tag; [|discriminate]. cbn in E. subst. reflexivity.
    + rewrite skipn_app_exact by auto. reflexivity.
  - cbn [app] in *. rewrite index_of_cons in Hi.
    destruct (prefixb tag (c :: b ++ tag)) eqn:P; [discriminate|].
    cbn [dollar_body]. replace (prefixb tag (c :: b ++ tag ++ after)) with false.
    2:{ symmetry. replace (c :: b ++ tag ++ after) with ((c :: b ++ tag) ++ after) by (cbn; rewrite <- app_assoc; reflexivity).
        rewrite prefixb_long; auto. cbn [length]. rewrite app_length. lia. }
    assert (Hc : c <> 10) by (intros ->; apply Hn; left; auto).
    replace (at_eol (c :: b ++ tag ++ after)) with false.
    2:{ symmetry. destruct (b ++ tag ++ after); cbn; destruct c as [|p|p]; auto; repeat (destruct p; auto); congruence. }
    destruct (Z.eqb_spec c 10); [congruence|]. apply IH; [intros X; apply Hn; right; auto|].
    destruct (index_of tag (b ++ tag)) as [k|]; [|discriminate]. injection Hi as Hi. subst. reflexivity.
Qed.
Lemma scan_word_app U w r : u_word U 36 = false -> forallb (u_word U) w = true -> scan_word U (w ++ 36 :: r) = (w, 36 :: r).
Proof.
  intros W. induction w as [|c w IH]; cbn [app forallb scan_word]; [rewrite W; reflexivity|]. rewrite andb_true_iff. intros (-> & H). rewrite IH by auto. reflexivity.
Qed.
Lemma dollar_tag_ok U q x : u_word U 36 = false -> is_tag U q -> exists r, q ++ x = 36 :: r /\ dollar_tag U r = Some q.
Proof.
  intros W [->|(c & w & -> & Hd & Hc & Hw)].
  - exists (36 :: x). split; reflexivity.
  - exists (c :: w ++ [36] ++ x). split; [cbn [app]; rewrite <- app_assoc; reflexivity|]. cbn [dollar_tag]. destruct (Z.eqb_spec c 36); [congruence|]. rewrite Hd.
    cbn [app]. rewrite scan_word_app by auto. reflexivity.
Qed.
Definition grp (q : text) : option text := match q with c :: _ => if c =? 36 then Some q else None | [] => None end.
Lemma quotation_qmatch U q b after : unicode_ok U -> quotation U q b after -> qmatch U (q ++ b ++ closing q ++ after) = Some (after, grp q).
Proof.
  intros HU [(-> & D & N)|[(-> & D & N)|[(-> & D & N)|(T & Nn & Hi)]]].
  - change (qmatch U ([39] ++ b ++ closing [39] ++ after)) with (Some (scan_q 39 (b ++ 39 :: after), @None text)). rewrite scan_q_doubled by auto. reflexivity.
  - change (qmatch U ([34] ++ b ++ closing [34] ++ after)) with (Some (scan_q 34 (b ++ 34 :: after), @None text)). rewrite scan_q_doubled by auto. reflexivity.
  - change (qmatch U ([69; 39] ++ b ++ closing [69; 39] ++ after)) with (Some (scan_e (b ++ 39 :: after), @None text)). rewrite scan_e_escaped by auto. reflexivity.
  - assert (W : u_word U 36 = false) by (rewrite (uo_word U HU) by lia; reflexivity).
    assert (C : closing q = q /\ grp q = Some q) by (destruct T as [->|(c & w & -> & _)]; split; reflexivity). destruct C as (C & G). rewrite C, G.
    destruct (dollar_tag_ok U q (b ++ q ++ after) W T) as (r & E & Et). rewrite E. cbn [qmatch Z.eqb Pos.eqb]. rewrite Et, <- E.
    rewrite skipn_app_exact by auto. rewrite dollar_body_ok by auto. reflexivity.
Qed.
Lemma qmatch_plain U c r : c <> 39 -> c <> 34 -> (c = 69 -> not_starting 39 r) -> (c = 36 -> exists d r', r = d :: r' /\ ascii_digit d = true) -> qmatch U (c :: r) = None.
Proof.
  intros H1 H2 H3 H4. cbn [qmatch]. destruct (Z.eqb_spec c 69) as [->|].
  - destruct r as [|d r]; [reflexivity|]. destruct (Z.eqb_spec d 39) as [->|]; [exfalso; eapply (H3 eq_refl); reflexivity|reflexivity].
  - destruct (Z.eqb_spec c 39); [congruence|]. destruct (Z.eqb_spec c 34); [congruence|]. destruct (Z.eqb_spec c 36) as [->|]; [|reflexivity].
    destruct (H4 eq_refl) as (d & r' & -> & Hd). cbn [dollar_tag]. destruct (Z.eqb_spec d 36) as [->|]; [discriminate|]. rewrite Hd. reflexivity.
Qed.
Lemma plain_app a b : plain (a ++ b) -> plain b.
Proof. induction a as [|c a IH]; [auto|]. cbn [app plain]. tauto. Qed.
Lemma plain_head_not c r : plain r -> c = 39 -> not_starting c r.
Proof. intros H -> x E. subst r. cbn in H. tauto. Qed.
Lemma plain_search_None U u : unicode_ok U -> plain u -> re_search (quote_re U) u = None.
Proof.
  intros HU P. apply search_None; auto. intros a b ->. apply plain_app in P. destruct b as [|c b]; [reflexivity|].
  destruct P as (P1 & P2 & P3 & P4). apply qmatch_plain; auto. intros _. apply plain_head_not; auto.
Qed.
Lemma quotation_head U q b after : quotation U q b after -> exists c q', q = c :: q' /\ (c = 39 -> q = [39]).
Proof.
  intros [(-> & _)|[(-> & _)|[(-> & _)|([->|(c & w & -> & _)] & _)]]]; eexists _, _; (split; [reflexivity|]); intros; auto; discriminate.
Qed.
Lemma plain_search U u q b after : unicode_ok U -> plain u -> (q = [39] -> forall v, u <> v ++ [69]) -> quotation U q b after ->
  re_search (quote_re U) (u ++ q ++ b ++ closing q ++ after) = Some (u, q ++ b ++ closing q, grp q, after).
Proof.
  intros HU P HE Q. rewrite (search_Some U u _ after (grp q)); auto.
  - do 3 f_equal. f_equal. rewrite !app_assoc. apply firstn_app_exact. rewrite (app_length _ after). lia.
  - intros v v' -> Nv. apply plain_app in P. destruct v' as [|c v']; [congruence|]. cbn [app]. destruct P as (P1 & P2 & P3 & P4). apply qmatch_plain; auto.
    + intros ->. destruct v' as [|d v'].
      * cbn [app]. destruct (quotation_head _ _ _ _ Q) as (e & q' & Eq & Hq). intros r E. rewrite Eq in E. cbn in E. injection E as E1 E2.
        apply (HE (Hq E1) v). reflexivity.
      * intros r E. cbn in E. injection E as -> _. cbn in P4. tauto.
    + intros ->. destruct (P3 eq_refl) as (d & r' & -> & Hd). exists d. eexists. split; [reflexivity|auto].
  - apply quotation_qmatch; auto.
Qed.
Lemma quotation_marks U q b after : quotation U q b after -> marks (grp q) (q ++ b ++ closing q) = (q, closing q) /\ closing q <> [] /\ q <> [].
Proof.
  intros [(-> & _)|[(-> & _)|[(-> & _)|([->|(c & w & -> & _)] & _)]]]; (split; [reflexivity|split; discriminate]).
Qed.
Lemma split_render U : unicode_ok U -> forall n l, (length (render l) <= n)%nat -> wf_parts U l -> split_loop U n (render l) = l.
Proof.
  intros HU. induction n as [n IH] using lt_wf_ind. intros l Hn W. destruct l as [|[u|q b] l]; cbn in W; try contradiction.
  destruct W as (P & W). destruct l as [|[u'|q b] l]; [| contradiction |].
  - unfold render. cbn [map concat render1]. rewrite app_nil_r. rewrite split_loop_eq, plain_search_None by auto. reflexivity.
  - destruct W as (HE & Q & Nl & W). unfold render in Hn |- *. cbn [map concat render1] in Hn |- *. fold (render l) in Hn |- *.
    rewrite <- !app_assoc. rewrite split_loop_eq, plain_search by auto.
    destruct (quotation_marks _ _ _ _ Q) as (Em & Hc & Hq). rewrite Em. cbn [fst snd].
    rewrite (app_assoc q b (closing q)). rewrite pyslice_tail. rewrite seqb_refl. cbn [negb orb].
    rewrite len_app. destruct (Z.eqb_spec (len (q ++ b) + len (closing q) - len (closing q)) 0) as [X|_].
    { exfalso. rewrite len_app in X. pose proof (len_nonneg b). destruct q; [congruence|]. rewrite len_cons in X. pose proof (len_nonneg q). lia. }
    rewrite <- app_assoc. rewrite (pyslice_app q b (closing q)); [|reflexivity|rewrite len_app; lia].
    rewrite !app_length in Hn. assert (Lq : (0 < length q)%nat) by (destruct q; [congruence|cbn; lia]).
    destruct n as [|n]; [lia|]. rewrite IH; auto; lia.
Qed.
Lemma str_split_render U l : unicode_ok U -> wf_parts U l -> str_split U (render l) = l.
Proof. intros HU W. apply split_render; auto. Qed.

(** ** split_sql *)
Fixpoint alternates (l : list part) : Prop :=
  match l with
  | [PU _] => True
  | PU _ :: PQ _ _ :: r => r = [] \/ alternates r
  | _ => False
  end.
Lemma split_alternates U : unicode_ok U -> forall n rest, (length rest <= n)%nat -> alternates (split_loop U n rest).
Proof.
  intros HU. induction n as [|n IH]; intros rest Hn; rewrite split_loop_eq;
  (destruct (re_search (quote_re U) rest) as [[[[b m] g] a]|] eqn:E; [|exact I]).
  - destruct rest; [|cbn in Hn; lia]. cbn in E. discriminate.
  - match goal with |- context [if ?c then _ else _] => destruct c end; [left; reflexivity|].
    destruct (search_inv _ _ _ _ _ _ HU E) as (l' & -> & Hm & Em).
    destruct (match_shape _ _ _ _ Hm) as (m' & quote & ende & -> & Hmarks & He & Hen & Hle & Hq & Hshape).
    right. apply IH. rewrite !app_length in Hn. assert (0 < length m')%nat; [|lia]. 
    assert (0 < length ende)%nat by (destruct ende; [congruence|cbn; lia]). destruct Hshape as [(x & ->)|(x & -> & _)]; rewrite !app_length; lia.
Qed.
Lemma unsplit_go_app l : forall s e, (l = [] \/ alternates l) -> exists r, unsplit_go [] e l = Ok r /\ unsplit_go s e l = Ok (s ++ r).
Proof.
  remember (length l) as n eqn:Hn. revert l Hn. induction n as [n IH] using lt_wf_ind. intros l -> s e [->|A].
  - exists []. cbn. rewrite app_nil_r. auto.
  - destruct l as [|[x|] [|[|q t] l]]; cbn in A; try contradiction.
    + exists (e ++ x). cbn. auto.
    + cbn [unsplit_go]. assert (Al : l = [] \/ alternates l) by (destruct A; auto).
      destruct (IH (length l) ltac:(cbn; lia) l eq_refl (s ++ e ++ x ++ q ++ t) (end_quote q) Al) as (r & E1 & E2).
      destruct (IH (length l) ltac:(cbn; lia) l eq_refl ([] ++ e ++ x ++ q ++ t) (end_quote q) Al) as (r' & E1' & E2').
      rewrite E1 in E1'. injection E1' as <-. exists (e ++ x ++ q ++ t ++ r). rewrite E2, E2'. split; f_equal; rewrite <- !app_assoc; reflexivity.
Qed.
(** complete pairs (text, quotation) *)
Fixpoint pairs (l : list part) : Prop :=
  match l with [] => True | PU _ :: PQ _ _ :: r => pairs r | _ => False end.
Lemma pairs_ind (P : list part -> Prop) : P [] -> (forall x q t r, pairs r -> P r -> P (PU x :: PQ q t :: r)) -> forall l, pairs l -> P l.
Proof.
  intros H0 H1 l. remember (length l) as n eqn:Hn. revert l Hn. induction n as [n IH] using lt_wf_ind. intros l ->.
  destruct l as [|[x|] [|[|q t] l]]; cbn [pairs]; try contradiction; auto. intros Hp. apply H1; auto. eapply (IH (length l)); auto. cbn. lia.
Qed.
Lemma unsplit_cut cur : pairs cur -> forall s e a c b r, (r = [] \/ exists q t r', r = PQ q t :: r' /\ (r' = [] \/ alternates r')) ->
  exists p x, unsplit_go s e (cur ++ [PU a]) = Ok p /\ unsplit_go [] [] (PU b :: r) = Ok x /\
    unsplit_go s e (cur ++ PU (a ++ c ++ b) :: r) = Ok (p ++ c ++ x).
Proof.
  intros Hp. pattern cur. apply pairs_ind; [| |exact Hp].
  - intros s e a c b r Hr. cbn [app unsplit_go]. destruct Hr as [->|(q & t & r' & -> & Hr)].
    + eexists _, _. split; [reflexivity|]. split; [reflexivity|]. f_equal. rewrite <- !app_assoc. reflexivity.
    + destruct (unsplit_go_app r' (s ++ e ++ (a ++ c ++ b) ++ q ++ t) (end_quote q) Hr) as (y & E1 & E2).
      destruct (unsplit_go_app r' ([] ++ [] ++ b ++ q ++ t) (end_quote q) Hr) as (y' & E1' & E2'). rewrite E1 in E1'. injection E1' as <-.
      eexists _, _. split; [reflexivity|]. split; [exact E2'|]. rewrite E2. f_equal. rewrite <- !app_assoc. reflexivity.
  - intros x q t r _ IH s e a c b r0 Hr. cbn [app unsplit_go]. apply IH; auto.
Qed.
Lemma pairs_snoc cur x q t : pairs cur -> pairs (cur ++ [PU x; PQ q t]).
Proof. intros H. pattern cur. apply pairs_ind; [exact I| |exact H]. intros; cbn; auto. Qed.
Lemma alternates_app cur r : pairs cur -> alternates r -> alternates (cur ++ r).
Proof. intros H A. pattern cur. apply pairs_ind; [exact A| |exact H]. intros; cbn; auto. Qed.
(** cutting one unquoted text at its separators *)
Lemma sections_cut c p : exists s0 ss, py_split [c] p = s0 :: ss.
Proof. destruct (py_split [c] p) eqn:E; [exfalso; eapply py_split_nonempty; eauto|eauto]. Qed.
Lemma mid_unsplit ss : mapM str_unsplit (map (fun x => [PU x]) ss) = Ok ss.
Proof. induction ss as [|x ss IH]; [reflexivity|]. cbn [map mapM]. rewrite IH. reflexivity. Qed.
Lemma mapM_app {A B} (f : A -> res B) a b : mapM f (a ++ b) = do x <- mapM f a; do y <- mapM f b; Ok (x ++ y).
Proof.
  induction a as [|v a IH]; cbn [mapM app bind].
  - destruct (mapM f b); reflexivity.
  - rewrite IH. destruct (f v); cbn [bind]; [|reflexivity]. destruct (mapM f a); cbn [bind]; [|reflexivity]. destruct (mapM f b); reflexivity.
Qed.
Lemma join_app c a x b : a <> [] -> py_join [c] (a ++ x :: b) = py_join [c] a ++ [c] ++ py_join [c] (x :: b).
Proof.
  intros N. induction a as [|y a IH]; [congruence|]. destruct a as [|z a].
  - cbn [app]. rewrite py_join_cons by discriminate. reflexivity.
  - cbn [app] in *. rewrite !(py_join_cons [c] y) by discriminate. rewrite IH by discriminate. rewrite <- !app_assoc. reflexivity.
Qed.
Lemma split_sql_go_spec c : forall n l cur total, length l = n -> pairs cur -> Forall (sep_free c) cur ->
  (l = [] -> cur <> []) -> (l = [] \/ alternates l) ->
  str_unsplit (cur ++ l) = Ok total ->
  exists pieces strs, split_sql_go [c] cur l = Ok pieces /\ mapM str_unsplit pieces = Ok strs /\ strs <> [] /\
    py_join [c] strs = total /\ Forall (Forall (sep_free c)) pieces /\ quotes_of (concat pieces) = quotes_of (cur ++ l).
Proof.
  induction n as [n IH] using lt_wf_ind. intros l cur total Hn Hp Hf Hne Ha Ht. destruct Ha as [->|A].
  - rewrite app_nil_r in Ht. cbn [split_sql_go]. destruct cur as [|p cur]; [exfalso; apply Hne; auto|].
    exists [p :: cur], [total]. split; [reflexivity|]. split; [cbn [mapM]; rewrite Ht; reflexivity|]. split; [discriminate|]. split; [reflexivity|].
    split; [repeat constructor; inversion Hf; auto|]. cbn [concat]. rewrite !app_nil_r. reflexivity.
  - destruct l as [|[p|] l]; cbn in A; try contradiction.
    cbn [split_sql_go]. destruct (sections_cut c p) as (s0 & ss & Es). rewrite Es.
    pose proof (join_split c p) as Ej. pose proof (split1_no_sep c p) as Fs. rewrite Es in Ej, Fs.
    destruct ss as [|s1 ss].
    + (* no separator *) cbn [length Nat.ltb Nat.leb]. cbn [py_join] in Ej. subst s0. inversion Fs; subst.
      destruct l as [|[|q t] l]; [| contradiction |].
      * cbn [app]. exists [cur ++ [PU p]], [total]. split; [reflexivity|]. split; [cbn [mapM]; rewrite Ht; reflexivity|]. split; [discriminate|]. split; [reflexivity|].
        split; [constructor; [apply Forall_app; split; [auto|constructor; [assumption|constructor]]|constructor]|]. cbn [concat]. rewrite app_nil_r. reflexivity.
      * destruct (IH (length l) ltac:(cbn [length]; lia) l ((cur ++ [PU p]) ++ [PQ q t]) total eq_refl) as (pieces & strs & E1 & E2 & E3 & E4 & E5 & E6).
        { rewrite <- app_assoc. cbn [app]. apply pairs_snoc; auto. }
        { rewrite <- app_assoc. apply Forall_app. split; [auto|]. constructor; [assumption|]. constructor; [exact I|constructor]. }
        { intros _ X. destruct cur; discriminate. }
        { destruct A; auto. }
        { rewrite <- Ht. f_equal. rewrite <- !app_assoc. reflexivity. }
        exists pieces, strs. rewrite E1. cbn [bind app]. repeat (split; [assumption || reflexivity|]). rewrite E6. f_equal. rewrite <- !app_assoc. reflexivity.
    + (* separators: the first section ends the current statement *)
      cbn [length Nat.ltb Nat.leb hd tl]. 
      assert (Esp : exists mid lst, s1 :: ss = mid ++ [lst]).
      { exists (removelast (s1 :: ss)), (last (s1 :: ss) []). apply app_removelast_last. discriminate. }
      destruct Esp as (mid & lst & Esp). 
      assert (Er : removelast (s1 :: ss) = mid) by (rewrite Esp; apply removelast_last).
      assert (El : last (s0 :: s1 :: ss) [] = lst) by (change (last (s0 :: s1 :: ss) []) with (last (s1 :: ss) []); rewrite Esp; apply last_last).
      change (last (s0 :: s1 :: ss) []) with (last (s1 :: ss) []) in *.
      rewrite Er. rewrite El. 
      assert (Ep : p = s0 ++ [c] ++ py_join [c] (mid ++ [lst])).
      { rewrite <- Esp. rewrite <- py_join_cons by discriminate. symmetry. exact Ej. }
      assert (Fm : ~ In c s0 /\ Forall (fun x => ~ In c x) mid /\ ~ In c lst).
      { inversion Fs as [|? ? F1 F2]; subst. rewrite Esp in F2. apply Forall_app in F2 as (F2 & F3). inversion F3; subst. auto. }
      destruct Fm as (F0 & F1 & F2).
      assert (Fmid : Forall (Forall (sep_free c)) (map (fun x => [PU x]) mid)).
      { clear - F1. induction F1; cbn; constructor; auto. }
      assert (Qmid : quotes_of (concat (map (fun x : text => [PU x]) mid)) = []) by (clear; induction mid; auto).
      assert (Qcur : forall a r, quotes_of (cur ++ PU a :: r) = quotes_of cur ++ quotes_of r).
      { intros. unfold quotes_of. rewrite filter_app. reflexivity. }
      (* the rest of the text, as if it started at the last section *)
      assert (G : exists pieces' strs' rest', 
         (match l with [] => Ok [[PU lst]] | q :: r' => split_sql_go [c] [PU lst; q] r' end) = Ok pieces' /\
         mapM str_unsplit pieces' = Ok strs' /\ strs' <> [] /\ py_join [c] strs' = rest' /\ str_unsplit (PU lst :: l) = Ok rest' /\
         Forall (Forall (sep_free c)) pieces' /\ quotes_of (concat pieces') = quotes_of l).
      { destruct l as [|[|q t] l]; [| contradiction |].
        - exists [[PU lst]], [lst], lst. cbn. repeat (split; [reflexivity || discriminate || auto|]). repeat constructor; auto.
        - destruct (unsplit_go_app l ([] ++ [] ++ lst ++ q ++ t) (end_quote q)) as (r & R1 & R2); [destruct A; auto|].
          destruct (IH (length l) ltac:(rewrite <- Hn; cbn [List.length]; lia) l [PU lst; PQ q t] (([] ++ [] ++ lst ++ q ++ t) ++ r) eq_refl) as (pieces & strs & E1 & E2 & E3 & E4 & E5 & E6).
          { exact I. }
          { constructor; [exact F2|]. constructor; [exact I|constructor]. }
          { discriminate. }
          { destruct A; auto. }
          { exact R2. }
          exists pieces, strs, (([] ++ [] ++ lst ++ q ++ t) ++ r). repeat (split; [assumption|]). rewrite E6. reflexivity. }
      destruct G as (pieces' & strs' & rest' & G1 & G2 & G3 & G4 & G5 & G6 & G7).
      assert (Hr : l = [] \/ exists q t r', l = PQ q t :: r' /\ (r' = [] \/ alternates r')).
      { destruct l as [|[|q t] l]; [auto|contradiction|]. right. exists q, t, l. split; [reflexivity|]. destruct A; auto. }
      (* the middle sections, as texts *)
      destruct (unsplit_cut cur Hp [] [] s0 [c] (py_join [c] (mid ++ [lst])) l Hr) as (p1 & x & U1 & U2 & U3).
      rewrite <- Ep in U3. unfold str_unsplit in Ht. rewrite Ht in U3. injection U3 as U3.
      assert (Ex : x = match mid with [] => rest' | _ => py_join [c] mid ++ [c] ++ rest' end).
      { destruct mid as [|m0 mid']. 
        - cbn [app py_join] in U2. unfold str_unsplit in G5. rewrite U2 in G5. injection G5 as ->. reflexivity.
        - rewrite join_app in U2 by discriminate. destruct (unsplit_cut [] I [] [] (py_join [c] (m0 :: mid')) [c] (py_join [c] [lst]) l Hr) as (p2 & x2 & V1 & V2 & V3).
          cbn [app] in V3. cbn [app] in U2. rewrite V3 in U2. injection U2 as U2. cbn in V1. injection V1 as <-. unfold str_unsplit in G5. cbn [py_join] in V2. rewrite V2 in G5. injection G5 as ->. symmetry. exact U2. }
      exists ((cur ++ [PU s0]) :: map (fun x => [PU x]) mid ++ pieces'), (p1 :: mid ++ strs').
      assert (EE : match l with
             | [] => Ok (((cur ++ [PU s0]) :: map (fun x0 : text => [PU x0]) mid) ++ [[PU lst]])
             | q :: r' => do o <- split_sql_go [c] ([PU lst] ++ [q]) r'; Ok (((cur ++ [PU s0]) :: map (fun x0 : text => [PU x0]) mid) ++ o)
             end = Ok ((cur ++ [PU s0]) :: map (fun x0 : text => [PU x0]) mid ++ pieces')).
      { destruct l as [|q l]; [injection G1 as <-; reflexivity|]. cbn [app]. rewrite G1. reflexivity. }
      split; [exact EE|]. split.
      { cbn [mapM]. unfold str_unsplit at 1. rewrite U1. cbn [bind]. rewrite mapM_app, mid_unsplit, G2. reflexivity. }
      split; [discriminate|]. split.
      { rewrite U3, Ex. destruct mid as [|m0 mid']; cbn [app].
        - rewrite py_join_cons by auto. rewrite G4. reflexivity.
        - destruct strs' as [|y ys]; [congruence|]. rewrite py_join_cons by discriminate. change (m0 :: mid' ++ y :: ys) with ((m0 :: mid') ++ y :: ys). rewrite join_app by discriminate. rewrite G4. reflexivity. }
      split.
      { constructor; [apply Forall_app; split; [auto|constructor; [exact F0|constructor]]|]. apply Forall_app. split; auto. }
      cbn [concat]. rewrite concat_app. unfold quotes_of. rewrite !filter_app. fold (quotes_of cur) (quotes_of (concat pieces')) (quotes_of (concat (map (fun x0 : text => [PU x0]) mid))).
      rewrite Qmid, G7. cbn [filter app]. rewrite app_nil_r. reflexivity.
Qed.
Lemma split_sql_spec U s c : unicode_ok U -> exists pieces strs total,
  split_sql U s [c] = Ok pieces /\ split_sql_str U s [c] = Ok strs /\ str_unsplit (str_split U s) = Ok total /\ py_join [c] strs = total /\
  Forall (Forall (sep_free c)) pieces /\ quotes_of (concat pieces) = quotes_of (str_split U s).
Proof.
  intros HU. pose proof (split_alternates U HU (length s) s (le_n _)) as A. fold (str_split U s) in A.
  destruct (unsplit_go_app (str_split U s) [] [] (or_intror A)) as (r & _ & R).
  destruct (split_sql_go_spec c (length (str_split U s)) (str_split U s) [] r eq_refl I (Forall_nil _)) as (pieces & strs & E1 & E2 & E3 & E4 & E5 & E6).
  - intros E. rewrite E in A. contradiction.
  - auto.
  - exact R.
  - exists pieces, strs, r. unfold split_sql_str, split_sql. rewrite E1. cbn [bind]. auto 8.
Qed.
