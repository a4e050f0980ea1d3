(** LcopyProof.v *)
From Verif Require Import Base BaseProof PBufferModel PBufferProof Element3Model Element3Proof NegModel NegSpec NegProof InstModel InstSpec InstProof InstProof2 InstProof3 InstProps ConnProof FetchModel FetchSpec LoadModel LoadSpec LcopyModel LcopySpec.

(** ** transactions *)
Lemma put_loop_faulted : forall l s o st p c, faulted s = true -> faulted (fst (put_loop s o st p c l)) = true.
Proof.
  induction l as [|y l IHl]; intros s o st p c F; cbn [put_loop]; [exact F|].
  destruct (nth_error _ _) as [cmd|]; [|exact F]. destruct (cmd_paths cmd) as [[ps|]|]; try exact F.
  destruct (nth_error ps st) as [tb|]; [|exact F]. destruct (lookup _ _) as [[k [n|]]|].
  - destruct (parse _ _); [|exact F]. apply IHl. exact F.
  - destruct (parse _ _) as [m|]; [|exact F]. set (s1 := match m with MReady st0 => set_ready s st0 | _ => s end).
    assert (F1 : faulted s1 = true) by (subst s1; destruct m; exact F). clearbody s1. destruct (_ =? _)%nat; [exact F1|apply IHl; exact F1].
  - destruct (_ =? _).
    + destruct (parse _ _) as [em|]; [|exact F]. destruct (err_fatal em) as [[|]|]; try exact F; try reflexivity.
      match goal with |- context [if ?b then _ else _] => destruct b end; [apply IHl; reflexivity|]. destruct (find_sync _); [apply IHl; reflexivity|reflexivity].
    + destruct (async_kind _); [|reflexivity]. destruct (mem_async _ _); [apply IHl; exact F|]. destruct (parse _ _); [apply IHl; exact F|exact F].
Qed.
Lemma inst_put_faulted x id l : faulted x = true -> faulted (fst (inst_put x id l)) = true.
Proof.
  intros F. assert (SP : forall s, faulted s = true -> faulted (fst (standard_put s id l)) = true).
  { intros s Fs. unfold standard_put. destruct (if id =? i_last s then i_prev s else i_cur s) as [o st].
    set (s0 := if id =? i_last s then s else set_async s [] (i_delivered s)).
    assert (F0 : faulted s0 = true) by (unfold s0; destruct (id =? i_last s); exact Fs). clearbody s0.
    destruct (nth_error _ _) as [cmd|]; [|exact F0]. destruct (cmd_paths cmd); [|exact F0].
    pose proof (put_loop_faulted l s0 o st [] 0 F0) as PL. destruct (put_loop s0 o st [] 0 l) as [s1 [e1|c1|o1 st1 p1 c1]]; cbn [fst] in *; auto.
    set (s2 := set_done s1 _ _ _ _). assert (F2 : faulted s2 = true) by exact PL. clearbody s2.
    destruct (_ =? _)%nat; [exact F2|]. cbn [fst]. unfold switch. destruct (nth_error _ _) as [c2|]; [|exact F2].
    destruct (ctype c2); [|exact F2]. destruct (_ || _); [|exact F2]. destruct (rev p1) as [|mm ?]; [exact F2|]. destruct mm; try exact F2. destruct to; exact F2. }
  unfold inst_put. destruct (i_state x); try exact F.
  - apply SP. exact F.
  - unfold put_copydata. destruct (rev l) as [|lm rl]; [exact F|]. destruct (negb (fst lm =? 100)); [apply SP; exact F|]. destruct (negb _); [apply SP; exact F|exact F].
  - unfold put_tupledata. destruct (rev l) as [|lm rl]; [exact F|]. destruct (negb (fst lm =? 68)); [apply SP; exact F|].
    destruct (mapM _ _); [|exact F]. destruct (negb _); [apply SP; exact F|exact F].
Qed.
Lemma sent_faulted x : faulted (inst_sent x) = faulted x.
Proof. unfold inst_sent. destruct (i_state x); try reflexivity. destruct (i_messages x); reflexivity. Qed.

Lemma put_loop_cur l : forall s o st p c, i_cur (fst (put_loop s o st p c l)) = i_cur s.
Proof.
  induction l as [|x l IH]; intros s o st p c; cbn [put_loop]; [reflexivity|].
  destruct (nth_error _ _) as [cmd|]; [|reflexivity]. destruct (cmd_paths cmd) as [[ps|]|]; [|reflexivity|reflexivity].
  destruct (nth_error ps st) as [tb|]; [|reflexivity]. destruct (lookup _ _) as [[k [n|]]|].
  - destruct (parse _ _); [|reflexivity]. apply IH.
  - destruct (parse _ _) as [m|]; [|reflexivity]. set (s1 := match m with MReady st0 => set_ready s st0 | _ => s end).
    assert (F1 : i_cur s1 = i_cur s) by (subst s1; destruct m; reflexivity). clearbody s1. destruct (_ =? _)%nat; [exact F1|rewrite IH; exact F1].
  - destruct (_ =? _).
    + destruct (parse _ _) as [em|]; [|reflexivity]. destruct (err_fatal em) as [[|]|]; try reflexivity.
      match goal with |- context [if ?b then _ else _] => destruct b end; [rewrite IH; reflexivity|]. destruct (find_sync _); [rewrite IH; reflexivity|reflexivity].
    + destruct (async_kind _); [|reflexivity]. destruct (mem_async _ _); [apply IH|]. destruct (parse _ _); [rewrite IH; reflexivity|reflexivity].
Qed.
Lemma put_loop_end_state l : forall s o st p c, match snd (put_loop s o st p c l) with LEnd _ _ _ _ => i_state (fst (put_loop s o st p c l)) = i_state s | _ => True end.
Proof.
  induction l as [|x l IH]; intros s o st p c; cbn [put_loop]; [reflexivity|].
  destruct (nth_error _ _) as [cmd|]; [|exact Logic.I]. destruct (cmd_paths cmd) as [[ps|]|]; [|exact Logic.I|exact Logic.I].
  destruct (nth_error ps st) as [tb|]; [|exact Logic.I]. destruct (lookup _ _) as [[k [n|]]|].
  - destruct (parse _ _); [|exact Logic.I]. apply IH.
  - destruct (parse _ _) as [m|]; [|exact Logic.I]. set (s1 := match m with MReady st0 => set_ready s st0 | _ => s end).
    assert (F1 : i_state s1 = i_state s) by (subst s1; destruct m; reflexivity). clearbody s1. destruct (_ =? _)%nat; [exact F1|].
    rewrite <- F1. apply IH.
  - destruct (_ =? _).
    + destruct (parse _ _) as [em|]; [|exact Logic.I]. destruct (err_fatal em) as [[|]|]; try exact Logic.I.
      cbv zeta. change (i_state s) with (i_state (set_error s false (IEServer em))).
      match goal with |- context [if ?b then _ else _] => destruct b end; [apply IH|]. destruct (find_sync _); [apply IH|exact Logic.I].
    + destruct (async_kind _); [|exact Logic.I]. destruct (mem_async _ _); [apply IH|]. destruct (parse _ _) as [m|]; [|exact Logic.I].
      change (i_state s) with (i_state (set_async s (i_asyncs s ++ [x]) (i_delivered s ++ [m]))). apply IH.
Qed.

(** the transaction of a COPY *)
Section Pos.
  Context (stmt : bytes).
  Notation cmds := (copy_cmds stmt).
  Definition is_begin (m : message) : bool := match m with MCopyBegin false _ _ => true | _ => false end.
  Definition last_begin (p : list message) : bool := match rev p with m :: _ => is_begin m | [] => false end.
  Definition after_copy (o st : nat) : Prop := (o = 1 /\ st = 3)%nat \/ (2 <= o)%nat.
  Lemma last_begin_snoc p m : last_begin (p ++ [m]) = is_begin m.
  Proof. unfold last_begin. now rewrite rev_unit. Qed.
  Lemma parse_begin k d m : parse k d = Ok m -> is_begin m = true -> k = KCopyBegin false.
  Proof.
    intros E B. pose proof (parse_kind _ _ _ E) as K. destruct m; try discriminate B. cbn in K. destruct to; [discriminate B|]. congruence.
  Qed.
  Lemma loop_pos l : forall s o st p c s' o' st' p' c', i_cmds s = cmds ->
    put_loop s o st p c l = (s', LEnd o' st' p' c') -> (last_begin p = true -> after_copy o st) ->
    (last_begin p' = true -> after_copy o' st') /\ (after_copy o st -> last_begin p = false -> after_copy o' st' /\ last_begin p' = false).
  Proof.
    induction l as [|x l IH]; intros s o st p c s' o' st' p' c' C E B; cbn [put_loop] in E.
    - injection E as <- <- <- <- <-. auto.
    - rewrite C in E.
      assert (Oc : (o = 0 \/ o = 1 \/ o = 2 \/ 3 <= o)%nat) by lia.
      assert (G : forall s1 o1 st1 p1 c1, i_cmds s1 = cmds -> put_loop s1 o1 st1 p1 c1 l = (s', LEnd o' st' p' c') ->
         (last_begin p1 = true -> after_copy o1 st1) -> (after_copy o st -> last_begin p = false -> after_copy o1 st1 /\ last_begin p1 = false) ->
         (last_begin p' = true -> after_copy o' st') /\ (after_copy o st -> last_begin p = false -> after_copy o' st' /\ last_begin p' = false)).
      { intros s1 o1 st1 p1 c1 C1 E1 B1 A1. destruct (IH _ _ _ _ _ _ _ _ _ _ C1 E1 B1) as (H1 & H2). split; [exact H1|]. intros A L. destruct (A1 A L). auto. }
      (* an error response *)
      assert (ER : forall tb, match parse (KNotice true) (snd x) with
            | Err e => (s, LErr e)
            | Ok em => match err_fatal em with
              | Err e => (s, LErr e)
              | Ok fatal => let s := set_error s fatal (IEServer em) in
                 if fatal then (set_state s IComplete, LRet (c + 1))
                 else match find_sync (skipn o (i_cmds s)) with
                      | Some n => put_loop s (o + n) 0 p (c + 1) l
                      | None => (set_state s IComplete, LRet (c + 1)) end end end = (s', LEnd o' st' p' c') ->
            (o <= 2)%nat -> (tb : nat) = tb ->
            (last_begin p' = true -> after_copy o' st') /\ (after_copy o st -> last_begin p = false -> after_copy o' st' /\ last_begin p' = false)).
      { intros _ Q Ol _. destruct (parse _ _) as [em|]; [|discriminate]. destruct (err_fatal em) as [[|]|]; [discriminate| |discriminate].
        cbv zeta in Q. change (i_cmds (set_error s false (IEServer em))) with (i_cmds s) in Q. rewrite C in Q. assert (Fs : exists n, find_sync (skipn o cmds) = Some n /\ (o + n = 2)%nat) by (destruct o as [|[|[|o]]]; [exists 2%nat|exists 1%nat|exists O|lia]; split; reflexivity).
        destruct Fs as (n & F1 & F2). rewrite F1, F2 in Q.
        assert (C1 : i_cmds (set_error s false (IEServer em)) = cmds) by exact C. refine (G _ _ _ _ _ C1 Q _ _).
        - intros _. right. lia.
        - intros _ L. split; [right; lia|exact L]. }
      assert (AS : match async_kind (fst x) with
          | Some k => if mem_async x (i_asyncs s) then put_loop s o st p (c + 1) l
              else match parse k (snd x) with
                   | Err e => (s, LErr e)
                   | Ok m => put_loop (set_async s (i_asyncs s ++ [x]) (i_delivered s ++ [m])) o st p (c + 1) l
                   end
          | None => (s, LErr IndexError)
          end = (s', LEnd o' st' p' c') ->
          (last_begin p' = true -> after_copy o' st') /\ (after_copy o st -> last_begin p = false -> after_copy o' st' /\ last_begin p' = false)).
      { intros Q. destruct (async_kind _) as [k|]; [|discriminate]. destruct (mem_async _ _); [refine (G _ _ _ _ _ C Q _ _); auto|].
        destruct (parse k (snd x)) as [m|]; [|discriminate Q].
        assert (C1 : i_cmds (set_async s (i_asyncs s ++ [x]) (i_delivered s ++ [m])) = cmds) by exact C. refine (G _ _ _ _ _ C1 Q _ _); auto. }
      (* a step of a path *)
      assert (ST : forall k n, match parse k (snd x) with Err e => (s, LErr e) | Ok m => put_loop s o n (p ++ [m]) (c + 1) l end = (s', LEnd o' st' p' c') ->
          (k = KCopyBegin false -> after_copy o n) -> (after_copy o st -> after_copy o n /\ k <> KCopyBegin false) ->
          (last_begin p' = true -> after_copy o' st') /\ (after_copy o st -> last_begin p = false -> after_copy o' st' /\ last_begin p' = false)).
      { intros k n Q K1 K2. destruct (parse k (snd x)) as [m|] eqn:Pm; [|discriminate]. refine (G _ _ _ _ _ C Q _ _).
        - rewrite last_begin_snoc. intros Lb. apply K1. eapply parse_begin; eauto.
        - intros A _. destruct (K2 A) as (A1 & A2). split; [exact A1|]. rewrite last_begin_snoc. destruct (is_begin m) eqn:Ib; [|reflexivity]. exfalso. apply A2. eapply parse_begin; eauto. }
      assert (FI : forall k, k <> KCopyBegin false -> match parse k (snd x) with
          | Err e => (s, LErr e)
          | Ok m => let s := match m with MReady st => set_ready s st | _ => s end in
             let offset := (S o + skip_flush (skipn (S o) (i_cmds s)))%nat in
             if (offset =? length (i_cmds s))%nat then (s, LEnd offset 0 (p ++ [m]) (c + 1)) else put_loop s offset 0 (p ++ [m]) (c + 1) l
          end = (s', LEnd o' st' p' c') -> (o <= 2)%nat ->
          (last_begin p' = true -> after_copy o' st') /\ (after_copy o st -> last_begin p = false -> after_copy o' st' /\ last_begin p' = false)).
      { intros k Nk Q Ol. destruct (parse k (snd x)) as [m|] eqn:Pm; [|discriminate]. cbv zeta in Q.
        set (s1 := match m with MReady st0 => set_ready s st0 | _ => s end) in *. assert (C1 : i_cmds s1 = cmds) by (subst s1; destruct m; exact C). clearbody s1.
        rewrite C1 in Q. assert (Sf : skip_flush (skipn (S o) cmds) = O) by (destruct o as [|[|[|o]]]; [reflexivity|reflexivity|reflexivity|lia]).
        rewrite Sf, Nat.add_0_r in Q. assert (Nb : is_begin m = false) by (destruct (is_begin m) eqn:Ib; [|reflexivity]; exfalso; apply Nk; eapply parse_begin; eauto).
        destruct (_ =? _)%nat eqn:En in Q.
        - injection Q as <- <- <- <- <-. rewrite last_begin_snoc, Nb. split; [discriminate|]. intros A _. split; [|reflexivity].
          right. destruct A as [(-> & _)|A]; lia.
        - eapply (G _ _ _ _ _ C1 Q); rewrite last_begin_snoc, Nb; [discriminate|]. intros A _. split; [|reflexivity].
          right. destruct A as [(-> & _)|A]; lia. }
      destruct Oc as [->|[->|[->|Oc]]].
      + cbn [nth_error copy_cmds cmd_paths ctype kind_of type_of hook Z.eqb Pos.eqb] in E.
        change (cmd_paths (MBind [] stmt [] [] [])) with (Some (Some [[(50, (KEmpty EBindComplete, @None nat))]])) in E. cbn [nth_error] in E.
        destruct st as [|st]; [|destruct st; discriminate]. cbn [nth_error lookup] in E. rewrite (Z.eqb_sym 50) in E. destruct (fst x =? 50); [eapply FI; [|exact E|lia]; discriminate|].
        change (ctype (MBind [] stmt [] [] [])) with (Some 66) in E. change ((66 =? 70) || (66 =? 81)) with false in E. cbv iota in E.
        destruct (fst x =? 69); [eapply (ER O); [exact E|lia|reflexivity]|]. destruct (async_kind (fst x)) eqn:Ak; [apply AS; rewrite ?Ak; exact E|discriminate].
      + change (nth_error cmds 1) with (Some (MExecute [] 1)) in E. cbv iota beta in E.
        change (cmd_paths (MExecute [] 1)) with (hook 69) in E. cbn [hook Z.eqb Pos.eqb] in E.
        change (ctype (MExecute [] 1)) with (Some 69) in E. change ((69 =? 70) || (69 =? 81)) with false in E. cbv iota in E.
        destruct st as [|[|[|[|st]]]]; [| | | |destruct st; discriminate]; cbn [nth_error lookup] in E.
        * rewrite !(Z.eqb_sym _ (fst x)) in E.
          destruct (fst x =? 68); [refine (ST KTuple 1%nat E _ _); [discriminate|intros [(_ & A)|A]; lia]|].
          destruct (fst x =? 72); [refine (ST (KCopyBegin true) 2%nat E _ _); [discriminate|intros [(_ & A)|A]; lia]|].
          destruct (fst x =? 71); [refine (ST (KCopyBegin false) 3%nat E _ _); [intros _; left; auto|intros [(_ & A)|A]; lia]|].
          destruct (fst x =? 73); [eapply FI; [|exact E|lia]; discriminate|]. destruct (fst x =? 67); [refine (FI KComplete _ E _); [discriminate|lia]|].
          destruct (fst x =? 69); [eapply (ER O); [exact E|lia|reflexivity]|]. destruct (async_kind (fst x)) eqn:Ak; [apply AS; rewrite ?Ak; exact E|discriminate].
        * rewrite !(Z.eqb_sym _ (fst x)) in E.
          destruct (fst x =? 68); [refine (ST KTuple 1%nat E _ _); [discriminate|intros [(_ & A)|A]; lia]|].
          destruct (fst x =? 115); [eapply FI; [|exact E|lia]; discriminate|]. destruct (fst x =? 67); [refine (FI KComplete _ E _); [discriminate|lia]|].
          destruct (fst x =? 69); [eapply (ER O); [exact E|lia|reflexivity]|]. destruct (async_kind (fst x)) eqn:Ak; [apply AS; rewrite ?Ak; exact E|discriminate].
        * rewrite !(Z.eqb_sym _ (fst x)) in E.
          destruct (fst x =? 100); [refine (ST KCopyData 2%nat E _ _); [discriminate|intros [(_ & A)|A]; lia]|].
          destruct (fst x =? 99); [refine (ST (KEmpty ECopyDone) 3%nat E _ _); [discriminate|intros [(_ & A)|A]; lia]|].
          destruct (fst x =? 69); [eapply (ER O); [exact E|lia|reflexivity]|]. destruct (async_kind (fst x)) eqn:Ak; [apply AS; rewrite ?Ak; exact E|discriminate].
        * rewrite !(Z.eqb_sym _ (fst x)) in E.
          destruct (fst x =? 67); [refine (FI KComplete _ E _); [discriminate|lia]|].
          destruct (fst x =? 69); [eapply (ER O); [exact E|lia|reflexivity]|]. destruct (async_kind (fst x)) eqn:Ak; [apply AS; rewrite ?Ak; exact E|discriminate].
      + change (nth_error cmds 2) with (Some (MEmpty ESynchronize)) in E. cbv iota beta in E.
        change (cmd_paths (MEmpty ESynchronize)) with (Some (Some [[(90, (KReady, @None nat))]])) in E. cbv iota beta in E.
        change (ctype (MEmpty ESynchronize)) with (Some 83) in E. change ((83 =? 70) || (83 =? 81)) with false in E. cbv iota in E.
        destruct st as [|st]; [|destruct st; discriminate]. cbn [nth_error lookup] in E. rewrite !(Z.eqb_sym _ (fst x)) in E.
        destruct (fst x =? 90); [refine (FI KReady _ E _); [discriminate|lia]|].
        destruct (fst x =? 69); [eapply (ER O); [exact E|lia|reflexivity]|]. destruct (async_kind (fst x)) eqn:Ak; [apply AS; rewrite ?Ak; exact E|discriminate].
      + destruct o as [|[|[|o]]]; try lia. cbn in E. destruct o; discriminate.
  Qed.

  Definition cpos (x : inst) : Prop := after_copy (fst (i_cur x)) (snd (i_cur x)).
  Definition at_stdin (x : inst) : Prop := i_state x = ISendStdin /\ cpos x /\ i_tail x = [MEmpty ESynchronize].
  Definition posres (x x' : inst) : Prop :=
    i_cmds x' = cmds /\ i_messages x' = i_messages x /\ (receiving x' \/ i_state x' = IComplete \/ (at_stdin x' /\ ~ cpos x)) /\
    (cpos x -> cpos x').
  Lemma switch_pos s o p : i_cmds s = cmds -> receiving s -> (last_begin p = true -> after_copy o (snd (i_cur s))) -> fst (i_cur s) = o ->
    receiving (switch s o p) \/ (at_stdin (switch s o p) /\ last_begin p = true).
  Proof.
    intros C R B Eo. unfold switch. rewrite C. destruct (nth_error cmds o) as [cm|] eqn:En; [|auto].
    destruct (ctype cm) as [t|] eqn:Et; [|auto]. destruct (_ || _) eqn:Eq; [|auto].
    assert (O1 : o = 1%nat).
    { destruct o as [|[|[|[|o]]]]; [injection En as <-; injection Et as <-; discriminate|reflexivity|injection En as <-; injection Et as <-; discriminate|discriminate|discriminate]. }
    subst o. unfold last_begin in *. destruct (rev p) as [|m r]; [auto|].
    destruct m; auto; try (left; unfold receiving; cbn; auto; fail).
    destruct to.
    - left. unfold receiving. cbn. auto.
    - right. split; [|reflexivity]. split; [reflexivity|]. specialize (B eq_refl). split; [|cbn [i_tail set_state set_tail]; rewrite O1, ?C; reflexivity].
      exact B.
  Qed.
  Lemma recv_not_complete x : receiving x -> i_state x <> IComplete.
  Proof. intros [R|[R|R]]; rewrite R; discriminate. Qed.
  Lemma standard_pos x id l x' r : i_cmds x = cmds -> receiving x -> id <> i_last x -> standard_put x id l = (x', r) -> posres x x'.
  Proof.
    intros C R Nid E. pose proof (standard_kept _ _ _ _ _ E) as (K1 & K2 & _). split; [congruence|]. split; [exact K2|].
    unfold standard_put in E. apply Z.eqb_neq in Nid. rewrite Nid in E. destruct (i_cur x) as [o st] eqn:Ec.
    set (s0 := set_async x [] (i_delivered x)) in *. assert (C0 : i_cmds s0 = cmds) by exact C. assert (R0 : i_state s0 = i_state x) by reflexivity.
    assert (Cu0 : i_cur s0 = (o, st)) by exact Ec. clearbody s0.
    assert (D : forall y, i_state y = i_state x \/ i_state y = IComplete -> i_cur y = (o, st) ->
       (receiving y \/ i_state y = IComplete \/ (at_stdin y /\ ~ cpos x)) /\ (cpos x -> cpos y)).
    { intros y Sy Cy. split; [unfold receiving in *; destruct Sy as [-> | ->]; auto|]. unfold cpos. now rewrite Cy, Ec. }
    destruct (nth_error _ _) as [cm|]; [|injection E as <- <-; apply D; auto]. destruct (cmd_paths cm); [|injection E as <- <-; apply D; auto].
    destruct (put_loop s0 o st [] 0 l) as [s1 lr] eqn:L. pose proof (put_loop_frame l s0 o st [] 0) as F. cbv zeta in F. rewrite L in F. cbn [fst] in F. destruct F as (F1 & _ & _ & F4).
    assert (Cu1 : i_cur s1 = (o, st)). { pose proof (put_loop_cur l s0 o st [] 0) as Q. rewrite L in Q. cbn [fst] in Q. congruence. }
    rewrite R0 in F4.
    destruct lr as [er|c|o' st' p' c']; [injection E as <- <-; apply D; auto|injection E as <- <-; apply D; auto|].
    destruct (loop_pos _ _ _ _ _ _ _ _ _ _ _ C0 L) as (P1 & P2); [discriminate|].
    set (s2 := set_done s1 _ _ _ _) in *. assert (C2 : i_cmds s2 = cmds) by (change (i_cmds s1 = cmds); congruence). assert (S2 : i_state s2 = i_state s1) by reflexivity.
    assert (Cu2 : i_cur s2 = (o', st')) by reflexivity. clearbody s2.
    assert (A : cpos x -> after_copy o' st' /\ last_begin p' = false) by (intros A; unfold cpos in A; rewrite Ec in A; cbn [fst snd] in A; apply P2; auto).
    destruct (_ =? _)%nat.
    - injection E as <- <-. split; [right; left; reflexivity|]. unfold cpos at 2. cbn [i_cur set_state]. rewrite Cu2. cbn [fst snd]. intros Q. apply A, Q.
    - injection E as <- <-. destruct (switch_frame s2 o' p') as (W1 & W2).
      split; [|unfold cpos at 2; rewrite W2, Cu2; cbn [fst snd]; intros Q; apply A, Q].
      destruct F4 as [F4|F4].
      + destruct (switch_pos s2 o' p' C2) as [Q|(Q1 & Q2)]; [unfold receiving in *; rewrite S2, F4; exact R|rewrite Cu2; exact P1|rewrite Cu2; reflexivity|left; exact Q|].
        right; right. split; [exact Q1|]. intros Q. destruct (A Q) as (_ & A2). congruence.
      + exfalso. clear - L F4 R0 R. pose proof (put_loop_end_state l s0 o st [] 0) as Q. rewrite L in Q. cbn in Q. apply (recv_not_complete x R). congruence.
  Qed.
  Lemma put_pos x id l x' r : i_cmds x = cmds -> receiving x -> id <> i_last x -> inst_put x id l = (x', r) -> posres x x'.
  Proof.
    intros C R Nid E.
    assert (SP : forall x' r, standard_put (set_state x IPut) id l = (x', r) -> posres x x').
    { intros y q Q. apply standard_pos in Q; auto. left. reflexivity. }
    assert (Id : posres x x) by (split; [exact C|]; split; [reflexivity|]; split; auto).
    assert (Dn : forall c, posres x (set_done x c id (i_cur x) (i_cur x))) by (intros c; split; [exact C|]; split; [reflexivity|]; split; [left; exact R|auto]).
    unfold inst_put in E. destruct (i_state x) eqn:Es; try (destruct R as [R|[R|R]]; congruence).
    - eapply standard_pos; eauto.
    - unfold put_copydata in E. destruct (rev l) as [|lm rl]; [injection E as <- <-; exact Id|]. destruct (negb _); [eapply SP; eauto|].
      destruct (negb _); [eapply SP; eauto|]. injection E as <- <-. apply Dn.
    - unfold put_tupledata in E. destruct (rev l) as [|lm rl]; [injection E as <- <-; exact Id|]. destruct (negb _); [eapply SP; eauto|].
      destruct (mapM _ _); [|injection E as <- <-; exact Id]. destruct (negb _); [eapply SP; eauto|]. injection E as <- <-. apply Dn.
  Qed.
End Pos.
