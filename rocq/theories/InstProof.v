(** InstProof.v *)
From Verif Require Import Base BaseProof PBufferModel Element3Model NegModel NegSpec NegProof InstModel InstSpec.

Definition delta (t : Z) (st : nat) (ty : Z) : option (kind * option nat) :=
  match hook t with
  | Some (Some ps) => match nth_error ps st with Some tb => lookup ty tb | None => None end
  | _ => None
  end.
Definition cmd_types : list Z := [81; 70; 80; 66; 68; 67; 69; 83].
Definition entries : list (Z * nat * Z * kind * option nat) :=
  flat_map (fun t => match hook t with
    | Some (Some ps) => concat (map (fun itb => map (fun e => (t, fst itb, fst e, fst (snd e), snd (snd e))) (snd itb)) (combine (seq 0 (length ps)) ps))
    | _ => [] end) cmd_types.
Lemma hook_types t ps : hook t = Some (Some ps) -> List.In t cmd_types.
Proof.
  unfold hook. intros H.
  repeat match goal with H : (if ?a =? ?b then _ else _) = _ |- _ => destruct (Z.eqb_spec a b) as [->|?]; [cbn; tauto|] end.
  destruct (t =? 72); discriminate.
Qed.
Lemma lookup_in ty tb v : lookup ty tb = Some v -> List.In (ty, v) tb.
Proof.
  induction tb as [|[k w] tb IH]; cbn; [discriminate|]. destruct (Z.eqb_spec k ty) as [->|]; [|auto].
  intros H. injection H as ->. auto.
Qed.
Lemma delta_in t st ty k n : delta t st ty = Some (k, n) -> List.In (t, st, ty, k, n) entries.
Proof.
  unfold delta. destruct (hook t) as [[ps|]|] eqn:E; try discriminate.
  destruct (nth_error ps st) as [tb|] eqn:En; [|discriminate]. intros H. apply lookup_in in H.
  unfold entries. apply in_flat_map. exists t. split; [eapply hook_types; eauto|]. rewrite E.
  apply in_concat. exists (map (fun e => (t, st, fst e, fst (snd e), snd (snd e))) tb). split.
  - apply in_map_iff. exists (st, tb). split; [reflexivity|].
    assert (G : forall (l : list table) s i x, nth_error l i = Some x -> List.In ((s + i)%nat, x) (combine (seq s (length l)) l)).
    { clear. induction l as [|y l IH]; intros s [|i] x H; cbn in *; try discriminate.
      - injection H as ->. left. f_equal; lia.
      - right. rewrite Nat.add_succ_r. apply (IH (S s)). exact H. }
    apply (G ps 0%nat st tb En).
  - apply in_map_iff. exists (ty, (k, n)). auto.
Qed.
Definition e_ty (e : Z * nat * Z * kind * option nat) : Z := let '(_, _, ty, _, _) := e in ty.
Ltac entcase H := apply delta_in in H; cbv [entries List.In flat_map hook cmd_types map concat combine seq length app Z.eqb Pos.eqb fst snd] in H;
  repeat match type of H with
  | _ \/ _ => destruct H as [H|H]
  | False => destruct H
  end; injection H as <- <- <- <- <-.
Lemma delta_srv t st ty k n : delta t st ty = Some (k, n) -> srv_kind ty = Some k /\ async_kind ty = None /\ ty <> 69.
Proof. intros H. entcase H; split; try split; try reflexivity; lia. Qed.

(** * one message at a time *)
Inductive rst := RAt (o st : nat) | RFin | RStop | RViol.
Definition isqf (t : Z) : bool := (t =? 70) || (t =? 81).
Definition istable (t : Z) : bool := match hook t with Some (Some _) => true | _ => false end.
Lemma istable_hook t ps : hook t = Some (Some ps) -> istable t = true.
Proof. unfold istable. intros ->. reflexivity. Qed.
Lemma istable_delta t st ty v : delta t st ty = Some v -> istable t = true.
Proof. unfold istable, delta. destruct (hook t) as [[|]|]; congruence. Qed.
Definition rstep (cmds : list message) (r : rst) (f : option bool) (x : wmsg) : rst * option bool :=
  match r with
  | RAt o st =>
      match nth_error cmds o with
      | None => (RViol, f)
      | Some c =>
      match ctype c with
      | None => (RViol, f)
      | Some t =>
      if negb (istable t) then (RViol, f) else
      match delta t st (fst x) with
      | Some (_, Some st') => (RAt o st', f)
      | Some (_, None) =>
          let o' := (S o + skip_flush (skipn (S o) cmds))%nat in
          if (o' =? length cmds)%nat then (RFin, f) else (RAt o' 0, f)
      | None =>
          if fst x =? 69 then
            match parse (KNotice true) (snd x) with
            | Err _ => (RViol, f)
            | Ok em =>
            match err_fatal em with
            | Err _ => (RViol, f)
            | Ok true => (RStop, Some true)
            | Ok false =>
                if isqf t then (RAt o 0, Some false)
                else match find_sync (skipn o cmds) with
                     | Some n => (RAt (o + n) 0, Some false)
                     | None => (RStop, Some false)
                     end
            end end
          else (RViol, f)
      end end end
  | _ => (RViol, f)
  end.
Fixpoint rrun (cmds : list message) (r : rst) (f : option bool) (l : list wmsg) : rst * option bool :=
  match l with [] => (r, f) | x :: l => rrun cmds (fst (rstep cmds r f x)) (snd (rstep cmds r f x)) l end.
Lemma rrun_app cmds l1 : forall r f l2, rrun cmds r f (l1 ++ l2) =
  rrun cmds (fst (rrun cmds r f l1)) (snd (rrun cmds r f l1)) l2.
Proof. induction l1 as [|x l1 IH]; intros r f l2; cbn; [reflexivity|]. apply IH. Qed.
Lemma rrun_viol cmds l : forall f, rrun cmds RViol f l = (RViol, f).
Proof. induction l as [|x l IH]; intros f; cbn; [reflexivity|apply IH]. Qed.

(** what the last processed message says about the position *)
Definition tyat (cmds : list message) (o : nat) : option Z := match nth_error cmds o with Some c => ctype c | None => None end.
Definition J (cmds : list message) (p : list message) (o st : nat) (f : option bool) : Prop :=
  match rev p with
  | MTuple _ :: _ => (tyat cmds o = Some 69 -> st = 1%nat) /\ (f = None -> tyat cmds o = Some 81 -> st = 3%nat)
  | MCopyData _ :: _ | MCopyBegin true _ _ :: _ => f = None -> tyat cmds o = Some 69 \/ tyat cmds o = Some 81 -> st = 2%nat
  | _ => True
  end.
Definition frame (s s' : inst) : Prop :=
  i_cmds s' = i_cmds s /\ i_completed s' = i_completed s /\ i_last s' = i_last s /\ i_prev s' = i_prev s /\ i_cur s' = i_cur s /\
  i_messages s' = i_messages s /\ i_tail s' = i_tail s.
Lemma frame_refl s : frame s s. Proof. unfold frame. auto 10. Qed.
Lemma frame_trans a b c : frame a b -> frame b c -> frame a c.
Proof. unfold frame. intros (A1 & A2 & A3 & A4 & A5 & A6 & A7) (B1 & B2 & B3 & B4 & B5 & B6 & B7). repeat split; congruence. Qed.

(** the last error response, and the asynchronous messages which are new *)
Fixpoint last_error (l : list wmsg) (d : option ierror) : option ierror :=
  match l with
  | [] => d
  | x :: r => last_error r (if fst x =? 69 then match parse (KNotice true) (snd x) with Ok m => Some (IEServer m) | Err _ => d end else d)
  end.
Fixpoint fresh (seen l : list wmsg) : list wmsg :=
  match l with [] => [] | x :: r => if mem_async x seen then fresh seen r else x :: fresh (seen ++ [x]) r end.

Lemma sync_cons x l : is_asyncb x = false -> sync_part (x :: l) = x :: sync_part l.
Proof. intros H. unfold sync_part. cbn. rewrite H. reflexivity. Qed.
Lemma sync_skip x l : is_asyncb x = true -> sync_part (x :: l) = sync_part l.
Proof. intros H. unfold sync_part. cbn. rewrite H. reflexivity. Qed.
Lemma async_cons x l : is_asyncb x = false -> async_part (x :: l) = async_part l.
Proof. intros H. unfold async_part. cbn. rewrite H. reflexivity. Qed.
Lemma async_take x l : is_asyncb x = true -> async_part (x :: l) = x :: async_part l.
Proof. intros H. unfold async_part. cbn. rewrite H. reflexivity. Qed.
Lemma noerr_cons x l : fst x <> 69 -> no_errors (x :: l) = x :: no_errors l.
Proof. intros H. unfold no_errors. cbn. apply Z.eqb_neq in H. rewrite H. reflexivity. Qed.
Lemma noerr_skip x l : fst x = 69 -> no_errors (x :: l) = no_errors l.
Proof. intros H. unfold no_errors. cbn. apply Z.eqb_eq in H. rewrite H. reflexivity. Qed.
Lemma async_of x k : async_kind (fst x) = Some k -> is_asyncb x = true.
Proof. intros H. apply async_kind_iff. eauto. Qed.
Lemma async_is_of x k m : async_kind (fst x) = Some k -> parse k (snd x) = Ok m -> async_is x m.
Proof.
  intros E P. unfold async_kind in E. destruct (Z.eqb_spec (fst x) 78); [injection E as <-; left; auto|].
  destruct (Z.eqb_spec (fst x) 65); [injection E as <-; right; left; auto|].
  destruct (Z.eqb_spec (fst x) 83); [injection E as <-; right; right; auto|discriminate].
Qed.

(** the type of what a parser returns *)
Lemma parse_kind k d m : parse k d = Ok m -> kind_of m = k.
Proof.
  destruct k; cbn [parse]; intros H;
  repeat match goal with
  | H : bind _ _ = Ok _ |- _ => apply bind_Ok in H as (? & ? & H)
  | H : (if ?b then _ else _) = Ok _ |- _ => destruct b; try discriminate
  | H : (let _ := _ in _) = Ok _ |- _ => cbv zeta in H
  | H : match ?b with [] => _ | _ :: _ => _ end = Ok _ |- _ => destruct b; try discriminate
  end; try (injection H as <-; reflexivity); try discriminate.
Qed.

Lemma J_step cmds p m o st st' t k x f : tyat cmds o = Some t -> delta t st (fst x) = Some (k, Some st') -> parse k (snd x) = Ok m ->
  J cmds (p ++ [m]) o st' f.
Proof.
  intros T D P. apply parse_kind in P. unfold J. rewrite rev_unit.
  assert (K : (k = KTuple -> (t = 69 -> st' = 1%nat) /\ (t = 81 -> st' = 3%nat)) /\
              (k = KCopyData \/ k = KCopyBegin true -> t = 69 \/ t = 81 -> st' = 2%nat)).
  { revert D. clear. generalize (fst x). intros ty D. remember (Some st') as n eqn:En. entcase D; try discriminate; injection En as <-; split; intros; repeat split; intros; try reflexivity; try discriminate; try lia;
    match goal with H : _ \/ _ |- _ => destruct H; discriminate | _ => idtac end. }
  destruct K as [K1 K2]. rewrite T.
  destruct m; auto; cbn [kind_of] in P; subst k.
  - destruct (K1 eq_refl) as [A B]. split; [intros H; injection H as ->; auto|intros _ H; injection H as ->; auto].
  - destruct to; auto. intros _ H. apply K2; [auto|]. destruct H as [H|H]; injection H as ->; auto.
  - intros _ H. apply K2; [auto|]. destruct H as [H|H]; injection H as ->; auto.
Qed.
Lemma J_end cmds p m t st k x o' f : delta t st (fst x) = Some (k, None) -> parse k (snd x) = Ok m -> J cmds (p ++ [m]) o' 0 f.
Proof.
  intros D P. apply parse_kind in P. unfold J. rewrite rev_unit.
  assert (K : k <> KTuple /\ k <> KCopyData /\ k <> KCopyBegin true).
  { revert D. clear. generalize (fst x). intros ty D. remember None as n eqn:En in D. entcase D; try discriminate; repeat split; discriminate. }
  destruct K as (K1 & K2 & K3). destruct m; auto; cbn [kind_of] in P; try congruence. destruct to; auto; congruence.
Qed.

Lemma skip_flush_le l : (skip_flush l <= length l)%nat.
Proof. induction l as [|c l IH]; cbn; [lia|]. destruct (cmd_paths c) as [[|]|]; lia. Qed.
Lemma find_sync_spec l : match find_sync l with
  | Some n => exists r, l = firstn n l ++ MEmpty ESynchronize :: r /\ skipn n l = MEmpty ESynchronize :: r /\ ~ List.In (MEmpty ESynchronize) (firstn n l)
  | None => ~ List.In (MEmpty ESynchronize) l
  end.
Proof.
  induction l as [|c l IH]; cbn; [tauto|]. destruct (is_sync c) eqn:E.
  - exists l. destruct c; try discriminate. destruct k; try discriminate. cbn. auto.
  - assert (N : c <> MEmpty ESynchronize) by (intros ->; discriminate).
    destruct (find_sync l) as [n|].
    + destruct IH as (r & E1 & E2 & E3). exists r. cbn. rewrite <- E1. split; [reflexivity|]. split; [exact E2|].
      intros [H|H]; auto.
    + intros [H|H]; auto.
Qed.
Lemma find_sync_lt l n : find_sync l = Some n -> (n < length l)%nat.
Proof.
  revert n. induction l as [|c l IH]; cbn; intros n H; [discriminate|]. destruct (is_sync c); [injection H as <-; lia|].
  destruct (find_sync l); [|discriminate]. injection H as <-. specialize (IH _ eq_refl). lia.
Qed.

Definition loop_ok (s : inst) (o st : nat) (p : list message) (c : Z) (l : list wmsg) (s' : inst) (r : loopres) : Prop :=
  let cm := i_cmds s in
  frame s s' /\
  match r with
  | LErr _ => True
  | LRet c' => exists k, c' = c + Z.of_nat k /\ (1 <= k <= length l)%nat /\ i_state s' = IComplete /\ 
      (exists ds, Forall2 async_is (fresh (i_asyncs s) (async_part (firstn k l))) ds /\ i_delivered s' = i_delivered s ++ ds) /\
      ((rrun cm (RAt o st) (i_fatal s) (sync_part (firstn k l)) = (RStop, i_fatal s') /\
        i_error s' = last_error (sync_part (firstn k l)) (i_error s) /\ i_fatal s' <> None) \/
       (i_fatal s' = Some true /\ exists f, rrun cm (RAt o st) (i_fatal s) (sync_part (firstn k l)) = (RViol, f)))
  | LEnd o' st' p' c' => exists k ms, c' = c + Z.of_nat k /\ (k <= length l)%nat /\ i_state s' = i_state s /\
      (exists ds, Forall2 async_is (fresh (i_asyncs s) (async_part (firstn k l))) ds /\ i_delivered s' = i_delivered s ++ ds) /\
      rrun cm (RAt o st) (i_fatal s) (sync_part (firstn k l)) = (if (o' =? length cm)%nat then RFin else RAt o' st', i_fatal s') /\
      i_error s' = last_error (sync_part (firstn k l)) (i_error s) /\
      (o' <= length cm)%nat /\ (o' <> length cm -> k = length l) /\
      p' = p ++ ms /\ Forall2 msg_is (no_errors (sync_part (firstn k l))) ms /\ J cm p' o' st' (i_fatal s')
  end.
Lemma cmd_paths_ctype c ps : cmd_paths c = Some ps -> exists t, ctype c = Some t /\ hook t = Some ps.
Proof. unfold cmd_paths. destruct (ctype c) as [t|]; [eauto|discriminate]. Qed.

Lemma put_loop_ok l : forall s o st p c s' r, (o < length (i_cmds s))%nat -> J (i_cmds s) p o st (i_fatal s) ->
  put_loop s o st p c l = (s', r) -> loop_ok s o st p c l s' r.
Proof.
  induction l as [|x l IH]; intros s o st p c s' r Ho HJ H; cbn [put_loop] in H.
  - injection H as <- <-. split; [apply frame_refl|]. exists 0%nat, []. rewrite Z.add_0_r, !app_nil_r. cbn.
    rewrite (proj2 (Nat.eqb_neq _ _)) by lia.
    split; [reflexivity|]. split; [lia|]. split; [reflexivity|].
    split; [exists []; split; [constructor|rewrite app_nil_r; reflexivity]|].
    split; [reflexivity|]. split; [reflexivity|]. split; [lia|]. split; [auto|]. split; [auto|]. split; [constructor|exact HJ].
  - destruct (nth_error (i_cmds s) o) as [cmd|] eqn:Ec; [|injection H as <- <-; split; [apply frame_refl|exact I]].
    destruct (cmd_paths cmd) as [[ps|]|] eqn:Ep; [| injection H as <- <-; split; [apply frame_refl|exact I] ..].
    destruct (nth_error ps st) as [tb|] eqn:Et; [|injection H as <- <-; split; [apply frame_refl|exact I]].
    destruct (cmd_paths_ctype _ _ Ep) as (t & Ht & Hh).
    assert (Hd : delta t st (fst x) = lookup (fst x) tb) by (unfold delta; rewrite Hh, Et; reflexivity).
    assert (Hty : tyat (i_cmds s) o = Some t) by (unfold tyat; rewrite Ec; exact Ht).
    rewrite <- Hd in H. destruct (delta t st (fst x)) as [[k next]|] eqn:Ed.
    + destruct (delta_srv _ _ _ _ _ Ed) as (Sk & Ak & N69). apply async_none in Ak as Ax.
      destruct (parse k (snd x)) as [m|] eqn:Em; [|injection H as <- <-; split; [apply frame_refl|exact I]].
      assert (MI : msg_is x m) by (exists k; auto).
      assert (LE : forall l d, last_error (x :: l) d = last_error l d).
      { intros l0 d. cbn [last_error]. apply Z.eqb_neq in N69. rewrite N69. reflexivity. }
      destruct next as [st'|].
      * assert (RS : forall l0, rrun (i_cmds s) (RAt o st) (i_fatal s) (x :: l0) = rrun (i_cmds s) (RAt o st') (i_fatal s) l0).
        { intros l0. cbn [rrun rstep]. rewrite Ec, Ht, (istable_hook _ _ Hh), Ed. reflexivity. }
        apply IH in H; [|exact Ho|eapply J_step; eauto]. destruct H as [F H]. split; [exact F|]. destruct r as [e|c'|o' st'' p' c'].
        -- exact I.
        -- destruct H as (k' & -> & Hk & Hs & Hds & HR). exists (S k'). split; [lia|]. split; [cbn; lia|]. split; [auto|].
           cbn [firstn]. rewrite async_cons, sync_cons, LE, RS by exact Ax. auto.
        -- destruct H as (k' & ms & -> & Hk & Hs & Hds & HR & HE & Hle & Hall & -> & HF & HJ'). exists (S k'), (m :: ms).
           cbn [firstn]. rewrite async_cons, sync_cons, LE, RS, noerr_cons by auto.
           split; [lia|]. split; [cbn; lia|]. do 5 (split; [auto|]). split; [intros N; cbn; f_equal; auto|].
           split; [rewrite <- app_assoc; reflexivity|]. split; [constructor; auto|exact HJ'].
      * set (s1 := match m with MReady st0 => set_ready s st0 | _ => s end) in *.
        assert (F1 : frame s s1 /\ i_fatal s1 = i_fatal s /\ i_error s1 = i_error s /\ i_asyncs s1 = i_asyncs s /\
                     i_delivered s1 = i_delivered s /\ i_state s1 = i_state s).
        { subst s1. destruct m; (split; [unfold frame; cbn; repeat split|cbn; auto 10]). }
        destruct F1 as (F1 & Ff & Fe & Fa & Fd & Fs). assert (Fc : i_cmds s1 = i_cmds s) by apply F1.
        rewrite !Fc in H. set (o1 := (S o + skip_flush (skipn (S o) (i_cmds s)))%nat) in *.
        assert (Ho1 : (o1 <= length (i_cmds s))%nat).
        { subst o1. pose proof (skip_flush_le (skipn (S o) (i_cmds s))) as G. rewrite skipn_length in G. lia. }
        assert (RS : forall l0, rrun (i_cmds s) (RAt o st) (i_fatal s) (x :: l0) =
           rrun (i_cmds s) (if (o1 =? length (i_cmds s))%nat then RFin else RAt o1 0) (i_fatal s) l0).
        { intros l0. cbn [rrun rstep]. rewrite Ec, Ht, (istable_hook _ _ Hh), Ed. fold o1. destruct (o1 =? length (i_cmds s))%nat; reflexivity. }
        destruct (Nat.eqb_spec o1 (length (i_cmds s))) as [Eo|No].
        -- injection H as <- <-. split; [exact F1|]. exists 1%nat, [m]. cbn [firstn]. rewrite Nat.eqb_refl || idtac.
           rewrite async_cons, sync_cons, LE, RS, noerr_cons by auto. rewrite Eo, Nat.eqb_refl. cbn [rrun].
           split; [reflexivity|]. split; [cbn; lia|]. split; [auto|].
           split; [exists []; split; [constructor|rewrite app_nil_r; auto]|]. split; [cbn; rewrite Ff; reflexivity|].
           split; [exact Fe|]. split; [lia|]. split; [congruence|]. split; [reflexivity|]. split; [constructor; [auto|constructor]|].
           eapply J_end; eauto.
        -- apply IH in H; [|rewrite Fc; lia|eapply J_end; eauto]. destruct H as [F H].
           split; [eapply frame_trans; eauto|]. rewrite Ff, Fe, Fa, Fd, Fs, Fc in H. destruct r as [e|c'|o' st'' p' c'].
           ++ exact I.
           ++ destruct H as (k' & -> & Hk & Hs & Hds & HR). exists (S k'). split; [lia|]. split; [cbn; lia|]. split; [auto|].
              cbn [firstn]. rewrite async_cons, sync_cons, LE, RS by exact Ax. auto.
           ++ destruct H as (k' & ms & -> & Hk & Hs & Hds & HR & HE & Hle & Hall & -> & HF & HJ'). exists (S k'), (m :: ms).
              cbn [firstn]. rewrite async_cons, sync_cons, LE, RS, noerr_cons by auto.
              split; [lia|]. split; [cbn; lia|]. do 5 (split; [auto|]). split; [intros N; cbn; f_equal; auto|].
              split; [rewrite <- app_assoc; reflexivity|]. split; [constructor; auto|exact HJ'].
    + destruct (Z.eqb_spec (fst x) 69) as [E69|N69].
      * assert (Ax : is_asyncb x = false) by (unfold is_asyncb; rewrite E69; reflexivity).
        destruct (parse (KNotice true) (snd x)) as [em|] eqn:Em; [|injection H as <- <-; split; [apply frame_refl|exact I]].
        destruct (err_fatal em) as [fatal|] eqn:Ef; [|injection H as <- <-; split; [apply frame_refl|exact I]].
        assert (LE : forall l d, last_error (x :: l) d = last_error l (Some (IEServer em))).
        { intros l0 d. cbn [last_error]. rewrite E69, Em. reflexivity. }
        assert (FE : frame s (set_error s fatal (IEServer em))) by (unfold frame; cbn; auto 10).
        destruct fatal.
        { injection H as <- <-. split; [unfold frame; cbn; auto 10|]. exists 1%nat. cbn [firstn].
          rewrite async_cons, sync_cons, LE by exact Ax. split; [reflexivity|]. split; [cbn; lia|]. split; [reflexivity|].
          split; [exists []; split; [constructor|rewrite app_nil_r; reflexivity]|]. left. split; [|split; [reflexivity|discriminate]].
          cbn [rrun rstep]. rewrite Ec, Ht, (istable_hook _ _ Hh), Ed, E69, Em, Ef. reflexivity. }
        rewrite Ht in H. change ((t =? 70) || (t =? 81)) with (isqf t) in H.
        assert (GO : forall o1, (o1 < length (i_cmds s))%nat -> J (i_cmds s) p o1 0 (Some false) ->
          (forall l0, rrun (i_cmds s) (RAt o st) (i_fatal s) (x :: l0) = rrun (i_cmds s) (RAt o1 0) (Some false) l0) ->
          put_loop (set_error s false (IEServer em)) o1 0 p (c + 1) l = (s', r) -> loop_ok s o st p c (x :: l) s' r).
        { intros o1 Ho1 HJ1 RS H1. apply IH in H1; [|exact Ho1|exact HJ1]. destruct H1 as [F H1].
          split; [eapply frame_trans; [exact FE|exact F]|]. cbn [set_error i_fatal i_error i_asyncs i_delivered i_state i_cmds] in H1.
          destruct r as [e|c'|o' st'' p' c'].
          ++ exact I.
          ++ destruct H1 as (k' & -> & Hk & Hs & Hds & HR). exists (S k'). split; [lia|]. split; [cbn; lia|]. split; [auto|].
             cbn [firstn]. rewrite async_cons, sync_cons, LE, RS by exact Ax. auto.
          ++ destruct H1 as (k' & ms & -> & Hk & Hs & Hds & HR & HE & Hle & Hall & -> & HF & HJ'). exists (S k'), ms.
             cbn [firstn]. rewrite async_cons, sync_cons, LE, RS, noerr_skip by auto.
             split; [lia|]. split; [cbn; lia|]. do 5 (split; [auto|]). split; [intros N; cbn; f_equal; auto|]. auto. }
        destruct (isqf t) eqn:Eqf.
        { apply (GO o); auto.
          - unfold J in *. destruct (rev p) as [|[]]; auto; try discriminate.
            + destruct HJ as [A B]. split; [|discriminate]. rewrite Hty. intros E. injection E as ->. discriminate.
            + destruct to; auto; discriminate.
          - intros l0. cbn [rrun rstep]. rewrite Ec, Ht, (istable_hook _ _ Hh), Ed, E69, Em, Ef, Eqf. reflexivity. }
        cbn [set_error i_cmds] in H. destruct (find_sync (skipn o (i_cmds s))) as [n|] eqn:En.
        { assert (Ln : (o + n < length (i_cmds s))%nat).
          { apply find_sync_lt in En. rewrite skipn_length in En. lia. }
          apply (GO (o + n)%nat); auto.
          - assert (Ts : tyat (i_cmds s) (o + n) = Some 83).
            { pose proof (find_sync_spec (skipn o (i_cmds s))) as G. rewrite En in G. destruct G as (rr & _ & G & _).
              unfold tyat. rewrite <- (firstn_skipn o (i_cmds s)) at 1. rewrite nth_error_app2; rewrite firstn_length, Nat.min_l by lia; [|lia].
              replace (o + n - o)%nat with n by lia.
              rewrite <- (firstn_skipn n (skipn o (i_cmds s))), G. rewrite nth_error_app2; rewrite firstn_length, skipn_length, Nat.min_l by lia; [|lia].
              rewrite Nat.sub_diag. reflexivity. }
            unfold J. rewrite Ts. destruct (rev p) as [|[]]; auto; try discriminate.
            + split; discriminate.
            + destruct to; auto; discriminate.
          - intros l0. cbn [rrun rstep]. rewrite Ec, Ht, (istable_hook _ _ Hh), Ed, E69, Em, Ef, Eqf, En. reflexivity. }
        injection H as <- <-. split; [unfold frame; cbn; auto 10|]. exists 1%nat. cbn [firstn].
        rewrite async_cons, sync_cons, LE by exact Ax. split; [reflexivity|]. split; [cbn; lia|]. split; [reflexivity|].
        split; [exists []; split; [constructor|rewrite app_nil_r; reflexivity]|]. left. split; [|split; [reflexivity|discriminate]].
        cbn [rrun rstep]. rewrite Ec, Ht, (istable_hook _ _ Hh), Ed, E69, Em, Ef, Eqf, En. reflexivity.
      * destruct (async_kind (fst x)) as [ak|] eqn:Eak.
        -- apply async_of in Eak as Ax.
           destruct (mem_async x (i_asyncs s)) eqn:Emem.
           ++ apply IH in H; auto. destruct H as [F H]. split; [exact F|]. destruct r as [e|c'|o' st'' p' c'].
              ** exact I.
              ** destruct H as (k' & -> & Hk & Hs & Hds & HR). exists (S k'). split; [lia|]. split; [cbn; lia|]. split; [auto|].
                 cbn [firstn]. rewrite async_take, sync_skip by exact Ax. cbn [fresh]. rewrite Emem. auto.
              ** destruct H as (k' & ms & -> & Hk & Hs & Hds & HR & HE & Hle & Hall & -> & HF & HJ'). exists (S k'), ms.
                 cbn [firstn]. rewrite async_take, sync_skip by exact Ax. cbn [fresh]. rewrite Emem.
                 split; [lia|]. split; [cbn; lia|]. do 5 (split; [auto|]). split; [intros N; cbn; f_equal; auto|]. auto.
           ++ destruct (parse ak (snd x)) as [m|] eqn:Em; [|injection H as <- <-; split; [apply frame_refl|exact I]].
              assert (AI : async_is x m) by (eapply async_is_of; eauto).
              apply IH in H; auto. destruct H as [F H]. split; [eapply frame_trans; [|exact F]; unfold frame; cbn; auto 10|].
              cbn [set_async i_fatal i_error i_asyncs i_delivered i_state i_cmds] in H. destruct r as [e|c'|o' st'' p' c'].
              ** exact I.
              ** destruct H as (k' & -> & Hk & Hs & (ds & Hds1 & Hds2) & HR). exists (S k'). split; [lia|]. split; [cbn; lia|]. split; [auto|].
                 cbn [firstn]. rewrite async_take, sync_skip by exact Ax. cbn [fresh]. rewrite Emem.
                 split; [|auto]. exists (m :: ds). split; [constructor; auto|]. rewrite Hds2, <- app_assoc. reflexivity.
              ** destruct H as (k' & ms & -> & Hk & Hs & (ds & Hds1 & Hds2) & HR & HE & Hle & Hall & -> & HF & HJ'). exists (S k'), ms.
                 cbn [firstn]. rewrite async_take, sync_skip by exact Ax. cbn [fresh]. rewrite Emem.
                 split; [lia|]. split; [cbn; lia|]. split; [auto|]. split; [exists (m :: ds); split; [constructor; auto|]; rewrite Hds2, <- app_assoc; reflexivity|].
                 do 3 (split; [auto|]). split; [intros N; cbn; f_equal; auto|]. auto.
        -- injection H as <- <-. apply async_none in Eak as Ax. split; [unfold frame; cbn; auto 10|]. exists 1%nat. cbn [firstn].
           rewrite async_cons, sync_cons by exact Ax. split; [reflexivity|]. split; [cbn; lia|]. split; [reflexivity|].
           split; [exists []; split; [constructor|rewrite app_nil_r; reflexivity]|]. right. split; [reflexivity|].
           exists (i_fatal s). cbn [rrun rstep]. rewrite Ec, Ht, (istable_hook _ _ Hh), Ed. apply Z.eqb_neq in N69. rewrite N69. reflexivity.
Qed.

(** * one batch *)
Definition sc (s : inst) : Prop :=
  let '(o, st) := i_cur s in
  match i_state s with
  | IPutTuple => (tyat (i_cmds s) o = Some 69 /\ st = 1%nat) \/ (tyat (i_cmds s) o = Some 81 /\ (i_fatal s = None -> st = 3%nat))
  | IPutCopy => (tyat (i_cmds s) o = Some 69 \/ tyat (i_cmds s) o = Some 81) /\ (i_fatal s = None -> st = 2%nat)
  | _ => True
  end.
Definition put_ok (s : inst) (id : Z) (l : list wmsg) (s' : inst) (c : Z) : Prop :=
  let '(o, st) := i_cur s in
  let cm := i_cmds s in
  exists k, c = Z.of_nat k /\ (k <= length l)%nat /\ i_cmds s' = i_cmds s /\ (o < length cm)%nat /\
   (exists ds, Forall2 async_is (fresh [] (async_part (firstn k l))) ds /\ i_delivered s' = i_delivered s ++ ds) /\
   ((i_state s' = IComplete /\ i_completed s' = i_completed s /\ i_last s' = i_last s /\
      ((rrun cm (RAt o st) (i_fatal s) (sync_part (firstn k l)) = (RStop, i_fatal s') /\
        i_error s' = last_error (sync_part (firstn k l)) (i_error s) /\ i_fatal s' <> None) \/
       (i_fatal s' = Some true /\ exists f, rrun cm (RAt o st) (i_fatal s) (sync_part (firstn k l)) = (RViol, f)))) \/
    (exists o' st' ms, i_cur s' = (o', st') /\ i_last s' = id /\ i_completed s' = add_completed s id ms /\
      Forall2 msg_is (no_errors (sync_part (firstn k l))) ms /\
      rrun cm (RAt o st) (i_fatal s) (sync_part (firstn k l)) = (if (o' =? length cm)%nat then RFin else RAt o' st', i_fatal s') /\
      i_error s' = last_error (sync_part (firstn k l)) (i_error s) /\
      (o' <= length cm)%nat /\ (o' <> length cm -> k = length l) /\
      (o' = length cm -> i_state s' = IComplete) /\ (o' <> length cm -> i_state s' <> IComplete /\ sc s'))).

Lemma switch_ok s o st p : i_cur s = (o, st) -> i_state s = IPut -> J (i_cmds s) p o st (i_fatal s) ->
  i_state (switch s o p) <> IComplete /\ sc (switch s o p) /\
  i_cmds (switch s o p) = i_cmds s /\ i_completed (switch s o p) = i_completed s /\ i_last (switch s o p) = i_last s /\
  i_cur (switch s o p) = i_cur s /\ i_fatal (switch s o p) = i_fatal s /\ i_error (switch s o p) = i_error s /\
  i_delivered (switch s o p) = i_delivered s.
Proof.
  intros Hc Hs HJ. unfold switch.
  assert (D : i_state s <> IComplete /\ sc s) by (rewrite Hs; split; [discriminate|unfold sc; rewrite Hc, Hs; exact I]).
  destruct (nth_error (i_cmds s) o) as [cmd|] eqn:Ec; [|destruct D; auto 10].
  destruct (ctype cmd) as [t|] eqn:Et; [|destruct D; auto 10].
  destruct ((t =? 69) || (t =? 81)) eqn:Eq; [|destruct D; auto 10].
  unfold J in HJ. assert (Ty : tyat (i_cmds s) o = Some t) by (unfold tyat; rewrite Ec; exact Et).
  assert (Tt : t = 69 \/ t = 81) by lia.
  destruct (rev p) as [|m rp]; [destruct D; auto 10|]. destruct m; try (destruct D; auto 10; fail).
  - split; [discriminate|]. split; [|cbn; auto 10]. unfold sc. cbn [set_state i_cur i_state i_cmds i_fatal]. rewrite Hc, Ty in *.
    destruct HJ as [A B]. destruct Tt as [->| ->]; [left|right]; auto.
  - destruct to.
    + split; [discriminate|]. split; [|cbn; auto 10]. unfold sc. cbn [set_state i_cur i_state i_cmds i_fatal]. rewrite Hc, Ty in *.
      destruct Tt as [->| ->]; split; auto.
    + split; [discriminate|]. split; [|cbn; auto 10]. unfold sc. cbn [set_state set_tail i_cur i_state i_cmds i_fatal]. rewrite Hc. exact I.
  - split; [discriminate|]. split; [|cbn; auto 10]. unfold sc. cbn [set_state i_cur i_state i_cmds i_fatal]. rewrite Hc, Ty in *.
    destruct Tt as [->| ->]; split; auto.
Qed.

Lemma standard_ok s id l s' c : standard_put s id l = (s', Ok c) -> id <> i_last s -> i_state s = IPut -> put_ok s id l s' c.
Proof.
  intros H Nid Hst. unfold standard_put, put_ok in *. rewrite (proj2 (Z.eqb_neq _ _) Nid) in H.
  destruct (i_cur s) as [o st] eqn:Ec. cbn [set_async i_cmds] in H.
  destruct (nth_error (i_cmds s) o) as [cmd|] eqn:En; [|discriminate].
  destruct (cmd_paths cmd) as [ps|] eqn:Ep; [|discriminate].
  assert (Ho : (o < length (i_cmds s))%nat) by (apply nth_error_Some; congruence).
  destruct (put_loop (set_async s [] (i_delivered s)) o st [] 0 l) as [s1 r] eqn:EL.
  apply put_loop_ok in EL; [|exact Ho|exact I].
  destruct EL as [(F1 & F2 & F3 & F4 & F5 & F6 & F7) EL].
  cbn [set_async i_cmds i_completed i_last i_prev i_cur i_messages i_tail i_fatal i_error i_asyncs i_delivered i_state] in *.
  destruct r as [e|c'|o' st' p' c'].
  - discriminate.
  - injection H as <- <-. destruct EL as (k & -> & Hk & Hs & Hds & HR). exists k. split; [lia|]. split; [lia|].
    do 3 (split; [auto|]). left. auto.
  - destruct EL as (k & ms & -> & Hk & Hs & Hds & HR & HE & Hle & Hall & -> & HF & HJ). exists k. cbn [app] in *.
    set (s2 := set_done s1 (add_completed s1 id ms) id (i_cur s1) (o', st')) in *.
    assert (C2 : i_cmds s2 = i_cmds s) by exact F1.
    assert (E2 : i_completed s2 = add_completed s id ms).
    { cbn. unfold add_completed. rewrite F2. reflexivity. }
    destruct (switch_ok s2 o' st' ms) as (G1 & G2 & G3 & G4 & G5 & G6 & G7 & G8 & G9).
    { reflexivity. } { cbn. rewrite Hs. exact Hst. } { rewrite C2. exact HJ. }
    rewrite C2 in H. destruct (Nat.eqb_spec o' (length (i_cmds s))) as [Eo|No]; injection H as <- <-.
    + split; [lia|]. split; [lia|]. cbn [set_state i_cmds i_delivered i_fatal i_error i_state i_cur i_last i_completed].
      do 3 (split; [auto|]). right. exists o', st', ms. cbn [s2 set_done set_state i_cmds i_delivered i_fatal i_error i_state i_cur i_last i_completed] in *.
      do 4 (split; [auto|]). rewrite Eo, Nat.eqb_refl in *. do 3 (split; [auto|]). split; [congruence|]. split; [auto|congruence].
    + split; [lia|]. split; [lia|]. split; [rewrite G3; auto|]. split; [auto|]. rewrite G9. split; [exact Hds|].
      right. exists o', st', ms. rewrite G4, G5, G6, G7, G8. apply Nat.eqb_neq in No as No'. rewrite No' in *.
      do 7 (split; [auto|]). split; [auto|]. split; [congruence|]. auto.
Qed.

Lemma rrun_fatal cmds l : forall r f, f <> None -> snd (rrun cmds r f l) <> None.
Proof.
  induction l as [|x l IH]; intros r f H; cbn [rrun]; [exact H|]. apply IH.
  unfold rstep. destruct r; auto. destruct (nth_error cmds o); auto. destruct (ctype _); auto. destruct (negb _); auto.
  destruct (delta _ _ _) as [[? [?|]]|]; auto.
  - destruct (_ =? _)%nat; auto.
  - destruct (fst x =? 69); auto. destruct (parse _ _); auto. destruct (err_fatal _) as [[|]|]; cbn; try congruence.
    destruct (isqf _); cbn; [congruence|]. destruct (find_sync _); cbn; congruence.
Qed.

(** a run of messages of one type which loops *)
Lemma rrun_loop cmds o st f t ty k l : tyat cmds o = Some t -> delta t st ty = Some (k, Some st) -> Forall (fun x => fst x = ty) l ->
  rrun cmds (RAt o st) f l = (RAt o st, f).
Proof.
  intros Ty D F. induction F as [|x l Hx F IH]; [reflexivity|]. cbn [rrun rstep]. unfold tyat in Ty.
  destruct (nth_error cmds o) as [c|]; [|discriminate]. rewrite Ty, Hx, (istable_delta _ _ _ _ D), D. exact IH.
Qed.
Lemma filter_all {A} (f : A -> bool) l : length (filter f l) = length l -> Forall (fun x => f x = true) l /\ filter f l = l.
Proof.
  induction l as [|x l IH]; cbn; [auto|]. destruct (f x) eqn:E; cbn.
  - intros H. injection H as H. destruct (IH H) as [A1 A2]. split; [constructor; auto|rewrite A2; reflexivity].
  - intros H. exfalso. assert (length (filter f l) <= length l)%nat; [|lia].
    clear. induction l as [|y l IH]; cbn; [lia|]. destruct (f y); cbn; lia.
Qed.

(** * asynchronous messages *)
Lemma subseq_app {A} (a b c d : list A) : subseq a b -> subseq c d -> subseq (a ++ c) (b ++ d).
Proof. induction 1; cbn; intros; [auto|apply sq_skip; auto|apply sq_take; auto]. Qed.
Lemma subseq_in {A} (a l : list A) x : subseq a l -> List.In x a -> List.In x l.
Proof. induction 1; cbn; [auto|intros H1; auto|intros [H1|H1]; auto]. Qed.
Lemma subseq_len {A} (a l : list A) : subseq a l -> (length a <= length l)%nat.
Proof. induction 1; cbn; lia. Qed.
Lemma subseq_nodup {A} (a l : list A) : subseq a l -> NoDup l -> incl l a -> a = l.
Proof.
  intros H N I. assert (L : (length l <= length a)%nat) by (apply NoDup_incl_length; auto).
  clear N I. induction H; cbn in *; [reflexivity| |].
  - apply subseq_len in H. lia.
  - f_equal. apply IHsubseq. lia.
Qed.
Lemma wmsg_eqb_eq a b : wmsg_eqb a b = true <-> a = b.
Proof.
  unfold wmsg_eqb. destruct a as [x d], b as [y e]. cbn. rewrite andb_true_iff, Z.eqb_eq, seqb_eq. split.
  - intros [-> ->]. reflexivity.
  - intros H. injection H. auto.
Qed.
Lemma mem_async_in x l : mem_async x l = true <-> List.In x l.
Proof.
  unfold mem_async. rewrite existsb_exists. split.
  - intros (y & H & E). apply wmsg_eqb_eq in E. subst. exact H.
  - intros H. exists x. split; [exact H|apply wmsg_eqb_eq; reflexivity].
Qed.
Lemma fresh_subseq l : forall seen, subseq (fresh seen l) l.
Proof. induction l as [|x l IH]; intros seen; cbn; [constructor|]. destruct (mem_async x seen); [apply sq_skip|apply sq_take]; auto. Qed.
Lemma fresh_incl l : forall seen x, List.In x l -> List.In x seen \/ List.In x (fresh seen l).
Proof.
  induction l as [|y l IH]; intros seen x H; [destruct H|]. cbn. destruct (mem_async y seen) eqn:E.
  - destruct H as [->|H]; [left; apply mem_async_in; auto|auto].
  - destruct H as [->|H]; [right; left; auto|]. destruct (IH (seen ++ [y]) x H) as [G|G]; [|right; right; auto].
    apply in_app_iff in G as [G|[->|[]]]; [auto|right; left; auto].
Qed.

Lemma async_app a b : async_part (a ++ b) = async_part a ++ async_part b.
Proof. apply filter_app. Qed.
Lemma sync_app a b : sync_part (a ++ b) = sync_part a ++ sync_part b.
Proof. apply filter_app. Qed.
Lemma noerr_app a b : no_errors (a ++ b) = no_errors a ++ no_errors b.
Proof. apply filter_app. Qed.
Lemma last_error_app a b d : last_error (a ++ b) d = last_error b (last_error a d).
Proof. revert d. induction a as [|x a IH]; intros d; cbn; [reflexivity|apply IH]. Qed.
Lemma recvd_app a b : recvd (a ++ b) = recvd a ++ recvd b.
Proof. induction a as [|[m|x] a IH]; cbn; [reflexivity|exact IH|rewrite IH; reflexivity]. Qed.
Lemma recvd_in l : recvd (map IIn l) = l.
Proof. induction l as [|x l IH]; cbn; [reflexivity|rewrite IH; reflexivity]. Qed.

(** * all runs *)
Definition good (cmds : list message) (s : inst) (sy : list wmsg) : Prop :=
  i_fatal s = None \/ fst (rrun cmds (RAt 0 0) None sy) <> RViol.
Definition lastid (s : inst) : Prop := match rev (i_completed s) with (i, _) :: _ => i = i_last s | [] => True end.
Definition main (cmds : list message) (s : inst) (sy : list wmsg) : Prop :=
  snd (rrun cmds (RAt 0 0) None sy) = i_fatal s /\ i_error s = last_error sy None /\
  match fst (rrun cmds (RAt 0 0) None sy) with
  | RAt o st => i_cur s = (o, st) /\ i_state s <> IComplete /\ sc s /\ Forall2 msg_is (no_errors sy) (messages_received s)
  | RFin => i_state s = IComplete /\ Forall2 msg_is (no_errors sy) (messages_received s)
  | RStop => i_state s = IComplete /\ i_fatal s <> None /\
             exists n, Forall2 msg_is (firstn n (no_errors sy)) (messages_received s)
  | RViol => False
  end.
Definition rinv (cmds : list message) (s : inst) (tr : list ievent) : Prop :=
  i_cmds s = cmds /\ lastid s /\
  (exists A, subseq A (async_part (recvd tr)) /\ incl (async_part (recvd tr)) A /\ Forall2 async_is A (i_delivered s)) /\
  (good cmds s (sync_part (recvd tr)) -> main cmds s (sync_part (recvd tr))).

Lemma received_add s id ms : lastid s -> id <> i_last s ->
  concat (map snd (add_completed s id ms)) = messages_received s ++ ms.
Proof.
  intros L N. unfold add_completed, lastid, messages_received in *. destruct (rev (i_completed s)) as [|[i x] r].
  - rewrite map_app, concat_app. cbn. rewrite app_nil_r. reflexivity.
  - subst i. apply not_eq_sym in N. apply Z.eqb_neq in N. rewrite N. rewrite map_app, concat_app. cbn. rewrite app_nil_r. reflexivity.
Qed.
Lemma lastid_add s id ms s' : i_completed s' = add_completed s id ms -> i_last s' = id -> lastid s'.
Proof.
  intros E1 E2. unfold lastid. rewrite E1, E2. unfold add_completed. destruct (rev (i_completed s)) as [|[i x] r] eqn:E.
  - rewrite rev_unit. reflexivity.
  - destruct (Z.eqb_spec i id) as [->|N]; [rewrite E; reflexivity|rewrite rev_unit; reflexivity].
Qed.

(** the fast paths are like the loop *)
Definition fast_ok (s : inst) (id : Z) (l : list wmsg) (s' : inst) (c : Z) : Prop :=
  l <> [] /\ c = len l /\ exists ms, Forall2 msg_is l ms /\
  s' = set_done s (add_completed s id ms) id (i_cur s) (i_cur s) /\
  ((i_state s = IPutCopy /\ Forall (fun x => fst x = 100) l) \/ (i_state s = IPutTuple /\ Forall (fun x => fst x = 68) l)).
Lemma inst_put_ok s id l s' c : inst_put s id l = (s', Ok c) -> id <> i_last s ->
  put_ok (set_state s IPut) id l s' c \/ fast_ok s id l s' c.
Proof.
  intros H N. unfold inst_put in H. destruct (i_state s) eqn:Es; try discriminate.
  - left. replace (set_state s IPut) with s; [apply standard_ok; auto|]. destruct s; cbn in Es; subst; reflexivity.
  - unfold put_copydata in H. destruct (rev l) as [|lm rl] eqn:El; [discriminate|].
    destruct (negb (fst lm =? 100)); [left; apply standard_ok; auto|].
    destruct (negb _) eqn:Eq in H; [left; apply standard_ok; auto|]. injection H as <- <-. right.
    apply negb_false_iff, Nat.eqb_eq in Eq. rewrite map_length in Eq. apply filter_all in Eq as [F Ef].
    split; [intros ->; discriminate|]. split; [reflexivity|]. rewrite Ef. eexists. split; [|split; [reflexivity|]].
    + clear -F. induction F as [|x l Hx F IH]; cbn; constructor; [|exact IH]. exists KCopyData. apply Z.eqb_eq in Hx. rewrite Hx. split; reflexivity.
    + left. split; [exact Es|]. eapply Forall_impl; [|exact F]. cbn. intros x Hx. lia.
  - unfold put_tupledata in H. destruct (rev l) as [|lm rl] eqn:El; [discriminate|].
    destruct (negb (fst lm =? 68)); [left; apply standard_ok; auto|].
    destruct (mapM _ _) as [ts|] eqn:Em in H; [|discriminate].
    destruct (negb _) eqn:Eq in H; [left; apply standard_ok; auto|]. injection H as <- <-. right.
    apply negb_false_iff, Nat.eqb_eq in Eq. rewrite (mapM_length _ _ _ Em) in Eq. apply mapM_Forall2 in Em.
    apply filter_all in Eq as [F Ef]. rewrite Ef in Em.
    split; [intros ->; discriminate|]. split; [reflexivity|]. exists ts. split; [|split; [reflexivity|]].
    + clear -F Em. induction Em; constructor.
      * inversion F; subst. exists KTuple. apply Z.eqb_eq in H2. rewrite H2. split; [reflexivity|exact H].
      * apply IHEm. inversion F; auto.
    + right. split; [exact Es|]. eapply Forall_impl; [|exact F]. cbn. intros x Hx. lia.
Qed.

Lemma all_nonasync ty l : Forall (fun x : wmsg => fst x = ty) l -> ty <> 78 -> ty <> 65 -> ty <> 83 ->
  sync_part l = l /\ async_part l = [].
Proof.
  intros F H1 H2 H3. induction F as [|x l Hx F [IH1 IH2]]; [split; reflexivity|].
  assert (A : is_asyncb x = false) by (unfold is_asyncb; lia).
  rewrite sync_cons, async_cons, IH1, IH2 by exact A. auto.
Qed.
Lemma all_noerr ty l : Forall (fun x : wmsg => fst x = ty) l -> ty <> 69 -> no_errors l = l /\ forall d, last_error l d = d.
Proof.
  intros F H. induction F as [|x l Hx F [IH1 IH2]]; [split; reflexivity|].
  rewrite noerr_cons, IH1 by lia. split; [reflexivity|]. intros d. cbn [last_error]. replace (fst x =? 69) with false by lia. apply IH2.
Qed.
Lemma len_nat {A} (l : list A) : Z.to_nat (len l) = length l.
Proof. unfold len. apply Nat2Z.id. Qed.

Lemma rrun_pair cmds r f l a b : fst (rrun cmds r f l) = a -> snd (rrun cmds r f l) = b -> rrun cmds r f l = (a, b).
Proof. intros <- <-. apply surjective_pairing. Qed.

Lemma delta_copy t st k n : delta t st 100 = Some (k, n) -> n = Some st.
Proof. remember 100 as ty eqn:E. intros H. entcase H; try reflexivity; discriminate. Qed.
Lemma delta_tuple st k n : delta 81 st 68 = Some (k, n) -> n = Some st.
Proof. remember 81 as t eqn:E1. remember 68 as ty eqn:E2. intros H. entcase H; try reflexivity; discriminate. Qed.

Lemma irun_inv cmds s tr : irun cmds s tr -> rinv cmds s tr.
Proof.
  induction 1 as [s E|s tr HR (C & L & A & M) St|s tr p HR (C & L & A & M) St Hp|s tr id l s' c HR (C & L & A & M) Nid E].
  - unfold inst_init in E. destruct (all_ok cmds); [|discriminate]. okinv E. split; [reflexivity|]. split; [exact I|].
    split; [exists []; split; [constructor|split; [intros x []|constructor]]|].
    intros _. unfold main. cbn. split; [auto|]. split; [auto|]. split; [auto|]. split; [discriminate|]. split; [exact I|constructor].
  - unfold rinv. rewrite recvd_app. cbn [recvd]. rewrite app_nil_r.
    assert (F : i_cmds (inst_sent s) = i_cmds s /\ i_completed (inst_sent s) = i_completed s /\ i_last (inst_sent s) = i_last s /\
      i_delivered (inst_sent s) = i_delivered s /\ i_fatal (inst_sent s) = i_fatal s /\ i_error (inst_sent s) = i_error s /\
      i_cur (inst_sent s) = i_cur s /\ (i_state (inst_sent s) = IPut \/ i_state (inst_sent s) = ISendStdin)).
    { unfold inst_sent. destruct St as [St|St]; rewrite St; [cbn; auto 10|]. destruct (i_messages s); cbn; rewrite ?St; auto 10. }
    destruct F as (F1 & F2 & F3 & F4 & F5 & F6 & F7 & F8). rewrite F1, F4. split; [exact C|].
    split; [unfold lastid in *; rewrite F2, F3; exact L|]. split; [exact A|].
    unfold good, main. rewrite F5, F6, F7. unfold messages_received. rewrite F2. intros G. specialize (M G). unfold main in M.
    destruct M as (M1 & M2 & M3). split; [exact M1|]. split; [exact M2|].
    destruct (fst (rrun cmds (RAt 0 0) None (sync_part (recvd tr)))) as [o st| | |].
    + destruct M3 as (N1 & N2 & N3 & N4). split; [exact N1|]. split; [destruct F8 as [->| ->]; discriminate|]. split; [|exact N4].
      unfold sc. rewrite F7, N1. destruct F8 as [->| ->]; exact I.
    + exfalso. destruct St as [St|St]; rewrite St in M3; destruct M3; discriminate.
    + exfalso. destruct St as [St|St]; rewrite St in M3; destruct M3; discriminate.
    + exact M3.
  - split; [exact C|]. split; [exact L|]. split; [exact A|]. intros G. exact (M G).
  - unfold rinv. rewrite recvd_app, recvd_in.
    destruct (inst_put_ok _ _ _ _ _ E Nid) as [P|P].
    + unfold put_ok in P. cbn [set_state i_cur i_cmds i_fatal i_error i_delivered i_completed i_last] in P.
      destruct (i_cur s) as [o st] eqn:Ec. rewrite C in P.
      destruct P as (k & -> & Hk & HC & Ho & (ds & D1 & D2) & P). rewrite Nat2Z.id.
      set (ll := firstn k l) in *. rewrite async_app, sync_app. split; [auto|]. 
      assert (Nc : i_state s <> IComplete).
      { intros Hs. unfold inst_put in E. rewrite Hs in E. discriminate. }
      assert (GM : good cmds s' (sync_part (recvd tr) ++ sync_part ll) ->
         (i_fatal s' = None -> i_fatal s = None) -> main cmds s (sync_part (recvd tr)) /\
         rrun cmds (RAt 0 0) None (sync_part (recvd tr)) = (RAt o st, i_fatal s)).
      { intros G Gm. assert (G' : good cmds s (sync_part (recvd tr))).
        { destruct G as [G|G]; [left; auto|]. right. intros V. apply G. rewrite rrun_app, V, rrun_viol. reflexivity. }
        specialize (M G'). split; [exact M|]. destruct M as (M1 & M2 & M3).
        apply rrun_pair; [|exact M1]. destruct (fst (rrun cmds (RAt 0 0) None (sync_part (recvd tr)))) as [o1 st1| | |].
        - destruct M3 as (N1 & _). congruence.
        - destruct M3; contradiction.
        - destruct M3; contradiction.
        - contradiction. }
      destruct P as [(P1 & P2 & P3 & P4)|(o' & st' & ms & P1 & P2 & P3 & P4 & P5 & P6 & P7 & P8 & P9 & P10)].
      * split; [unfold lastid in *; rewrite P2, P3; exact L|]. split.
        { destruct A as (A & A1 & A2 & A3). exists (A ++ fresh [] (async_part ll)). split; [apply subseq_app; [exact A1|apply fresh_subseq]|].
          split; [|rewrite D2; apply Forall2_app; auto].
          intros x Hx. apply in_app_iff in Hx as [Hx|Hx]; apply in_app_iff; [left; apply A2; exact Hx|right].
          destruct (fresh_incl _ [] _ Hx) as [[]|G]; exact G. }
        intros G. destruct P4 as [(R1 & R2 & R3)|(V1 & f & V2)].
        -- destruct (GM G) as [MM RR]; [congruence|]. unfold main. rewrite rrun_app, RR. cbn [fst snd]. rewrite R1. cbn [fst snd].
           destruct MM as (M1 & M2 & M3). rewrite RR in M3. cbn [fst] in M3. destruct M3 as (_ & _ & _ & M3).
           split; [reflexivity|]. split; [rewrite last_error_app, <- M2; exact R2|]. split; [exact P1|]. split; [exact R3|].
           exists (length (no_errors (sync_part (recvd tr)))). rewrite noerr_app, firstn_app, Nat.sub_diag, firstn_all. cbn [firstn]. rewrite app_nil_r.
           unfold messages_received. rewrite P2. exact M3.
        -- destruct (GM G) as [MM RR]; [congruence|]. exfalso. destruct G as [G|G]; [congruence|]. apply G. rewrite rrun_app, RR. cbn [fst snd]. rewrite V2. reflexivity.
      * split; [eapply lastid_add; eauto|]. split.
        { destruct A as (A & A1 & A2 & A3). exists (A ++ fresh [] (async_part ll)). split; [apply subseq_app; [exact A1|apply fresh_subseq]|].
          split; [|rewrite D2; apply Forall2_app; auto].
          intros x Hx. apply in_app_iff in Hx as [Hx|Hx]; apply in_app_iff; [left; apply A2; exact Hx|right].
          destruct (fresh_incl _ [] _ Hx) as [[]|G]; exact G. }
        intros G. destruct (GM G) as [MM RR].
        { intros Hn. destruct (i_fatal s) as [b|] eqn:Ef; [|reflexivity]. exfalso.
          apply (rrun_fatal cmds (sync_part ll) (RAt o st) (Some b)); [discriminate|]. rewrite P5. exact Hn. }
        unfold main. rewrite rrun_app, RR. cbn [fst snd]. rewrite P5. cbn [fst snd].
        destruct MM as (M1 & M2 & M3). rewrite RR in M3. cbn [fst] in M3. destruct M3 as (_ & _ & _ & M3).
        split; [reflexivity|]. split; [rewrite last_error_app, <- M2; exact P6|].
        assert (RC : Forall2 msg_is (no_errors (sync_part (recvd tr) ++ sync_part ll)) (messages_received s')).
        { unfold messages_received at 1. rewrite P3.
          change (add_completed (set_state s IPut) id ms) with (add_completed s id ms).
          rewrite received_add by auto. rewrite noerr_app. apply Forall2_app; auto. }
        destruct (Nat.eqb_spec o' (length cmds)) as [Eo|No].
        -- auto.
        -- destruct (P10 No) as [Q1 Q2]. auto.
    + destruct P as (Nl & -> & ms & FM & -> & P). rewrite len_nat, firstn_all. rewrite async_app, sync_app.
      assert (FT : sync_part l = l /\ async_part l = [] /\ no_errors l = l /\ forall d, last_error l d = d).
      { destruct P as [[_ F]|[_ F]]; destruct (all_nonasync _ _ F); try lia; destruct (all_noerr _ _ F); try lia; auto. }
      destruct FT as (T1 & T2 & T3 & T4). rewrite T1, T2, app_nil_r. cbn [set_done i_cmds].
      split; [exact C|]. split; [eapply lastid_add; reflexivity|]. split; [exact A|].
      intros G. assert (G' : good cmds s (sync_part (recvd tr))).
      { destruct G as [G|G]; [left; exact G|]. right. intros V. apply G. rewrite rrun_app, V, rrun_viol. reflexivity. }
      specialize (M G'). destruct M as (M1 & M2 & M3).
      assert (Hs : i_state s <> IComplete) by (destruct P as [[-> _]|[-> _]]; discriminate).
      destruct (fst (rrun cmds (RAt 0 0) None (sync_part (recvd tr)))) as [o st| | |] eqn:Er;
        [|destruct M3; contradiction|destruct M3; contradiction|contradiction].
      destruct M3 as (N1 & _ & N3 & N4). apply (rrun_pair _ _ _ _ _ _ Er) in M1 as RR.
      assert (LOOP : rrun cmds (RAt o st) (i_fatal s) l = (RAt o st, i_fatal s)).
      { unfold good in G. rewrite rrun_app, RR in G. cbn [fst snd set_done i_fatal] in G.
        assert (DL : forall t ty, tyat cmds o = Some t -> Forall (fun x : wmsg => fst x = ty) l -> ty <> 69 ->
          fst (rrun cmds (RAt o st) (i_fatal s) l) <> RViol -> exists k n, delta t st ty = Some (k, n)).
        { intros t ty Ty F N69 NV. destruct l as [|x l]; [contradiction|]. inversion F as [|? ? Hx F']; subst.
          destruct (delta t st (fst x)) as [[kk n]|] eqn:Ed; [eauto|]. exfalso. apply NV. cbn [rrun rstep].
          unfold tyat in Ty. destruct (nth_error (i_cmds s) o); [|discriminate]. rewrite Ty, Ed. destruct (negb (istable t)); [cbn [fst snd]; rewrite rrun_viol; reflexivity|].
          apply Z.eqb_neq in N69. rewrite N69. cbn [fst snd]. rewrite rrun_viol. reflexivity. }
        unfold sc in N3. rewrite N1, C in N3. destruct P as [[Es F]|[Es F]]; rewrite Es in N3.
        - destruct N3 as [Ty Hst]. destruct Ty as [Ty|Ty].
          + destruct G as [G|G].
            * rewrite (Hst G). rewrite (Hst G) in *. eapply (rrun_loop _ _ _ _ _ 100); [exact Ty|reflexivity|exact F].
            * destruct (DL _ _ Ty F ltac:(lia) G) as (kk & n & D). pose proof (delta_copy _ _ _ _ D) as ->. eapply (rrun_loop _ _ _ _ _ 100); eauto.
          + destruct G as [G|G].
            * rewrite (Hst G). rewrite (Hst G) in *. eapply (rrun_loop _ _ _ _ _ 100); [exact Ty|reflexivity|exact F].
            * destruct (DL _ _ Ty F ltac:(lia) G) as (kk & n & D). pose proof (delta_copy _ _ _ _ D) as ->. eapply (rrun_loop _ _ _ _ _ 100); eauto.
        - destruct N3 as [[Ty ->]|[Ty Hst]].
          + eapply (rrun_loop _ _ _ _ _ 68); [exact Ty|reflexivity|exact F].
          + destruct G as [G|G].
            * rewrite (Hst G). rewrite (Hst G) in *. eapply (rrun_loop _ _ _ _ _ 68); [exact Ty|reflexivity|exact F].
            * destruct (DL _ _ Ty F ltac:(lia) G) as (kk & n & D). pose proof (delta_tuple _ _ _ D) as ->. eapply (rrun_loop _ _ _ _ _ 68); eauto. }
      unfold main. rewrite rrun_app, RR. cbn [fst snd]. rewrite LOOP. cbn [fst snd set_done i_fatal i_error i_cur i_state].
      split; [reflexivity|]. split; [rewrite last_error_app, T4; exact M2|]. split; [exact N1|]. split; [exact Hs|].
      split; [exact N3|]. unfold messages_received at 1. cbn [set_done i_completed].
      rewrite received_add by auto. rewrite noerr_app, T3. apply Forall2_app; auto.
Qed.
