(** LcopyProof2.v: the invariants of a COPY *)
From Verif Require Import Base BaseProof PBufferModel PBufferProof Element3Model Element3Proof NegModel NegSpec NegProof InstModel InstSpec InstProof InstProof2 InstProof3 InstProps ConnProof FetchModel FetchSpec FetchProof2 LoadModel LoadSpec LcopyModel LcopySpec LcopyProof.

Lemma prefix_refl {A} (l : list A) : prefix l l. Proof. exists []. now rewrite app_nil_r. Qed.
Lemma prefix_app {A} (l m : list A) : prefix l (l ++ m). Proof. now exists m. Qed.
Lemma prefix_trans {A} (a b c : list A) : prefix a b -> prefix b c -> prefix a c.
Proof. intros (x & ->) (y & ->). exists (x ++ y). now rewrite app_assoc. Qed.
Lemma prefix_app_l {A} (a b c : list A) : prefix b c -> prefix (a ++ b) (a ++ c).
Proof. intros (x & ->). exists x. now rewrite app_assoc. Qed.
Lemma prefix_firstn {A} n (l : list A) : prefix (firstn n l) l.
Proof. exists (skipn n l). now rewrite firstn_skipn. Qed.

Section Run.
  Context (lose : nat -> option nat) (stmt : bytes) (e0 : list wire).
  Notation cmds := (copy_cmds stmt).
  Definition alive (s : cst) : Prop := forall i, (i < length (k_out s))%nat -> lose i = None.
  Definition SS (s : cst) (full : list item) : Prop :=
    (alive s /\ sent s = full) \/
    ((exists i n, (i < length (k_out s))%nat /\ lose i = Some n) /\ faulted (k_x s) = true /\ (lost_for_good lose -> prefix (sent s) full)).
  Definition Wi (s : cst) : Prop := faulted (k_x s) = false -> exists tr left, irun cmds (k_x s) tr /\
    wire_msgs e0 = recvd tr ++ left ++ wire_msgs (k_e s) /\ (i_state (k_x s) <> IComplete -> left = []).
  Definition Fr (s : cst) : Prop := i_state (k_x s) <> IComplete -> batches_differ (i_last (k_x s)) (k_e s).
  Definition Bs (s : cst) (full : list item) : Prop := i_cmds (k_x s) = cmds /\ Fr s /\ Wi s /\ SS s full.

  Lemma sent_snoc x e out l : sent {| k_x := x; k_e := e; k_out := out ++ [l] |} = concat out ++ l.
  Proof. unfold sent. cbn [k_out]. rewrite concat_app. cbn. now rewrite app_nil_r. Qed.
  Lemma SS_none s full x e : SS s full -> (faulted (k_x s) = true -> faulted x = true) -> lose (length (k_out s)) = None ->
    SS {| k_x := x; k_e := e; k_out := k_out s ++ [outgoing (k_x s)] |} (full ++ outgoing (k_x s)).
  Proof.
    intros [(A & E)|((i & n & I1 & I2) & F & P)] Fx L.
    - left. split; [|rewrite sent_snoc; unfold sent in E; now rewrite E]. intros i Hi. cbn [k_out] in Hi. rewrite app_length in Hi. cbn in Hi.
      destruct (Nat.eq_dec i (length (k_out s))) as [->|]; [exact L|apply A; lia].
    - right. split; [exists i, n; split; [cbn [k_out]; rewrite app_length; cbn; lia|exact I2]|]. split; [apply Fx, F|].
      intros G. rewrite (G _ _ _ I2 I1) in L. discriminate.
  Qed.
  Lemma SS_some s full x e k : SS s full -> faulted x = true -> lose (length (k_out s)) = Some k ->
    SS {| k_x := x; k_e := e; k_out := k_out s ++ [firstn k (outgoing (k_x s))] |} (full ++ outgoing (k_x s)).
  Proof.
    intros D Fx L. right. split; [exists (length (k_out s)), k; split; [cbn [k_out]; rewrite app_length; cbn; lia|exact L]|]. split; [exact Fx|].
    intros G. rewrite sent_snoc. destruct D as [(A & E)|((i & n & I1 & I2) & F & P)].
    - unfold sent in E. rewrite E. apply prefix_app_l, prefix_firstn.
    - rewrite (G _ _ _ I2 I1) in L. injection L as <-. cbn [firstn]. rewrite app_nil_r. eapply prefix_trans; [apply P, G|apply prefix_app].
  Qed.
  Lemma SS_recv s full x e : SS s full -> (faulted (k_x s) = true -> faulted x = true) -> SS {| k_x := x; k_e := e; k_out := k_out s |} full.
  Proof. intros [(A & E)|(I & F & P)] Fx; [left; split; [exact A|exact E]|right; auto]. Qed.

  Lemma sent_keeps x : i_cmds (inst_sent x) = i_cmds x /\ i_cur (inst_sent x) = i_cur x /\ i_last (inst_sent x) = i_last x /\ i_tail (inst_sent x) = i_tail x /\
    (i_state (inst_sent x) = IComplete -> i_state x = IComplete).
  Proof.
    unfold inst_sent. destruct (i_state x) eqn:E; try (destruct (i_messages x)); cbn; repeat (split; [reflexivity|]); intros Q; congruence.
  Qed.
  (** sending *)
  Lemma send_Bs s full : Bs s full -> i_state (k_x s) = ISend \/ i_state (k_x s) = ISendStdin ->
    Bs (send_step lose s) (full ++ outgoing (k_x s)).
  Proof.
    intros (C & Fs & W & D) St. unfold send_step. destruct (sent_keeps (k_x s)) as (K1 & K2 & K3 & K4 & K5).
    assert (Nc : i_state (k_x s) <> IComplete) by (destruct St as [-> | ->]; discriminate).
    destruct (lose (length (k_out s))) as [n|] eqn:L.
    - set (y := match i_state (inst_sent (k_x s)) with ISendStdin => _ | _ => _ end).
      assert (Y : i_cmds y = i_cmds (inst_sent (k_x s)) /\ i_last y = i_last (inst_sent (k_x s)) /\ faulted y = true) by (subst y; destruct (i_state (inst_sent (k_x s))); auto).
      destruct Y as (Y1 & Y2 & Y3). split; [cbn [k_x]; congruence|]. split; [intros _; cbn [k_x k_e]; rewrite Y2, K3; apply Fs, Nc|].
      split; [intros Q; cbn [k_x] in Q; congruence|]. apply SS_some; auto.
    - split; [cbn [k_x]; congruence|]. split; [intros _; cbn [k_x k_e]; rewrite K3; apply Fs, Nc|]. split.
      + intros Q. cbn [k_x k_e] in *. rewrite sent_faulted in Q. destruct (W Q) as (tr & left & H & E & Le).
        exists (tr ++ [IOut (outgoing (k_x s))]), left. split; [apply ir_send; auto|]. split; [rewrite recvd_app; cbn; rewrite app_nil_r; exact E|auto].
      + apply SS_none; auto. now rewrite sent_faulted.
  Qed.
  Lemma kill_Bs s full n : Bs s full -> lose (length (k_out s)) = Some n ->
    Bs {| k_x := kill (k_x s); k_e := k_e s; k_out := k_out s ++ [firstn n (outgoing (k_x s))] |} (full ++ outgoing (k_x s)).
  Proof.
    intros (C & Fs & W & D) L. split; [exact C|]. split; [intros Q; now contradiction Q|]. split; [intros Q; discriminate Q|]. apply SS_some; auto.
  Qed.
  (** reading *)
  Lemma recv_step s full s' r : Bs s full -> receiving (k_x s) -> copy_step lose s = (s', r) ->
    posres stmt (k_x s) (k_x s') /\ SS s' full /\ match r with None => s' = s | Some (Ok _) => Bs s' full | Some (Err _) => True end.
  Proof.
    intros (C & Fs & W & D) R E. unfold copy_step in E. pose proof (recv_not_complete _ R) as Nc.
    assert (E' : match k_e s with [] => (s, None)
        | WLost :: e => ({| k_x := kill (k_x s); k_e := e; k_out := k_out s |}, Some (Ok tt))
        | WBatch id l :: e => match inst_put (k_x s) id l with
            | (x, Ok _) => ({| k_x := x; k_e := e; k_out := k_out s |}, Some (Ok tt))
            | (x, Err er) => ({| k_x := x; k_e := e; k_out := k_out s |}, Some (Err er)) end end = (s', r))
      by (destruct R as [R|[R|R]]; rewrite R in E; exact E).
    clear E. specialize (Fs Nc). destruct (k_e s) as [|[id l|] e] eqn:Ee.
    - injection E' as <- <-. split; [|split; auto]. split; [exact C|]. split; auto.
    - destruct Fs as (Nid & Fs). destruct (inst_put (k_x s) id l) as [x q] eqn:P.
      pose proof (put_pos _ _ _ _ _ _ C R Nid P) as Po.
      assert (Fx : faulted (k_x s) = true -> faulted x = true) by (intros F; pose proof (inst_put_faulted (k_x s) id l F) as G; rewrite P in G; exact G).
      destruct q as [c|er]; injection E' as <- <-; (split; [exact Po|]); (split; [apply SS_recv; auto|]); [|exact Logic.I].
      split; [apply Po|]. split; [intros Q; cbn [k_x k_e] in *; destruct (put_last _ _ _ _ _ P Nid Q) as (-> & _); exact Fs|]. split; [|apply SS_recv; auto].
      intros Q. cbn [k_x k_e] in *. destruct (faulted (k_x s)) eqn:F; [rewrite Fx in Q by reflexivity; discriminate|].
      destruct (W F) as (tr & left & H & E & Le). rewrite (Le Nc) in E. cbn [app] in E. rewrite Ee in E. cbn [wire_msgs] in E.
      exists (tr ++ map IIn (firstn (Z.to_nat c) l)), (skipn (Z.to_nat c) l). split; [eapply ir_put; eauto|].
      split; [rewrite E, recvd_app, recvd_in, <- !app_assoc; f_equal; rewrite app_assoc, firstn_skipn; reflexivity|].
      intros Q2. destruct (put_last _ _ _ _ _ P Nid Q2) as (_ & ->). rewrite len_nat. apply skipn_all.
    - injection E' as <- <-. assert (Dk : SS {| k_x := kill (k_x s); k_e := e; k_out := k_out s |} full) by (apply SS_recv; auto).
      split; [split; [exact C|]; split; [reflexivity|]; split; [right; left; reflexivity|auto]|]. split; [exact Dk|].
      split; [exact C|]. split; [intros Q; now contradiction Q|]. split; [intros Q; discriminate Q|exact Dk].
  Qed.

  (** starting *)
  Definition before (s : cst) : Prop := i_messages (k_x s) = PList [] /\ (receiving (k_x s) \/ at_stdin (k_x s)).
  Definition started (s : cst) : Prop := i_messages (k_x s) = PFail /\ at_stdin (k_x s).
  Lemma stdin_step s full l : Bs s full -> at_stdin (k_x s) -> i_messages (k_x s) = PList l ->
    pq_step1 lose s = (send_step lose s, None) /\ Bs (send_step lose s) (full ++ l) /\ started (send_step lose s) \/
    pq_step1 lose s = (send_step lose s, Some CpServer) /\ Bs (send_step lose s) (full ++ l) /\ faulted (k_x (send_step lose s)) = true.
  Proof.
    intros B (A1 & A2 & A3) M. pose proof (send_Bs _ _ B (or_intror A1)) as B'. unfold outgoing in B'. rewrite M in B'.
    unfold pq_step1, copy_step. rewrite A1. cbn [fst snd].
    assert (X : inst_sent (k_x s) = set_messages (k_x s) PFail) by (unfold inst_sent; rewrite A1, M; reflexivity).
    unfold send_step in *. rewrite X in *. cbn [i_state set_messages] in *. rewrite A1 in *.
    destruct (lose (length (k_out s))) as [n|].
    - right. cbn [k_x]. split; [reflexivity|]. split; [exact B'|reflexivity].
    - left. cbn [k_x complete i_state set_messages]. unfold complete. cbn [i_state set_messages]. rewrite A1. cbn [andb]. split; [reflexivity|]. split; [exact B'|].
      split; [reflexivity|]. split; [exact A1|]. split; [exact A2|exact A3].
  Qed.
  Lemma start_spec fuel : forall s full s' r, Bs s full -> before s -> start_copy lose fuel s = (s', r) ->
    SS s' full /\ match r with
    | None => Bs s' full /\ started s'
    | Some CpNotCopy => Bs s' full /\ complete (k_x s') = true /\ faulted (k_x s') = false
    | Some CpServer => faulted (k_x s') = true
    | Some CpDone | Some (CpIter _) => False
    | _ => True
    end.
  Proof.
    induction fuel as [|fuel IH]; intros s full s' r B (M & P) E; cbn [start_copy] in E;
      (assert (Nc : complete (k_x s) = false) by (unfold complete; destruct P as [[Q|[Q|Q]]|(Q & _)]; rewrite Q; reflexivity)); rewrite Nc in E.
    - injection E as <- <-. split; [apply B|exact Logic.I].
    - destruct P as [R|A].
      + assert (G : forall s1 q, pq_step1 lose s = (s1, q) -> SS s1 full /\ match q with
          | None => Bs s1 full /\ i_messages (k_x s1) = PList [] /\ (receiving (k_x s1) \/ at_stdin (k_x s1) \/ (complete (k_x s1) = true /\ faulted (k_x s1) = false))
          | Some CpServer => faulted (k_x s1) = true | Some CpDone | Some (CpIter _) | Some CpNotCopy => False | _ => True end).
        { intros s1 q Q. unfold pq_step1 in Q. destruct (copy_step lose s) as [s2 [[u|er]|]] eqn:K; destruct (recv_step _ _ _ _ B R K) as (Po & D & X).
          - destruct (complete (k_x s2) && faulted (k_x s2)) eqn:CF; injection Q as <- <-; (split; [exact D|]).
            + apply andb_true_iff in CF. apply CF.
            + split; [exact X|]. destruct Po as (_ & Po1 & Po2 & _). split; [congruence|]. destruct Po2 as [Po2|[Po2|(Po2 & _)]]; auto.
              right; right. assert (Cc : complete (k_x s2) = true) by (unfold complete; now rewrite Po2). rewrite Cc in *. auto.
          - injection Q as <- <-. auto.
          - injection Q as <- <-. auto. }
        destruct (pq_step1 lose s) as [s1 [q|]] eqn:Q; destruct (G _ _ eq_refl) as (D & X).
        * injection E as <- <-. split; [exact D|]. destruct q; auto; contradiction.
        * destruct X as (B1 & M1 & X). unfold at_fail in E. rewrite M1 in E. destruct X as [X|[X|(X1 & X2)]].
          -- eapply IH; [exact B1|split; [exact M1|auto]|exact E].
          -- eapply IH; [exact B1|split; [exact M1|auto]|exact E].
          -- assert (E2 : start_copy lose fuel s1 = (s1, Some CpNotCopy)) by (destruct fuel; cbn [start_copy]; rewrite X1; reflexivity).
             rewrite E2 in E. injection E as <- <-. auto.
      + destruct (stdin_step s full [] B A M) as [(Q & B1 & S1)|(Q & B1 & S1)]; rewrite Q in E; rewrite app_nil_r in B1.
        * unfold at_fail in E. destruct S1 as (S1 & S2). rewrite S1 in E. injection E as <- <-. split; [apply B1|]. split; [exact B1|split; auto].
        * injection E as <- <-. split; [apply B1|exact S1].
  Qed.

  (** the lines *)
  Lemma lines_of_spec c : match lines_of c with Ok l => ending c = None /\ items c = l | Err e => ending c = Some e end.
  Proof.
    induction c as [|e|a c IH]; cbn; auto. destruct (lines_of c); cbn; [destruct IH as (-> & ->); auto|auto].
  Qed.
  Lemma data_Bs s full p : Bs s full -> at_stdin (k_x s) -> p = PDone \/ (exists lines, p = PList (map IRaw lines)) -> Bs (with_x s (set_messages (k_x s) p)) full.
  Proof.
    intros (C & Fs & W & D) (A & _) P. split; [exact C|]. split; [exact Fs|]. split.
    - intros Q. destruct (W Q) as (tr & left & H & E & Le). exists tr, left. split; [apply ir_data; auto|]. split; [exact E|exact Le].
    - apply SS_recv; auto.
  Qed.
  Lemma chunks_spec fuel : forall chunks s full s' r, Bs s full -> started s -> copy_chunks lose fuel s chunks = (s', r) ->
    (exists p, SS s' (full ++ map IRaw p) /\ prefix p (all_lines chunks)) /\ match r with
    | None => lines_end chunks = None /\ Bs s' (full ++ map IRaw (all_lines chunks)) /\ started s'
    | Some (CpIter e) => lines_end chunks = Some e /\ Bs s' (full ++ map IRaw (all_lines chunks)) /\ started s'
    | Some CpServer => faulted (k_x s') = true
    | Some CpFuel => fuel = O
    | _ => False
    end.
  Proof.
    induction chunks as [|e|c chunks IH]; intros s full s' r B St E; cbn [copy_chunks] in E.
    - injection E as <- <-. cbn [all_lines map lines_end]. split; [exists []; cbn [map]; rewrite app_nil_r; split; [apply B|apply prefix_refl]|]. rewrite app_nil_r. auto.
    - injection E as <- <-. cbn [all_lines map lines_end]. split; [exists []; cbn [map]; rewrite app_nil_r; split; [apply B|apply prefix_refl]|]. rewrite app_nil_r. auto.
    - pose proof (lines_of_spec c) as L. cbn [all_lines lines_end]. destruct (lines_of c) as [lines|er].
      + destruct L as (L1 & L2). rewrite L1, L2. destruct St as (St1 & St2).
        assert (B1 := data_Bs s full (PList (map IRaw lines)) B St2 (or_intror (ex_intro _ lines eq_refl))).
        set (s1 := with_x s (set_messages (k_x s) (PList (map IRaw lines)))) in *.
        assert (M1 : i_messages (k_x s1) = PList (map IRaw lines)) by reflexivity. assert (A1 : at_stdin (k_x s1)) by exact St2. clearbody s1.
        assert (Sl : forall s2 q, send_lines lose fuel s1 = (s2, q) -> match q with
            | None => Bs s2 (full ++ map IRaw lines) /\ started s2
            | Some CpServer => SS s2 (full ++ map IRaw lines) /\ faulted (k_x s2) = true
            | Some CpFuel => fuel = O /\ SS s2 full | _ => False end).
        { clear E. intros s2 q Q. destruct fuel as [|fuel]; cbn [send_lines] in Q; unfold at_fail in Q at 1; rewrite M1 in Q.
          - injection Q as <- <-. split; [reflexivity|apply B1].
          - destruct (stdin_step s1 full _ B1 A1 M1) as [(P & B2 & S2)|(P & B2 & S2)]; rewrite P in Q.
            + assert (Q2 : send_lines lose fuel (send_step lose s1) = (send_step lose s1, None))
                by (destruct fuel; cbn [send_lines]; unfold at_fail; destruct S2 as (-> & _); reflexivity).
              rewrite Q2 in Q. injection Q as <- <-. auto.
            + injection Q as <- <-. split; [apply B2|exact S2]. }
        destruct (send_lines lose fuel s1) as [s2 [q|]]; specialize (Sl _ _ eq_refl).
        * injection E as <- <-. destruct q; try contradiction.
          -- destruct Sl as (Sl & F). split; [exists lines; split; [exact Sl|apply prefix_app]|exact F].
          -- destruct Sl as (Sl & F). split; [exists []; cbn [map]; rewrite app_nil_r; split; [exact F|now exists (lines ++ all_lines chunks)]|exact Sl].
        * destruct Sl as (B2 & S2). destruct (IH _ _ _ _ B2 S2 E) as ((p & P1 & P2) & X).
          rewrite !map_app, !app_assoc. split; [|destruct r as [[]|]; auto].
          exists (lines ++ p). rewrite map_app, app_assoc. split; [exact P1|apply prefix_app_l, P2].
      + injection E as <- <-. rewrite L. cbn [map]. split; [exists []; cbn [map]; rewrite app_nil_r; split; [apply B|apply prefix_refl]|]. rewrite app_nil_r. auto.
  Qed.

  (** the end *)
  Lemma finish_recv fuel : forall s full s' r, Bs s full -> cpos (k_x s) -> receiving (k_x s) \/ i_state (k_x s) = IComplete -> finish_copy lose fuel s = (s', r) ->
    SS s' full /\ match r with None => Bs s' full /\ complete (k_x s') = true | Some CpWait | Some CpFuel => True | _ => False end.
  Proof.
    induction fuel as [|fuel IH]; intros s full s' r B A St E.
    - cbn [finish_copy] in E. destruct St as [[R|[R|R]]|R]; rewrite R in E; injection E as <- <-; (split; [apply B|]); auto. unfold complete. rewrite R. auto.
    - destruct St as [R|R].
      + assert (E' : match copy_step lose s with
                | (s, None) => (s, Some CpWait)
                | (s, Some (Ok _)) => finish_copy lose fuel s
                | (s, Some (Err e)) => finish_copy lose fuel (with_x s (kill (k_x s)))
                end = (s', r)) by (cbn [finish_copy] in E; destruct R as [R|[R|R]]; rewrite R in E; exact E).
        clear E. destruct (copy_step lose s) as [s1 [[u|er]|]] eqn:K; destruct (recv_step _ _ _ _ B R K) as (Po & D & X).
        * destruct Po as (_ & _ & Po & Po4). eapply IH; [exact X|apply Po4, A| |exact E']. destruct Po as [Po|[Po|(_ & Po)]]; auto; contradiction.
        * destruct Po as (P1 & P2 & Po & Po4). refine (IH (with_x s1 (kill (k_x s1))) _ _ _ _ _ (or_intror eq_refl) E').
          -- split; [exact P1|]. split; [intros Q; now contradiction Q|]. split; [intros Q; discriminate Q|]. apply SS_recv; auto.
          -- apply Po4, A.
        * injection E' as <- <-. split; [exact D|exact Logic.I].
      + cbn [finish_copy] in E. rewrite R in E. injection E as <- <-. split; [apply B|]. split; [exact B|]. unfold complete. now rewrite R.
  Qed.
  Lemma complete_spec fuel s full s' r : Bs s full -> at_stdin (k_x s) -> i_messages (k_x s) = PDone \/ i_messages (k_x s) = PFail -> pq_complete1 lose fuel s = (s', r) ->
    (SS s' full /\ fuel = O \/ SS s' (full ++ outgoing (k_x s))) /\ match r with
    | CpDone => Bs s' (full ++ outgoing (k_x s)) /\ complete (k_x s') = true /\ faulted (k_x s') = false
    | CpServer => faulted (k_x s') = true /\ complete (k_x s') = true
    | CpWait | CpFuel => True
    | _ => False
    end.
  Proof.
    intros B (A1 & A2 & A3) M E. unfold pq_complete1 in E.
    assert (Fc : forall s1 q, finish_copy lose fuel s = (s1, q) -> (SS s1 full /\ fuel = O \/ SS s1 (full ++ outgoing (k_x s))) /\ match q with
        None => Bs s1 (full ++ outgoing (k_x s)) /\ complete (k_x s1) = true | Some CpWait | Some CpFuel => True | _ => False end).
    { clear E. intros s1 q Q. destruct fuel as [|fuel]; cbn [finish_copy] in Q; rewrite A1 in Q.
      - injection Q as <- <-. split; [left; split; [apply B|reflexivity]|exact Logic.I].
      - destruct (lose (length (k_out s))) as [n|] eqn:L.
        + destruct (finish_recv _ _ _ _ _ (kill_Bs _ _ _ B L) A2 (or_intror eq_refl) Q) as (D & X). auto.
        + destruct (sent_keeps (k_x s)) as (K1 & K2 & K3 & K4 & K5).
          assert (X0 : k_x (send_step lose s) = inst_sent (k_x s)) by (unfold send_step; rewrite L; reflexivity).
          assert (Cp : cpos (k_x (send_step lose s))) by (unfold cpos; rewrite X0, K2; exact A2).
          assert (Rc : receiving (k_x (send_step lose s))) by (rewrite X0; unfold inst_sent; rewrite A1; destruct M as [-> | ->]; left; reflexivity).
          destruct (finish_recv _ _ _ _ _ (send_Bs _ _ B (or_intror A1)) Cp (or_introl Rc) Q) as (D & X). auto. }
    destruct (finish_copy lose fuel s) as [s1 [q|]]; destruct (Fc _ _ eq_refl) as (D & X).
    - injection E as <- <-. split; [exact D|]. destruct q; auto; contradiction.
    - injection E as <- <-. split; [exact D|]. destruct X as (X1 & X2). destruct (faulted (k_x s1)) eqn:F; auto.
  Qed.
End Run.
